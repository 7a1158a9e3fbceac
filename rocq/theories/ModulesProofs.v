(** Proofs about the library of modules (C41). *)
From Verif Require Import PyBase PyPath ModulesModel SpecModules.
Local Open Scope string_scope.
Local Open Scope list_scope.

Lemma lib_run_app h1 h2 lib : lib_run lib (h1 ++ h2) = (do! l <- lib_run lib h1; lib_run l h2).
Proof.
  revert lib. induction h1 as [|o h1 IH]; simpl; intros lib; [reflexivity|].
  destruct (lib_op lib o); simpl; auto.
Qed.

Notation sget_eq := (dget_dset_eq String.eqb string_eqb_spec').
Notation sget_neq := (dget_dset_neq String.eqb string_eqb_spec').

(** ** Structural facts about a library *)
Record wf_lib (lib : mlib) : Prop := {
  wf_variant : forall n m, sget (l_mods lib) n <> Some (Stand m);
  wf_obj : forall n i m, impl_of lib n i m ->
    exists r, nth_error (l_heap lib) m = Some r /\ m_name r = n /\ m_impl r = Some i;
}.

(** Growth: what every operation preserves. *)
Record grows (lib lib' : mlib) : Prop := {
  gr_heap : forall m r, nth_error (l_heap lib) m = Some r -> nth_error (l_heap lib') m = Some r;
  gr_names : forall n, shas (l_mods lib) n = true -> shas (l_mods lib') n = true;
}.
Lemma grows_refl lib : grows lib lib.
Proof. split; auto. Qed.
Lemma grows_trans a b c : grows a b -> grows b c -> grows a c.
Proof. intros [A1 A2] [B1 B2]. split; auto. Qed.

Lemma shas_get {V} (d : list (string * V)) k : shas d k = true <-> exists v, sget d k = Some v.
Proof.
  unfold dhas. destruct (sget d k); split; eauto; try discriminate. intros [v [=]].
Qed.
Lemma shas_dset {V} (d : list (string * V)) k v k' :
  shas (sset d k v) k' = (String.eqb k' k || shas d k').
Proof.
  unfold dhas. destruct (String.eqb_spec k' k) as [->|Hn]; simpl.
  - now rewrite sget_eq.
  - rewrite sget_neq by congruence. reflexivity.
Qed.

Section Addimpl.
  Variables (lib : mlib) (name impl : string) (impls : list (string * nat)).
  Variables (stack : option (list string)) (o : opts).
  Hypothesis Hi : sget (l_mods lib) name = Some (Variant impls) \/
                  (sget (l_mods lib) name = None /\ impls = []).
  Let id := List.length (l_heap lib).
  Let lib' := snd (addimpl lib name impl impls stack o).

  Lemma addimpl_id : fst (addimpl lib name impl impls stack o) = id.
  Proof. reflexivity. Qed.
  Lemma addimpl_heap_new : nth_error (l_heap lib') id = Some (MR name (Some impl) stack o).
  Proof. simpl. rewrite nth_error_app2; [now rewrite Nat.sub_diag|apply le_n]. Qed.
  Lemma addimpl_grows : grows lib lib'.
  Proof.
    split; simpl.
    - intros m r H. rewrite nth_error_app1; [exact H|]. apply nth_error_Some. congruence.
    - intros n H. rewrite shas_dset, H. apply orb_true_r.
  Qed.
  Lemma addimpl_impl_of n i m :
    impl_of lib' n i m <-> (n = name /\ i = impl /\ m = id) \/ ((n, i) <> (name, impl) /\ impl_of lib n i m).
  Proof.
    unfold impl_of, lib', addimpl; simpl. destruct (string_dec n name) as [->|Hn].
    - rewrite sget_eq. destruct (string_dec i impl) as [->|Hni].
      + split.
        * intros [l [[= <-] H]]. rewrite sget_eq in H. left. inversion H. auto.
        * intros [[_ [_ ->]]|[H _]]; [|congruence]. eexists. split; [reflexivity|]. now rewrite sget_eq.
      + split.
        * intros [l [[= <-] H]]. rewrite sget_neq in H by congruence. right. split; [congruence|].
          destruct Hi as [Hi'|[Hi' He]].
          -- exists impls. split; assumption.
          -- subst impls. discriminate.
        * intros [[_ [H _]]|[_ [l [H1 H2]]]]; [contradiction|]. eexists. split; [reflexivity|].
          rewrite sget_neq by congruence. destruct Hi as [Hi'|[Hi' He]]; congruence.
    - rewrite sget_neq by congruence. split.
      + intros H. right. split; [congruence|exact H].
      + intros [[H _]|[_ H]]; [contradiction|exact H].
  Qed.
  Lemma addimpl_wf : wf_lib lib -> wf_lib lib'.
  Proof.
    intros W. split.
    - intros n m. simpl. destruct (string_dec n name) as [->|Hn].
      + rewrite sget_eq. congruence.
      + rewrite sget_neq by congruence. apply W.
    - intros n i m H. apply addimpl_impl_of in H. destruct H as [[-> [-> ->]]|[_ H]].
      + eexists. split; [apply addimpl_heap_new|]. split; reflexivity.
      + apply W in H. destruct H as (r & H1 & H2). exists r. split; [|exact H2].
        now apply addimpl_grows.
  Qed.
  Lemma addimpl_names n : shas (l_mods lib') n = (String.eqb n name || shas (l_mods lib) n).
  Proof. apply shas_dset. Qed.
End Addimpl.

Lemma wf_lib0 : wf_lib mlib0.
Proof.
  split; [intros; simpl; congruence|]. intros n i m [l [H _]]. discriminate.
Qed.

(** Two dictionary positions never hold the same object. *)
Lemma wf_distinct lib n i n' i' m :
  wf_lib lib -> impl_of lib n i m -> impl_of lib n' i' m -> n = n' /\ i = i'.
Proof.
  intros W H1 H2. apply W in H1. apply W in H2. destruct H1 as (r & E1 & <- & I1).
  destruct H2 as (r' & E2 & <- & I2). rewrite E1 in E2. inversion E2; subst.
  split; congruence.
Qed.
Lemma impl_of_fun lib n i m m' : impl_of lib n i m -> impl_of lib n i m' -> m = m'.
Proof. intros [l [A B]] [l' [A' B']]. congruence. Qed.

(** ** get *)
Lemma get_impl_cases lib n i :
  wf_lib lib ->
  (exists m, impl_of lib n i m /\ get_impl lib n i = Ok (m, lib)) \/
  ((forall m, ~ impl_of lib n i m) /\
   ((exists impls, i = "__none__" /\ sget (l_mods lib) n = Some (Variant impls) /\
      get_impl lib n i = Ok (addimpl lib n i impls None (mk_opts VNone VNone []))) \/
    ((shas (l_mods lib) n = false \/ i <> "__none__") /\ ends (get_impl lib n i)))).
Proof.
  intros W. unfold get_impl, impl_of, dhas.
  destruct (sget (l_mods lib) n) as [[m|impls]|] eqn:E.
  - exfalso. now apply (wf_variant _ W n m).
  - destruct (sget impls i) as [m|] eqn:Ei.
    + left. exists m. split; [|reflexivity]. now exists impls.
    + right. split. { intros m [l [[= <-] H]]. congruence. }
      destruct (String.eqb_spec i "__none__") as [->|Hn].
      * left. exists impls. auto.
      * right. split; [now right|]. eexists; reflexivity.
  - right. split. { intros m [l [[=] _]]. }
    right. split; [now left|]. eexists; reflexivity.
Qed.

Lemma get_impl_ok lib n i m lib' :
  wf_lib lib -> get_impl lib n i = Ok (m, lib') ->
  wf_lib lib' /\ grows lib lib' /\ impl_of lib' n i m /\ l_def lib' = l_def lib /\
  (forall n', shas (l_mods lib') n' = shas (l_mods lib) n') /\
  (forall n' i' m', impl_of lib n' i' m' -> impl_of lib' n' i' m') /\
  ((lib' = lib /\ impl_of lib n i m) \/
   (i = "__none__" /\ (forall m, ~ impl_of lib n i m) /\ m = List.length (l_heap lib) /\
    l_heap lib' = l_heap lib ++ [MR n (Some i) None (mk_opts VNone VNone [])] /\
    (forall n' i' m', impl_of lib' n' i' m' <-> (n' = n /\ i' = i /\ m' = m) \/
        ((n', i') <> (n, i) /\ impl_of lib n' i' m')))).
Proof.
  intros W H. destruct (get_impl_cases lib n i W) as [[m0 [Hm E]]|[Hno [[impls [-> [Hv E]]]|[_ [msg E]]]]];
    rewrite E in H; try discriminate.
  - inversion H; subst. split; [exact W|]. split; [apply grows_refl|]. auto 10.
  - assert (Hi : sget (l_mods lib) n = Some (Variant impls) \/
                  (sget (l_mods lib) n = None /\ impls = [])) by now left.
    set (a := addimpl lib n "__none__" impls None (mk_opts VNone VNone [])) in *.
    assert (Ea : a = (m, lib')) by congruence.
    assert (Em : m = fst a) by now rewrite Ea. assert (El : lib' = snd a) by now rewrite Ea.
    clear Ea.
    subst m lib'. clear H E.
    assert (Hio := addimpl_impl_of lib n "__none__" impls None (mk_opts VNone VNone []) Hi).
    fold a in Hio.
    split; [now apply addimpl_wf|]. split; [apply addimpl_grows|].
    split; [apply Hio; left; auto|]. split; [reflexivity|].
    split. { intros n'. unfold a. rewrite addimpl_names. destruct (String.eqb_spec n' n) as [->|]; [|reflexivity].
             simpl. symmetry. apply shas_get. eauto. }
    split. { intros n' i' m' H. apply Hio. right. split; [|exact H]. intros [= -> ->]. now apply Hno in H. }
    right. split; [reflexivity|]. split; [exact Hno|]. split; [reflexivity|]. split; [reflexivity|].
    exact Hio.
Qed.

Lemma get_some lib n i : get lib n (Some i) = get_impl lib n i.
Proof. unfold get, get_impl, dhas. destruct (sget (l_mods lib) n); reflexivity. Qed.

Lemma get_none lib n :
  match sget (l_def lib) n with
  | Some i => get lib n None = get lib n (Some i)
  | None => ends (get lib n None)
  end.
Proof.
  unfold get, get_default. destruct (sget (l_def lib) n) as [i|].
  - reflexivity.
  - destruct (shas (l_mods lib) n); eexists; reflexivity.
Qed.

Lemma get_default_ok lib n m lib' :
  wf_lib lib -> get_default lib n = Ok (m, lib') ->
  exists i, sget (l_def lib) n = Some i /\ get_impl lib n i = Ok (m, lib').
Proof.
  unfold get_default. intros W. destruct (sget (l_def lib) n) as [i|]; [eauto|].
  destruct (shas (l_mods lib) n); discriminate.
Qed.

Lemma get_reduces lib n i m lib' :
  get lib n i = Ok (m, lib') ->
  exists j, get_impl lib n j = Ok (m, lib') /\
    match i with Some i' => j = i' | None => sget (l_def lib) n = Some j end.
Proof.
  destruct i as [i|].
  - rewrite get_some. eauto.
  - intros H. pose proof (get_none lib n) as G. destruct (sget (l_def lib) n) as [j|].
    + rewrite G, get_some in H. eauto.
    + destruct G as [msg G]. congruence.
Qed.

(** ** One operation *)
Lemma set_defimpl_ok lib n i f lib' :
  set_defimpl lib n i f = Ok lib' ->
  lib' = ML (l_heap lib) (l_mods lib) (sset (l_def lib) n i).
Proof.
  unfold set_defimpl. destruct (sget (l_def lib) n) as [old|]; [|congruence].
  destruct f; [congruence|].
  destruct (get lib n (Some old)) as [[m1 l1]| |]; simpl; try discriminate.
  destruct (stack_top l1 m1); simpl; try discriminate.
  destruct (get l1 n (Some i)) as [[m2 l2]| |]; simpl; try discriminate.
  destruct (stack_top l2 m2); simpl; discriminate.
Qed.

Lemma set_defimpl_force lib n i :
  set_defimpl lib n i true = Ok (ML (l_heap lib) (l_mods lib) (sset (l_def lib) n i)).
Proof. unfold set_defimpl. destruct (sget (l_def lib) n); reflexivity. Qed.

Lemma register_impl_eq lib n i s o :
  wf_lib lib -> exists impls,
    (sget (l_mods lib) n = Some (Variant impls) \/ (sget (l_mods lib) n = None /\ impls = [])) /\
    register_impl lib n i s o = Ok (snd (addimpl lib n i impls (Some s) o)).
Proof.
  intros W. unfold register_impl. destruct (sget (l_mods lib) n) as [[m|impls]|] eqn:E.
  - exfalso. now apply (wf_variant _ W n m).
  - exists impls. auto.
  - exists []. auto.
Qed.

(** An operation that registers is a registration, perhaps followed by a declaration. *)
Lemma implementation_eq lib n i d b t kw :
  wf_lib lib -> exists impls,
    (sget (l_mods lib) n = Some (Variant impls) \/ (sget (l_mods lib) n = None /\ impls = [])) /\
    let lib1 := snd (addimpl lib n i impls (Some (b ++ [t])) (mk_opts (VStr t) (VStr (dirname t)) kw)) in
    implementation lib n i d b t kw =
      Ok (if d then ML (l_heap lib1) (l_mods lib1) (sset (l_def lib1) n i) else lib1).
Proof.
  intros W. destruct (register_impl_eq lib n i (b ++ [t]) (mk_opts (VStr t) (VStr (dirname t)) kw) W)
    as (impls & Hi & E).
  exists impls. split; [exact Hi|]. simpl. unfold implementation. rewrite E. simpl.
  destruct d; [|reflexivity].
  rewrite set_defimpl_force. reflexivity.
Qed.

Lemma redef_wf lib d : wf_lib lib -> wf_lib (ML (l_heap lib) (l_mods lib) d).
Proof. intros [A B]. split; [exact A|exact B]. Qed.

(** What an operation does, in terms of [registers] and [declares]. *)
Record op_effect (o : libop) (lib lib' : mlib) : Prop := {
  oe_wf : wf_lib lib';
  oe_grows : grows lib lib';
  oe_reg : forall n i c, registers o = Some (n, i, c) ->
    shas (l_mods lib') n = true /\
    exists m r, impl_of lib' n i m /\ nth_error (l_heap lib') m = Some r /\ module_for r n i c;
  oe_old : forall n i m, impl_of lib n i m -> (forall c, registers o <> Some (n, i, c)) ->
    impl_of lib' n i m;
  oe_new : forall n i m, impl_of lib' n i m -> (forall c, registers o <> Some (n, i, c)) ->
    impl_of lib n i m \/
    (i = "__none__" /\ exists r, nth_error (l_heap lib') m = Some r /\ empty_module r n i);
  oe_names : forall n, shas (l_mods lib') n = true ->
    shas (l_mods lib) n = true \/ exists i c, registers o = Some (n, i, c);
  oe_def : forall n, sget (l_def lib') n =
    match declares o with
    | Some (n', i) => if String.eqb n n' then Some i else sget (l_def lib) n
    | None => sget (l_def lib) n
    end
}.

Lemma module_for_new n i b t kw :
  module_for (MR n (Some i) (Some (b ++ [t])) (mk_opts (VStr t) (VStr (dirname t)) kw)) n i (b, t, kw).
Proof.
  split; [reflexivity|]. split; [reflexivity|]. split; [reflexivity|]. intros k. simpl. unfold mk_opts.
  destruct (String.eqb_spec k "__dir__") as [->|H1]; [now rewrite sget_eq|].
  rewrite sget_neq by congruence.
  destruct (String.eqb_spec k "__script__") as [->|H2]; [now rewrite sget_eq|].
  now rewrite sget_neq by congruence.
Qed.
Lemma empty_module_new n i : empty_module (MR n (Some i) None (mk_opts VNone VNone [])) n i.
Proof.
  split; [reflexivity|]. split; [reflexivity|]. split; [reflexivity|]. intros k v. simpl.
  destruct (String.eqb_spec k "__script__") as [->|_]; [intros [= <-]; auto|].
  destruct (String.eqb_spec k "__dir__") as [->|_]; [intros [= <-]; auto|discriminate].
Qed.

Lemma effect_implementation o lib n i (d : bool) b t kw lib' :
  wf_lib lib -> implementation lib n i d b t kw = Ok lib' ->
  registers o = Some (n, i, (b, t, kw)) -> declares o = (if d then Some (n, i) else None) ->
  op_effect o lib lib'.
Proof.
  intros W E Hr Hd. destruct (implementation_eq lib n i d b t kw W) as (impls & Hi & E').
  simpl in E'. rewrite E in E'. clear E.
  set (o1 := mk_opts (VStr t) (VStr (dirname t)) kw) in *.
  set (lib1 := snd (addimpl lib n i impls (Some (b ++ [t])) o1)).
  assert (El : lib' = if d then ML (l_heap lib1) (l_mods lib1) (sset (l_def lib) n i) else lib1)
    by (unfold lib1; destruct d; inversion E'; reflexivity).
  assert (Hh : l_heap lib' = l_heap lib1) by (subst lib'; destruct d; reflexivity).
  assert (Hm : l_mods lib' = l_mods lib1) by (subst lib'; destruct d; reflexivity).
  assert (Hio : forall n0 i0 m0, impl_of lib' n0 i0 m0 <-> impl_of lib1 n0 i0 m0)
    by (intros; unfold impl_of; rewrite Hm; reflexivity).
  assert (Ha := addimpl_impl_of lib n i impls (Some (b ++ [t])) o1 Hi). fold lib1 in Ha.
  assert (Hg := addimpl_grows lib n i impls (Some (b ++ [t])) o1). fold lib1 in Hg.
  split.
  - assert (W1 : wf_lib lib1) by now apply addimpl_wf.
    subst lib'. destruct d; [now apply redef_wf|exact W1].
  - split; [rewrite Hh; apply Hg|rewrite Hm; apply Hg].
  - intros n0 i0 c H. rewrite Hr in H. inversion H; subst n0 i0 c. clear H. split.
    + rewrite Hm. unfold lib1. rewrite addimpl_names, String.eqb_refl. reflexivity.
    + exists (List.length (l_heap lib)). eexists. rewrite Hio, Hh. split; [apply Ha; auto|].
      split; [apply addimpl_heap_new|]. apply module_for_new.
  - intros n0 i0 m H Hn. apply Hio, Ha. right. split; [|exact H]. intros [= -> ->]. now apply (Hn _ Hr).
  - intros n0 i0 m H Hn. apply Hio, Ha in H. destruct H as [[-> [-> _]]|[_ H]]; [|now left].
    exfalso. now apply (Hn _ Hr).
  - intros n0 H. rewrite Hm in H. unfold lib1 in H. rewrite addimpl_names in H.
    destruct (String.eqb_spec n0 n) as [Hq|Hq]; [right; rewrite Hq; eauto|left; exact H].
  - intros n0. rewrite Hd. subst lib'. destruct d; [|reflexivity]. simpl.
    destruct (String.eqb_spec n0 n) as [Hq|Hq]; [rewrite Hq; now rewrite sget_eq|now rewrite sget_neq by congruence].
Qed.

Lemma lib_op_effect lib o lib' : wf_lib lib -> lib_op lib o = Ok lib' -> op_effect o lib lib'.
Proof.
  intros W. destruct o as [n i d b t kw|n i d b t kw|n i|n i f|n i]; simpl.
  - unfold module. destruct i as [i|]; intros H.
    + eapply effect_implementation; eauto.
    + eapply effect_implementation; eauto.
  - intros H. eapply effect_implementation; eauto.
  - intros H. apply set_defimpl_ok in H. subst lib'. split; simpl; try discriminate; auto.
    + now apply redef_wf.
    + split; auto.
    + intros n0. destruct (String.eqb_spec n0 n) as [->|]; [now rewrite sget_eq|now rewrite sget_neq by congruence].
  - intros H. apply set_defimpl_ok in H. subst lib'. split; simpl; try discriminate; auto.
    + now apply redef_wf.
    + split; auto.
    + intros n0. destruct (String.eqb_spec n0 n) as [->|]; [now rewrite sget_eq|now rewrite sget_neq by congruence].
  - destruct (get lib n i) as [[m l1]| |] eqn:E; simpl; try discriminate. intros [= ->].
    apply get_reduces in E. destruct E as (j & E & _).
    destruct (get_impl_ok _ _ _ _ _ W E) as (W' & G & I & D & N & O & C). split; simpl; try discriminate; auto.
    + intros n0 i0 m0 H _. destruct C as [[-> _]|(-> & Hno & -> & Hh & Hio)]; [now left|].
      apply Hio in H. destruct H as [[-> [-> ->]]|[_ H]]; [right|now left].
      split; [reflexivity|]. rewrite Hh. eexists. split.
      * rewrite nth_error_app2, Nat.sub_diag by apply le_n. reflexivity.
      * apply empty_module_new.
    + intros n0 H. rewrite N in H. now left.
    + intros n0. now rewrite D.
Qed.

(** ** A whole history *)
Record history_inv (h : list libop) (lib : mlib) : Prop := {
  hi_wf : wf_lib lib;
  hi_names : forall n, shas (l_mods lib) n = true <-> known_name h n;
  hi_last : forall n i c, last_registered h n i c ->
    exists m r, impl_of lib n i m /\ nth_error (l_heap lib) m = Some r /\ module_for r n i c;
  hi_never : forall n i m, never_registered h n i -> impl_of lib n i m ->
    i = "__none__" /\ exists r, nth_error (l_heap lib) m = Some r /\ empty_module r n i;
  hi_def : forall n i, last_declared h n i -> sget (l_def lib) n = Some i;
  hi_nodef : forall n, never_declared h n -> sget (l_def lib) n = None
}.

Lemma snoc_in_split {A} (h h1 h2 : list A) o o' :
  h ++ [o] = h1 ++ o' :: h2 -> (h2 = [] /\ o' = o /\ h1 = h) \/ (exists h2', h2 = h2' ++ [o] /\ h = h1 ++ o' :: h2').
Proof.
  intros E. destruct (exists_last (l := o' :: h2)) as (l & x & El); [discriminate|].
  rewrite El, app_assoc in E. apply app_inj_tail in E. destruct E as [E ->].
  destruct l as [|y l].
  - simpl in El. inversion El; subst. left. rewrite app_nil_r. auto.
  - simpl in El. inversion El; subst. right. exists l. auto.
Qed.

Lemma history_snoc h lib o lib' :
  history_inv h lib -> op_effect o lib lib' -> history_inv (h ++ [o]) lib'.
Proof.
  intros [W N L V D ND] [W' G R Od Nw Nm Df]. split; auto.
  - intros n. split.
    + intros H. apply Nm in H. destruct H as [H|(i & c & H)].
      * apply N in H. destruct H as (o' & i & c & Hi & Hr). exists o', i, c. rewrite in_app_iff. auto.
      * exists o, i, c. rewrite in_app_iff. simpl. auto.
    + intros (o' & i & c & Hi & Hr). apply in_app_iff in Hi. destruct Hi as [Hi|[<-|[]]].
      * apply G, N. exists o', i, c. auto.
      * now apply (R _ _ _ Hr).
  - intros n i c (h1 & o' & h2 & E & Hr & Hl). apply snoc_in_split in E.
    destruct E as [[-> [-> ->]]|(h2' & -> & ->)].
    + now apply (R _ _ _ Hr).
    + destruct (L n i c) as (m & r & A & B & C).
      { exists h1, o', h2'. split; [reflexivity|]. split; [exact Hr|]. intros. apply Hl. apply in_app_iff; auto. }
      exists m, r. split; [|split; [now apply G|exact C]]. apply Od; [exact A|].
      intros c'. apply Hl. apply in_app_iff. simpl. auto.
  - intros n i m Hn H. apply Nw in H.
    + destruct H as [H|H]; [|exact H]. apply V in H.
      * destruct H as (-> & r & A & B). split; [reflexivity|]. exists r. split; [now apply G|exact B].
      * intros o' c Hi. apply Hn. apply in_app_iff; auto.
    + intros c. apply Hn. apply in_app_iff. simpl. auto.
  - intros n i (h1 & o' & h2 & E & Hr & Hl). rewrite Df. apply snoc_in_split in E.
    destruct E as [[-> [-> ->]]|(h2' & -> & ->)].
    + rewrite Hr, String.eqb_refl. reflexivity.
    + assert (HL : last_declared (h1 ++ o' :: h2') n i).
      { exists h1, o', h2'. split; [reflexivity|]. split; [exact Hr|]. intros. apply Hl. apply in_app_iff; auto. }
      apply D in HL. destruct (declares o) as [[n' i']|] eqn:Ed; [|exact HL].
      destruct (String.eqb_spec n n') as [->|]; [|exact HL].
      exfalso. apply (Hl o i'); [apply in_app_iff; simpl; auto|exact Ed].
  - intros n Hn. rewrite Df. assert (Hn' : sget (l_def lib) n = None).
    { apply ND. intros o' i Hi. apply Hn. apply in_app_iff; auto. }
    destruct (declares o) as [[n' i']|] eqn:Ed; [|exact Hn'].
    destruct (String.eqb_spec n n') as [->|]; [|exact Hn'].
    exfalso. apply (Hn o i'); [apply in_app_iff; simpl; auto|exact Ed].
Qed.

Lemma history_ok h lib : lib_run mlib0 h = Ok lib -> history_inv h lib.
Proof.
  revert lib. induction h as [|o h IH] using rev_ind; intros lib H.
  - simpl in H. inversion H; subst. split.
    + exact wf_lib0.
    + intros n. split; [discriminate|]. intros (o & i & c & [] & _).
    + intros n i c (h1 & o & h2 & E & _). destruct h1; discriminate.
    + intros n i m _ [l [E _]]. discriminate.
    + intros n i (h1 & o & h2 & E & _). destruct h1; discriminate.
    + reflexivity.
  - rewrite lib_run_app in H. destruct (lib_run mlib0 h) as [l1| |] eqn:E; simpl in H; try discriminate.
    destruct (lib_op l1 o) as [l2| |] eqn:E2; simpl in H; try discriminate. inversion H; subst l2.
    eapply history_snoc; [apply IH; reflexivity|]. apply lib_op_effect; [|exact E2].
    apply (hi_wf h). now apply IH.
Qed.

Lemma last_or_never h n i :
  (exists c, last_registered h n i c) \/ never_registered h n i.
Proof.
  induction h as [|o h IH] using rev_ind.
  - right. intros o c [].
  - destruct (registers o) as [[[n' i'] c]|] eqn:E.
    + destruct (string_dec n n') as [->|Hn]; [destruct (string_dec i i') as [->|Hi]|].
      * left. exists c, h, o, []. split; [reflexivity|]. split; [exact E|]. intros o' c' [].
      * destruct IH as [(c0 & h1 & o' & h2 & -> & Hr & Hl)|IH].
        -- left. exists c0, h1, o', (h2 ++ [o]). rewrite <- app_assoc. split; [reflexivity|]. split; [exact Hr|].
           intros x c' Hx. apply in_app_iff in Hx. destruct Hx as [Hx|[<-|[]]]; [now apply Hl|]. congruence.
        -- right. intros x c' Hx. apply in_app_iff in Hx. destruct Hx as [Hx|[<-|[]]]; [now apply IH|]. congruence.
      * destruct IH as [(c0 & h1 & o' & h2 & -> & Hr & Hl)|IH].
        -- left. exists c0, h1, o', (h2 ++ [o]). rewrite <- app_assoc. split; [reflexivity|]. split; [exact Hr|].
           intros x c' Hx. apply in_app_iff in Hx. destruct Hx as [Hx|[<-|[]]]; [now apply Hl|]. congruence.
        -- right. intros x c' Hx. apply in_app_iff in Hx. destruct Hx as [Hx|[<-|[]]]; [now apply IH|]. congruence.
    + destruct IH as [(c0 & h1 & o' & h2 & -> & Hr & Hl)|IH].
      * left. exists c0, h1, o', (h2 ++ [o]). rewrite <- app_assoc. split; [reflexivity|]. split; [exact Hr|].
        intros x c' Hx. apply in_app_iff in Hx. destruct Hx as [Hx|[<-|[]]]; [now apply Hl|]. congruence.
      * right. intros x c' Hx. apply in_app_iff in Hx. destruct Hx as [Hx|[<-|[]]]; [now apply IH|]. congruence.
Qed.

(** C41: lookups after a history. *)
Lemma lookup_registered h lib n i c :
  lib_run mlib0 h = Ok lib -> last_registered h n i c ->
  exists m r, get lib n (Some i) = Ok (m, lib) /\ nth_error (l_heap lib) m = Some r /\ module_for r n i c.
Proof.
  intros H L. apply history_ok in H. destruct (hi_last _ _ H _ _ _ L) as (m & r & A & B & C).
  exists m, r. split; [|auto]. rewrite get_some.
  destruct (get_impl_cases lib n i (hi_wf _ _ H)) as [(m' & A' & ->)|[Hno _]].
  - now rewrite (impl_of_fun _ _ _ _ _ A A').
  - now apply Hno in A.
Qed.

Lemma lookup_unregistered h lib n i :
  lib_run mlib0 h = Ok lib -> never_registered h n i ->
  (known_name h n -> i = "__none__" ->
     exists m lib' r, get lib n (Some i) = Ok (m, lib') /\ nth_error (l_heap lib') m = Some r /\
       empty_module r n i) /\
  ((~ known_name h n \/ i <> "__none__") -> ends (get lib n (Some i))).
Proof.
  intros H V. apply history_ok in H. rewrite get_some.
  destruct (get_impl_cases lib n i (hi_wf _ _ H)) as [(m & A & E)|[Hno [(impls & -> & Hs & E)|[Hx E]]]].
  - destruct (hi_never _ _ H _ _ _ V A) as (-> & r & B & C). split.
    + intros _ _. exists m, lib, r. auto.
    + intros [Hk|Hk]; [|congruence]. exfalso. apply Hk, (hi_names _ _ H).
      destruct A as (l & A & _). apply shas_get. eauto.
  - split.
    + intros _ _. rewrite E. eexists _, _, _. split; [reflexivity|].
      split; [apply addimpl_heap_new|]. apply empty_module_new.
    + intros [Hk|Hk]; [|congruence]. exfalso. apply Hk, (hi_names _ _ H). apply shas_get. eauto.
  - split; [|auto]. intros Hk ->. apply (hi_names _ _ H) in Hk. destruct Hx; congruence.
Qed.

Lemma lookup_default h lib n :
  lib_run mlib0 h = Ok lib ->
  (forall i, last_declared h n i -> get lib n None = get lib n (Some i)) /\
  (never_declared h n -> ends (get lib n None)).
Proof.
  intros H. apply history_ok in H. pose proof (get_none lib n) as G. split.
  - intros i L. apply (hi_def _ _ H) in L. now rewrite L in G.
  - intros L. apply (hi_nodef _ _ H) in L. now rewrite L in G.
Qed.

(** Objects stay where they are. *)
Lemma run_keeps h : forall lib lib' n i m,
  wf_lib lib -> lib_run lib h = Ok lib' -> never_registered h n i -> impl_of lib n i m ->
  wf_lib lib' /\ impl_of lib' n i m /\ grows lib lib'.
Proof.
  induction h as [|o h IH]; simpl; intros lib lib' n i m W H V A.
  - inversion H; subst. split; [exact W|]. split; [exact A|apply grows_refl].
  - destruct (lib_op lib o) as [l1| |] eqn:E; simpl in H; try discriminate.
    apply lib_op_effect in E; [|exact W]. destruct (IH l1 lib' n i m) as (B1 & B2 & B3); auto.
    + apply E.
    + intros o' c Hi. apply V. now right.
    + apply E; [exact A|]. intros c. apply V. now left.
    + split; [exact B1|]. split; [exact B2|]. eapply grows_trans; [apply E|exact B3].
Qed.

Lemma lookup_same h1 lib n i m lib1 h2 lib2 :
  lib_run mlib0 h1 = Ok lib -> get lib n (Some i) = Ok (m, lib1) ->
  lib_run lib1 h2 = Ok lib2 -> never_registered h2 n i -> get lib2 n (Some i) = Ok (m, lib2).
Proof.
  intros H1 G H2 V. apply history_ok, hi_wf in H1. rewrite get_some in G.
  destruct (get_impl_ok _ _ _ _ _ H1 G) as (W & _ & I & _).
  destruct (run_keeps _ _ _ _ _ _ W H2 V I) as (W2 & I2 & _). rewrite get_some.
  destruct (get_impl_cases lib2 n i W2) as [(m' & A & ->)|[Hno _]].
  - now rewrite (impl_of_fun _ _ _ _ _ A I2).
  - now apply Hno in I2.
Qed.

Lemma lookup_distinct h lib n i m lib1 n' i' m' lib2 :
  lib_run mlib0 h = Ok lib -> get lib n (Some i) = Ok (m, lib1) -> get lib1 n' (Some i') = Ok (m', lib2) ->
  (m = m' <-> n = n' /\ i = i').
Proof.
  intros H G1 G2. apply history_ok, hi_wf in H. rewrite get_some in *.
  destruct (get_impl_ok _ _ _ _ _ H G1) as (W & _ & I & _).
  destruct (get_impl_ok _ _ _ _ _ W G2) as (W2 & _ & I2 & _ & _ & O & _).
  apply O in I. split.
  - intros <-. eapply wf_distinct; eauto.
  - intros [-> ->]. eapply impl_of_fun; eauto.
Qed.

Lemma registering_succeeds h lib o c :
  lib_run mlib0 h = Ok lib -> registers o = Some c -> exists lib', lib_op lib o = Ok lib'.
Proof.
  intros H R. apply history_ok, hi_wf in H.
  destruct o as [n i d b t kw|n i d b t kw|n i|n i f|n i]; simpl in *; try discriminate.
  - unfold module. destruct i as [i|].
    + destruct (implementation_eq lib n i d b t kw H) as (impls & _ & E). simpl in E. eauto.
    + destruct (implementation_eq lib n "__default__" true b t kw H) as (impls & _ & E). simpl in E. eauto.
  - destruct (implementation_eq lib n i d b t kw H) as (impls & _ & E). simpl in E. eauto.
Qed.
