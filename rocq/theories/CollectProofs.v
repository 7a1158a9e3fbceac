(** Proofs about collect_modules (C42-C44, C66). *)
From Verif Require Import PyBase PyPath ModulesModel SpecModules ModulesProofs.
From Coq Require Import Permutation.
Local Open Scope string_scope.
Local Open Scope list_scope.

(** ** How the library changes while modules are collected *)
Record lext (a b : mlib) : Prop := {
  le_wf : wf_lib b;
  le_heap : forall m r, nth_error (l_heap a) m = Some r -> nth_error (l_heap b) m = Some r;
  le_new : forall m r, nth_error (l_heap b) m = Some r ->
    nth_error (l_heap a) m = Some r \/
    (nth_error (l_heap a) m = None /\ sget (m_opts r) "mdepends" = None);
  le_def : l_def b = l_def a;
  le_names : forall n, shas (l_mods b) n = shas (l_mods a) n;
  le_impl : forall n i m, impl_of a n i m -> impl_of b n i m;
  le_back : forall n i m, impl_of b n i m -> impl_of a n i m \/ nth_error (l_heap a) m = None
}.
Lemma lext_refl a : wf_lib a -> lext a a.
Proof. intros W. split; auto. Qed.
Lemma lext_trans a b c : lext a b -> lext b c -> lext a c.
Proof.
  intros A B. split.
  - apply B.
  - intros. apply B, A. assumption.
  - intros m r H. apply (le_new _ _ B) in H. destruct H as [H|[H1 H2]].
    + now apply (le_new _ _ A) in H.
    + right. split; [|exact H2]. destruct (nth_error (l_heap a) m) eqn:E; [|reflexivity].
      apply (le_heap _ _ A) in E. congruence.
  - rewrite (le_def _ _ B). apply A.
  - intros. rewrite (le_names _ _ B). apply A.
  - intros. apply B, A. assumption.
  - intros n i m H. apply (le_back _ _ B) in H. destruct H as [H|H].
    + now apply (le_back _ _ A) in H.
    + right. destruct (nth_error (l_heap a) m) eqn:E; [|reflexivity]. apply (le_heap _ _ A) in E. congruence.
Qed.

Lemma get_impl_lext lib n i m lib' :
  wf_lib lib -> get_impl lib n i = Ok (m, lib') -> lext lib lib' /\ impl_of lib' n i m.
Proof.
  intros W H. destruct (get_impl_ok _ _ _ _ _ W H) as (W' & G & I & D & N & O & C).
  split; [|exact I]. split; auto.
  - intros x r Hx. now apply G.
  - intros x r Hx. destruct C as [[-> _]|(-> & _ & -> & Hh & _)]; [now left|].
    rewrite Hh in Hx. destruct (nth_error (l_heap lib) x) eqn:E.
    + left. rewrite nth_error_app1 in Hx; [congruence|]. apply nth_error_Some. congruence.
    + right. split; [reflexivity|]. apply nth_error_None in E. rewrite nth_error_app2 in Hx by exact E.
      destruct (x - List.length (l_heap lib)) as [|k]; simpl in Hx.
      * inversion Hx; subst r. reflexivity.
      * destruct k; discriminate.
  - intros n' i' m' H'. destruct C as [[-> _]|(-> & _ & -> & _ & Hio)]; [now left|].
    apply Hio in H'. destruct H' as [[_ [_ ->]]|[_ H']]; [right|now left].
    apply nth_error_None. apply le_n.
Qed.

Lemma wants_lext a b m e : lext a b -> wants a m e -> wants b m e.
Proof. intros L (r & v & H & R). exists r, v. split; [now apply L|exact R]. Qed.
Lemma wants_back a b m e : lext a b -> wants b m e -> wants a m e.
Proof.
  intros L (r & v & H & Hv & R). exists r, v. apply (le_new _ _ L) in H. destruct H as [H|[_ H]]; [auto|congruence].
Qed.
Lemma default_lext a b n m : lext a b -> default_of a n m -> default_of b n m.
Proof. intros L (i & D & H). exists i. rewrite (le_def _ _ L). split; [exact D|now apply L]. Qed.
Lemma leads_lext a b m m' : lext a b -> leads_to a m m' -> leads_to b m m'.
Proof.
  intros L [(n & i & Hw & Hi)|(n & Hw & Hd)].
  - left. exists n, i. split; [eapply wants_lext; eauto|now apply L].
  - right. exists n. split; [eapply wants_lext; eauto|eapply default_lext; eauto].
Qed.
Lemma needed_lext a b root m : lext a b -> needed a root m -> needed b root m.
Proof.
  intros L. induction 1 as [m Hl|m m' Hm IH Hl].
  - apply needed_one. eapply leads_lext; eauto.
  - eapply needed_more; [exact IH|]. eapply leads_lext; eauto.
Qed.
Lemma named_lext a b m n : lext a b -> named a m n -> named b m n.
Proof. intros L (r & H & E). exists r. split; [now apply L|exact E]. Qed.

Lemma chars_item s e : In e (chars s) <-> item_of (VStr s) e.
Proof.
  split.
  - induction s as [|c s IH]; simpl; [intros []|]. intros [<-|H].
    + apply (item_char "" c s).
    + apply IH in H. inversion H; subst. apply (item_char (String c s1) c0 s2).
  - intros H. inversion H; subst. clear H. induction s1 as [|c' s1 IH]; simpl; auto.
Qed.
Lemma iter_item v l e : iter_oval v = Ok l -> (In e l <-> item_of v e).
Proof.
  destruct v as [s|l'| | |]; simpl; intros [= <-].
  - apply chars_item.
  - split; [apply item_list|]. intros H. now inversion H.
Qed.

Lemma wants_items lib m r v l e :
  nth_error (l_heap lib) m = Some r -> sget (m_opts r) "mdepends" = Some v -> iter_oval v = Ok l ->
  (wants lib m e <-> In e l).
Proof.
  intros H Hv Hl. rewrite (iter_item _ _ e Hl). split.
  - intros (r' & v' & H' & Hv' & R). congruence.
  - intros R. exists r, v. auto.
Qed.

(** ** The invariant *)
Section Collect.
  Variables (lib0 : mlib) (root : nat).

  (** Modules whose mdepends are being, or have been, looked at. *)
  Definition asks (st : cst) (m : nat) : Prop := m = root \/ exists n, sget (c_dep st) n = Some m.

  Definition justified (st : cst) (n : string) (m : nat) : Prop :=
    exists q, asks st q /\
      ((exists i, wants (c_lib st) q (EPair n i) /\ impl_of (c_lib st) n i m) \/
       (wants (c_lib st) q (EStr n) /\ default_of (c_lib st) n m)).

  Record good (st : cst) : Prop := {
    g_ext : lext lib0 (c_lib st);
    g_root : nth_error (l_heap (c_lib st)) root <> None;
    g_dep : forall n m, sget (c_dep st) n = Some m -> exists i, impl_of (c_lib st) n i m;
    g_just : forall n m, sget (c_dep st) n = Some m -> justified st n m;
    g_need : forall n m, sget (c_dep st) n = Some m -> needed (c_lib st) root m;
    g_queue : forall n, In n (c_queue st) -> exists q, asks st q /\ wants (c_lib st) q (EStr n);
    g_nodup : NoDup (dkeys (c_dep st));
    g_keys : forall n m, sget (c_dep st) n = Some m -> exists k, nget (c_keys st) m = Some k;
    g_inc : forall n m, sget (c_dep st) n = Some m -> shas (c_inc st) n = true;
    g_incs : forall n s x, sget (c_inc st) n = Some s -> In x s ->
      named (c_lib st) root x \/
      exists q e, asks st q /\ named (c_lib st) q x /\ wants (c_lib st) q e /\
        (e = EStr n \/ exists i, e = EPair n i)
  }.

  Record mono (a b : cst) : Prop := {
    mo_ext : lext (c_lib a) (c_lib b);
    mo_dep : forall n m, sget (c_dep a) n = Some m -> sget (c_dep b) n = Some m;
    mo_queue : forall n, In n (c_queue a) -> In n (c_queue b) \/ shas (c_dep b) n = true;
    mo_inc : forall n s x, sget (c_inc a) n = Some s -> In x s ->
      exists s', sget (c_inc b) n = Some s' /\ In x s'
  }.
  Lemma mono_refl a : wf_lib (c_lib a) -> mono a a.
  Proof. intros W. split; eauto. now apply lext_refl. Qed.
  Lemma mono_trans a b c : mono a b -> mono b c -> mono a c.
  Proof.
    intros A B. split.
    - eapply lext_trans; [apply A|apply B].
    - intros. apply B, A. assumption.
    - intros n H. apply A in H. destruct H as [H|H]; [now apply B|].
      right. apply shas_get in H. destruct H as [m H]. apply B in H. apply shas_get. eauto.
    - intros n s x H Hx. destruct (mo_inc _ _ A n s x H Hx) as (s1 & H1 & Hx1).
      eapply mo_inc; eauto.
  Qed.
  Lemma asks_mono a b m : mono a b -> asks a m -> asks b m.
  Proof. intros M [->|[n H]]; [now left|]. right. exists n. now apply M. Qed.

  (** An mdepends item that has been seen to. *)
  Definition sat (st : cst) (e : elem) : Prop :=
    match e with
    | EStr n => shas (c_dep st) n = true \/ In n (c_queue st)
    | EPair n i => exists m, impl_of (c_lib st) n i m /\ sget (c_dep st) n = Some m
    | _ => False
    end.
  Lemma sat_mono a b e : mono a b -> sat a e -> sat b e.
  Proof.
    intros M. destruct e as [n|n i| |]; simpl; auto.
    - intros [H|H].
      + left. apply shas_get in H. destruct H as [m H]. apply M in H. apply shas_get. eauto.
      + apply M in H. tauto.
    - intros (m & H1 & H2). exists m. split; [now apply M|now apply M].
  Qed.
  Definition closed (st : cst) (m : nat) : Prop := forall e, wants (c_lib st) m e -> sat st e.
  Lemma closed_mono a b m : mono a b -> closed a m -> closed b m.
  Proof.
    intros M H e He. eapply sat_mono; [exact M|]. apply H. eapply wants_back; [apply M|exact He].
  Qed.
  (** Explicit requests are recorded in included_from. *)
  Definition inc_sat (st : cst) (m : nat) (e : elem) : Prop :=
    match e with
    | EPair n i => forall x, named (c_lib st) m x -> exists s, sget (c_inc st) n = Some s /\ In x s
    | _ => True
    end.
  Lemma named_fun lib m x y : named lib m x -> named lib m y -> x = y.
  Proof. intros (r & A & <-) (r' & B & <-). congruence. Qed.
  Lemma inc_sat_mono a b m e :
    mono a b -> (exists x, named (c_lib a) m x) -> inc_sat a m e -> inc_sat b m e.
  Proof.
    intros M (y & Hy). destruct e as [n|n i| |]; simpl; auto. intros H x Hx.
    assert (x = y) by (eapply named_fun; [exact Hx|eapply named_lext; [apply M|exact Hy]]). subst y.
    destruct (H x Hy) as (s & Hs & Hi). eapply mo_inc; eauto.
  Qed.
  Definition inc_closed (st : cst) (m : nat) : Prop := forall e, wants (c_lib st) m e -> inc_sat st m e.
  Lemma inc_closed_mono a b m : mono a b -> inc_closed a m -> inc_closed b m.
  Proof.
    intros M H e He. pose proof (wants_back _ _ _ _ (mo_ext _ _ M) He) as He'.
    eapply inc_sat_mono; [exact M| |now apply H].
    destruct He' as (r & v & Hr & _). exists (m_name r), r. auto.
  Qed.

  Lemma add_included_get inc n from k :
    sget (add_included inc n from) k =
      if String.eqb k n
      then Some (match sget inc n with Some s => sadd String.eqb s from | None => [from] end)
      else sget inc k.
  Proof.
    unfold add_included. destruct (sget inc n) as [s|];
      (destruct (String.eqb_spec k n) as [->|H]; [now rewrite sget_eq|now rewrite sget_neq by congruence]).
  Qed.
  Lemma add_included_new inc n from : exists s, sget (add_included inc n from) n = Some s /\ In from s.
  Proof.
    rewrite add_included_get, String.eqb_refl. eexists. split; [reflexivity|].
    destruct (sget inc n) as [s|]; [|now left]. apply (sadd_In _ string_eqb_spec'). auto.
  Qed.
  Lemma add_included_old inc n from k s x :
    sget inc k = Some s -> In x s -> exists s', sget (add_included inc n from) k = Some s' /\ In x s'.
  Proof.
    intros H Hx. rewrite add_included_get. destruct (String.eqb_spec k n) as [->|]; [|eauto].
    rewrite H. eexists. split; [reflexivity|]. apply (sadd_In _ string_eqb_spec'). auto.
  Qed.
  Lemma add_included_inv inc n from k s x :
    sget (add_included inc n from) k = Some s -> In x s ->
    (exists s', sget inc k = Some s' /\ In x s') \/ (k = n /\ x = from).
  Proof.
    rewrite add_included_get. destruct (String.eqb_spec k n) as [->|]; [|eauto].
    intros [= <-]. destruct (sget inc n) as [s'|].
    - intros H. apply (sadd_In _ string_eqb_spec') in H. destruct H as [H|H]; [left; eauto|auto].
    - intros [<-|[]]. auto.
  Qed.

  Lemma named_mod_name lib m : nth_error (l_heap lib) m <> None -> named lib m (mod_name lib m).
  Proof. unfold named, mod_name. destruct (nth_error (l_heap lib) m); [eauto|congruence]. Qed.

  Lemma asks_heap st m : good st -> asks st m -> nth_error (l_heap (c_lib st)) m <> None.
  Proof.
    intros G [->|[n H]]; [apply G|]. apply (g_dep _ G) in H. destruct H as [i H].
    apply (wf_obj _ (le_wf _ _ (g_ext _ G))) in H. destruct H as (r & H & _). congruence.
  Qed.

  (** *** request_implementation *)
  Lemma request_good st n m :
    good st -> asks st m -> wants (c_lib st) m (EStr n) ->
    good (request st n (mod_name (c_lib st) m)) /\ mono st (request st n (mod_name (c_lib st) m)) /\
    sat (request st n (mod_name (c_lib st) m)) (EStr n).
  Proof.
    intros G A Wn. split; [|split].
    - split; try apply G; simpl.
      + intros x Hx. apply in_app_iff in Hx. destruct Hx as [Hx|[<-|[]]]; [now apply G|eauto].
      + intros x y Hx. pose proof (g_inc _ G _ _ Hx) as H. apply shas_get in H. destruct H as [s H].
        apply shas_get. rewrite add_included_get. destruct (String.eqb x n); eauto.
      + intros x s y Hs Hy. destruct (add_included_inv _ _ _ _ _ _ Hs Hy) as [(s' & H1 & H2)|[-> ->]].
        * eapply G; eauto.
        * right. exists m, (EStr n). split; [exact A|]. split; [|auto].
          apply named_mod_name. now apply asks_heap.
    - split; simpl; auto.
      + apply lext_refl. apply G.
      + intros x Hx. left. apply in_app_iff. auto.
      + intros. eapply add_included_old; eauto.
    - simpl. right. apply in_app_iff. simpl. auto.
  Qed.

  (** *** specify_implementation *)
  Lemma specify_good st lib n m q from i :
    good st -> lext (c_lib st) lib ->
    (sget (c_dep st) n = None \/ sget (c_dep st) n = Some m) ->
    impl_of lib n i m -> asks st q ->
    ((wants lib q (EPair n i)) \/ (wants lib q (EStr n) /\ default_of lib n m)) ->
    (from = mod_name lib q \/ from = mod_name lib root) ->
    good (specify st lib n m from) /\ mono st (specify st lib n m from) /\
    asks (specify st lib n m from) m.
  Proof.
    intros G L Hd Hi A Hw Hf.
    assert (Hdep : forall k x, sget (c_dep st) k = Some x -> sget (sset (c_dep st) n m) k = Some x).
    { intros k x H. destruct (string_dec k n) as [->|Hn]; [|now rewrite sget_neq by congruence].
      rewrite sget_eq. destruct Hd; congruence. }
    assert (Hinv : forall k x, sget (sset (c_dep st) n m) k = Some x ->
              (k = n /\ x = m) \/ sget (c_dep st) k = Some x).
    { intros k x. destruct (string_dec k n) as [->|Hn]; [rewrite sget_eq; intros [= ->]; auto|].
      rewrite sget_neq by congruence. auto. }
    assert (HA : forall x, asks st x -> asks (specify st lib n m from) x).
    { intros x [->|[k H]]; [now left|]. right. exists k. simpl. auto. }
    assert (Hneed : m = m -> needed lib root m).
    { intros _. assert (Hq : q = root \/ needed lib root q).
      { destruct A as [->|[k H]]; [now left|]. right. eapply needed_lext; [exact L|]. now apply (g_need _ G k). }
      assert (Hl : leads_to lib q m).
      { destruct Hw as [Hw|[Hw Hdf]]; [left; eauto|right; eauto]. }
      destruct Hq as [->|Hq]; [now apply needed_one|eapply needed_more; eauto]. }
    split; [|split].
    - split; simpl.
      + eapply lext_trans; [apply G|exact L].
      + pose proof (g_root _ G) as Hr. destruct (nth_error (l_heap (c_lib st)) root) eqn:E; [|congruence].
        apply (le_heap _ _ L) in E. congruence.
      + intros k x H. apply Hinv in H. destruct H as [[-> ->]|H]; [eauto|].
        apply (g_dep _ G) in H. destruct H as [j H]. exists j. now apply L.
      + intros k x H. apply Hinv in H. destruct H as [[-> ->]|H].
        * exists q. split; [now apply HA|]. simpl. destruct Hw as [Hw|Hw]; [left; eauto|right; exact Hw].
        * apply (g_just _ G) in H. destruct H as (q' & Aq & Hq). exists q'. split; [now apply HA|]. simpl.
          destruct Hq as [(j & W1 & I1)|[W1 D1]].
          -- left. exists j. split; [eapply wants_lext; eauto|now apply L].
          -- right. split; [eapply wants_lext; eauto|eapply default_lext; eauto].
      + intros k x H. apply Hinv in H. destruct H as [[-> ->]|H]; [now apply Hneed|].
        eapply needed_lext; [exact L|]. now apply (g_need _ G k).
      + intros k H. apply (g_queue _ G) in H. destruct H as (q' & Aq & Hq). exists q'. split; [now apply HA|].
        eapply wants_lext; eauto.
      + apply dset_nodup; [exact string_eqb_spec'|apply G].
      + intros k x H. destruct (Nat.eq_dec x m) as [->|Hx].
        * eexists. apply (dget_dset_eq _ nat_eqb_spec').
        * rewrite (dget_dset_neq _ nat_eqb_spec') by congruence.
          apply Hinv in H. destruct H as [[_ H]|H]; [contradiction|]. now apply (g_keys _ G k).
      + intros k x H. apply Hinv in H. apply shas_get. rewrite add_included_get.
        destruct (String.eqb_spec k n) as [->|Hn]; [eauto|]. destruct H as [[? _]|H]; [contradiction|].
        apply (g_inc _ G) in H. now apply shas_get.
      + intros k s x Hs Hx. destruct (add_included_inv _ _ _ _ _ _ Hs Hx) as [(s' & H1 & H2)|[-> ->]].
        * destruct (g_incs _ G _ _ _ H1 H2) as [H|(q' & e & Aq & Nq & Wq & Ee)].
          -- left. eapply named_lext; eauto.
          -- right. exists q', e. split; [now apply HA|]. split; [eapply named_lext; eauto|].
             split; [eapply wants_lext; eauto|exact Ee].
        * assert (Hh : forall y, asks st y -> nth_error (l_heap lib) y <> None).
          { intros y Hy. apply (asks_heap _ _ G) in Hy.
            destruct (nth_error (l_heap (c_lib st)) y) eqn:E; [|congruence]. apply (le_heap _ _ L) in E. congruence. }
          destruct Hf as [->| ->].
          -- right. destruct Hw as [Hw|[Hw _]].
             ++ exists q, (EPair n i). split; [now apply HA|]. split; [apply named_mod_name; auto|]. split; eauto.
             ++ exists q, (EStr n). split; [now apply HA|]. split; [apply named_mod_name; auto|]. split; eauto.
          -- left. apply named_mod_name. apply Hh. now left.
    - split; simpl; auto. intros. eapply add_included_old; eauto.
    - right. exists n. simpl. apply sget_eq.
  Qed.

  (** *** The inner function *)
  Definition visit_post (st st' : cst) (m : nat) : Prop :=
    good st' /\ mono st st' /\ closed st' m /\ inc_closed st' m /\
    (forall n x, sget (c_dep st') n = Some x ->
       sget (c_dep st) n = Some x \/ (closed st' x /\ inc_closed st' x)).

  Lemma no_mdepends_closed st m :
    shas (mod_opts (c_lib st) m) "mdepends" = false -> closed st m /\ inc_closed st m.
  Proof.
    intros H. unfold closed, inc_closed.
    assert (forall e, ~ wants (c_lib st) m e); [|split; intros e He; exfalso; eapply H0; eauto].
    intros e (r & v & Hr & Hv & _). unfold mod_opts in H. rewrite Hr in H.
    unfold dhas in H. rewrite Hv in H. discriminate.
  Qed.

  Lemma collect_item_ok rec m st e st' :
    (forall st1 nm st2, good st1 -> asks st1 nm -> rec st1 nm = Ok st2 -> visit_post st1 st2 nm) ->
    good st -> asks st m -> wants (c_lib st) m e -> collect_item rec m st e = Ok st' ->
    good st' /\ mono st st' /\ sat st' e /\ inc_sat st' m e /\
    (forall n x, sget (c_dep st') n = Some x ->
       sget (c_dep st) n = Some x \/ (closed st' x /\ inc_closed st' x)).
  Proof.
    intros Hrec G A We H. destruct e as [n|n i| |]; simpl in H; try discriminate.
    - destruct (shas (c_dep st) n) eqn:E.
      + inversion H; subst st'. split; [exact G|]. split; [apply mono_refl; apply G|].
        split; [now left|]. split; [exact Logic.I|]. auto.
      + inversion H; subst st'. destruct (request_good st n m G A We) as (G' & M & S').
        split; [exact G'|]. split; [exact M|]. split; [exact S'|]. split; [exact Logic.I|]. simpl. auto.
    - rewrite get_some in H. destruct (get_impl (c_lib st) n i) as [[nm lib]| |] eqn:E; simpl in H; try discriminate.
      destruct (get_impl_lext _ _ _ _ _ (le_wf _ _ (g_ext _ G)) E) as (L & Hi).
      assert (Hd : sget (c_dep st) n = None \/ sget (c_dep st) n = Some nm).
      { destruct (sget (c_dep st) n) as [o|]; [|now left]. right.
        destruct (Nat.eqb_spec o nm) as [Ho|Ho]; [now rewrite Ho|simpl in H; discriminate]. }
      assert (H' : (if shas (mod_opts lib nm) "mdepends"
                    then rec (specify st lib n nm (mod_name lib m)) nm
                    else Ok (specify st lib n nm (mod_name lib m))) = Ok st').
      { destruct Hd as [Hd|Hd]; rewrite Hd in H; [exact H|]. now rewrite Nat.eqb_refl in H. }
      clear H.
      destruct (specify_good st lib n nm m (mod_name lib m) i G L Hd Hi A) as (G1 & M1 & A1).
      { left. eapply wants_lext; eauto. }
      { now left. }
      set (st1 := specify st lib n nm (mod_name lib m)) in *.
      assert (Hp : visit_post st1 st' nm).
      { destruct (shas (mod_opts lib nm) "mdepends") eqn:Em; [now apply Hrec|].
        inversion H'; subst st'. split; [exact G1|]. split; [apply mono_refl; apply G1|].
        destruct (no_mdepends_closed st1 nm Em). repeat split; auto. }
      destruct Hp as (G' & M' & C' & I' & N').
      split; [exact G'|]. split; [eapply mono_trans; eauto|].
      assert (Sp : sat st1 (EPair n i)).
      { simpl. exists nm. split; [exact Hi|apply sget_eq]. }
      split; [eapply sat_mono; eauto|]. split.
      + assert (Hn : named (c_lib st1) m (mod_name lib m)).
        { apply (named_mod_name (c_lib st1)). apply asks_heap; [exact G1|]. eapply asks_mono; eauto. }
        apply (inc_sat_mono st1); [exact M'|eauto|].
        simpl. intros x Hx. rewrite (named_fun _ _ _ _ Hx Hn). apply add_included_new.
      + intros k x Hx. apply N' in Hx. destruct Hx as [Hx|Hx]; [|auto].
        simpl in Hx. destruct (string_dec k n) as [->|Hk].
        * rewrite sget_eq in Hx. inversion Hx; subst x. auto.
        * rewrite sget_neq in Hx by congruence. auto.
  Qed.

  Lemma fold_ok rec m l : forall st st',
    (forall st1 nm st2, good st1 -> asks st1 nm -> rec st1 nm = Ok st2 -> visit_post st1 st2 nm) ->
    good st -> asks st m -> (forall e, In e l -> wants (c_lib st) m e) ->
    fold_res (collect_item rec m) l st = Ok st' ->
    good st' /\ mono st st' /\ (forall e, In e l -> sat st' e /\ inc_sat st' m e) /\
    (forall n x, sget (c_dep st') n = Some x ->
       sget (c_dep st) n = Some x \/ (closed st' x /\ inc_closed st' x)).
  Proof.
    induction l as [|e l IH]; intros st st' Hrec G A W H; simpl in H.
    - inversion H; subst st'. split; [exact G|]. split; [apply mono_refl; apply G|]. split; [intros e []|auto].
    - destruct (collect_item rec m st e) as [st1| |] eqn:E; simpl in H; try discriminate.
      destruct (collect_item_ok rec m st e st1 Hrec G A (W e (or_introl eq_refl)) E) as (G1 & M1 & S1 & I1 & N1).
      destruct (IH st1 st' Hrec G1) as (G2 & M2 & S2 & N2); auto.
      { eapply asks_mono; eauto. }
      { intros e' He'. eapply wants_lext; [apply M1|]. apply W. now right. }
      split; [exact G2|]. split; [eapply mono_trans; eauto|]. split.
      + intros e' [<-|He']; [|auto]. split; [eapply sat_mono; eauto|].
        apply (inc_sat_mono st1); auto. exists (mod_name (c_lib st1) m). apply named_mod_name.
        apply asks_heap; [exact G1|]. eapply asks_mono; eauto.
      + intros n x Hx. apply N2 in Hx. destruct Hx as [Hx|Hx]; [|auto].
        apply N1 in Hx. destruct Hx as [Hx|[Hx Hx']]; [auto|]. right.
        split; [eapply closed_mono; eauto|eapply inc_closed_mono; eauto].
  Qed.

  Lemma visit_ok fuel : forall st m st',
    good st -> asks st m -> visit fuel st m = Ok st' -> visit_post st st' m.
  Proof.
    induction fuel as [|f IH]; intros st m st' G A H; [discriminate|]. simpl in H.
    destruct (sget (mod_opts (c_lib st) m) "mdepends") as [v|] eqn:Ev; [|discriminate].
    destruct (iter_oval v) as [l| |] eqn:El; simpl in H; try discriminate.
    pose proof (asks_heap _ _ G A) as Hh. unfold mod_opts in Ev.
    destruct (nth_error (l_heap (c_lib st)) m) as [r|] eqn:Er; [|congruence].
    assert (Hw : forall e, wants (c_lib st) m e <-> In e l) by (intros; eapply wants_items; eauto).
    destruct (fold_ok (visit f) m l st st') as (G' & M' & S' & N'); auto.
    { intros e He. now apply Hw. }
    split; [exact G'|]. split; [exact M'|].
    split; [|split; [|exact N']]; intros e He; apply (wants_back _ _ _ _ (mo_ext _ _ M')), Hw in He; now apply S'.
  Qed.

  (** *** The loop over the queue *)
  Definition all_closed (st : cst) : Prop := forall m, asks st m -> closed st m /\ inc_closed st m.

  Lemma drain_ok fuel : forall st st',
    good st -> all_closed st -> drain fuel root st = Ok st' ->
    good st' /\ mono st st' /\ all_closed st' /\ c_queue st' = [].
  Proof.
    induction fuel as [|f IH]; intros st st' G C H; [discriminate|]. simpl in H.
    destruct (c_queue st) as [|n q] eqn:Eq.
    - inversion H; subst st'. split; [exact G|]. split; [apply mono_refl; apply G|]. auto.
    - set (st0 := CS (c_lib st) (c_dep st) q (c_key st) (c_keys st) (c_inc st)) in *.
      assert (G0 : good st0).
      { split; try apply G. intros x Hx. apply G. rewrite Eq. now right. }
      destruct (shas (c_dep st) n) eqn:Ed.
      + assert (M0 : mono st st0).
        { split; simpl; eauto.
          - apply lext_refl. apply G.
          - intros x Hx. rewrite Eq in Hx. destruct Hx as [<-|Hx]; auto. }
        destruct (IH st0 st' G0) as (G' & M' & C' & Q'); auto.
        { intros m Hm. destruct (C m Hm). split; [eapply closed_mono|eapply inc_closed_mono]; eauto. }
        split; [exact G'|]. split; [eapply mono_trans; eauto|]. auto.
      + destruct (get_default (c_lib st) n) as [[dm lib]| |] eqn:Eg; simpl in H; try discriminate.
        assert (W := le_wf _ _ (g_ext _ G)).
        destruct (get_default_ok _ _ _ _ W Eg) as (i & Hdf & Eg').
        destruct (get_impl_lext _ _ _ _ _ W Eg') as (L & Hi).
        destruct (g_queue _ G n) as (qm & Aq & Wq); [rewrite Eq; now left|].
        assert (Hnone : sget (c_dep st) n = None).
        { unfold dhas in Ed. destruct (sget (c_dep st) n); [discriminate|reflexivity]. }
        destruct (specify_good st0 lib n dm qm (mod_name lib root) i G0 L) as (G1 & M1 & A1); auto.
        { right. split; [eapply wants_lext; eauto|]. exists i. rewrite (le_def _ _ L). auto. }
        set (st1 := specify st0 lib n dm (mod_name lib root)) in *.
        assert (M1' : mono st st1).
        { split; try apply M1. intros x Hx. rewrite Eq in Hx. destruct Hx as [<-|Hx].
          - right. simpl. rewrite shas_dset, String.eqb_refl. reflexivity.
          - left. exact Hx. }
        assert (Hp : exists st2, (if shas (mod_opts lib dm) "mdepends" then visit f st1 dm else Ok st1) = Ok st2 /\
                       drain f root st2 = Ok st').
        { destruct (if shas (mod_opts lib dm) "mdepends" then visit f st1 dm else Ok st1); simpl in H;
            try discriminate. eauto. }
        destruct Hp as (st2 & E2 & H2). clear H.
        assert (Hp : visit_post st1 st2 dm).
        { destruct (shas (mod_opts lib dm) "mdepends") eqn:Em; [now apply (visit_ok f)|].
          inversion E2; subst st2. split; [exact G1|]. split; [apply mono_refl; apply G1|].
          destruct (no_mdepends_closed st1 dm Em). repeat split; auto. }
        destruct Hp as (G2 & M2 & C2 & I2 & N2).
        assert (M12 : mono st st2) by (eapply mono_trans; eauto).
        destruct (IH st2 st' G2) as (G' & M' & C' & Q'); auto.
        { intros m [->|[k Hk]].
          - destruct (C root (or_introl eq_refl)). split; [eapply closed_mono|eapply inc_closed_mono]; eauto.
          - apply N2 in Hk. destruct Hk as [Hk|Hk]; [|exact Hk].
            simpl in Hk. destruct (string_dec k n) as [->|Hn].
            + rewrite sget_eq in Hk. inversion Hk; subst m. auto.
            + rewrite sget_neq in Hk by congruence.
              destruct (C m (or_intror (ex_intro _ k Hk))). split; [eapply closed_mono|eapply inc_closed_mono]; eauto. }
        split; [exact G'|]. split; [eapply mono_trans; eauto|]. auto.
  Qed.
End Collect.

(** ** Sorting *)
Lemma insert_key_perm k m l : Permutation ((k, m) :: l) (insert_key k m l).
Proof.
  induction l as [|[k' m'] l IH]; simpl; [reflexivity|]. destruct (Nat.leb k' k); [|reflexivity].
  rewrite perm_swap. now constructor.
Qed.
Lemma sort_keys_perm l : Permutation l (sort_keys l).
Proof.
  unfold sort_keys. rewrite <- (app_nil_r l) at 1. generalize (@nil (nat * nat)).
  induction l as [|[k m] l IH]; intros acc; simpl; [reflexivity|].
  rewrite <- IH, <- insert_key_perm. apply Permutation_middle.
Qed.
Lemma with_keys_map keys l r : with_keys keys l = Ok r -> map snd r = l.
Proof.
  revert r. induction l as [|m l IH]; simpl; intros r H.
  - now inversion H.
  - destruct (nget keys m); [|discriminate]. destruct (with_keys keys l) as [r'| |]; simpl in H; try discriminate.
    inversion H; subst. simpl. now rewrite (IH r').
Qed.

(** ** The whole function *)
Lemma collect_final fuel lib root l lib' inc :
  wf_lib lib -> nth_error (l_heap lib) root <> None ->
  collect_modules fuel lib root = Ok (l, lib', inc) ->
  exists st, good lib root st /\ all_closed root st /\ c_queue st = [] /\ lib' = c_lib st /\
    inc = c_inc st /\ Permutation (dvalues (c_dep st)) l.
Proof.
  intros W Hr H. unfold collect_modules in H.
  set (st0 := CS lib [] [] 0 [] []) in *.
  assert (G0 : good lib root st0).
  { split; simpl; try discriminate; auto.
    - now apply lext_refl.
    - intros n [].
    - constructor. }
  assert (Hp : exists st1, (if shas (mod_opts lib root) "mdepends" then visit fuel st0 root else Ok st0) = Ok st1 /\
      (do! st2 <- drain fuel root st1; do! _ <- check_inc st2;
       do! l <- with_keys (c_keys st2) (dvalues (c_dep st2));
       Ok (map snd (sort_keys l), c_lib st2, c_inc st2)) = Ok (l, lib', inc)).
  { destruct (if shas (mod_opts lib root) "mdepends" then visit fuel st0 root else Ok st0); simpl in H;
      try discriminate. eauto. }
  destruct Hp as (st1 & E1 & H1). clear H.
  assert (Hp : visit_post lib root st0 st1 root).
  { destruct (shas (mod_opts lib root) "mdepends") eqn:Em.
    - apply (visit_ok lib root fuel); auto. now left.
    - inversion E1; subst st1. split; [exact G0|]. split; [apply mono_refl; exact W|].
      destruct (no_mdepends_closed st0 root Em). repeat split; auto. }
  destruct Hp as (G1 & M1 & C1 & I1 & N1).
  destruct (drain fuel root st1) as [st2| |] eqn:E2; simpl in H1; try discriminate.
  destruct (drain_ok lib root fuel st1 st2 G1) as (G2 & M2 & C2 & Q2); auto.
  { intros m [->|[k Hk]]; [auto|]. apply N1 in Hk. destruct Hk as [Hk|Hk]; [discriminate|exact Hk]. }
  destruct (check_inc st2); simpl in H1; try discriminate.
  destruct (with_keys (c_keys st2) (dvalues (c_dep st2))) as [r| |] eqn:E3; simpl in H1; try discriminate.
  inversion H1; subst. exists st2. split; [exact G2|]. split; [exact C2|]. split; [exact Q2|].
  split; [reflexivity|]. split; [reflexivity|].
  rewrite <- (with_keys_map _ _ _ E3). apply Permutation_map, sort_keys_perm.
Qed.

Lemma in_values st m : NoDup (dkeys (c_dep st)) ->
  (In m (dvalues (c_dep st)) <-> exists n, sget (c_dep st) n = Some m).
Proof.
  intros N. unfold dvalues. rewrite in_map_iff. split.
  - intros ([n x] & <- & Hi). exists n. now apply (dget_of_In _ string_eqb_spec').
  - intros [n H]. exists (n, m). split; [reflexivity|]. now apply (dget_In _ string_eqb_spec').
Qed.

Section Final.
  Variables (fuel : nat) (lib : mlib) (root : nat) (l : list nat) (lib' : mlib).
  Variable inc : list (string * list string).
  Hypothesis W : wf_lib lib.
  Hypothesis Hr : nth_error (l_heap lib) root <> None.
  Hypothesis H : collect_modules fuel lib root = Ok (l, lib', inc).

  Lemma final_ext : lext lib lib'.
  Proof.
    destruct (collect_final _ _ _ _ _ _ W Hr H) as (st & G & _ & _ & -> & _). apply G.
  Qed.
  Lemma final_complete m e :
    m = root \/ In m l -> wants lib' m e ->
    match e with
    | EStr n => exists m', In m' l /\ named lib' m' n
    | EPair n i => exists m', In m' l /\ named lib' m' n /\ impl_of lib' n i m'
    | _ => False
    end.
  Proof.
    destruct (collect_final _ _ _ _ _ _ W Hr H) as (st & G & C & Q & -> & _ & P).
    intros Hm We.
    assert (Ha : asks root st m).
    { destruct Hm as [->|Hm]; [now left|]. right.
      apply (in_values st m (g_nodup _ _ _ G)). eapply Permutation_in; [symmetry; exact P|exact Hm]. }
    apply (proj1 (C m Ha)) in We.
    assert (Hin : forall n x, sget (c_dep st) n = Some x -> In x l /\ named (c_lib st) x n).
    { intros n x Hx. split.
      - eapply Permutation_in; [exact P|]. apply (in_values st x (g_nodup _ _ _ G)). eauto.
      - apply (g_dep _ _ _ G) in Hx. destruct Hx as [i Hx].
        apply (wf_obj _ (le_wf _ _ (g_ext _ _ _ G))) in Hx. destruct Hx as (r & A & B & _). exists r. auto. }
    destruct e as [n|n i| |]; simpl in We; auto.
    - rewrite Q in We. destruct We as [We|[]]. apply shas_get in We. destruct We as [x Hx].
      exists x. now apply Hin.
    - destruct We as (x & Hi & Hx). exists x. destruct (Hin n x Hx). auto.
  Qed.
  Lemma final_sound m : In m l ->
    needed lib' root m /\
    exists q n, (q = root \/ In q l) /\ named lib' m n /\
      ((exists i, wants lib' q (EPair n i) /\ impl_of lib' n i m) \/
       (wants lib' q (EStr n) /\ default_of lib' n m)).
  Proof.
    destruct (collect_final _ _ _ _ _ _ W Hr H) as (st & G & C & Q & -> & _ & P).
    intros Hm. apply (Permutation_in _ (Permutation_sym P)), (in_values st m (g_nodup _ _ _ G)) in Hm.
    destruct Hm as [n Hn]. split; [now apply (g_need _ _ _ G n)|].
    destruct (g_just _ _ _ G n m Hn) as (q & Aq & J). exists q, n. split.
    - destruct Aq as [->|Hq]; [now left|]. right. eapply Permutation_in; [exact P|].
      now apply (in_values st q (g_nodup _ _ _ G)).
    - split; [|exact J]. apply (g_dep _ _ _ G) in Hn. destruct Hn as [i Hx].
      apply (wf_obj _ (le_wf _ _ (g_ext _ _ _ G))) in Hx. destruct Hx as (r & A & B & _). exists r. auto.
  Qed.
  Lemma final_once m m' n : In m l -> In m' l -> named lib' m n -> named lib' m' n -> m = m'.
  Proof.
    destruct (collect_final _ _ _ _ _ _ W Hr H) as (st & G & C & Q & -> & _ & P).
    intros Hm Hm' N N'.
    assert (K : forall x, In x l -> named (c_lib st) x n -> sget (c_dep st) n = Some x).
    { intros x Hx Nx. apply (Permutation_in _ (Permutation_sym P)), (in_values st x (g_nodup _ _ _ G)) in Hx.
      destruct Hx as [k Hk]. pose proof Hk as Hk'. apply (g_dep _ _ _ G) in Hk'. destruct Hk' as [i Hi].
      apply (wf_obj _ (le_wf _ _ (g_ext _ _ _ G))) in Hi. destruct Hi as (r & A & B & _).
      assert (k = n) by (eapply named_fun; [exists r; split; eauto|exact Nx]). congruence. }
    apply K in Hm; [|exact N]. apply K in Hm'; [|exact N']. congruence.
  Qed.
  Lemma final_nodup : NoDup l.
  Proof.
    destruct (collect_final _ _ _ _ _ _ W Hr H) as (st & G & C & Q & -> & _ & P).
    eapply Permutation_NoDup; [exact P|].
    assert (K : forall n m, In (n, m) (c_dep st) -> named (c_lib st) m n).
    { intros n m Hi. apply (dget_of_In _ string_eqb_spec') in Hi; [|apply G].
      apply (g_dep _ _ _ G) in Hi. destruct Hi as [i Hi].
      apply (wf_obj _ (le_wf _ _ (g_ext _ _ _ G))) in Hi. destruct Hi as (r & A & B & _). exists r. auto. }
    pose proof (g_nodup _ _ _ G) as N. revert N K. unfold dkeys, dvalues. generalize (c_dep st) as d.
    induction d as [|[n m] d IH]; simpl; intros N K; [constructor|]. inversion N; subst. constructor.
    - intros Hi. apply in_map_iff in Hi. destruct Hi as ([n' m'] & E & Hi). simpl in E. subst m'.
      assert (n = n') by (eapply named_fun; [apply K; left; reflexivity|apply K; right; exact Hi]). subst n'.
      apply H2. apply in_map_iff. exists (n, m). auto.
    - apply IH; auto.
  Qed.
  Lemma final_consistent m n i : m = root \/ In m l -> wants lib' m (EPair n i) ->
    (forall m' j, m' = root \/ In m' l -> wants lib' m' (EPair n j) -> i = j) /\
    (forall x, In x l -> named lib' x n -> impl_of lib' n i x).
  Proof.
    intros Hm Hw. destruct (final_complete m _ Hm Hw) as (x & Hx & Nx & Ix). split.
    - intros m' j Hm' Hw'. destruct (final_complete m' _ Hm' Hw') as (y & Hy & Ny & Iy).
      rewrite (final_once x y n Hx Hy Nx Ny) in Ix.
      now apply (wf_distinct lib' n i n j y (le_wf _ _ final_ext)).
    - intros y Hy Ny. now rewrite (final_once y x n Hy Hx Ny Nx).
  Qed.
  (** included_from *)
  Lemma final_inc_sound n s x : sget inc n = Some s -> In x s ->
    named lib' root x \/
    exists q, (q = root \/ In q l) /\ named lib' q x /\
      (wants lib' q (EStr n) \/ exists i, wants lib' q (EPair n i)).
  Proof.
    destruct (collect_final _ _ _ _ _ _ W Hr H) as (st & G & C & Q & -> & -> & P).
    intros Hs Hx. destruct (g_incs _ _ _ G _ _ _ Hs Hx) as [Hn|(q & e & Aq & Nq & Wq & He)]; [now left|].
    right. exists q. split.
    - destruct Aq as [->|Hq]; [now left|]. right. eapply Permutation_in; [exact P|].
      now apply (in_values st q (g_nodup _ _ _ G)).
    - split; [exact Nq|]. destruct He as [->|[i ->]]; eauto.
  Qed.
  Lemma final_inc_explicit q n i x : q = root \/ In q l -> named lib' q x -> wants lib' q (EPair n i) ->
    exists s, sget inc n = Some s /\ In x s.
  Proof.
    destruct (collect_final _ _ _ _ _ _ W Hr H) as (st & G & C & Q & -> & -> & P).
    intros Hq Nq Wq.
    assert (Ha : asks root st q).
    { destruct Hq as [->|Hm]; [now left|]. right.
      apply (in_values st q (g_nodup _ _ _ G)). eapply Permutation_in; [symmetry; exact P|exact Hm]. }
    apply (proj2 (C q Ha)) in Wq. now apply Wq.
  Qed.
End Final.
