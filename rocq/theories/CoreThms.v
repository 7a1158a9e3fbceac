(** Lemmas about whole histories of a registry, behind PropertiesCore.v. *)
From Coq Require Import Permutation.
From Verif Require Import PyBase SolverModel SpecGraph SolverProofs InvokerModel SpecTrace InvokerThms
  InvokerPath CoreModel SpecCore CoreProofs NeedProofs RuProofs.

(** ** Evaluation leaves unregistered and plain objects alone. *)
Section Idle.
  Variable canon : string -> string.
  Variable update_if : nat -> res bool.

  Lemma eval_one_frame fuel c i c' : eval_one canon update_if fuel c i = Ok c' ->
    wf_core c -> caches_fresh canon c -> needs_right canon update_if c ->
    forall k, k <> i \/ t_class (obj c i) = Plain -> t_need (obj c' k) = t_need (obj c k).
  Proof.
    unfold eval_one. destruct (t_class (obj c i)) eqn:Ec; [intros [= <-]; auto|].
    destruct (rec_need canon update_if fuel c i) as [[b c1]| |] eqn:Er; simpl; try discriminate.
    intros [= <-] Hw Hf Hn k [Hk|Hk]; [|discriminate].
    destruct (rec_need_sound canon update_if _ _ _ _ _ Er Hw Hf Hn) as (_ & _ & N1 & _).
    rewrite need_set_need. destruct (Nat.eqb_spec k i); [contradiction|]. simpl. apply N1.
  Qed.

  Lemma eval_all_frame fuel ids : forall c c', eval_all canon update_if fuel ids c = Ok c' ->
    (forall i, In i ids -> i < List.length (c_heap c)) ->
    wf_core c -> caches_fresh canon c -> needs_right canon update_if c ->
    forall k, ~ In k ids \/ t_class (obj c k) = Plain -> t_need (obj c' k) = t_need (obj c k).
  Proof.
    induction ids as [|i ids IH]; intros c c'; simpl; [intros [= <-]; auto|].
    destruct (eval_one canon update_if fuel c i) as [c1| |] eqn:E1; simpl; try discriminate.
    intros Hr Hi Hw Hf Hn k Hk.
    destruct (eval_one_sound canon update_if _ _ _ _ E1 (Hi i (or_introl eq_refl)) Hw Hf Hn) as (S1 & F1 & N1 & _ & _).
    rewrite (IH _ _ Hr); auto.
    - apply (eval_one_frame fuel c i c1 E1 Hw Hf Hn). destruct Hk as [Hk|Hk]; [left; intuition|].
      destruct (Nat.eq_dec k i) as [->|n]; [now right|now left].
    - intros j Hj. destruct S1 as (_ & _ & <- & _). apply Hi. now right.
    - now apply (static_wf c).
    - destruct Hk as [Hk|Hk]; [left; intuition|right].
      destruct S1 as (_ & _ & _ & S1). destruct (S1 k) as (_ & _ & <-). exact Hk.
  Qed.

  Lemma evaluation_idle fuel c c' :
    wf_core c -> caches_fresh canon c -> unregistered_idle c -> plain_idle c ->
    update_update_needity canon update_if fuel c = Ok c' ->
    unregistered_idle c' /\ plain_idle c'.
  Proof.
    intros Hw Hf Hu Hp He.
    destruct (evaluation_right canon update_if fuel c c' Hw Hf Hu Hp He) as (S' & _).
    unfold update_update_needity in He. pose proof (nullified c Hw Hu Hp) as Hn.
    destruct (nullify_fold (dvalues (c_targets c)) c) as (S & C & _ & _). fold (nullify c) in S, C.
    set (c1 := nullify c) in *.
    assert (F : forall k, ~ In k (dvalues (c_targets c1)) \/ t_class (obj c1 k) = Plain -> t_need (obj c' k) = None).
    { intros k Hk. rewrite (eval_all_frame fuel _ _ _ He); auto.
      - intros i Hi. apply values_In in Hi. destruct Hi as [nm Hi].
        destruct (static_wf _ _ S Hw) as [_ H]. eauto.
      - now apply (static_wf c).
      - intros i l Hi. rewrite C in Hi.
        rewrite (mapM_ext _ (core_get canon c)) by (intros x _; symmetry; now apply static_get).
        destruct S as (_ & _ & _ & S). destruct (S i) as (_ & <- & _). now apply Hf.
      - intros i b Hi. rewrite Hn in Hi. discriminate. }
    split.
    - intros k Hk. apply F. left. rewrite values_In. intros [nm Hin]. apply (Hk nm).
      destruct S as (S & _). destruct S' as (S' & _). now rewrite <- S', S.
    - intros k Hk. apply F. right. destruct S as (_ & _ & _ & S). destruct (S k) as (_ & _ & <-).
      destruct S' as (_ & _ & _ & S'). destruct (S' k) as (_ & _ & ->). exact Hk.
  Qed.
End Idle.

Lemma obj_app c' c t i : c_heap c' = c_heap c ++ [t] -> i < List.length (c_heap c) -> obj c' i = obj c i.
Proof. intros E H. unfold obj. rewrite E. now apply app_nth1. Qed.

(** Freshly registered objects: nothing cached, nothing evaluated. *)
Definition pristine (c : core) : Prop :=
  forall i, t_need (obj c i) = None /\ t_cached (obj c i) = None.

Lemma pristine_run canon ops c : pristine c -> pristine (crun canon ops c).
Proof.
  revert c; induction ops as [|o ops IH]; intros c H; simpl; [exact H|]. apply IH. clear IH ops.
  destruct o as [cls nm deps|nm|a b]; cbn [cstep].
  - intros i. unfold obj. rewrite core_new_heap.
    destruct (Nat.lt_ge_cases i (List.length (c_heap c))) as [L|L].
    + rewrite app_nth1 by exact L. apply (H i).
    + rewrite app_nth2 by exact L. destruct (i - List.length (c_heap c)) as [|[|k]]; split; reflexivity.
  - unfold core_has. destruct (sget (c_targets c) nm); [exact H|].
    destruct (sget (c_targets c) (canon nm)); exact H.
  - destruct (depends_as_set canon c a b) as [[l c']| |] eqn:E; [|exact H|exact H].
    apply depends_shape in E. destruct E as (_ & E & _). intros i. unfold obj. rewrite E. apply (H i).
Qed.

Lemma wf_new th : wf_core (new_core th).
Proof. split; [constructor|intros nm i []]. Qed.

Lemma session_ok canon ops th c : session canon ops th c ->
  wf_core c /\ caches_fresh canon c /\ unregistered_idle c /\ plain_idle c /\
  same_static (crun canon ops (new_core th)) c.
Proof.
  induction 1 as [|c c' u fuel _ (I1 & I2 & I3 & I4 & I5) He].
  - assert (P : pristine (crun canon ops (new_core th))).
    { apply pristine_run. intros i. unfold obj. simpl. destruct i; split; reflexivity. }
    split; [apply wf_run, wf_new|]. split; [|split; [|split; [|apply static_refl]]].
    + intros i l Hl. destruct (P i) as [_ Hc]. congruence.
    + intros i _. apply P.
    + intros i _. apply P.
  - destruct (evaluation_right canon u fuel c c' I1 I2 I3 I4 He) as (S & F & _ & _).
    destruct (evaluation_idle canon u fuel c c' I1 I2 I3 I4 He) as [U P].
    split; [now apply (static_wf c)|]. repeat split; auto; eapply static_trans; eauto.
Qed.

(** C20 *)
Lemma session_needs canon ops th c : session canon ops th c -> forall update_if fuel c',
  update_update_needity canon update_if fuel c = Ok c' ->
  forall nm i, In (nm, i) (c_targets c) -> t_class (obj c i) = Updatable ->
  (t_need (obj c' i) = Some true /\ out_of_date_below canon update_if c i) \/
  (t_need (obj c' i) = Some false /\ ~ out_of_date_below canon update_if c i).
Proof.
  intros Hs u fuel c' He nm i Hi Hc. destruct (session_ok canon ops th c Hs) as (I1 & I2 & I3 & I4 & _).
  destruct (evaluation_right canon u fuel c c' I1 I2 I3 I4 He) as (_ & _ & _ & N).
  destruct (N nm i Hi Hc) as (b & Hb & E). destruct b; [left|right]; (split; [exact Hb|]).
  - now apply E.
  - intros H. apply E in H. discriminate.
Qed.
Lemma session_evaluates canon ops th c : session canon ops th c -> forall update_if, healthy canon update_if c ->
  forall fuel, List.length (c_heap c) < fuel ->
  exists c', update_update_needity canon update_if fuel c = Ok c'.
Proof.
  intros Hs u Hh fuel Hf. destruct (session_ok canon ops th c Hs) as (I1 & I2 & I3 & I4 & _).
  now apply evaluation_total.
Qed.

Lemma In_sset {V} (d : list (string * V)) k v x y : NoDup (map fst d) ->
  In (x, y) (sset d k v) <-> (x = k /\ y = v) \/ (x <> k /\ In (x, y) d).
Proof.
  intros Hd. assert (Hd' : NoDup (dkeys (sset d k v))) by (apply (dset_nodup String.eqb string_eqb_spec'); exact Hd).
  split.
  - intros H. apply (dget_of_In String.eqb string_eqb_spec') in H; [|exact Hd'].
    destruct (String.eqb_spec x k) as [->|n].
    + left. rewrite (dget_dset_eq String.eqb string_eqb_spec') in H. injection H as <-. auto.
    + right. split; [exact n|]. rewrite (dget_dset_neq String.eqb string_eqb_spec') in H by congruence.
      now apply (dget_In String.eqb string_eqb_spec').
  - intros [[-> ->]|[n H]]; apply (dget_In String.eqb string_eqb_spec').
    + apply (dget_dset_eq String.eqb string_eqb_spec').
    + rewrite (dget_dset_neq String.eqb string_eqb_spec') by congruence.
      now apply (dget_of_In String.eqb string_eqb_spec').
Qed.

(** ** Registries whose targets have distinct names are coherent. *)
Lemma coherent_run canon ops : forall c,
  wf_core c -> coherent canon c ->
  (forall nm i, In (nm, i) (c_targets c) -> In (t_name (obj c i), i) (c_targets c)) ->
  NoDup (map t_name (c_heap c) ++ new_names ops) -> coherent canon (crun canon ops c).
Proof.
  induction ops as [|o ops IH]; intros c Hw Hco Hk Hnd; simpl; [exact Hco|].
  assert (K : forall c, (forall nm i, In (nm, i) (c_targets c) -> In (t_name (obj c i), i) (c_targets c)) -> coherent canon c).
  { intros c0 H nm i Hi. left. eauto. }
  destruct o as [cls nm deps|nm|a b]; cbn [cstep].
  - assert (H' : forall nm0 i, In (nm0, i) (c_targets (core_new c cls nm deps)) ->
        In (t_name (obj (core_new c cls nm deps) i), i) (c_targets (core_new c cls nm deps))).
    { pose proof (core_new_heap c cls nm deps) as Eh. rewrite core_new_targets.
      intros nm0 i Hi. apply In_sset in Hi; [|apply Hw].
      destruct Hi as [[-> ->]|[Hne Hi]].
      - unfold obj. rewrite Eh, app_nth2, Nat.sub_diag by lia. simpl.
        apply In_sset; [apply Hw|]. now left.
      - assert (L : i < List.length (c_heap c)) by (destruct Hw as [_ Hw]; eauto).
        rewrite (obj_app _ c _ i Eh L). apply In_sset; [apply Hw|]. right. split; [|eauto].
        intros E. simpl in Hnd. apply NoDup_remove_2 in Hnd. apply Hnd. apply in_app_iff. left.
        rewrite <- E. apply in_map. unfold obj. now apply nth_In. }
    apply IH; [now apply (wf_step canon c (OpNew cls nm deps))|now apply K|exact H'|].
    rewrite core_new_heap, map_app, <- app_assoc. exact Hnd.
  - assert (Eh : c_heap (snd (core_has canon c nm)) = c_heap c).
    { unfold core_has. destruct (sget (c_targets c) nm); [reflexivity|].
      destruct (sget (c_targets c) (canon nm)); reflexivity. }
    assert (H' : forall nm0 i, In (nm0, i) (c_targets (snd (core_has canon c nm))) ->
        In (t_name (obj (snd (core_has canon c nm)) i), i) (c_targets (snd (core_has canon c nm)))).
    { assert (Eo : forall i, obj (snd (core_has canon c nm)) i = obj c i) by (intros i; unfold obj; now rewrite Eh).
      intros nm0 i. rewrite Eo. revert nm0 i. clear Eo Eh. unfold core_has.
      destruct (sget (c_targets c) nm) as [x|] eqn:E1; [exact Hk|].
      destruct (sget (c_targets c) (canon nm)) as [x|] eqn:E2; [|exact Hk].
      simpl. intros nm0 i Hi. apply In_sset in Hi; [|apply Hw].
      apply In_sset; [apply Hw|].
      assert (In (t_name (obj c i), i) (c_targets c)).
      { destruct Hi as [[-> ->]|[_ Hi]]; [|eauto]. apply (Hk (canon nm)).
        apply (dget_In String.eqb string_eqb_spec'). exact E2. }
      right. split; [|exact H]. intros E. rewrite E in H.
      apply (dget_of_In String.eqb string_eqb_spec') in H; [|apply Hw]. unfold sget in *. rewrite E1 in H. discriminate. }
    apply IH; [now apply (wf_step canon c (OpHas nm))|now apply K|exact H'|].
    rewrite Eh. exact Hnd.
  - assert (Es : c_targets (cstep canon c (OpDepends a b)) = c_targets c /\ c_heap (cstep canon c (OpDepends a b)) = c_heap c).
    { cbn [cstep]. destruct (depends_as_set canon c a b) as [[l c']| |] eqn:E; auto.
      apply depends_shape in E. tauto. }
    cbn [cstep] in Es. destruct Es as [E1 E2].
    assert (H' : forall nm i, In (nm, i) (c_targets c) -> In (t_name (obj c i), i) (c_targets c)) by exact Hk.
    apply IH.
    + now apply (wf_step canon c (OpDepends a b)).
    + apply K. unfold obj. rewrite E1, E2. exact Hk.
    + unfold obj. rewrite E1, E2. exact Hk.
    + rewrite E2. exact Hnd.
Qed.

Lemma coherent_static canon c c' : same_static c c' -> coherent canon c -> coherent canon c'.
Proof.
  intros S H nm i Hi. destruct S as (E & E2 & E3 & E4). destruct (E4 i) as (<- & _).
  apply (static_resolves canon c c'); [split; auto|]. apply (H nm). now rewrite E.
Qed.

Lemma no_pair_static canon update_if fuel c c' : update_update_needity canon update_if fuel c = Ok c' ->
  c_lazy c' = c_lazy c.
Proof.
  assert (R : forall fuel c i b c', rec_need canon update_if fuel c i = Ok (b, c') -> c_lazy c' = c_lazy c).
  { clear. induction fuel as [|fuel IH]; intros c i b c'; [discriminate|]. simpl.
    destruct (t_class (obj c i)); [discriminate|]. destruct (t_need (obj c i)); [now intros [= <- <-]|].
    destruct (update_if i) as [[|]| |]; simpl; try discriminate; [now intros [= <- <-]|].
    destruct (get_deplist canon c i) as [[l c1]| |] eqn:Eg; simpl; try discriminate.
    assert (E1 : c_lazy c1 = c_lazy c).
    { unfold get_deplist in Eg. destruct (t_cached (obj c i)); [now injection Eg as <- <-|].
      destruct (mapM _ _); simpl in Eg; try discriminate. now injection Eg as <- <-. }
    rewrite <- E1. clear E1 Eg. revert c1. induction l as [|j l IHl]; intros c1; [now intros [= <- <-]|].
    destruct (rec_need canon update_if fuel c1 j) as [[b1 c2]| |] eqn:Er; simpl; try discriminate.
    apply IH in Er. rewrite <- Er. destruct b1; [now intros [= <- <-]|]. apply IHl. }
  unfold update_update_needity.
  assert (E : c_lazy (nullify c) = c_lazy c).
  { unfold nullify. generalize (dvalues (c_targets c)). intros ids. revert c.
    induction ids as [|i ids IH]; intros c; simpl; [reflexivity|]. rewrite IH. unfold nullify_one.
    destruct (t_class (obj c i)); reflexivity. }
  rewrite <- E. generalize (nullify c). clear c E. intros c. generalize (dvalues (c_targets c)).
  intros ids. revert c. induction ids as [|i ids IH]; intros c; simpl; [now intros [= <-]|].
  destruct (eval_one canon update_if fuel c i) as [c1| |] eqn:E; simpl; try discriminate.
  intros H. rewrite (IH _ H). unfold eval_one in E. destruct (t_class (obj c i)); [now injection E as <-|].
  destruct (rec_need canon update_if fuel c i) as [[b c2]| |] eqn:Er; simpl in E; try discriminate.
  injection E as <-. simpl. now apply R in Er.
Qed.

(** Sessions that register distinct names. *)
Lemma session_distinct canon ops th c : session canon ops th c -> NoDup (new_names ops) ->
  wf_core c /\ coherent canon c /\ no_pair_keys c /\ c_threads c = th /\
  forall nm i, In (nm, i) (c_targets c) -> resolves canon c (t_name (obj c i)) i.
Proof.
  intros Hs Hd. destruct (session_ok canon ops th c Hs) as (Hw & _ & _ & _ & S).
  assert (Hc : coherent canon c).
  { apply (coherent_static canon _ _ S). apply coherent_run; [apply wf_new| | |exact Hd]; intros nm i []. }
  split; [exact Hw|]. split; [exact Hc|]. split; [|split; [|exact Hc]].
  - clear - Hs. induction Hs as [|c c' u fuel _ IH He].
    + apply no_pair_run. intros k b l [].
    + apply no_pair_static in He. unfold no_pair_keys in *. now rewrite He.
  - destruct S as (_ & <- & _). clear.
    assert (G : forall ops c, c_threads (crun canon ops c) = c_threads c); [|now rewrite G].
    clear. induction ops as [|o ops IH]; intros c; [reflexivity|]. simpl. rewrite IH.
    destruct o as [cls nm deps|nm|a b]; cbn [cstep]; [reflexivity| |].
    + unfold core_has. destruct (sget (c_targets c) nm); [reflexivity|].
      destruct (sget (c_targets c) (canon nm)); reflexivity.
    + unfold depends_as_set. destruct (dget _ _ _); [reflexivity|].
      destruct (das_impl _ _ _ _ _); reflexivity.
Qed.
