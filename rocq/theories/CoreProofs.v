(** Lemmas about CoreModel.v: registry and closure. *)
From Coq Require Import Permutation.
From Verif Require Import PyBase SolverModel InvokerModel CoreModel SpecCore.

Section Registry.
  Variable canon : string -> string.

  Lemma sget_In_iff c nm i : wf_core c ->
    sget (c_targets c) nm = Some i <-> In (nm, i) (c_targets c).
  Proof.
    intros [H _]. split; [apply (dget_In String.eqb string_eqb_spec')|].
    now apply (dget_of_In String.eqb string_eqb_spec').
  Qed.

  Lemma sget_none c nm : sget (c_targets c) nm = None <-> ~ In nm (map fst (c_targets c)).
  Proof. apply (dget_None String.eqb string_eqb_spec'). Qed.

  Lemma get_resolves c nm i : wf_core c -> core_get canon c nm = Ok i <-> resolves canon c nm i.
  Proof.
    intros Hw. unfold core_get, resolves. destruct (sget (c_targets c) nm) as [k|] eqn:E.
    - split.
      + intros [= ->]. left. now apply sget_In_iff.
      + intros [H|[H _]]; [apply sget_In_iff in H; congruence|]. exfalso.
        apply sget_none in H. congruence.
    - destruct (sget (c_targets c) (canon nm)) as [k|] eqn:E2.
      + split.
        * intros [= ->]. right. split; [now apply sget_none|now apply sget_In_iff].
        * intros [H|[_ H]]; apply sget_In_iff in H; congruence.
      + split; [discriminate|]. intros [H|[_ H]]; apply sget_In_iff in H; congruence.
  Qed.

  Lemma get_cases c nm :
    (exists i, core_get canon c nm = Ok i) \/
    core_get canon c nm = Raise (exit_unregistered nm).
  Proof.
    unfold core_get. destruct (sget (c_targets c) nm); [eauto|].
    destruct (sget (c_targets c) (canon nm)); eauto.
  Qed.

  Lemma get_raise c nm : wf_core c ->
    (exists e, core_get canon c nm = Raise e) <-> ~ registered canon c nm.
  Proof.
    intros Hw. split.
    - intros [e E] [i Hi]. apply get_resolves in Hi; [congruence|exact Hw].
    - intros Hn. destruct (get_cases c nm) as [[i Hi]|Hi]; [|eauto].
      exfalso; apply Hn. exists i. now apply get_resolves.
  Qed.

  Lemma get_exit c nm : wf_core c ->
    core_get canon c nm = Raise (exit_unregistered nm) <->
    ~ registered canon c nm.
  Proof.
    intros Hw. rewrite <- get_raise by exact Hw. split; [eauto|].
    intros [e E]. destruct (get_cases c nm) as [[i Hi]|Hi]; [congruence|exact Hi].
  Qed.

  Lemma resolves_fun c nm i j : wf_core c -> resolves canon c nm i -> resolves canon c nm j -> i = j.
  Proof. intros Hw Hi Hj. apply get_resolves in Hi, Hj; auto. congruence. Qed.

  Lemma resolves_lt c nm i : wf_core c -> resolves canon c nm i -> i < List.length (c_heap c).
  Proof. intros [_ Hw] [H|[_ H]]; eauto. Qed.

  Lemma resolves_value c nm i : resolves canon c nm i -> exists k, In (k, i) (c_targets c).
  Proof. intros [H|[_ H]]; eauto. Qed.

  (** ** Operations keep the registry well formed. *)
  Lemma wf_empty : wf_core empty_core.
  Proof. split; [constructor|intros ? ? []]. Qed.

  Lemma nth_app_new (l : list tobj) t i : nth i (l ++ [t]) dummy_obj =
    if i =? List.length l then t else nth i l dummy_obj.
  Proof.
    destruct (Nat.eqb_spec i (List.length l)) as [->|n].
    - now rewrite app_nth2, Nat.sub_diag by lia.
    - destruct (Nat.lt_ge_cases i (List.length l)) as [H|H]; [now rewrite app_nth1|].
      rewrite !nth_overflow; auto. rewrite app_length. simpl. lia.
  Qed.

  Lemma core_new_targets c cls nm deps :
    c_targets (core_new c cls nm deps) = sset (c_targets c) nm (List.length (c_heap c)).
  Proof.
    unfold core_new, core_add. simpl. unfold obj. simpl. rewrite nth_app_new, Nat.eqb_refl. reflexivity.
  Qed.

  Lemma core_new_heap c cls nm deps :
    c_heap (core_new c cls nm deps) = c_heap c ++ [new_obj cls nm deps].
  Proof. reflexivity. Qed.

  Lemma In_dset {V} (d : list (string * V)) k v x y :
    In (x, y) (sset d k v) -> (x = k /\ y = v) \/ In (x, y) d.
  Proof.
    induction d as [|[k1 v1] d IH]; simpl.
    - intros [[= -> ->]|[]]. now left.
    - destruct (String.eqb_spec k k1) as [->|n]; simpl.
      + intros [[= -> ->]|H]; [now left|right; now right].
      + intros [H|H]; [right; now left|]. destruct (IH H); [now left|right; now right].
  Qed.

  Lemma wf_set c k i l th h :
    wf_core c -> i < List.length h -> List.length (c_heap c) <= List.length h ->
    wf_core (CO (sset (c_targets c) k i) h l th).
  Proof.
    intros [H1 H2] Hi Hl. split; simpl.
    - now apply (dset_nodup String.eqb string_eqb_spec').
    - intros nm j Hj. apply In_dset in Hj. destruct Hj as [[_ ->]|Hj]; [exact Hi|].
      apply H2 in Hj. lia.
  Qed.

  Lemma wf_new c cls nm deps : wf_core c -> wf_core (core_new c cls nm deps).
  Proof.
    intros H. unfold core_new, core_add. simpl. apply (wf_set c); [exact H| |];
      rewrite app_length; simpl; lia.
  Qed.

  Lemma has_fst c nm : fst (core_has canon c nm) = true <-> exists i, core_get canon c nm = Ok i.
  Proof.
    unfold core_has, core_get. destruct (sget (c_targets c) nm); simpl.
    - split; eauto.
    - destruct (sget (c_targets c) (canon nm)); simpl; split; eauto; try discriminate.
      intros [i [=]].
  Qed.

  Lemma wf_has c nm : wf_core c -> wf_core (snd (core_has canon c nm)).
  Proof.
    intros H. unfold core_has. destruct (sget (c_targets c) nm); simpl; [exact H|].
    destruct (sget (c_targets c) (canon nm)) as [i|] eqn:E; simpl; [|exact H].
    apply (wf_set c); [exact H| |lia]. apply sget_In_iff in E; [|exact H]. destruct H as [_ H]. eauto.
  Qed.

  Lemma depends_shape c a b l c' : depends_as_set canon c a b = Ok (l, c') ->
    c_targets c' = c_targets c /\ c_heap c' = c_heap c /\ c_threads c' = c_threads c.
  Proof.
    unfold depends_as_set. destruct (dget _ _ _); [intros [= _ <-]; auto|].
    destruct (das_impl _ _ _ _ _); simpl; try discriminate. intros [= _ <-]. auto.
  Qed.

  Lemma wf_step c o : wf_core c -> wf_core (cstep canon c o).
  Proof.
    intros H. destruct o as [cls nm deps|nm|a b]; cbn [cstep].
    - now apply wf_new.
    - now apply wf_has.
    - destruct (depends_as_set canon c a b) as [[l c']| |] eqn:E; [|exact H|exact H].
      apply depends_shape in E. destruct E as (E1 & E2 & _). unfold wf_core. now rewrite E1, E2.
  Qed.

  Lemma wf_run ops c : wf_core c -> wf_core (crun canon ops c).
  Proof.
    revert c. induction ops as [|o ops IH]; intros c H; simpl; [exact H|].
    apply IH. now apply wf_step.
  Qed.

  (** ** C16 *)

  Lemma step_sget_stable c o nm i :
    ~ adds_name nm o -> sget (c_targets c) nm = Some i ->
    sget (c_targets (cstep canon c o)) nm = Some i.
  Proof.
    intros Ha Hs. destruct o as [cls n deps|n|a b]; cbn [cstep].
    - rewrite core_new_targets, (dget_dset_neq String.eqb string_eqb_spec'); [exact Hs|exact Ha].
    - unfold core_has. destruct (sget (c_targets c) n) eqn:E; simpl; [exact Hs|].
      destruct (sget (c_targets c) (canon n)); simpl; [|exact Hs].
      rewrite (dget_dset_neq String.eqb string_eqb_spec'); [exact Hs|congruence].
    - destruct (depends_as_set canon c a b) as [[l c']| |] eqn:E; [|exact Hs|exact Hs].
      apply depends_shape in E. destruct E as (-> & _). exact Hs.
  Qed.

  Lemma add_then_get c cls nm deps ops :
    Forall (fun o => ~ adds_name nm o) ops ->
    core_get canon (crun canon ops (core_new c cls nm deps)) nm = Ok (List.length (c_heap c)).
  Proof.
    intros Hf.
    assert (G : sget (c_targets (core_new c cls nm deps)) nm = Some (List.length (c_heap c))).
    { rewrite core_new_targets. apply (dget_dset_eq String.eqb string_eqb_spec'). }
    revert G. generalize (core_new c cls nm deps). induction ops as [|o ops IH]; intros c' G; simpl.
    - unfold core_get. now rewrite G.
    - inversion Hf as [|? ? Ho Hr]; subst. apply IH; [exact Hr|]. now apply step_sget_stable.
  Qed.

  Lemma add_other_get c cls nm deps nm' :
    nm' <> nm -> canon nm' <> nm ->
    core_get canon (core_new c cls nm deps) nm' = core_get canon c nm'.
  Proof.
    intros H1 H2. unfold core_get. rewrite core_new_targets.
    rewrite !(dget_dset_neq String.eqb string_eqb_spec') by congruence. reflexivity.
  Qed.

  Lemma has_iff_registered c nm : wf_core c ->
    fst (core_has canon c nm) = true <-> registered canon c nm.
  Proof.
    intros Hw. rewrite has_fst. split; intros [i Hi]; exists i; now apply get_resolves in Hi || apply get_resolves.
  Qed.

  (** ** C17, positive part: [has] is invisible unless its canonical name is registered again. *)
  Hypothesis canon_idem : forall p, canon (canon p) = canon p.

  Definition alias_rel (a : string) (c c' : core) : Prop :=
    c_heap c = c_heap c' /\
    (forall k, k <> a -> sget (c_targets c) k = sget (c_targets c') k) /\
    (sget (c_targets c) a = sget (c_targets c') a \/
     (sget (c_targets c) a = None /\ sget (c_targets c') a = sget (c_targets c) (canon a))).

  Lemma alias_canon a c c' k : alias_rel a c c' ->
    sget (c_targets c) (canon k) = sget (c_targets c') (canon k).
  Proof.
    intros (_ & H2 & H3). destruct (string_dec (canon k) a) as [E|E]; [|now apply H2].
    rewrite E. destruct H3 as [H3|[H3 H4]]; [exact H3|].
    assert (canon a = a) by (rewrite <- E; apply canon_idem). congruence.
  Qed.

  Lemma alias_get a c c' : alias_rel a c c' -> forall nm, core_get canon c nm = core_get canon c' nm.
  Proof.
    intros H nm. pose proof (alias_canon a c c' nm H) as Hc. destruct H as (_ & H2 & H3).
    unfold core_get. destruct (string_dec nm a) as [->|E]; [|now rewrite <- (H2 nm E), Hc].
    destruct H3 as [H3|[H3 H4]]; [now rewrite <- H3, Hc|].
    rewrite H3, <- Hc, H4. destruct (sget (c_targets c) (canon a)); reflexivity.
  Qed.

  Lemma alias_step a c c' o : alias_rel a c c' -> ~ adds_name (canon a) o ->
    (forall b x, o <> OpDepends b x) -> alias_rel a (cstep canon c o) (cstep canon c' o).
  Proof.
    intros H Ha Hd. pose proof H as H0. destruct H as (H1 & H2 & H3).
    destruct o as [cls n deps|n|b x]; cbn [cstep]; [| |exfalso; now apply (Hd b x)].
    - simpl in Ha. split; [|split].
      + rewrite !core_new_heap. now rewrite H1.
      + intros k Hk. rewrite !core_new_targets, H1. destruct (string_dec n k) as [->|Hn].
        * now rewrite !(dget_dset_eq String.eqb string_eqb_spec').
        * rewrite !(dget_dset_neq String.eqb string_eqb_spec') by exact Hn. now apply H2.
      + rewrite !core_new_targets, H1. destruct (string_dec n a) as [->|Hn].
        * left. now rewrite !(dget_dset_eq String.eqb string_eqb_spec').
        * rewrite !(dget_dset_neq String.eqb string_eqb_spec') by congruence. exact H3.
    - pose proof (alias_canon a c c' n H0) as Hc. unfold core_has.
      destruct (string_dec n a) as [->|Hn].
      + destruct H3 as [H3|[H3 H4]].
        * rewrite <- H3. destruct (sget (c_targets c) a) eqn:E; simpl; [exact H0|].
          rewrite <- Hc. destruct (sget (c_targets c) (canon a)) as [i|] eqn:E2; simpl; [|exact H0].
          split; [exact H1|]. split; simpl.
          -- intros k Hk. rewrite !(dget_dset_neq String.eqb string_eqb_spec') by congruence. now apply H2.
          -- left. now rewrite !(dget_dset_eq String.eqb string_eqb_spec').
        * rewrite H3, H4, <- Hc. destruct (sget (c_targets c) (canon a)) as [i|] eqn:E2; simpl.
          -- split; [exact H1|]. split; simpl.
             ++ intros k Hk. rewrite !(dget_dset_neq String.eqb string_eqb_spec') by congruence. now apply H2.
             ++ left. rewrite !(dget_dset_eq String.eqb string_eqb_spec'). now symmetry.
          -- exact H0.
      + rewrite <- (H2 n Hn). destruct (sget (c_targets c) n) eqn:E; simpl; [exact H0|].
        rewrite <- Hc. destruct (sget (c_targets c) (canon n)) as [i|] eqn:E2; simpl; [|exact H0].
        split; [exact H1|]. split; simpl.
        * intros k Hk. destruct (string_dec n k) as [->|Hnk].
          -- now rewrite !(dget_dset_eq String.eqb string_eqb_spec').
          -- rewrite !(dget_dset_neq String.eqb string_eqb_spec') by exact Hnk. now apply H2.
        * rewrite !(dget_dset_neq String.eqb string_eqb_spec' _ n a) by exact Hn.
          destruct (string_dec n (canon a)) as [E3|E3].
          { left. destruct H3 as [H3|[H3 H4]]; [exact H3|].
            rewrite <- E3, E in H4. congruence. }
          rewrite (dget_dset_neq String.eqb string_eqb_spec') by exact E3. exact H3.
  Qed.

  Lemma alias_depends a c c' b x : alias_rel a c c' ->
    alias_rel a (cstep canon c (OpDepends b x)) (cstep canon c' (OpDepends b x)).
  Proof.
    intros H. simpl.
    assert (G : forall d, c_targets (match depends_as_set canon d b x with Ok (_, d') => d' | _ => d end) = c_targets d
             /\ c_heap (match depends_as_set canon d b x with Ok (_, d') => d' | _ => d end) = c_heap d).
    { intros d. destruct (depends_as_set canon d b x) as [[l d']| |] eqn:E; auto.
      apply depends_shape in E. tauto. }
    unfold alias_rel. destruct (G c) as [G1 G2]. destruct (G c') as [G3 G4].
    rewrite G1, G2, G3, G4. exact H.
  Qed.

  Lemma has_alias c nm : alias_rel nm c (snd (core_has canon c nm)).
  Proof.
    unfold core_has. destruct (sget (c_targets c) nm) eqn:E; simpl; [repeat split; auto|].
    destruct (sget (c_targets c) (canon nm)) as [i|] eqn:E2; simpl; [|repeat split; auto].
    split; [reflexivity|]. split; simpl.
    - intros k Hk. now rewrite (dget_dset_neq String.eqb string_eqb_spec') by congruence.
    - right. split; [exact E|]. now rewrite (dget_dset_eq String.eqb string_eqb_spec').
  Qed.

  Lemma has_invisible c nm ops :
    Forall (fun o => ~ adds_name (canon nm) o) ops ->
    forall q, core_get canon (crun canon ops (snd (core_has canon c nm))) q
            = core_get canon (crun canon ops c) q.
  Proof.
    intros Hf q. symmetry. apply (alias_get nm).
    assert (G : alias_rel nm c (snd (core_has canon c nm))) by apply has_alias.
    remember (snd (core_has canon c nm)) as d' eqn:Ed. clear Ed. revert c d' G.
    induction ops as [|o ops IH]; intros d d' G; [exact G|].
    inversion Hf as [|? ? Ho Hr]; subst. apply IH; [exact Hr|].
    destruct o as [cls n deps|n|b x]; [apply alias_step; auto; discriminate..|now apply alias_depends].
  Qed.
End Registry.

(** ** Sorting *)
Lemma cmp_lt_trans a b c : String_as_OT.lt a b -> String_as_OT.lt b c -> String_as_OT.lt a c.
Proof. apply String_as_OT.lt_trans. Qed.

Lemma insert_In x l y : In y (insert_sorted x l) <-> y = x \/ In y l.
Proof.
  induction l as [|z l IH]; simpl; [intuition|].
  destruct (String_as_OT.cmp x z); simpl; try (rewrite IH); intuition.
Qed.
Lemma py_sorted_In l y : In y (py_sorted l) <-> In y l.
Proof.
  induction l as [|x l IH]; simpl; [tauto|]. rewrite insert_In, IH. intuition.
Qed.
Lemma insert_strict x l : ~ In x l -> strictly_sorted l -> strictly_sorted (insert_sorted x l).
Proof.
  induction l as [|y l IH]; simpl; intros Hn Hs; [repeat constructor|].
  inversion Hs as [|? ? Hs' Hf]; subst. destruct (String_as_OT.cmp x y) eqn:E.
  - apply String_as_OT.cmp_eq in E. subst. exfalso. tauto.
  - apply String_as_OT.cmp_lt in E. constructor; [exact Hs|]. constructor; [exact E|].
    eapply Forall_impl; [|exact Hf]. intros z Hz. eapply cmp_lt_trans; eauto.
  - constructor; [apply IH; tauto|]. apply Forall_forall. intros z Hz. apply insert_In in Hz.
    destruct Hz as [->|Hz]; [apply String_as_OT.cmp_lt; rewrite String_as_OT.cmp_antisym, E; reflexivity|].
    rewrite Forall_forall in Hf. auto.
Qed.
Lemma py_sorted_strict l : NoDup l -> strictly_sorted (py_sorted l).
Proof.
  induction 1 as [|x l Hx Hl IH]; simpl; [constructor|].
  apply insert_strict; [|exact IH]. now rewrite py_sorted_In.
Qed.

Lemma step_rt_t {A} (R : A -> A -> Prop) x y z :
  R x y -> clos_refl_trans A R y z -> clos_trans A R x z.
Proof.
  intros H1 H2. apply Operators_Properties.clos_rt_rtn1 in H2.
  induction H2 as [|u v Huv _ IH]; [now apply t_step|]. eapply t_trans; [exact IH|now apply t_step].
Qed.
Lemma rt_cases {A} (R : A -> A -> Prop) x z :
  clos_refl_trans A R x z -> x = z \/ clos_trans A R x z.
Proof.
  intros H. apply Operators_Properties.clos_rt_rt1n in H. destruct H as [|y z Hy Hz]; [now left|right].
  eapply step_rt_t; [exact Hy|]. now apply Operators_Properties.clos_rt1n_rt.
Qed.

(** ** The closure. *)
Section Closure.
  Variable canon : string -> string.
  Variable c : core.
  Hypothesis Hw : wf_core c.

  Notation ndep := (name_dep canon c).
  Notation reg := (registered canon c).

  Definition all_deps : list string := flat_map t_deps (c_heap c).
  Definition left_over (acc : list string) : list string :=
    filter (fun d => negb (smem String.eqb d acc)) (nodup string_dec all_deps).

  Lemma dep_in_all i d : In d (t_deps (obj c i)) -> In d all_deps.
  Proof.
    intros H. unfold all_deps. apply in_flat_map. exists (obj c i). split; [|exact H].
    unfold obj in *. destruct (Nat.lt_ge_cases i (List.length (c_heap c))) as [Hi|Hi];
      [now apply nth_In|]. rewrite nth_overflow in H by lia. destruct H.
  Qed.

  Lemma left_over_app acc d : In d all_deps -> ~ In d acc ->
    List.length (left_over (acc ++ [d])) < List.length (left_over acc).
  Proof.
    intros H1 H2. unfold left_over.
    assert (G : forall L, In d L -> NoDup L ->
      List.length (filter (fun x => negb (smem String.eqb x (acc ++ [d]))) L) <
      List.length (filter (fun x => negb (smem String.eqb x acc)) L)).
    { assert (G0 : forall L, List.length (filter (fun x => negb (smem String.eqb x (acc ++ [d]))) L) <=
                          List.length (filter (fun x => negb (smem String.eqb x acc)) L)).
      { induction L as [|x L IH]; simpl; [lia|].
        destruct (smem String.eqb x acc) eqn:E; simpl.
        - apply (smem_In String.eqb string_eqb_spec') in E.
          replace (smem String.eqb x (acc ++ [d])) with true; [exact IH|].
          symmetry. apply (smem_In String.eqb string_eqb_spec'). apply in_app_iff. now left.
        - destruct (smem String.eqb x (acc ++ [d])); simpl; lia. }
      induction L as [|x L IH]; intros Hi Hnd; [destruct Hi|].
      inversion Hnd as [|? ? Hx Hl]; subst. simpl. destruct Hi as [->|Hi].
      - replace (smem String.eqb d (acc ++ [d])) with true.
        + replace (smem String.eqb d acc) with false; [simpl; specialize (G0 L); lia|].
          symmetry. now apply (smem_false String.eqb string_eqb_spec').
        + symmetry. apply (smem_In String.eqb string_eqb_spec'). apply in_app_iff. right. now left.
      - specialize (IH Hi Hl). destruct (smem String.eqb x acc) eqn:E; simpl.
        + apply (smem_In String.eqb string_eqb_spec') in E.
          replace (smem String.eqb x (acc ++ [d])) with true; [exact IH|].
          symmetry. apply (smem_In String.eqb string_eqb_spec'). apply in_app_iff. now left.
        + destruct (smem String.eqb x (acc ++ [d])); simpl; lia. }
    apply G; [now apply nodup_In|apply NoDup_nodup].
  Qed.

  Lemma left_over_mono acc acc' : incl acc acc' ->
    List.length (left_over acc') <= List.length (left_over acc).
  Proof.
    intros H. unfold left_over. induction (nodup string_dec all_deps) as [|x L IH]; simpl; [lia|].
    destruct (smem String.eqb x acc) eqn:E; simpl.
    - apply (smem_In String.eqb string_eqb_spec') in E. apply H in E.
      apply (smem_In String.eqb string_eqb_spec') in E. rewrite E. exact IH.
    - destruct (smem String.eqb x acc'); simpl; lia.
  Qed.

  (** What a call [depends_as_set_impl(tgt, acc)] delivers. *)
  Definition das_post (tgt : string) (acc : list string) (r : res (list string)) : Prop :=
    match r with
    | OutOfFuel => False
    | Raise e => exists x, clos_refl_trans string ndep tgt x /\ ~ reg x /\
                    e = exit_unregistered x
    | Ok acc' =>
        incl acc acc' /\ NoDup acc' /\ reg tgt /\
        (forall x, In x acc' -> In x acc \/ clos_trans string ndep tgt x) /\
        (forall x, ~ In x acc -> In x acc' -> reg x /\ forall y, ndep x y -> In y acc') /\
        (forall y, ndep tgt y -> In y acc')
    end.

  Lemma das_impl_post : forall fuel tgt acc,
    List.length (left_over acc) < fuel -> NoDup acc ->
    das_post tgt acc (das_impl canon fuel c tgt acc).
  Proof.
    induction fuel as [|fuel IH]; intros tgt acc Hf Hnd; [lia|]. simpl.
    destruct (core_get canon c tgt) as [i|e|] eqn:Eg; simpl.
    2:{ destruct (get_cases canon c tgt) as [[i Hi]|Hi]; [congruence|].
        exists tgt. split; [apply rt_refl|]. split; [|congruence]. apply get_raise; eauto. }
    2:{ destruct (get_cases canon c tgt) as [[i Hi]|Hi]; congruence. }
    assert (Hr : resolves canon c tgt i) by now apply get_resolves.
    match goal with |- das_post _ _ (?L _ _) => set (loop := L) end.
    assert (G : forall ds acc0, incl ds (t_deps (obj c i)) -> NoDup acc0 ->
              List.length (left_over acc0) <= fuel ->
              match loop ds acc0 with
              | OutOfFuel => False
              | Raise e => exists x, clos_refl_trans string ndep tgt x /\ ~ reg x /\
                                e = exit_unregistered x
              | Ok acc' =>
                  incl acc0 acc' /\ NoDup acc' /\
                  (forall x, In x acc' -> In x acc0 \/ clos_trans string ndep tgt x) /\
                  (forall x, ~ In x acc0 -> In x acc' -> reg x /\ forall y, ndep x y -> In y acc') /\
                  incl ds acc'
              end).
    { induction ds as [|d ds IHds]; intros acc0 Hi Hnd0 Hl; simpl.
      - repeat split; auto; try tauto; try (intros x Hx; tauto). intros x [].
      - assert (Hd : ndep tgt d) by (exists i; split; [exact Hr|apply Hi; now left]).
        assert (Hda : In d all_deps) by (eapply dep_in_all; apply Hi; now left).
        destruct (smem String.eqb d acc0) eqn:Em.
        + apply (smem_In String.eqb string_eqb_spec') in Em.
          specialize (IHds acc0). destruct (loop ds acc0) as [acc'|e|]; auto.
          * destruct IHds as (A & B & C & D & E); auto; [intros x Hx; apply Hi; now right|].
            split; [exact A|]. split; [exact B|]. split; [exact C|]. split; [exact D|].
            intros x [<-|Hx]; auto.
          * apply IHds; auto. intros x Hx; apply Hi; now right.
          * apply IHds; auto. intros x Hx; apply Hi; now right.
        + apply (smem_false String.eqb string_eqb_spec') in Em.
          pose proof (left_over_app acc0 d Hda Em) as Hlt.
          assert (Hnd1 : NoDup (acc0 ++ [d])).
          { apply NoDup_rev in Hnd0. rewrite <- (rev_involutive (acc0 ++ [d])). apply NoDup_rev.
            rewrite rev_app_distr. simpl. constructor; [now rewrite <- in_rev|exact Hnd0]. }
          specialize (IH d (acc0 ++ [d])). unfold das_post in IH.
          destruct (das_impl canon fuel c d (acc0 ++ [d])) as [acc1|e|]; simpl.
          * destruct IH as (A & B & R & C & D & E); [lia|exact Hnd1|].
            assert (Hm : List.length (left_over acc1) <= fuel).
            { pose proof (left_over_mono (acc0 ++ [d]) acc1 A). lia. }
            specialize (IHds acc1). destruct (loop ds acc1) as [acc2|e|].
            -- destruct IHds as (A' & B' & C' & D' & E'); auto; [intros x Hx; apply Hi; now right|].
               assert (Hincl0 : incl acc0 acc1) by (intros x Hx; apply A, in_app_iff; now left).
               split; [intros x Hx; auto|]. split; [exact B'|]. split; [|split].
               ++ intros x Hx. destruct (C' x Hx) as [Hx1|Hx1]; [|now right].
                  destruct (C x Hx1) as [Hx2|Hx2].
                  ** apply in_app_iff in Hx2. destruct Hx2 as [Hx2|[<-|[]]]; [now left|].
                     right. now apply t_step.
                  ** right. eapply t_trans; [apply t_step; exact Hd|exact Hx2].
               ++ intros x Hn Hx. destruct (in_dec string_dec x acc1) as [Hx1|Hx1].
                  ** destruct (string_dec x d) as [->|Hxd].
                     { split; [exact R|]. intros y Hy. apply A', E. exact Hy. }
                     destruct (D x) as [D1 D2]; [|exact Hx1|split; [exact D1|intros y Hy; apply A'; auto]].
                     rewrite in_app_iff. simpl. intuition.
                  ** apply D'; assumption.
               ++ intros x [<-|Hx]; [|now apply E'].
                  apply A', A, in_app_iff. right. now left.
            -- apply IHds; auto. intros x Hx; apply Hi; now right.
            -- apply IHds; auto. intros x Hx; apply Hi; now right.
          * destruct IH as (x & Hx & Hx2 & Hx3); [lia|exact Hnd1|].
            exists x. split; [|auto]. eapply rt_trans; [apply rt_step; exact Hd|exact Hx].
          * apply IH; [lia|exact Hnd1]. }
    specialize (G (t_deps (obj c i)) acc (fun x H => H) Hnd).
    unfold das_post. destruct (loop (t_deps (obj c i)) acc) as [acc'|e|]; try (apply G; lia).
    destruct G as (A & B & C & D & E); [lia|]. repeat split; auto; try (apply D; assumption).
    - now exists i.
    - intros y (j & Hj & Hy). apply E. now rewrite (resolves_fun canon c tgt i j Hw Hr Hj).
  Qed.

  Lemma das_fuel_enough acc : List.length (left_over acc) < das_fuel c.
  Proof.
    unfold das_fuel, left_over. fold all_deps.
    assert (forall L, List.length (filter (fun d => negb (smem String.eqb d acc)) L) <= List.length L).
    { induction L as [|x L IH]; simpl; [lia|]. destruct (negb _); simpl; lia. }
    specialize (H (nodup string_dec all_deps)).
    assert (List.length (nodup string_dec all_deps) <= List.length all_deps).
    { apply NoDup_incl_length; [apply NoDup_nodup|]. intros x. apply nodup_In. }
    lia.
  Qed.

  Definition no_pair_keys : Prop := forall k b l, ~ In (KPair k b, l) (c_lazy c).

  Lemma ckey_eqb_spec : forall a b, reflect (a = b) (ckey_eqb a b).
  Proof.
    induction a as [s|i|k IH x]; destruct b as [s'|j|k' x']; simpl; try (constructor; congruence).
    - destruct (String.eqb_spec s s'); constructor; congruence.
    - destruct (Nat.eqb_spec i j); constructor; congruence.
    - destruct (IH k') as [->|n]; simpl; [|constructor; congruence].
      destruct (Bool.eqb_spec x x') as [->|n]; constructor; congruence.
  Qed.

  Lemma lazy_miss a b : no_pair_keys -> dget ckey_eqb (c_lazy c) (KPair a b) = None.
  Proof.
    intros H. destruct (dget ckey_eqb (c_lazy c) (KPair a b)) eqn:E; [|reflexivity].
    apply (dget_In ckey_eqb ckey_eqb_spec) in E. now apply H in E.
  Qed.

  (** The closure proper. *)
  Lemma depends_as_set_spec a incroot : no_pair_keys ->
    (forall x, clos_refl_trans string ndep (arg_str c a) x -> reg x) /\
    (exists l c', depends_as_set canon c a incroot = Ok (l, c') /\ strictly_sorted l /\
       forall x, In x l <-> (incroot = true /\ x = arg_str c a) \/ clos_trans string ndep (arg_str c a) x)
    \/ exists x, clos_refl_trans string ndep (arg_str c a) x /\ ~ reg x /\
       depends_as_set canon c a incroot = Raise (exit_unregistered x).
  Proof.
    intros Hp. unfold depends_as_set. rewrite (lazy_miss _ _ Hp).
    set (t := arg_str c a). set (acc0 := if incroot then [t] else []).
    assert (Hnd : NoDup acc0) by (unfold acc0; destruct incroot; repeat constructor; simpl; tauto).
    pose proof (das_impl_post (das_fuel c) t acc0 (das_fuel_enough acc0) Hnd) as P.
    destruct (das_impl canon (das_fuel c) c t acc0) as [acc|e|]; simpl in P |- *.
    - left. destruct P as (A & B & R & C & D & E).
      assert (Hin0 : forall x, In x acc0 <-> incroot = true /\ x = t).
      { intros x. unfold acc0. destruct incroot; simpl; intuition; discriminate. }
      assert (Hcl : forall x, clos_trans string ndep t x -> In x acc).
      { intros x Hx. apply Operators_Properties.clos_trans_tn1 in Hx.
        induction Hx as [y Hy|y z Hyz _ IHx]; [now apply E|].
        destruct (in_dec string_dec y acc0) as [Hy|Hy].
        - apply Hin0 in Hy. destruct Hy as [_ ->]. now apply E.
        - exact (proj2 (D y Hy IHx) z Hyz). }
      split.
      + intros x Hx. apply Operators_Properties.clos_rt_rt1n in Hx.
        inversion Hx as [|y z Hy Hz]; subst; [exact R|].
        assert (Ht : clos_trans string ndep t x).
        { apply Operators_Properties.clos_rt1n_rt in Hz. eapply step_rt_t; eauto. }
        destruct (in_dec string_dec x acc0) as [Hx0|Hx0].
        * apply Hin0 in Hx0. destruct Hx0 as [_ ->]. exact R.
        * apply D; [exact Hx0|now apply Hcl].
      + eexists _, _. split; [reflexivity|]. split; [now apply py_sorted_strict|].
        intros x. rewrite py_sorted_In. split.
        * intros Hx. destruct (C x Hx) as [Hx0|Hx0]; [left; now apply Hin0|now right].
        * intros [Hx|Hx]; [apply A; now apply Hin0|now apply Hcl].
    - right. destruct P as (x & H1 & H2 & H3). exists x. split; [exact H1|]. split; [exact H2|]. now rewrite H3.
    - destruct P.
  Qed.
End Closure.

(** The cache never gets a pair as key, so it is never hit (C19). *)
Lemma no_pair_step canon c o : no_pair_keys c -> no_pair_keys (cstep canon c o).
Proof.
  intros H. destruct o as [cls nm deps|nm|a b]; cbn [cstep]; [exact H| |].
  - unfold core_has. destruct (sget (c_targets c) nm); [exact H|].
    destruct (sget (c_targets c) (canon nm)); exact H.
  - unfold depends_as_set. destruct (dget _ _ _) eqn:E; [exact H|].
    destruct (das_impl _ _ _ _ _) as [l| |]; simpl; [|exact H|exact H].
    intros k x l' Hin. simpl in Hin.
    assert (G : forall d v, In (KPair k x, l') (dset ckey_eqb d (arg_key a) v) -> In (KPair k x, l') d).
    { induction d as [|[k1 v1] d IH]; simpl; intros v.
      - intros [E2|[]]. destruct a; discriminate E2.
      - destruct (ckey_eqb_spec (arg_key a) k1) as [<-|n]; simpl.
        + intros [E2|E2]; [destruct a; discriminate E2|now right].
        + intros [E2|E2]; [now left|right; eauto]. }
    apply G in Hin. now apply H in Hin.
Qed.
Lemma no_pair_run canon ops c : no_pair_keys c -> no_pair_keys (crun canon ops c).
Proof.
  revert c. induction ops as [|o ops IH]; intros c H; simpl; [exact H|]. apply IH, no_pair_step, H.
Qed.
Lemma no_pair_empty : no_pair_keys empty_core.
Proof. intros k b l []. Qed.
