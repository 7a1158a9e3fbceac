(** Lemmas about registrations outside of a cone (C21) and about recurse_update without an
    evaluation (C22). *)
From Coq Require Import Permutation.
From Verif Require Import PyBase SolverModel SpecGraph SolverProofs InvokerModel SpecTrace InvokerThms
  InvokerProofs InvokerInv InvokerPath CoreModel SpecCore CoreProofs NeedProofs RuProofs CoreThms.

Lemma sorted_unique l1 : forall l2, strictly_sorted l1 -> strictly_sorted l2 ->
  (forall x, In x l1 <-> In x l2) -> l1 = l2.
Proof.
  induction l1 as [|a l1 IH]; intros l2 H1 H2 Hx.
  - destruct l2 as [|b l2]; [reflexivity|]. exfalso. apply (Hx b). now left.
  - destruct l2 as [|b l2]; [exfalso; apply (Hx a); now left|].
    apply StronglySorted_inv in H1. destruct H1 as [H1 F1].
    apply StronglySorted_inv in H2. destruct H2 as [H2 F2].
    rewrite Forall_forall in F1, F2.
    assert (E : a = b).
    { destruct (proj1 (Hx a) (or_introl eq_refl)) as [E|Hb]; [congruence|].
      destruct (proj2 (Hx b) (or_introl eq_refl)) as [E|Ha]; [congruence|].
      exfalso. apply F2 in Hb. apply F1 in Ha.
      apply (String_as_OT.lt_not_eq a a); [|reflexivity]. now apply String_as_OT.lt_trans with b. }
    subst b. f_equal. apply IH; auto. intros x. split; intros H.
    + destruct (proj1 (Hx x) (or_intror H)) as [<-|Hin]; [|exact Hin].
      exfalso. apply F1 in H. now apply (String_as_OT.lt_not_eq a a).
    + destruct (proj2 (Hx x) (or_intror H)) as [<-|Hin]; [|exact Hin].
      exfalso. apply F2 in H. now apply (String_as_OT.lt_not_eq a a).
Qed.

Section Ext.
  Variable canon : string -> string.
  Hypothesis Hcanon : forall x, canon (canon x) = canon x.

  Definition agrees (c1 c2 : core) (i : nat) : Prop :=
    (forall j, in_cone canon c1 i j -> t_name (obj c2 j) = t_name (obj c1 j) /\ t_deps (obj c2 j) = t_deps (obj c1 j)) /\
    (forall x, mentioned canon c1 i x -> forall j, resolves canon c2 x j <-> resolves canon c1 x j).

  Lemma agrees_dep c1 c2 i j k : agrees c1 c2 i -> in_cone canon c1 i j ->
    obj_dep canon c2 j k <-> obj_dep canon c1 j k.
  Proof.
    intros [A1 A2] Hj. destruct (A1 j Hj) as [_ E]. unfold obj_dep. rewrite E.
    split; intros (d & Hd & Hr); exists d; (split; [exact Hd|]); apply (A2 d); auto; right; eauto.
  Qed.

  Lemma agrees_cone c1 c2 i j : agrees c1 c2 i -> in_cone canon c2 i j <-> in_cone canon c1 i j.
  Proof.
    intros A. split; intros H; apply Operators_Properties.clos_rt_rtn1 in H.
    - induction H as [|y z Hyz _ IH]; [apply rt_refl|]. eapply rt_trans; [exact IH|]. apply rt_step.
      now apply (agrees_dep c1 c2 i y z A IH).
    - assert (G : in_cone canon c1 i j /\ in_cone canon c2 i j); [|tauto].
      induction H as [|y z Hyz _ [I1 I2]]; [split; apply rt_refl|]. split.
      + eapply rt_trans; [exact I1|now apply rt_step].
      + eapply rt_trans; [exact I2|]. apply rt_step. now apply (agrees_dep c1 c2 i y z A I1).
  Qed.

  Lemma agrees_mentioned c1 c2 i x : agrees c1 c2 i -> mentioned canon c2 i x <-> mentioned canon c1 i x.
  Proof.
    intros A. pose proof A as [A1 _]. unfold mentioned.
    destruct (A1 i (rt_refl _ _ _)) as [-> _].
    split; (intros [->|(j & Hj & Hx)]; [now left|right]; exists j).
    - apply (agrees_cone c1 c2) in Hj; [|exact A]. destruct (A1 j Hj) as [_ E]. rewrite E in Hx. auto.
    - destruct (A1 j Hj) as [_ E]. rewrite E. split; [now apply (agrees_cone c1 c2)|exact Hx].
  Qed.

  Lemma agrees_trans c1 c2 c3 i : agrees c1 c2 i -> agrees c2 c3 i -> agrees c1 c3 i.
  Proof.
    intros A B. split.
    - intros j Hj. destruct A as [A1 A2], (proj1 B j) as [B1 B2].
      + now apply (agrees_cone c1 c2 i j (conj A1 A2)).
      + destruct (A1 j Hj) as [A3 A4]. split; congruence.
    - intros x Hx j. rewrite (proj2 B x); [now apply A|]. now apply (agrees_mentioned c1 c2).
  Qed.

  Lemma cone_lt c i j : wf_core c -> i < List.length (c_heap c) -> in_cone canon c i j ->
    j < List.length (c_heap c).
  Proof.
    intros Hw Hi H. apply Operators_Properties.clos_rt_rtn1 in H. destruct H as [|y z (d & _ & Hr) _]; [exact Hi|].
    eapply resolves_lt; eauto.
  Qed.

  Lemma agrees_step c i o : wf_core c -> i < List.length (c_heap c) -> unrelated canon c i o ->
    agrees c (cstep canon c o) i.
  Proof.
    intros Hw Hi Hu. pose proof (wf_step canon c o Hw) as Hw'. destruct o as [cls nm deps|nm|a b].
    - cbn [cstep] in *. split.
      + intros j Hj. pose proof (cone_lt c i j Hw Hi Hj) as L.
        rewrite (obj_app _ c _ j (core_new_heap c cls nm deps) L). auto.
      + intros x Hx j. destruct (Hu x Hx) as [N1 N2].
        rewrite <- !get_resolves by assumption. now rewrite add_other_get.
    - split.
      + intros j _. assert (E : obj (cstep canon c (OpHas nm)) j = obj c j); [|rewrite E; auto].
        unfold obj. cbn [cstep]. unfold core_has. destruct (sget (c_targets c) nm); [reflexivity|].
        destruct (sget (c_targets c) (canon nm)); reflexivity.
      + intros x _ j. rewrite <- !get_resolves by assumption.
        pose proof (has_invisible canon Hcanon c nm [] (Forall_nil _) x) as E. cbn [crun fold_left cstep] in *.
        now rewrite E.
    - cbn [cstep]. destruct (depends_as_set canon c a b) as [[l c']| |] eqn:E; try (split; [auto|reflexivity]).
      apply depends_shape in E. destruct E as (E1 & E2 & _). split.
      + intros j _. unfold obj. rewrite E2. auto.
      + intros x _ j. unfold resolves. rewrite E1. reflexivity.
  Qed.

  Lemma heap_grows c o : List.length (c_heap c) <= List.length (c_heap (cstep canon c o)).
  Proof.
    destruct o as [cls nm deps|nm|a b]; cbn [cstep].
    - rewrite core_new_heap, app_length. apply Nat.le_add_r.
    - unfold core_has. destruct (sget (c_targets c) nm); [apply Nat.le_refl|].
      destruct (sget (c_targets c) (canon nm)); apply Nat.le_refl.
    - destruct (depends_as_set canon c a b) as [[l c']| |] eqn:E; try apply Nat.le_refl.
      apply depends_shape in E. destruct E as (_ & -> & _). apply Nat.le_refl.
  Qed.

  Lemma agrees_run ops : forall c i, wf_core c -> i < List.length (c_heap c) ->
    Forall (unrelated canon c i) ops -> agrees c (crun canon ops c) i.
  Proof.
    induction ops as [|o ops IH]; intros c i Hw Hi Hf; [split; [auto|reflexivity]|].
    inversion Hf as [|? ? H1 H2]; subst. pose proof (agrees_step c i o Hw Hi H1) as A.
    eapply agrees_trans; [exact A|]. apply IH.
    - now apply wf_step.
    - pose proof (heap_grows c o). lia.
    - rewrite Forall_forall in *. intros o' Ho'. specialize (H2 o' Ho').
      destruct o' as [cls nm deps|nm|a b]; simpl in *; auto.
      intros x Hx. apply H2. now apply (agrees_mentioned c (cstep canon c o)).
  Qed.

  Lemma threads_run ops : forall c, c_threads (crun canon ops c) = c_threads c.
  Proof.
    induction ops as [|o ops IH]; intros c; [reflexivity|]. simpl. rewrite IH.
    destruct o as [cls nm deps|nm|a b]; cbn [cstep]; [reflexivity| |].
    - unfold core_has. destruct (sget (c_targets c) nm); [reflexivity|].
      destruct (sget (c_targets c) (canon nm)); reflexivity.
    - unfold depends_as_set. destruct (dget _ _ _); [reflexivity|].
      destruct (das_impl _ _ _ _ _); reflexivity.
  Qed.

  (** Names reachable from the root of the cone. *)
  Lemma reach_mentioned c i x : wf_core c -> resolves canon c (t_name (obj c i)) i ->
    clos_refl_trans string (name_dep canon c) (t_name (obj c i)) x -> mentioned canon c i x.
  Proof.
    intros Hw Hi H. apply Operators_Properties.clos_rt_rtn1 in H. destruct H as [|y z (j & Hj & Hz) Hy]; [now left|].
    right. exists j. split; [|exact Hz]. apply Operators_Properties.clos_rtn1_rt in Hy.
    now apply (names_to_cone canon c Hw i Hi y).
  Qed.

  Lemma same_recurse_update c1 c2 i order so threads :
    (forall l, Permutation l (order l)) ->
    wf_core c1 -> wf_core c2 -> no_pair_keys c1 -> no_pair_keys c2 ->
    resolves canon c1 (t_name (obj c1 i)) i -> agrees c1 c2 i -> c_threads c2 = c_threads c1 ->
    cone_registered canon c1 i ->
    recurse_update canon c2 order so i threads = recurse_update canon c1 order so i threads.
  Proof.
    intros Hord W1 W2 P1 P2 R1 A T Hreg.
    assert (En : t_name (obj c2 i) = t_name (obj c1 i)) by (apply A, rt_refl).
    assert (R2 : resolves canon c2 (t_name (obj c2 i)) i).
    { rewrite En. apply A; [now left|exact R1]. }
    assert (Rel : forall x, clos_refl_trans string (name_dep canon c2) (t_name (obj c1 i)) x <->
                            clos_refl_trans string (name_dep canon c1) (t_name (obj c1 i)) x).
    { intros x. split; intros H; apply Operators_Properties.clos_rt_rtn1 in H.
      - induction H as [|y z (j & Hj & Hz) _ IH]; [apply rt_refl|].
        eapply rt_trans; [exact IH|]. apply rt_step. exists j.
        assert (Hm : mentioned canon c1 i y) by now apply reach_mentioned.
        assert (Hj1 : resolves canon c1 y j) by now apply (proj2 A y Hm j).
        split; [exact Hj1|]. rewrite <- (proj2 (proj1 A j (names_to_cone canon c1 W1 i R1 y IH j Hj1))). exact Hz.
      - assert (G : clos_refl_trans string (name_dep canon c1) (t_name (obj c1 i)) x /\
                    clos_refl_trans string (name_dep canon c2) (t_name (obj c1 i)) x); [|tauto].
        induction H as [|y z (j & Hj & Hz) _ [I1 I2]]; [split; apply rt_refl|]. split.
        + eapply rt_trans; [exact I1|]. apply rt_step. now exists j.
        + eapply rt_trans; [exact I2|]. apply rt_step. exists j.
          assert (Hm : mentioned canon c1 i y) by now apply reach_mentioned.
          split; [now apply (proj2 A y Hm j)|].
          rewrite (proj2 (proj1 A j (names_to_cone canon c1 W1 i R1 y I1 j Hj))). exact Hz. }
    assert (Get : forall x, mentioned canon c1 i x -> registered canon c1 x -> core_get canon c2 x = core_get canon c1 x).
    { intros x Hm [j Hj]. transitivity (Ok j); [|symmetry]; apply get_resolves; auto. now apply A. }
    assert (Regs : forall x, clos_refl_trans string (name_dep canon c1) (t_name (obj c1 i)) x -> registered canon c1 x).
    { now apply (cone_registered_names canon c1 W1 i R1). }
    assert (Objs : ru_objects canon c2 order i = ru_objects canon c1 order i).
    { unfold ru_objects.
      destruct (depends_as_set_spec canon c1 W1 (ByObj i) true P1) as [[_ (l1 & c1' & E1 & S1 & L1)]|(x & Hx & Hn & _)];
        [|exfalso; apply Hn, Regs, Hx].
      destruct (depends_as_set_spec canon c2 W2 (ByObj i) true P2) as [[_ (l2 & c2' & E2 & S2 & L2)]|(x & Hx & Hn & _)].
      2:{ exfalso. simpl in Hx. rewrite En in Hx. apply Rel in Hx. destruct (Regs x Hx) as [j Hj]. apply Hn. exists j.
          apply A; [now apply reach_mentioned|exact Hj]. }
      rewrite E1, E2. simpl. simpl in L1, L2. rewrite En in L2.
      assert (RT : forall c n x, clos_refl_trans string (name_dep canon c) n x <->
                 (true = true /\ x = n) \/ clos_trans string (name_dep canon c) n x).
      { intros c n x. split.
        - intros H. apply rt_cases in H. destruct H as [<-|H]; auto.
        - intros [[_ ->]|H]; [apply rt_refl|]. clear - H.
          induction H as [a b H|a b d _ I1 _ I2]; [now apply rt_step|now apply rt_trans with b]. }
      assert (L : l1 = l2).
      { apply sorted_unique; auto. intros x. rewrite L1, L2, <- !RT. symmetry. apply Rel. }
      subst l2.
      assert (G : mapM (core_get canon c2') l1 = mapM (core_get canon c1') l1).
      { apply mapM_ext. intros x Hx. apply L1, RT in Hx.
        transitivity (core_get canon c2 x).
        - apply depends_shape in E2. destruct E2 as (E2 & _). unfold core_get. now rewrite E2.
        - rewrite Get; [|now apply reach_mentioned|now apply Regs].
          apply depends_shape in E1. destruct E1 as (E1 & _). unfold core_get. now rewrite E1. }
      now rewrite G. }
    unfold recurse_update. rewrite Objs. unfold ru_threads. rewrite T.
    destruct (ru_objects canon c1 order i) as [objs| |] eqn:Eo; simpl; auto.
    replace (mapM (ru_dtarget canon c2) objs) with (mapM (ru_dtarget canon c1) objs); [reflexivity|].
    destruct (ru_objects_spec canon c1 W1 P1 i R1 order Hord) as [[_ (o & Eo' & _ & Ho)]|(x & _ & _ & Eo')];
      rewrite Eo in Eo'; [|discriminate]. injection Eo' as <-.
    apply mapM_ext. intros j Hj. apply Ho in Hj. destruct (proj1 A j Hj) as [En' Ed'].
    unfold ru_dtarget. rewrite En', Ed'.
    replace (mapM (core_get canon c2) (t_deps (obj c1 j))) with (mapM (core_get canon c1) (t_deps (obj c1 j))).
    2:{ apply mapM_ext. intros d Hd. symmetry. apply Get; [right; eauto|]. now apply (Hreg j). }
    destruct (mapM (core_get canon c1) (t_deps (obj c1 j))) as [ds| |] eqn:Ed; simpl; auto.
    do 2 f_equal. apply map_ext_in. intros k Hk. symmetry. apply A. eapply rt_trans; [exact Hj|].
    apply rt_step. now apply (deplist_dep canon c1 j ds W1 Ed).
  Qed.

  (** C21, the part that holds. *)
  Lemma unrelated_recurse_update c i ops order so threads :
    (forall l, Permutation l (order l)) -> wf_core c -> no_pair_keys c ->
    resolves canon c (t_name (obj c i)) i -> cone_registered canon c i ->
    Forall (unrelated canon c i) ops ->
    recurse_update canon (crun canon ops c) order so i threads = recurse_update canon c order so i threads.
  Proof.
    intros Hord Hw Hp Hi Hreg Hf.
    assert (L : i < List.length (c_heap c)) by (eapply resolves_lt; eauto).
    apply same_recurse_update; auto.
    - now apply wf_run.
    - now apply no_pair_run.
    - now apply agrees_run.
    - apply threads_run.
  Qed.

  Lemma unrelated_out_of_date c i ops update_if :
    wf_core c -> resolves canon c (t_name (obj c i)) i -> Forall (unrelated canon c i) ops ->
    forall j, in_cone canon c i j ->
    out_of_date_below canon update_if (crun canon ops c) j <-> out_of_date_below canon update_if c j.
  Proof.
    intros Hw Hi Hf j Hj. assert (L : i < List.length (c_heap c)) by (eapply resolves_lt; eauto).
    pose proof (agrees_run ops c i Hw L Hf) as A.
    assert (C : forall k, in_cone canon (crun canon ops c) j k <-> in_cone canon c j k).
    { intros k. split; intros H; apply Operators_Properties.clos_rt_rtn1 in H.
      - induction H as [|y z Hyz _ IH]; [apply rt_refl|]. eapply rt_trans; [exact IH|]. apply rt_step.
        apply (agrees_dep c (crun canon ops c) i y z A); [|exact Hyz]. eapply rt_trans; eauto.
      - assert (G : in_cone canon c j k /\ in_cone canon (crun canon ops c) j k); [|tauto].
        induction H as [|y z Hyz _ [I1 I2]]; [split; apply rt_refl|]. split.
        + eapply rt_trans; [exact I1|now apply rt_step].
        + eapply rt_trans; [exact I2|]. apply rt_step.
          apply (agrees_dep c (crun canon ops c) i y z A); [|exact Hyz]. eapply rt_trans; eauto. }
    split; intros (k & Hk & Hu); exists k; (split; [now apply C|exact Hu]).
  Qed.
End Ext.

(** ** C22 for sessions *)
Section SessionUpdates.
  Variable canon : string -> string.
  Variables (ops : list cop) (rt : option Z).
  Hypothesis Hdist : NoDup (new_names ops).
  Variable c : core.
  Hypothesis Hses : session canon ops rt c.
  Variables (nm : string) (i : nat).
  Hypothesis Hi : In (nm, i) (c_targets c).
  Variable order : list nat -> list nat.
  Hypothesis Hord : forall l, Permutation l (order l).
  Variable so : set_order.
  Hypothesis Hso : fair_order so.
  Variables (threads : option Z) (th : Z).
  Hypothesis Hth : ru_threads c threads = Some th.
  Variables (objs : list nat) (sv : solver).
  Hypothesis Hru : recurse_update canon c order so i threads = RuExec objs sv.
  Context {W : Type}.
  Variable upd : nat -> W -> tres -> W -> Prop.

  Lemma ses_res : resolves canon c (t_name (obj c i)) i.
  Proof. destruct (session_distinct canon ops rt c Hses Hdist) as (_ & _ & _ & _ & H). eauto. Qed.

  Lemma ses_facts : exists dts, NoDup objs /\ (forall j, In j objs <-> in_cone canon c i j) /\
     mapM (ru_dtarget canon c) objs = Ok dts /\ solver_init so dts (Some th) = inr sv /\
     List.length dts = List.length objs /\
     forall a b, depends_on dts a b <->
       exists x y, nth_error objs a = Some x /\ nth_error objs b = Some y /\ obj_dep canon c x y.
  Proof.
    destruct (session_distinct canon ops rt c Hses Hdist) as (Hw & Hco & Hnp & _ & Hr).
    exact (ru_exec_facts canon c Hw Hco Hnp i (Hr nm i Hi) order Hord so Hso threads th Hth objs sv Hru).
  Qed.

  Lemma cone_in_registry j : in_cone canon c i j -> exists nm, In (nm, j) (c_targets c).
  Proof.
    intros H. apply Operators_Properties.clos_rt_rtn1 in H. destruct H as [|y z (d & _ & [Hr|[_ Hr]]) _]; eauto.
  Qed.

  Lemma updates_facts : (forall j, in_cone canon c i j -> t_class (obj c j) = Updatable /\ t_need (obj c j) <> None) ->
    forall w0 s, exec_reaches sv (task_behaviour c (recording upd) objs) ([], w0) s ->
    let calls := fst (s_world s) in
    NoDup calls /\
    (forall j, In j calls -> in_cone canon c i j /\ t_need (obj c j) = Some true) /\
    (forall l1 j l2, calls = l1 ++ j :: l2 -> forall d, obj_dep canon c j d ->
       t_need (obj c d) = Some true -> In d l1) /\
    (s_main s = MReturned -> exec_result (List.length objs) s = Ok true ->
       forall j, in_cone canon c i j -> t_need (obj c j) = Some true -> In j calls).
  Proof.
    intros Hupd.
    destruct (session_distinct canon ops rt c Hses Hdist) as (Hw & Hco & Hnp & _ & Hr).
    exact (updates_exact canon c Hw Hco Hnp i (Hr nm i Hi) order Hord so Hso threads th Hth objs sv Hru Hupd upd).
  Qed.

  Lemma updates_start : forall w0 s, exec_reaches sv (task_behaviour c (recording upd) objs) ([], w0) s ->
    forall l1 k l2, s_log s = l1 ++ EStart k :: l2 -> forall j d, nth_error objs k = Some j ->
    obj_dep canon c j d -> exists kd, nth_error objs kd = Some d /\ In (EFinish kd RNotFalse) l1.
  Proof.
    destruct (session_distinct canon ops rt c Hses Hdist) as (Hw & Hco & Hnp & _ & Hr).
    exact (updates_start_order canon c Hw Hco Hnp i (Hr nm i Hi) order Hord so Hso threads th Hth objs sv Hru upd).
  Qed.

  (** A target that cannot be asked (never evaluated, or without update_if_need) only raises. *)
  Lemma cannot_run k r w0 s : exec_reaches sv (task_behaviour c upd objs) w0 s ->
    In (EFinish k r) (s_log s) ->
    k < List.length objs /\ t_class (obj c (nth k objs (List.length (c_heap c)))) = Updatable /\
    t_need (obj c (nth k objs (List.length (c_heap c)))) <> None.
  Proof.
    intros H Hk. destruct ses_facts as (dts & _ & _ & _ & Hs & Hlen & _).
    destruct (exec_path _ so dts th sv Hso Hs w0 s H) as (P & _ & B & _).
    pose proof (reach_Inv _ so dts th sv Hso Hs s (ex_intro _ w0 H)) as I.
    assert (Hr : r <> RExn).
    { intros ->. exact (c_kind _ _ _ _ _ _ _ _ (v_core _ _ _ I) _ _ Hk eq_refl). }
    assert (Hin : In (k, r) (ended (s_log s))) by (apply ended_In; now left).
    split; [rewrite <- Hlen; eapply B; eauto|]. clear - P Hin Hr.
    revert Hin. induction P as [w|l k' r' w w1 w2 _ IH Hrun]; [intros []|].
    intros Hin. apply in_app_iff in Hin. destruct Hin as [Hin|[[= -> ->]|[]]]; [auto|].
    unfold task_behaviour in Hrun. destruct (t_class _); [destruct Hrun; contradiction|].
    destruct (t_need _); [split; [reflexivity|discriminate]|destruct Hrun; contradiction].
  Qed.

  Lemma never_true : (exists j, in_cone canon c i j /\ (t_class (obj c j) = Plain \/ t_need (obj c j) = None)) ->
    forall w0 s, exec_reaches sv (task_behaviour c upd objs) w0 s -> s_main s = MReturned ->
    exec_result (List.length objs) s = Ok false.
  Proof.
    intros (j & Hj & Hbad) w0 s H Hm. destruct ses_facts as (dts & _ & Ho & _ & Hs & Hlen & _).
    destruct (exec_result_cases _ so dts th sv Hso Hs s (ex_intro _ w0 H) Hm) as [[_ E]|(_ & _ & Hall)];
      [now rewrite <- Hlen|exfalso].
    apply Ho in Hj. apply (In_nth _ _ (List.length (c_heap c))) in Hj. destruct Hj as (k & Hk & Ek).
    rewrite <- Hlen in Hk. destruct (cannot_run k _ w0 s H (Hall k Hk)) as (_ & H1 & H2).
    rewrite Ek in H1, H2. destruct Hbad; congruence.
  Qed.

  Lemma never_returns : (forall j, in_cone canon c i j -> t_need (obj c j) = None) ->
    forall w0 s, exec_reaches sv (task_behaviour c upd objs) w0 s -> s_main s = MJoin.
  Proof.
    intros Hbad w0 s H. destruct (s_main s) eqn:Hm; [reflexivity|exfalso].
    destruct ses_facts as (dts & _ & Ho & _ & Hs & Hlen & _).
    assert (K : exists k r, In (EFinish k r) (s_log s)).
    { destruct (exec_result_cases _ so dts th sv Hso Hs s (ex_intro _ w0 H) Hm) as [[[k F] _]|(_ & _ & Hall)]; [eauto|].
      exists 0, RNotFalse. apply Hall. rewrite Hlen.
      assert (In i objs) by (apply Ho, rt_refl). destruct objs; [contradiction|simpl; lia]. }
    destruct K as (k & r & K). destruct (cannot_run k r w0 s H K) as (Hk & _ & H2).
    apply H2, Hbad. apply Ho. now apply nth_In.
  Qed.
End SessionUpdates.

(** ** C23 and C24 for sessions *)
Section SessionVerdicts.
  Variable canon : string -> string.
  Variables (ops : list cop) (rt : option Z).
  Hypothesis Hdist : NoDup (new_names ops).
  Variable c : core.
  Hypothesis Hses : session canon ops rt c.
  Variables (nm : string) (i : nat).
  Hypothesis Hi : In (nm, i) (c_targets c).
  Variable order : list nat -> list nat.
  Hypothesis Hord : forall l, Permutation l (order l).
  Variable so : set_order.
  Hypothesis Hso : fair_order so.

  Section Threads.
  Variables (threads : option Z) (th : Z).
  Hypothesis Hth : ru_threads c threads = Some th.

  Lemma ses_ru_exits :
    (exists e, recurse_update canon c order so i threads = RuExn e) <-> ~ cone_registered canon c i.
  Proof.
    destruct (session_distinct canon ops rt c Hses Hdist) as (Hw & Hco & Hnp & _ & Hr).
    exact (ru_exits canon c Hw Hco Hnp i (Hr nm i Hi) order Hord so Hso threads th Hth).
  Qed.
  Lemma ses_ru_exit_kind e : recurse_update canon c order so i threads = RuExn e ->
    exists x, e = exit_unregistered x /\ ~ registered canon c x.
  Proof.
    destruct (session_distinct canon ops rt c Hses Hdist) as (Hw & Hco & Hnp & _ & Hr).
    exact (ru_exit_kind canon c Hw Hco Hnp i (Hr nm i Hi) order Hord so Hso threads th Hth e).
  Qed.
  Lemma ses_ru_rejects :
    (exists e, recurse_update canon c order so i threads = RuRejected e) <->
    cone_registered canon c i /\ ~ acyclic_cone canon c i.
  Proof.
    destruct (session_distinct canon ops rt c Hses Hdist) as (Hw & Hco & Hnp & _ & Hr).
    exact (ru_rejects canon c Hw Hco Hnp i (Hr nm i Hi) order Hord so Hso threads th Hth).
  Qed.
  Lemma ses_ru_reject_kind e : recurse_update canon c order so i threads = RuRejected e ->
    match e with NoOneNonDependableTarget | CircularDependencyError _ | ConnectivityError _ => True | _ => False end.
  Proof.
    destruct (session_distinct canon ops rt c Hses Hdist) as (Hw & Hco & Hnp & _ & Hr).
    exact (ru_reject_kind canon c Hw Hco Hnp i (Hr nm i Hi) order Hord so Hso threads th Hth e).
  Qed.
  Lemma ses_ru_runs :
    (exists objs sv, recurse_update canon c order so i threads = RuExec objs sv) <->
    cone_registered canon c i /\ acyclic_cone canon c i.
  Proof.
    destruct (session_distinct canon ops rt c Hses Hdist) as (Hw & Hco & Hnp & _ & Hr).
    exact (ru_runs canon c Hw Hco Hnp i (Hr nm i Hi) order Hord so Hso threads th Hth).
  Qed.
  End Threads.

  Lemma ses_default_runs th : rt = Some th -> cone_registered canon c i -> acyclic_cone canon c i ->
    exists objs sv, recurse_update_get_args canon c order so i = RuExec objs sv.
  Proof.
    intros E Hr Ha. destruct (session_distinct canon ops rt c Hses Hdist) as (_ & _ & _ & Ht & _).
    apply (ses_ru_runs (c_threads c) th); [|auto]. unfold ru_threads. now rewrite Ht, E.
  Qed.

  Lemma ses_no_threads : rt = None -> cone_registered canon c i ->
    recurse_update_get_args canon c order so i = RuRejected SolverTypeError.
  Proof.
    intros E Hreg. destruct (session_distinct canon ops rt c Hses Hdist) as (Hw & Hco & Hnp & Ht & Hr).
    unfold recurse_update_get_args, recurse_update.
    destruct (ru_objects_spec canon c Hw Hnp i (Hr nm i Hi) order Hord) as [[_ (objs & Eo & _ & Ho)]|(x & Hx & Hn & _)].
    - rewrite Eo. simpl.
      destruct (mapM_ok (ru_dtarget canon c) objs) as [dts Hdts].
      { intros x Hx. apply Ho in Hx. unfold ru_dtarget.
        destruct (mapM_ok (core_get canon c) (t_deps (obj c x))) as [ds Hds].
        - intros d Hd. destruct (Hreg x d Hx Hd) as [j Hj]. exists j. now apply get_resolves.
        - rewrite Hds. simpl. eauto. }
      rewrite Hdts. simpl. unfold ru_threads. rewrite Ht, E. unfold solver_init.
      now rewrite double_depends_none.
    - exfalso. apply Hn. now apply (cone_registered_names canon c Hw i (Hr nm i Hi)).
  Qed.
End SessionVerdicts.

Lemma ses_default_action : forall canon ops th, NoDup (new_names ops) -> forall c, session canon ops (Some th) c ->
  forall nm i, In (nm, i) (c_targets c) ->
  forall order, (forall l, Permutation l (order l)) -> forall so, fair_order so ->
  cone_registered canon c i -> acyclic_cone canon c i ->
  exists objs sv, recurse_update_get_args canon c order so i = RuExec objs sv.
Proof.
  intros canon ops th Hd c Hs nm i Hi order Ho so Hso.
  exact (ses_default_runs canon ops (Some th) Hd c Hs nm i Hi order Ho so Hso th eq_refl).
Qed.
Lemma ses_default_fails : forall canon ops, NoDup (new_names ops) -> forall c, session canon ops None c ->
  forall nm i, In (nm, i) (c_targets c) ->
  forall order, (forall l, Permutation l (order l)) -> forall so, fair_order so ->
  cone_registered canon c i -> recurse_update_get_args canon c order so i = RuRejected SolverTypeError.
Proof.
  intros canon ops Hd c Hs nm i Hi order Ho so Hso.
  exact (ses_no_threads canon ops None Hd c Hs nm i Hi order Ho so Hso eq_refl).
Qed.

Lemma no_pair_new th : no_pair_keys (new_core th).
Proof. intros k b l []. Qed.

Lemma never_stale : forall canon ops th a incroot, let c := crun canon ops (new_core th) in
  (do! (l, _) <- depends_as_set canon c a incroot; Ok l) =
  (do! (l, _) <- depends_as_set canon (CO (c_targets c) (c_heap c) [] (c_threads c)) a incroot; Ok l).
Proof.
  intros canon ops th a incroot c.
  assert (P : no_pair_keys c) by (apply no_pair_run; intros k b l []).
  unfold depends_as_set. cbn [c_lazy dget].  cbn [c_targets c_heap c_threads c_lazy].
  destruct (dget ckey_eqb (c_lazy c) (KPair (arg_key a) incroot)) as [l|] eqn:E.
  { exfalso. apply (dget_In ckey_eqb ckey_eqb_spec) in E. eapply P; eauto. }
  replace (arg_str (CO (c_targets c) (c_heap c) [] (c_threads c)) a) with (arg_str c a) by (destruct a; reflexivity).
  change (das_fuel (CO (c_targets c) (c_heap c) [] (c_threads c))) with (das_fuel c).
  assert (G : forall fuel t acc, das_impl canon fuel (CO (c_targets c) (c_heap c) [] (c_threads c)) t acc =
                                 das_impl canon fuel c t acc).
  { induction fuel as [|fuel IH]; intros t acc; simpl; [reflexivity|].
    change (core_get canon (CO (c_targets c) (c_heap c) [] (c_threads c)) t) with (core_get canon c t).
    destruct (core_get canon c t) as [k| |]; simpl; auto.
    change (obj (CO (c_targets c) (c_heap c) [] (c_threads c)) k) with (obj c k).
    generalize (t_deps (obj c k)). intros ds. revert acc. induction ds as [|d ds IHd]; intros acc; [reflexivity|].
    destruct (smem String.eqb d acc); [apply IHd|]. rewrite IH.
    destruct (das_impl canon fuel c d (acc ++ [d])); simpl; auto. }
  rewrite G. destruct (das_impl canon (das_fuel c) c (arg_str c a) _); reflexivity.
Qed.

(** ** core.do *)
Section DoProofs.
  Context {S : Type}.
  Variable get : S -> string -> res nat.
  Variable default_action : S -> nat -> string.
  Variable invoke : nat -> string -> S -> res (pyval * S).
  Notation cdo := (core_do get default_action invoke).

  (** core.do returns None whenever it returns. *)
  Lemma do_object_none s i a v s' : do_object default_action invoke s i a = Ok (v, s') -> v = PyNone.
  Proof.
    unfold do_object. destruct (invoke _ _ _) as [[]| |]; simpl; try discriminate. now intros [= <- _].
  Qed.
  Lemma do_none : forall t s a v s', cdo s t a = Ok (v, s') -> v = PyNone.
  Proof.
    fix IH 1. intros [nm|i|l] s a v s'; simpl.
    - destruct (get s nm) as [i| |]; simpl; try discriminate. apply do_object_none.
    - apply do_object_none.
    - revert s. induction l as [|t l IHl]; intros s; [now intros [= <- _]|].
      destruct (cdo s t a) as [[v1 s1]| |]; simpl; try discriminate. apply IHl.
  Qed.

  Definition only_state (r : res (pyval * S)) : res S := do! (_, s) <- r; Ok s.

  Lemma seq_app {A} (act : A -> S -> res S) l1 l2 s :
    one_after_other act (l1 ++ l2) s = (do! s1 <- one_after_other act l1 s; one_after_other act l2 s1).
  Proof.
    revert s. induction l1 as [|t l1 IH]; intros s; simpl; [reflexivity|].
    destruct (act t s); simpl; auto.
  Qed.

  Lemma do_list : forall t s a,
    only_state (cdo s t a) = one_after_other (fun t s => only_state (cdo s t a)) (leaves t) s.
  Proof.
    fix IH 1. intros [nm|i|l] s a.
    - simpl. destruct (only_state _); reflexivity.
    - simpl. destruct (only_state _); reflexivity.
    - simpl. revert s. induction l as [|t l IHl]; intros s; [reflexivity|].
      rewrite seq_app, <- IH. destruct (cdo s t a) as [[v1 s1]| |]; simpl; auto.
  Qed.
End DoProofs.
