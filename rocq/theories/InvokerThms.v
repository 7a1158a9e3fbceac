(** Consequences of the invariant, for a solver built by [solver_init]. *)
From Coq Require Import Permutation Relations.Relation_Operators Relations.Operators_Properties.
From Verif Require Import PyBase SolverModel SpecGraph InvokerModel SpecTrace DfsProofs SolverProofs
  InvokerProofs InvokerInv.

Section Frame.
  Context {W : Type}.
  Implicit Types s : state W.

  Definition log_ext s s' : Prop := exists l, s_log s' = s_log s ++ l.
  Lemma log_ext_refl s : log_ext s s.
  Proof. exists []. now rewrite app_nil_r. Qed.
  Lemma log_ext_trans a b c : log_ext a b -> log_ext b c -> log_ext a c.
  Proof. intros [l H] [l' H']. exists (l ++ l'). now rewrite H', H, app_assoc. Qed.

  (** What the scheduler code never touches. *)
  Definition frame s s' : Prop :=
    s_main s' = s_main s /\ s_world s' = s_world s /\
    List.length (s_workers s') = List.length (s_workers s) /\
    exists l, s_log s' = s_log s ++ l /\ finished l = [] /\ raised l = [].
  Lemma frame_refl s : frame s s.
  Proof. repeat split. exists []. now rewrite app_nil_r. Qed.
  Lemma frame_trans a b c : frame a b -> frame b c -> frame a c.
  Proof.
    intros (H1 & H2 & H3 & l & H4 & H5 & H5') (G1 & G2 & G3 & l' & G4 & G5 & G5').
    repeat split; try congruence. exists (l ++ l').
    rewrite G4, H4, app_assoc, finished_app, raised_app, H5, G5, H5', G5'. auto.
  Qed.
  Lemma frame_nolog s s' : s_main s' = s_main s -> s_world s' = s_world s ->
    List.length (s_workers s') = List.length (s_workers s) -> s_log s' = s_log s -> frame s s'.
  Proof. intros H1 H2 H3 H4. repeat split; auto. exists []. now rewrite app_nil_r. Qed.
  Lemma frame_log e s : match e with EFinish _ _ | ERaise _ => False | _ => True end ->
    frame s (add_log e s).
  Proof. intros H. repeat split. exists [e]. destruct e; simpl in *; tauto. Qed.
  Lemma frame_worker w x s : frame s (set_worker w x s).
  Proof. apply frame_nolog; simpl; auto. apply lupd_length. Qed.
  Lemma frame_queue q s : frame s (set_queue q s).
  Proof. apply frame_nolog; auto. Qed.
  Lemma frame_base w b s : frame s (set_base w b s).
  Proof. apply frame_nolog; auto. Qed.
  Lemma frame_die w s : frame s (die w EAbort s).
  Proof. unfold die. eapply frame_trans; [apply frame_worker|now apply frame_log]. Qed.
  Lemma frame_task_done s s' : task_done s = Some s' -> frame s s'.
  Proof.
    unfold task_done. destruct (s_unfinished s <=? 0)%Z; [discriminate|].
    intros [= <-]. now apply frame_nolog.
  Qed.
  Lemma frame_drain q s s' : drain_items q s = Some s' -> frame s s'.
  Proof.
    revert s; induction q as [|t q IH]; intros s; simpl.
    - intros [= <-]. apply frame_refl.
    - destruct (task_done _) as [s1|] eqn:E; [|discriminate]. intros H.
      apply IH in H. apply frame_task_done in E.
      eapply frame_trans; [|exact H]. eapply frame_trans; [|exact E].
      eapply frame_trans; [apply frame_queue|now apply frame_log].
  Qed.
  Lemma frame_release w s : frame s (release_queue w s).
  Proof.
    unfold release_queue. destruct (drain_items (s_queue s) s) as [s'|] eqn:E.
    - apply frame_drain in E. eapply frame_trans; [exact E|apply frame_worker].
    - apply frame_die.
  Qed.
  Lemma frame_loop w s : frame s (loop_head w s).
  Proof.
    unfold loop_head. destruct (s_queue s) as [|t q]; [apply frame_worker|].
    destruct (s_error (set_queue q s)).
    - eapply frame_trans; [|apply frame_release].
      eapply frame_trans; [apply frame_queue|now apply frame_log].
    - eapply frame_trans; [|now apply frame_log].
      eapply frame_trans; [|apply frame_worker].
      eapply frame_trans; [apply frame_queue|apply frame_base].
  Qed.
  Lemma frame_decrease d s : match decrease d s with inl s' | inr s' => frame s s' end.
  Proof.
    unfold decrease. destruct (0 <=? s_depcount s d - 1)%Z;
      destruct (s_depcount s d - 1 =? 0)%Z; now apply frame_nolog.
  Qed.
  Lemma frame_decrease_all ds s : match decrease_all ds s with inl s' | inr s' => frame s s' end.
  Proof.
    revert s; induction ds as [|d ds IH]; intros s; simpl; [apply frame_refl|].
    pose proof (frame_decrease d s) as H. destruct (decrease d s) as [s'|s']; [|exact H].
    specialize (IH s'). destruct (decrease_all ds s') as [s2|s2]; eapply frame_trans; eauto.
  Qed.

  Lemma after_task_frame w t r order s :
    frame (add_log (match r with RExn => ERaise t | _ => EFinish t r end) s)
          (after_task w t r order s).
  Proof.
    unfold after_task.
    assert (G : forall r, frame (add_log (EFinish t r) s)
       match decrease_all order (add_log (EFinish t r) (set_done t s)) with
       | inl s2 =>
           match task_done s2 with
           | Some s3 =>
               if s_error s3 then release_queue w s3
               else match r with
                    | RFalse => release_queue w (set_error s3)
                    | _ =>
                        let s4 := set_base w true s3 in
                        if forallb (fun b => b) (s_on_base s4)
                           && match s_queue s4 with [] => true | _ => false end
                        then release_queue w s4 else loop_head w s4
                    end
           | None => die w EAbort s2
           end
       | inr s2 => die w EAbort s2
       end).
    { clear r. intros r.
      assert (H0 : frame (add_log (EFinish t r) s) (add_log (EFinish t r) (set_done t s)))
        by now apply frame_nolog.
      eapply frame_trans; [exact H0|]. clear H0.
      set (s1 := add_log (EFinish t r) (set_done t s)).
      pose proof (frame_decrease_all order s1) as H.
      destruct (decrease_all order s1) as [s2|s2]; [|eapply frame_trans; [exact H|apply frame_die]].
      eapply frame_trans; [exact H|]. clear H.
      destruct (task_done s2) as [s3|] eqn:E; [|apply frame_die].
      apply frame_task_done in E. eapply frame_trans; [exact E|]. clear E.
      destruct (s_error s3); [apply frame_release|].
      assert (Hr : frame s3
        (let s4 := set_base w true s3 in
                        if forallb (fun b => b) (s_on_base s4)
                           && match s_queue s4 with [] => true | _ => false end
                        then release_queue w s4 else loop_head w s4)).
      { cbv zeta. destruct (_ && _); eapply frame_trans; try apply frame_base.
        - apply frame_release.
        - apply frame_loop. }
      destruct r; [exact Hr| |exact Hr].
      eapply frame_trans; [|apply frame_release]. now apply frame_nolog. }
    destruct r; [exact (G RNotFalse)|exact (G RFalse)|].
    unfold die. apply frame_nolog; simpl; auto. apply lupd_length.
  Qed.

  Lemma loop_head_grows w s : s_queue s <> [] ->
    exists e l, s_log (loop_head w s) = s_log s ++ e :: l.
  Proof.
    unfold loop_head. destruct (s_queue s) as [|t q] eqn:E; [contradiction|]. intros _.
    destruct (s_error (set_queue q s)).
    - destruct (frame_release w (add_log (EDrop t) (set_queue q s))) as (_ & _ & _ & l & H & _).
      exists (EDrop t), l. rewrite H. simpl. now rewrite <- app_assoc.
    - exists (EStart t), []. reflexivity.
  Qed.
End Frame.

Section World.
  Context {W : Type}.
  Variable inv : nat -> list nat.
  Variable run : nat -> W -> tres -> W -> Prop.
  Implicit Types s : state W.

  Lemma world_path_frame l l' w w1 : world_path run l w w1 ->
    finished l' = [] -> raised l' = [] -> world_path run (l ++ l') w w1.
  Proof.
    intros H. revert H. revert l.
    induction l' as [|e l' IH]; intros l H Hf Hr; [now rewrite app_nil_r|].
    replace (l ++ e :: l') with ((l ++ [e]) ++ l') by now rewrite <- app_assoc.
    destruct e; try discriminate Hf; try discriminate Hr; apply IH; auto; now apply wp_other.
  Qed.

  Lemma step_world s s' w0 : step inv run s s' ->
    world_path run (s_log s) w0 (s_world s) -> world_path run (s_log s') w0 (s_world s').
  Proof.
    intros St H. destruct St as [w s Hm Hw Hq|w s Hm Hw Hq|w t r world' order s Hm Hw Hr HP|s Hm Hrel].
    - destruct (frame_loop w s) as (_ & -> & _ & l & -> & Hl & Hl'). now apply world_path_frame.
    - destruct (frame_release w s) as (_ & -> & _ & l & -> & Hl & Hl'). now apply world_path_frame.
    - destruct (after_task_frame w t r order (set_world world' s)) as (_ & -> & _ & l & -> & Hl & Hl').
      apply world_path_frame; auto. simpl.
      destruct r; econstructor; eauto.
    - exact H.
  Qed.

  (** Length of the worker list, the main state. *)
  Lemma step_workers s s' : step inv run s s' -> List.length (s_workers s') = List.length (s_workers s).
  Proof.
    intros [w s1 Hm Hw Hq|w s1 Hm Hw Hq|w t r world' order s1 Hm Hw Hr HP|s1 Hm Hrel].
    - apply frame_loop.
    - apply frame_release.
    - destruct (after_task_frame w t r order (set_world world' s1)) as (_ & _ & H & _). exact H.
    - reflexivity.
  Qed.

  Lemma step_main s s' : step inv run s s' ->
    s_main s = MJoin /\ (s_main s' = MJoin \/ (s_main s' = MReturned /\ s_released s' = true)).
  Proof.
    intros [w s1 Hm Hw Hq|w s1 Hm Hw Hq|w t r world' order s1 Hm Hw Hr HP|s1 Hm Hrel]; split; auto.
    - left. destruct (frame_loop w s1) as (-> & _). exact Hm.
    - left. destruct (frame_release w s1) as (-> & _). exact Hm.
    - left. destruct (after_task_frame w t r order (set_world world' s1)) as (-> & _). exact Hm.
  Qed.

  Lemma step_log s s' : step inv run s s' -> log_ext s s'.
  Proof.
    intros [w s1 Hm Hw Hq|w s1 Hm Hw Hq|w t r world' order s1 Hm Hw Hr HP|s1 Hm Hrel].
    - destruct (frame_loop w s1) as (_ & _ & _ & l & H & _). now exists l.
    - destruct (frame_release w s1) as (_ & _ & _ & l & H & _). now exists l.
    - destruct (after_task_frame w t r order (set_world world' s1)) as (_ & _ & _ & l & H & _).
      eexists. rewrite H. simpl. rewrite <- app_assoc. reflexivity.
    - exists []. simpl. now rewrite app_nil_r.
  Qed.

  Lemma steps_log s s' : steps inv run s s' -> log_ext s s'.
  Proof.
    induction 1 as [s|a b c H IH St]; [apply log_ext_refl|].
    eapply log_ext_trans; [exact IH|now apply step_log].
  Qed.

  Lemma steps_trans a b c : steps inv run a b -> steps inv run b c -> steps inv run a c.
  Proof.
    intros H1 H2. induction H2 as [s|s1 s2 s3 H IH St]; [exact H1|].
    eapply steps_snoc; [apply IH; exact H1|exact St].
  Qed.
End World.

Section Solver.
  Context {W : Type}.
  Variable run : nat -> W -> tres -> W -> Prop.
  Variables (so : set_order) (ts : list dtarget) (th : Z) (sv : solver).
  Hypothesis Hso : fair_order so.
  Hypothesis Hsv : solver_init so ts (Some th) = inr sv.
  Implicit Types s : state W.

  Let n := List.length ts.
  Let deps := inv_of (sv_deps sv).
  Let inv := inv_of (sv_inv sv).

  Lemma sv_good : ts <> [] /\ all_known ts /\ no_cycle ts /\ solver_for ts th sv.
  Proof. pose proof (solver_init_verdict so Hso ts th) as V. rewrite Hsv in V. exact V. Qed.

  Lemma hd_inv i j : In j (deps i) <-> In i (inv j).
  Proof.
    destruct sv_good as (_ & _ & _ & G). unfold deps, inv.
    now rewrite (sf_deps _ _ _ G), (sf_inv _ _ _ G).
  Qed.
  Lemma hd_dep i j : In j (deps i) <-> depends_on ts i j.
  Proof. destruct sv_good as (_ & _ & _ & G). apply (sf_deps _ _ _ G). Qed.
  Lemma hd_nodup i : NoDup (deps i).
  Proof. destruct sv_good as (_ & _ & _ & G). apply (sf_deps_nodup _ _ _ G). Qed.
  Lemma hi_nodup i : NoDup (inv i).
  Proof. destruct sv_good as (_ & _ & _ & G). apply (sf_inv_nodup _ _ _ G). Qed.
  Lemma hd_lt i j : In j (deps i) -> i < n /\ j < n.
  Proof. rewrite hd_dep. apply depends_on_lt. Qed.

  Lemma free_iff i : dependency_free ts i <-> i < n /\ forall j, In j (deps i) -> False.
  Proof.
    destruct sv_good as (_ & Hk & _ & _). split.
    - intros H. split; [now apply dependency_free_lt|]. intros j Hj. apply hd_dep in Hj.
      destruct H as (t & H1 & H2), Hj as (t' & nm & H3 & H4 & _).
      assert (t' = t) by congruence. subst. rewrite H2 in H4. destruct H4.
    - intros [Hi Hj]. apply nth_error_Some in Hi. destruct (nth_error ts i) as [t|] eqn:E; [|contradiction].
      exists t. split; [exact E|]. destruct (dt_deps t) as [|nm l] eqn:Ed; [reflexivity|exfalso].
      assert (Hnm : In nm (map dt_name ts)).
      { eapply Hk; [eapply nth_error_In; eauto|rewrite Ed; now left]. }
      apply known_denotes in Hnm. destruct Hnm as [j Hden]. apply (Hj j). apply hd_dep.
      exists t, nm. split; [exact E|]. split; [rewrite Ed; now left|exact Hden].
  Qed.

  Lemma running_repeat k : running (repeat WGet k) = [].
  Proof. induction k; simpl; auto. Qed.
  Lemma deads_repeat k : deads (repeat WGet k) = 0.
  Proof. induction k; unfold deads in *; simpl; auto. Qed.

  Lemma init_Inv (w0 : W) : Inv n deps (init_state sv w0).
  Proof.
    destruct sv_good as (_ & _ & _ & G). unfold init_state. split; simpl; auto.
    - split; simpl.
      + rewrite app_nil_r. apply (sf_queue_nodup _ _ _ G).
      + rewrite running_repeat. constructor.
      + rewrite running_repeat. simpl. lia.
      + intros i Hi. rewrite (sf_count _ _ _ G) by exact Hi. f_equal. unfold missing.
        fold (deps i). generalize (deps i). induction l as [|x l IH]; simpl; auto.
      + intros i. rewrite app_nil_r, (sf_queue _ _ _ G). simpl. apply free_iff.
      + split; [discriminate|intros []].
      + intros t r [].
      + intros l1 t l2 E. destruct l1; discriminate.
      + auto.
    - rewrite !repeat_length. reflexivity.
    - discriminate.
    - intros w x b Hx Hb. apply nth_error_In, repeat_spec in Hx. apply nth_error_In, repeat_spec in Hb.
      subst. reflexivity.
    - intros _ Hd. apply repeat_spec in Hd. discriminate.
    - split; [discriminate|]. intros Hz. exfalso. apply (sf_queue_ne _ _ _ G).
      destruct (sv_queue sv); [reflexivity|]. simpl in Hz. lia.
    - rewrite deads_repeat. reflexivity.
  Qed.

  Definition reach s := exists w0, exec_reaches sv run w0 s.

  Lemma steps_Inv s s' : Inv n deps s -> steps inv run s s' -> Inv n deps s'.
  Proof.
    intros H H'. induction H' as [s0|a b c H1 IH St]; [exact H|].
    eapply (step_Inv n deps inv run hd_inv hd_nodup hi_nodup hd_lt); [apply IH; exact H|exact St].
  Qed.
  Lemma reach_Inv s : reach s -> Inv n deps s.
  Proof. intros [w0 H]. eapply steps_Inv; [apply (init_Inv w0)|exact H]. Qed.

  Lemma reach_workers s : reach s -> List.length (s_workers s) = Z.to_nat th.
  Proof.
    intros [w0 H]. unfold exec_reaches in H. destruct sv_good as (_ & _ & _ & G).
    assert (H0 : List.length (s_workers (init_state sv w0)) = Z.to_nat th).
    { simpl. rewrite repeat_length. now rewrite (sf_threads _ _ _ G). }
    remember (init_state sv w0) as s0. induction H as [s0|a b c H1 IH St]; [exact H0|].
    rewrite (step_workers _ _ _ _ St). now apply IH.
  Qed.

  Lemma reach_released s : reach s -> s_main s = MReturned -> s_released s = true.
  Proof.
    intros [w0 H]. unfold exec_reaches in H. remember (init_state sv w0) as s0.
    destruct H as [s1|s1 s2 s3 H St]; subst; [discriminate|].
    intros Hm. apply step_main in St. destruct St as [_ [St|[_ St]]]; [congruence|exact St].
  Qed.

  Lemma reach_world w0 s : exec_reaches sv run w0 s -> world_path run (s_log s) w0 (s_world s).
  Proof.
    intros H. unfold exec_reaches in H. remember (init_state sv w0) as s0.
    induction H as [s0|a b c H1 IH St]; [subst; constructor|].
    eapply step_world; [exact St|now apply IH].
  Qed.

  (** C03 *)
  Lemma deps_first s l1 t l2 : reach s -> s_log s = l1 ++ EStart t :: l2 ->
    forall j, depends_on ts t j -> In (EFinish j RNotFalse) l1.
  Proof.
    intros H E j Hj. apply reach_Inv in H. apply hd_dep in Hj.
    destruct (c_safe _ _ _ _ _ _ _ _ (v_core _ _ _ H) l1 t l2 E) as [G _]. auto.
  Qed.

  Lemma inv_nodup_parts s : Inv n deps s ->
    NoDup (started (s_log s)) /\ NoDup (finished (s_log s)) /\ NoDup (raised (s_log s)) /\
    (forall x, In x (finished (s_log s)) -> ~ In x (raised (s_log s))).
  Proof.
    intros H. pose proof (v_core _ _ _ H) as C. pose proof (c_nodup _ _ _ _ _ _ _ _ C) as N.
    apply NoDup_app_iff in N. destruct N as (_ & N & _). apply NoDup_app_iff in N. destruct N as (N & _).
    split; [exact N|]. pose proof (Permutation_NoDup (c_perm _ _ _ _ _ _ _ _ C) N) as M.
    apply NoDup_app_iff in M. destruct M as (_ & M & _). apply NoDup_app_iff in M. tauto.
  Qed.

  Lemma deps_first_full s l1 t l2 : reach s -> s_log s = l1 ++ EStart t :: l2 ->
    forall j, depends_on ts t j -> In (EFinish j RNotFalse) l1 /\
      ~ In (EFinish j RFalse) (s_log s) /\ ~ In (ERaise j) (s_log s).
  Proof.
    intros H E j Hj. pose proof (deps_first s l1 t l2 H E j Hj) as F. split; [exact F|].
    apply reach_Inv in H. destruct (inv_nodup_parts s H) as (_ & N & _ & D).
    assert (Fs : In (EFinish j RNotFalse) (s_log s)) by (rewrite E; apply in_app_iff; now left).
    split.
    - intros F'. apply in_split in F'. destruct F' as (a & b & Eab). rewrite Eab in N, Fs.
      rewrite finished_app in N. simpl in N. apply NoDup_remove_2 in N. apply N.
      apply in_app_iff in Fs. apply in_app_iff. rewrite !finished_In.
      destruct Fs as [Fs|[Fs|Fs]]; [left; eauto|discriminate|right; eauto].
    - intros F'. apply raised_In in F'. apply (D j); [|exact F']. apply finished_In. eauto.
  Qed.

  (** C04 *)
  Lemma start_once s : reach s -> NoDup (started (s_log s)).
  Proof. intros H. apply reach_Inv in H. now apply inv_nodup_parts. Qed.

  Lemma finish_twice l t r r' : NoDup (finished l) -> In (EFinish t r) l -> In (EFinish t r') l -> r = r'.
  Proof.
    intros N H1 H2. apply in_split in H1. destruct H1 as (a & b & ->).
    rewrite finished_app in N. simpl in N. apply NoDup_remove_2 in N.
    apply in_app_iff in H2. destruct H2 as [H2|[H2|H2]]; [exfalso| |exfalso].
    - apply N. apply in_app_iff. left. apply finished_In. eauto.
    - congruence.
    - apply N. apply in_app_iff. right. apply finished_In. eauto.
  Qed.

  Lemma all_finished s : Inv n deps s -> s_unfinished s = 0%Z -> s_error s = false ->
    forall i, i < n -> In i (finished (s_log s)).
  Proof.
    intros H Hu He. pose proof (v_core _ _ _ H) as C.
    pose proof (c_unf _ _ _ _ _ _ _ _ C) as U. rewrite Hu in U.
    assert (Hq : s_queue s = []) by (destruct (s_queue s); [reflexivity|simpl List.length in U; lia]).
    assert (Hr : running (s_workers s) = []) by (destruct (running (s_workers s)); [reflexivity|simpl List.length in U; lia]).
    assert (Hx : raised (s_log s) = []) by (destruct (raised (s_log s)); [reflexivity|simpl List.length in U; lia]).
    pose proof (v_drop _ _ _ H He) as Hd.
    pose proof (c_perm _ _ _ _ _ _ _ _ C) as P. rewrite Hr, Hx, app_nil_r in P. simpl in P.
    assert (Henq : forall i, i < n -> (forall j, In j (deps i) -> In j (finished (s_log s))) ->
                      In i (finished (s_log s))).
    { intros i Hi Hj. assert (Hin : In i (s_queue s ++ started (s_log s) ++ dropped (s_log s))).
      { apply (c_enq _ _ _ _ _ _ _ _ C). auto. }
      rewrite Hq, Hd, app_nil_r in Hin. simpl in Hin. now apply (Permutation_in i P). }
    destruct sv_good as (_ & _ & Hac & _).
    set (U' := filter (fun i => notin (finished (s_log s)) i) (seq 0 n)).
    assert (HU : forall i, In i U' <-> i < n /\ ~ In i (finished (s_log s))).
    { intros i. unfold U'. rewrite filter_In, in_seq, notin_true. intuition lia. }
    destruct U' as [|u U''] eqn:EU.
    - intros i Hi. destruct (in_dec Nat.eq_dec i (finished (s_log s))) as [|Hn]; [assumption|exfalso].
      destruct (proj2 (HU i) (conj Hi Hn)).
    - exfalso. destruct (finite_cycle (depends_on ts) (u :: U'')) as [x Hc]; [discriminate| |].
      + intros x Hxu. apply HU in Hxu. destruct Hxu as [H1 H2].
        destruct (Forall_Exists_dec (fun j => In j (finished (s_log s)))
                    (fun j => in_dec Nat.eq_dec j _) (deps x)) as [F|E].
        * exfalso. apply H2. apply Henq; auto. now apply Forall_forall.
        * apply Exists_exists in E. destruct E as (j & Hj1 & Hj2). exists j. split.
          -- apply HU. split; [now apply hd_lt in Hj1|exact Hj2].
          -- now apply hd_dep.
      + exact (Hac x Hc).
  Qed.

  Lemma returned_facts s : reach s -> s_main s = MReturned ->
    s_unfinished s = 0%Z /\ s_queue s = [] /\ running (s_workers s) = [] /\ raised (s_log s) = [].
  Proof.
    intros H Hm. pose proof (reach_released s H Hm) as Hr. apply reach_Inv in H.
    apply (v_rel _ _ _ H) in Hr. pose proof (c_unf _ _ _ _ _ _ _ _ (v_core _ _ _ H)) as U.
    rewrite Hr in U. split; [exact Hr|].
    split; [|split].
    - destruct (s_queue s); [reflexivity|simpl List.length in U; lia].
    - destruct (running (s_workers s)); [reflexivity|simpl List.length in U; lia].
    - destruct (raised (s_log s)); [reflexivity|simpl List.length in U; lia].
  Qed.

  Lemma exec_result_cases s : reach s -> s_main s = MReturned ->
    (failed_in (s_log s) /\ exec_result n s = Ok false) \/
    (~ failed_in (s_log s) /\ exec_result n s = Ok true /\
     forall i, i < n -> In (EFinish i RNotFalse) (s_log s)).
  Proof.
    intros H Hm. destruct (returned_facts s H Hm) as (Hu & Hq & _ & _).
    pose proof (reach_Inv s H) as I. unfold exec_result.
    pose proof (v_err _ _ _ I) as E. destruct (s_error s) eqn:Ee.
    - left. split; [|reflexivity]. apply any_false_spec. now symmetry.
    - right. assert (Hnf : ~ failed_in (s_log s)) by (intros F; apply any_false_spec in F; congruence).
      split; [exact Hnf|].
      pose proof (all_finished s I Hu Ee) as Hall. pose proof (v_core _ _ _ I) as C. split.
      + rewrite Hq. simpl.
        assert (A1 : forallb (fun i => (s_depcount s i =? 0)%Z) (seq 0 n) = true).
        { apply forallb_forall. intros i Hi. apply in_seq in Hi. apply Z.eqb_eq.
          rewrite (c_dc _ _ _ _ _ _ _ _ C) by lia.
          assert (missing deps (finished (s_log s)) i = 0); [|lia].
          apply missing_0. intros j Hj. apply Hall. now apply hd_lt in Hj. }
        assert (A2 : forallb (s_isdone s) (seq 0 n) = true).
        { apply forallb_forall. intros i Hi. apply in_seq in Hi.
          apply (c_done _ _ _ _ _ _ _ _ C). apply Hall. lia. }
        now rewrite A1, A2.
      + intros i Hi. specialize (Hall i Hi). apply finished_In in Hall. destruct Hall as [r Hr].
        destruct r; [exact Hr| |].
        * exfalso. apply Hnf. now exists i.
        * exfalso. now apply (c_kind _ _ _ _ _ _ _ _ C _ _ Hr).
  Qed.

  Lemma true_all_ran s : reach s -> s_main s = MReturned -> exec_result n s = Ok true ->
    forall i, i < n -> In (EStart i) (s_log s) /\ In (EFinish i RNotFalse) (s_log s).
  Proof.
    intros H Hm Ht i Hi. destruct (exec_result_cases s H Hm) as [[_ E]|(_ & _ & Hall)]; [congruence|].
    split; [|auto]. apply started_In. apply reach_Inv in H.
    apply (Permutation_in i (Permutation_sym (c_perm _ _ _ _ _ _ _ _ (v_core _ _ _ H)))).
    apply in_app_iff. right. apply in_app_iff. left. apply finished_In. eexists. eauto.
  Qed.

  (** C05 *)
  Lemma running_length ws : List.length (running ws) <= List.length ws.
  Proof. induction ws as [|[] ws IH]; simpl; lia. Qed.
  Lemma parallelism s : reach s -> in_progress (s_log s) <= Z.to_nat th.
  Proof.
    intros H. rewrite <- (reach_workers s H). apply reach_Inv in H.
    pose proof (c_perm _ _ _ _ _ _ _ _ (v_core _ _ _ H)) as P. apply Permutation_length in P.
    rewrite !app_length in P. unfold in_progress. pose proof (running_length (s_workers s)). lia.
  Qed.
  Lemma in_progress_workers s : reach s -> in_progress (s_log s) = List.length (running (s_workers s)).
  Proof.
    intros H. apply reach_Inv in H.
    pose proof (c_perm _ _ _ _ _ _ _ _ (v_core _ _ _ H)) as P. apply Permutation_length in P.
    rewrite !app_length in P. unfold in_progress. lia.
  Qed.

  (** C06 *)
  Lemma nothing_after_failure s l1 t l2 : reach s -> s_log s = l1 ++ EFinish t RFalse :: l2 ->
    forall u, ~ In (EStart u) l2.
  Proof.
    intros H E u Hu. apply reach_Inv in H. apply in_split in Hu. destruct Hu as (a & b & ->).
    pose proof (c_safe _ _ _ _ _ _ _ _ (v_core _ _ _ H)) as S.
    destruct (S (l1 ++ EFinish t RFalse :: a) u b) as [_ F].
    { rewrite E, <- app_assoc. reflexivity. }
    assert (any_false (l1 ++ EFinish t RFalse :: a) = true); [|congruence].
    apply any_false_spec. exists t. apply in_app_iff. right. now left.
  Qed.

  Lemma dependents_not_run s t : reach s -> In (EFinish t RFalse) (s_log s) ->
    forall u, clos_trans nat (depends_on ts) u t -> ~ In (EStart u) (s_log s).
  Proof.
    intros H Hf.
    assert (G : forall u v, clos_trans nat (depends_on ts) u v -> In (EStart u) (s_log s) ->
                  In (EFinish v RNotFalse) (s_log s)).
    { intros u v Huv. induction Huv as [u v Hd|u v x H1 IH1 H2 IH2]; intros Hs.
      - apply in_split in Hs. destruct Hs as (a & b & E). pose proof (deps_first s a u b H E v Hd) as G.
        rewrite E. apply in_app_iff. now left.
      - apply IH2. specialize (IH1 Hs). pose proof (reach_Inv s H) as I. apply started_In.
        apply (Permutation_in v (Permutation_sym (c_perm _ _ _ _ _ _ _ _ (v_core _ _ _ I)))).
        apply in_app_iff. right. apply in_app_iff. left. apply finished_In. eauto. }
    intros u Hu Hs. specialize (G u t Hu Hs).
    pose proof (reach_Inv s H) as I. destruct (inv_nodup_parts s I) as (_ & N & _).
    pose proof (finish_twice _ _ _ _ N G Hf). discriminate.
  Qed.

  (** C08 *)
  Lemma progress s :
    (forall t w, exists r w', run t w r w') ->
    (1 <= th)%Z -> reach s -> s_main s = MJoin -> raised (s_log s) = [] ->
    exists s', step inv run s s'.
  Proof.
    intros Htot Hth H Hm Hx. pose proof (reach_workers s H) as Hk. apply reach_Inv in H.
    destruct (s_released s) eqn:Er; [eexists; now apply step_join|].
    pose proof (v_core _ _ _ H) as C. pose proof (c_unf _ _ _ _ _ _ _ _ C) as U.
    assert (Hu : s_unfinished s <> 0%Z) by (intros Hz; apply (v_rel _ _ _ H) in Hz; congruence).
    rewrite Hx in U. simpl List.length in U.
    destruct (running (s_workers s)) as [|t rn] eqn:Ern.
    - assert (Hq : s_queue s <> []) by (intros Hq; rewrite Hq in U; simpl List.length in U; lia).
      destruct (s_workers s) as [|x ws] eqn:Ew; [simpl in Hk; lia|].
      assert (H0 : nth_error (s_workers s) 0 = Some x) by now rewrite Ew.
      destruct x.
      + eexists. now apply (step_get inv run 0).
      + simpl in Ern. discriminate.
      + eexists. now apply (step_drain inv run 0).
      + pose proof (v_dead _ _ _ H) as D. rewrite Hx, Ew in D. unfold deads in D. simpl in D. lia.
    - assert (Ht : In t (running (s_workers s))) by (rewrite Ern; now left).
      apply running_In in Ht. destruct Ht as [w Hw].
      destruct (Htot t (s_world s)) as (r & w' & Hr).
      eexists. eapply step_finish; eauto.
  Qed.

  Lemma no_raise s w0 : (forall t w w', ~ run t w RExn w') -> exec_reaches sv run w0 s -> raised (s_log s) = [].
  Proof.
    intros Hn H. apply reach_world in H. remember (s_log s) as l. remember (s_world s) as w.
    clear Heql Heqw. induction H; auto.
    - rewrite raised_app, IHworld_path. reflexivity.
    - exfalso. eapply Hn; eauto.
    - rewrite raised_app, IHworld_path. destruct e; simpl in *; tauto.
  Qed.

  Lemma log_length l : ~ In EAbort l ->
    List.length l = List.length (started l) + List.length (finished l) + List.length (raised l) +
                    List.length (dropped l).
  Proof.
    induction l as [|e l IH]; [reflexivity|]. intros Hn.
    assert (Hl : ~ In EAbort l) by (intros Hi; apply Hn; now right). specialize (IH Hl).
    destruct e; simpl; try lia. exfalso. apply Hn. now left.
  Qed.

  Lemma log_bound s : reach s -> List.length (s_log s) <= 2 * n.
  Proof.
    intros H. apply reach_Inv in H. pose proof (v_core _ _ _ H) as C.
    rewrite (log_length _ (c_noabort _ _ _ _ _ _ _ _ C)).
    pose proof (Permutation_length (c_perm _ _ _ _ _ _ _ _ C)) as P. rewrite !app_length in P.
    assert (B : List.length (s_queue s ++ started (s_log s) ++ dropped (s_log s)) <= n).
    { rewrite <- (seq_length n 0). apply NoDup_incl_length; [apply (c_nodup _ _ _ _ _ _ _ _ C)|].
      intros i Hi. apply (c_enq _ _ _ _ _ _ _ _ C) in Hi. apply in_seq. lia. }
    rewrite !app_length in B. lia.
  Qed.

  Lemma nsteps_steps k s s' : nsteps inv run k s s' -> steps inv run s s'.
  Proof. induction 1; [constructor|econstructor; eauto]. Qed.

  Lemma nsteps_log k w0 s : nsteps inv run k (init_state sv w0) s ->
    k <= List.length (s_log s) + match s_main s with MReturned => 1 | MJoin => 0 end.
  Proof.
    intros H. remember (init_state sv w0) as s0. induction H as [s|k s1 s2 s3 H IH St]; [lia|].
    specialize (IH Heqs0). subst s1.
    assert (Hreach : reach s2) by (exists w0; eapply nsteps_steps; eauto).
    pose proof (step_main _ _ _ _ St) as [Hm _]. rewrite Hm in IH.
    assert (Hg : s_main s3 = MReturned /\ s_log s3 = s_log s2 \/
                 S (List.length (s_log s2)) <= List.length (s_log s3)).
    { destruct St as [w s Hm' Hw Hq|w s Hm' Hw Hq|w t r world' order s Hm' Hw Hr HP|s Hm' Hrel].
      - right. destruct (loop_head_grows w s Hq) as (e & l & ->). rewrite app_length. simpl. lia.
      - exfalso. apply reach_Inv in Hreach.
        assert (He : s_error s = false).
        { destruct (s_error s) eqn:E; [|reflexivity]. exfalso. apply Hq. now apply (v_errq _ _ _ Hreach). }
        destruct (v_drain _ _ _ Hreach He) as [Hx _]; [now apply nth_error_In in Hw|contradiction].
      - right. destruct (after_task_frame w t r order (set_world world' s)) as (_ & _ & _ & l & -> & _).
        rewrite !app_length. simpl. rewrite app_length. simpl. lia.
      - left. auto. }
    destruct Hg as [[H1 H2]|H2]; [rewrite H1, H2; lia|]. destruct (s_main s3); lia.
  Qed.

  Lemma steps_bounded k w0 s : nsteps inv run k (init_state sv w0) s -> k <= 2 * n + 1.
  Proof.
    intros H. pose proof (nsteps_log k w0 s H) as L.
    assert (Hr : reach s) by (exists w0; eapply nsteps_steps; eauto).
    pose proof (log_bound s Hr). destruct (s_main s); lia.
  Qed.

  (** C09 *)
  Lemma returned_idle s : reach s -> s_main s = MReturned ->
    in_progress (s_log s) = 0 /\ s_queue s = [] /\
    forall t, In (EStart t) (s_log s) -> exists r, In (EFinish t r) (s_log s).
  Proof.
    intros H Hm. destruct (returned_facts s H Hm) as (_ & Hq & Hr & Hx).
    rewrite (in_progress_workers s H), Hr. split; [reflexivity|]. split; [exact Hq|].
    intros t Ht. apply started_In in Ht. apply reach_Inv in H.
    apply (Permutation_in t (c_perm _ _ _ _ _ _ _ _ (v_core _ _ _ H))) in Ht.
    rewrite Hr, Hx, app_nil_r in Ht. now apply finished_In.
  Qed.

  (** C10 *)
  Lemma no_abort s : reach s -> ~ In EAbort (s_log s).
  Proof. intros H. apply reach_Inv in H. apply (c_noabort _ _ _ _ _ _ _ _ (v_core _ _ _ H)). Qed.
  Lemma no_assertion s : reach s -> s_main s = MReturned -> exists b, exec_result n s = Ok b.
  Proof. intros H Hm. destruct (exec_result_cases s H Hm) as [[_ E]|(_ & E & _)]; eauto. Qed.

  (** C11 *)
  Lemma raise_never_returns s t : reach s -> In (ERaise t) (s_log s) -> s_main s = MJoin.
  Proof.
    intros H Hr. destruct (s_main s) eqn:E; [reflexivity|].
    destruct (returned_facts s H E) as (_ & _ & _ & Hx). apply raised_In in Hr. rewrite Hx in Hr. destruct Hr.
  Qed.

  Lemma wstate_dec (a b : wstate) : {a = b} + {a <> b}.
  Proof. decide equality. apply Nat.eq_dec. Defined.

  (** Every execution can be continued until nothing is enabled any more. *)
  Lemma step_or_stuck s : (forall t w, exists r w', run t w r w') -> Inv n deps s ->
    (exists s', step inv run s s') \/ (forall s', ~ step inv run s s').
  Proof.
    intros Htot HI. destruct (s_main s) eqn:Em.
    2:{ right. intros s' St. apply step_main in St. destruct St; congruence. }
    destruct (s_released s) eqn:Er; [left; eexists; now apply step_join|].
    destruct (running (s_workers s)) as [|t rn] eqn:Ern.
    - destruct (s_queue s) as [|q0 q] eqn:Eq.
      + right. intros s' St.
        destruct St as [w s Hm Hw Hq|w s Hm Hw Hq|w t r world' order s Hm Hw Hr HP|s Hm Hrel]; try congruence.
        assert (In t (running (s_workers s))) by (apply running_In; eauto).
        rewrite Ern in H. destruct H.
      + destruct (in_dec wstate_dec
                    WGet (s_workers s)) as [Hg|Hg].
        { left. apply In_nth_error in Hg. destruct Hg as [w Hw]. eexists. apply (step_get inv run w); auto. congruence. }
        destruct (in_dec wstate_dec
                    WDrain (s_workers s)) as [Hd|Hd].
        { left. apply In_nth_error in Hd. destruct Hd as [w Hw]. eexists. apply (step_drain inv run w); auto. congruence. }
        right. intros s' St.
        destruct St as [w s Hm Hw Hq|w s Hm Hw Hq|w t r world' order s Hm Hw Hr HP|s Hm Hrel]; try congruence.
        * apply nth_error_In in Hw. contradiction.
        * apply nth_error_In in Hw. contradiction.
        * assert (In t (running (s_workers s))) by (apply running_In; eauto).
          rewrite Ern in H. destruct H.
    - left. assert (Ht : In t (running (s_workers s))) by (rewrite Ern; now left).
      apply running_In in Ht. destruct Ht as [w Hw].
      destruct (Htot t (s_world s)) as (r & w' & Hr). eexists. eapply step_finish; eauto.
  Qed.

  Lemma steps_nsteps s s' : steps inv run s s' -> exists k, nsteps inv run k s s'.
  Proof.
    induction 1 as [s|a b c H [k IH] St]; [exists 0; constructor|].
    exists (S k). econstructor; eauto.
  Qed.

  Lemma run_to_end w0 s : (forall t w, exists r w', run t w r w') -> exec_reaches sv run w0 s ->
    exists s', steps inv run s s' /\ forall s'', ~ step inv run s' s''.
  Proof.
    intros Htot H. destruct (steps_nsteps _ _ H) as [k Hk].
    assert (G : forall m k s, nsteps inv run k (init_state sv w0) s -> 2 * n + 1 - k <= m ->
              exists s', steps inv run s s' /\ forall s'', ~ step inv run s' s'').
    { clear s H k Hk. induction m as [|m IH]; intros k s Hk Hm.
      - exists s. split; [constructor|]. intros s'' St.
        assert (nsteps inv run (S k) (init_state sv w0) s'') by (econstructor; eauto).
        apply steps_bounded in H. lia.
      - assert (HI : Inv n deps s) by (apply reach_Inv; exists w0; eapply nsteps_steps; eauto).
        destruct (step_or_stuck s Htot HI) as [[s1 St]|Hs]; [|exists s; split; [constructor|exact Hs]].
        assert (Hk1 : nsteps inv run (S k) (init_state sv w0) s1) by (econstructor; eauto).
        destruct (IH (S k) s1 Hk1) as (s' & H1 & H2); [lia|].
        exists s'. split; [|exact H2]. eapply steps_trans; [|exact H1].
        eapply steps_snoc; [constructor|exact St]. }
    eapply G; eauto.
  Qed.

  Lemma raise_hangs w0 s t : (forall t w, exists r w', run t w r w') ->
    exec_reaches sv run w0 s -> In (ERaise t) (s_log s) ->
    exists s', steps inv run s s' /\ hangs sv run s'.
  Proof.
    intros Htot H Hr. destruct (run_to_end w0 s Htot H) as (s' & H1 & H2).
    exists s'. split; [exact H1|]. split; [|exact H2].
    apply (raise_never_returns s' t).
    - exists w0. unfold exec_reaches. eapply steps_trans; eauto.
    - destruct (steps_log _ _ _ _ H1) as [l ->]. apply in_app_iff. now left.
  Qed.

  (** C12 *)
  Lemma no_threads_stuck w0 : (th <= 0)%Z -> forall s, steps inv run (init_state sv w0) s ->
    s = init_state sv w0 /\ forall s', ~ step inv run s s'.
  Proof.
    intros Hth. destruct sv_good as (_ & _ & _ & G).
    assert (Hno : forall s', ~ step inv run (init_state sv w0) s').
    { intros s' St. remember (init_state sv w0) as s.
      assert (Hw0 : s_workers s = []).
      { subst s. simpl. rewrite (sf_threads _ _ _ G). replace (Z.to_nat th) with 0 by lia. reflexivity. }
      assert (Hr0 : s_released s = false) by (subst s; reflexivity).
      destruct St as [w s Hm Hw Hq|w s Hm Hw Hq|w t r world' order s Hm Hw Hr HP|s Hm Hrel];
        rewrite ?Hw0 in *; try congruence; destruct w; discriminate. }
    intros s H. remember (init_state sv w0) as s0. induction H as [s|a b c H IH St].
    - split; [reflexivity|exact Hno].
    - destruct (IH Heqs0 Hno) as [-> _]. exfalso. eapply Hno. exact St.
  Qed.

  (** C13 *)
  Lemma leave_only_when_done s : reach s -> ~ failed_in (s_log s) ->
    In WDrain (s_workers s) -> forall i, i < n -> In (EFinish i RNotFalse) (s_log s).
  Proof.
    intros H Hnf Hd. pose proof (reach_Inv s H) as I.
    assert (He : s_error s = false).
    { rewrite (v_err _ _ _ I). destruct (any_false (s_log s)) eqn:E; [|reflexivity].
      apply any_false_spec in E. contradiction. }
    destruct (v_drain _ _ _ I He Hd) as [Hq Hb].
    assert (Hbase : forall w x, nth_error (s_workers s) w = Some x -> x = WGet \/ x = WDrain).
    { intros w x Hx. destruct (nth_error (s_on_base s) w) as [b|] eqn:E.
      - pose proof (v_base _ _ _ I w x b Hx E) as B. apply nth_error_In in E. apply Hb in E. subst b.
        destruct x; simpl in B; try discriminate; auto.
      - apply nth_error_None in E. apply nth_error_lt in Hx. rewrite (v_len _ _ _ I) in E. lia. }
    assert (Hr : running (s_workers s) = []).
    { destruct (running (s_workers s)) as [|t l] eqn:E; [reflexivity|exfalso].
      assert (Ht : In t (running (s_workers s))) by (rewrite E; now left).
      apply running_In in Ht. destruct Ht as [w Hw]. destruct (Hbase _ _ Hw); discriminate. }
    assert (Hdd : deads (s_workers s) = 0).
    { unfold deads. destruct (list_sum (map dead_of (s_workers s))) eqn:E; [reflexivity|exfalso].
      assert (Hz : forall x, In x (s_workers s) -> dead_of x = 0).
      { intros x Hx. apply In_nth_error in Hx. destruct Hx as [w Hw].
        destruct (Hbase _ _ Hw) as [-> | ->]; reflexivity. }
      assert (Hs : list_sum (map dead_of (s_workers s)) = 0); [|congruence].
      clear - Hz. induction (s_workers s) as [|x l IH]; [reflexivity|]. simpl.
      rewrite (Hz x) by now left. apply IH. intros y Hy. apply Hz. now right. }
    assert (Hu : s_unfinished s = 0%Z).
    { rewrite (c_unf _ _ _ _ _ _ _ _ (v_core _ _ _ I)), Hq, Hr. simpl. rewrite (v_dead _ _ _ I), Hdd. reflexivity. }
    intros i Hi. pose proof (all_finished s I Hu He i Hi) as F. apply finished_In in F. destruct F as [r F].
    destruct r; [exact F| |].
    - exfalso. apply Hnf. now exists i.
    - exfalso. now apply (c_kind _ _ _ _ _ _ _ _ (v_core _ _ _ I) _ _ F).
  Qed.

  (** In a state that has not failed, has not raised and is not done, every worker is at work
      or waiting for work. *)
  Lemma workers_available s i : reach s -> ~ failed_in (s_log s) -> raised (s_log s) = [] ->
    i < n -> ~ In (EFinish i RNotFalse) (s_log s) ->
    List.length (s_workers s) = Z.to_nat th /\
    forall w x, nth_error (s_workers s) w = Some x -> x = WGet \/ exists t, x = WRun t.
  Proof.
    intros H Hnf Hx Hi Hn. split; [now apply reach_workers|].
    intros w x Hw. destruct x; eauto.
    - exfalso. apply Hn. eapply leave_only_when_done; eauto. now apply nth_error_In in Hw.
    - exfalso. apply reach_Inv in H. pose proof (v_dead _ _ _ H) as D. rewrite Hx in D. simpl in D.
      assert (G : 1 <= deads (s_workers s)); [|lia].
      clear - Hw. unfold deads. revert w Hw. induction (s_workers s) as [|y l IH]; intros [|w] Hw; try discriminate.
      + injection Hw as ->. simpl. lia.
      + simpl in *. specialize (IH w Hw). lia.
  Qed.

  (** C14 *)
  Lemma finished_order s : reach s -> s_main s = MReturned -> ~ failed_in (s_log s) ->
    Permutation (finished (s_log s)) (seq 0 n) /\ dependency_order (depends_on ts) (finished (s_log s)).
  Proof.
    intros H Hm Hnf. pose proof (reach_Inv s H) as I. destruct (inv_nodup_parts s I) as (_ & N & _).
    destruct (exec_result_cases s H Hm) as [[F _]|(_ & _ & Hall)]; [contradiction|]. split.
    - apply NoDup_Permutation; [exact N|apply seq_NoDup|]. intros i. rewrite in_seq. split.
      + intros Hi. split; [lia|]. simpl.
        pose proof (v_core _ _ _ I) as C.
        assert (Hs : In i (started (s_log s))).
        { apply (Permutation_in i (Permutation_sym (c_perm _ _ _ _ _ _ _ _ C))).
          apply in_app_iff. right. apply in_app_iff. now left. }
        apply (proj1 (proj1 (c_enq _ _ _ _ _ _ _ _ C i) ltac:(apply in_app_iff; right; apply in_app_iff; now left))).
      + intros [_ Hi]. apply finished_In. eexists. apply Hall. exact Hi.
    - intros l1 t l2 j E Hj.
      (* find the finishing event of t in the log *)
      assert (Hsplit : forall l a x b, finished l = a ++ x :: b ->
                exists p r q, l = p ++ EFinish x r :: q /\ finished p = a /\ finished q = b).
      { clear. induction l as [|e l IH]; intros a x b Hf; [destruct a; discriminate|].
        destruct e as [u|u r|u|u|]; simpl in Hf;
          try (destruct (IH _ _ _ Hf) as (p & r0 & q & -> & H1 & H2);
               eexists (_ :: p), r0, q; split; [reflexivity|split; [exact H1|exact H2]]).
        destruct a as [|a0 a]; simpl in Hf.
        - injection Hf as -> <-. exists [], r, l. auto.
        - injection Hf as -> Hf. destruct (IH _ _ _ Hf) as (p & r0 & q & -> & H1 & H2).
          exists (EFinish a0 r :: p), r0, q. split; [reflexivity|]. split; [simpl; now rewrite H1|exact H2]. }
      destruct (Hsplit _ _ _ _ E) as (p & r & q & El & Hp & Hq). subst l1.
      (* t was started before it finished: its start is in p *)
      assert (Hst : In (EStart t) p).
      { destruct H as [w0 Hr]. clear - Hr El Hsv Hso n deps inv.
        assert (Hx : forall s, exec_reaches sv run w0 s -> forall p r q, s_log s = p ++ EFinish t r :: q -> In (EStart t) p).
        { intros s1 H1. unfold exec_reaches in H1. remember (init_state sv w0) as s0.
          induction H1 as [s1|a b c H1 IH St]; intros p0 r0 q0 E0.
          - subst. simpl in E0. destruct p0; discriminate.
          - subst a. specialize (IH eq_refl).
            assert (Hreach : reach b) by (exists w0; exact H1).
            assert (Hcase : forall ev l, s_log c = s_log b ++ ev ++ l -> finished l = [] ->
                       (ev = [] \/ exists t' r', ev = [EFinish t' r'] /\ In (EStart t') (s_log b)) ->
                       In (EStart t) p0).
            { intros ev l Hl Hfl Hev. rewrite E0 in Hl.
              destruct (le_lt_dec (List.length (s_log b)) (List.length p0)) as [Hle|Hlt].
              - assert (Hp0 : exists p1, p0 = s_log b ++ p1 /\ ev ++ l = p1 ++ EFinish t r0 :: q0).
                { symmetry in Hl. clear - Hl Hle. revert Hl Hle. generalize (s_log b) as lb. intros lb.
                  revert p0. induction lb as [|x lb IHl]; intros p0 Hl Hle; simpl in *; [now exists p0|].
                  destruct p0 as [|y p0]; simpl in Hle; [lia|]. simpl in Hl. injection Hl as -> Hl.
                  destruct (IHl p0 Hl) as (p1 & -> & Hp1); [lia|]. exists p1. auto. }
                destruct Hp0 as (p1 & -> & Hp1). destruct Hev as [->|(t' & r' & -> & Hin)].
                + simpl in Hp1. subst l. rewrite finished_app in Hfl. simpl in Hfl.
                  destruct (finished p1); discriminate.
                + destruct p1 as [|y p1]; simpl in Hp1.
                  * injection Hp1 as -> -> _. rewrite app_nil_r. exact Hin.
                  * injection Hp1 as <- Hp1. subst l. rewrite finished_app in Hfl. simpl in Hfl.
                    destruct (finished p1); discriminate.
              - assert (Hp0 : exists q1, s_log b = p0 ++ EFinish t r0 :: q1).
                { clear - Hl Hlt. revert Hl Hlt. generalize (s_log b) as lb. intros lb. revert p0.
                  induction lb as [|x lb IHl]; intros p0 Hl Hlt; simpl in Hlt; [lia|].
                  destruct p0 as [|y p0]; simpl in Hl.
                  - injection Hl as <- Hl. now exists lb.
                  - injection Hl as <- Hl. destruct (IHl p0 Hl) as [q1 ->]; [simpl in Hlt; lia|].
                    now exists q1. }
                destruct Hp0 as [q1 Hq1]. eapply IH; eauto. }
            destruct St as [w sb Hm Hw Hq|w sb Hm Hw Hq|w t' r' world' order sb Hm Hw Hrr HP|sb Hm Hrel].
            + destruct (frame_loop w sb) as (_ & _ & _ & l & Hl & Hf & _).
              eapply (Hcase [] l); eauto.
            + destruct (frame_release w sb) as (_ & _ & _ & l & Hl & Hf & _).
              eapply (Hcase [] l); eauto.
            + destruct (after_task_frame w t' r' order (set_world world' sb)) as (_ & _ & _ & l & Hl & Hf & _).
              simpl in Hl. rewrite <- app_assoc in Hl.
              assert (Hin : In (EStart t') (s_log sb)).
              { apply started_In. apply reach_Inv in Hreach.
                apply (Permutation_in t' (Permutation_sym (c_perm _ _ _ _ _ _ _ _ (v_core _ _ _ Hreach)))).
                apply in_app_iff. left. apply running_In. eauto. }
              destruct r'.
              * eapply (Hcase [EFinish t' RNotFalse] l); eauto.
              * eapply (Hcase [EFinish t' RFalse] l); eauto.
              * eapply (Hcase [] (ERaise t' :: l)); eauto.
            + eapply (Hcase [] []); eauto. simpl. now rewrite app_nil_r. }
        eapply Hx; eauto. }
      apply in_split in Hst. destruct Hst as (p1 & p2 & ->).
      assert (Hd : In (EFinish j RNotFalse) p1).
      { eapply deps_first; [exact H| |exact Hj]. rewrite El, <- app_assoc. reflexivity. }
      rewrite finished_app. apply in_app_iff. left. apply finished_In. eauto.
  Qed.

  Lemma world_fold (act : nat -> W -> W) l w0 w :
    (forall t w r w', run t w r w' -> r = RNotFalse /\ w' = act t w) ->
    world_path run l w0 w -> w = fold_left (fun w t => act t w) (finished l) w0.
  Proof.
    intros Hrun H. induction H.
    - reflexivity.
    - apply Hrun in H0. destruct H0 as [_ ->]. rewrite finished_app, fold_left_app. simpl. now subst.
    - apply Hrun in H0. destruct H0; discriminate.
    - rewrite finished_app. destruct e; simpl in *; try tauto; now rewrite app_nil_r.
  Qed.
End Solver.

Section Confluence.
  Context {W : Type}.
  Variable dep : nat -> nat -> Prop.
  Variable act : nat -> W -> W.
  Hypothesis commute : forall t u, ~ clos_trans nat dep t u -> ~ clos_trans nat dep u t -> t <> u ->
    forall w, act t (act u w) = act u (act t w).
  Let apply_all (l : list nat) (w : W) := fold_left (fun w t => act t w) l w.

  (** Nothing later is needed by anything earlier. *)
  Definition respects (l : list nat) : Prop :=
    forall l1 x l2 y, l = l1 ++ x :: l2 -> In y l2 -> ~ clos_trans nat dep x y.

  Lemma order_respects l : NoDup l -> (forall t j, dep t j -> In t l -> In j l) ->
    dependency_order dep l -> respects l.
  Proof.
    intros N Hcl H l1 x l2 y E Hy Hc.
    assert (G : forall u v, clos_trans nat dep u v -> forall a b, l = a ++ u :: b -> In v a).
    { intros u v Huv. apply clos_trans_t1n in Huv. induction Huv as [u v Hd|u v z Hd _ IH]; intros a b Ea.
      - eapply H; eauto.
      - pose proof (H a u b v Ea Hd) as Hin. apply in_split in Hin. destruct Hin as (a1 & a2 & ->).
        specialize (IH a1 (a2 ++ u :: b)). rewrite <- app_assoc in Ea. specialize (IH Ea).
        apply in_app_iff. now left. }
    specialize (G x y Hc l1 l2 E). rewrite E in N. apply NoDup_app_iff in N.
    destruct N as (_ & _ & N). apply (N y G). now right.
  Qed.

  Lemma move_front x a w : (forall y, In y a -> ~ clos_trans nat dep x y /\ ~ clos_trans nat dep y x /\ x <> y) ->
    act x (apply_all a w) = apply_all a (act x w).
  Proof.
    revert w; induction a as [|y a IH]; intros w H; [reflexivity|].
    simpl. rewrite IH by (intros z Hz; apply H; now right). f_equal.
    destruct (H y (or_introl eq_refl)) as (H1 & H2 & H3). now apply commute.
  Qed.

  Lemma respects_tail x l : respects (x :: l) -> respects l.
  Proof. intros H l1 y l2 z E Hz. apply (H (x :: l1) y l2 z); [now rewrite E|exact Hz]. Qed.
  Lemma respects_remove a x b : respects (a ++ x :: b) -> respects (a ++ b).
  Proof.
    intros H l1 y l2 z E Hz.
    assert (G : exists l1' l2', a ++ x :: b = l1' ++ y :: l2' /\ In z l2').
    { revert l1 E. induction a as [|a0 a IHa]; intros l1 E; simpl in *.
      - exists (x :: l1), l2. rewrite E. auto.
      - destruct l1 as [|c l1]; simpl in E; injection E as -> E.
        + exists [], (a ++ x :: b). split; [reflexivity|]. rewrite <- E in Hz.
          apply in_app_iff in Hz. apply in_app_iff. simpl. tauto.
        + destruct (IHa (respects_tail _ _ H) l1 E) as (l1' & l2' & E' & Hz').
          exists (c :: l1'), l2'. simpl. rewrite E'. auto. }
    destruct G as (l1' & l2' & E' & Hz'). eapply H; eauto.
  Qed.

  Lemma confluent l1 : forall l2 w, NoDup l1 -> Permutation l1 l2 -> respects l1 -> respects l2 ->
    apply_all l1 w = apply_all l2 w.
  Proof.
    induction l1 as [|x l1 IH]; intros l2 w N P R1 R2.
    - apply Permutation_nil in P. now subst.
    - assert (Hx : In x l2) by (apply (Permutation_in x P); now left).
      apply in_split in Hx. destruct Hx as (a & b & ->).
      apply NoDup_cons_iff in N. destruct N as [Nx N].
      pose proof (Permutation_cons_app_inv _ _ P) as P'.
      assert (Ha : forall y, In y a -> ~ clos_trans nat dep x y /\ ~ clos_trans nat dep y x /\ x <> y).
      { intros y Hy.
        assert (Hy1 : In y l1) by (apply (Permutation_in y (Permutation_sym P')); apply in_app_iff; now left).
        split; [|split].
        - apply (R1 [] x l1 y); [reflexivity|exact Hy1].
        - apply in_split in Hy. destruct Hy as (a1 & a2 & ->).
          apply (R2 a1 y (a2 ++ x :: b) x); [now rewrite <- app_assoc|].
          apply in_app_iff. right. now left.
        - intros ->. contradiction. }
      pose proof (move_front x a w Ha) as M. unfold apply_all in *.
      rewrite fold_left_app. simpl. rewrite M. rewrite <- fold_left_app. apply IH; auto.
      + eapply respects_tail; eauto.
      + eapply respects_remove; eauto.
  Qed.
End Confluence.

Lemma schedule_independent {W} (run : nat -> W -> tres -> W -> Prop) so ts th sv (act : nat -> W -> W) w0 s :
  fair_order so -> solver_init so ts (Some th) = inr sv ->
  (forall t w r w', run t w r w' -> r = RNotFalse /\ w' = act t w) ->
  (forall t u, ~ clos_trans nat (depends_on ts) t u -> ~ clos_trans nat (depends_on ts) u t -> t <> u ->
     forall w, act t (act u w) = act u (act t w)) ->
  exec_reaches sv run w0 s -> s_main s = MReturned ->
  forall l, Permutation l (seq 0 (List.length ts)) -> dependency_order (depends_on ts) l ->
  s_world s = fold_left (fun w t => act t w) l w0.
Proof.
  intros Hso Hsv Hrun Hcom H Hm l HP Hl.
  pose proof (reach_world run sv w0 s H) as Hw.
  assert (Hnf : ~ failed_in (s_log s)).
  { intros [t Ht]. clear - Hw Hrun Ht. induction Hw; try contradiction.
    - apply in_app_iff in Ht. destruct Ht as [Ht|[Ht|[]]]; [auto|]. injection Ht as -> ->.
      apply Hrun in H. destruct H; discriminate.
    - apply in_app_iff in Ht. destruct Ht as [Ht|[Ht|[]]]; [auto|discriminate].
    - apply in_app_iff in Ht. destruct Ht as [Ht|[Ht|[]]]; [auto|]. subst e. contradiction. }
  assert (Hre : reach run sv s) by (exists w0; exact H).
  destruct (finished_order run so ts th sv Hso Hsv s Hre Hm Hnf) as [P O].
  rewrite (world_fold run ts sv act _ _ _ Hrun Hw).
  assert (Hcl : forall l', Permutation l' (seq 0 (List.length ts)) ->
            forall t j, depends_on ts t j -> In t l' -> In j l').
  { intros l' Hl' t j Hd _. apply (Permutation_in j (Permutation_sym Hl')). apply in_seq.
    apply depends_on_lt in Hd. lia. }
  assert (Hnd : forall l', Permutation l' (seq 0 (List.length ts)) -> NoDup l').
  { intros l' Hl'. eapply Permutation_NoDup; [symmetry; exact Hl'|apply seq_NoDup]. }
  apply (confluent (depends_on ts) act Hcom).
  - now apply Hnd.
  - rewrite P. now symmetry.
  - apply order_respects; [now apply Hnd|now apply Hcl|exact O].
  - apply order_respects; [now apply Hnd|now apply Hcl|exact Hl].
Qed.
