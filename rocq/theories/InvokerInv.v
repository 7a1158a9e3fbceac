(** The invariant [Inv] holds in every reachable state of [exec]. *)
From Coq Require Import Permutation Relations.Relation_Operators.
From Verif Require Import PyBase SolverModel SpecGraph InvokerModel SpecTrace DfsProofs SolverProofs InvokerProofs.

Lemma lupd_lupd {A} (l : list A) i a b : lupd (lupd l i a) i b = lupd l i b.
Proof. revert i; induction l as [|x l IH]; intros [|i]; simpl; f_equal; auto. Qed.
Lemma lupd_same {A} (l : list A) i a : nth_error l i = Some a -> lupd l i a = l.
Proof.
  revert i; induction l as [|x l IH]; intros [|i]; simpl; try congruence; auto.
  intros H. f_equal. auto.
Qed.

Section Inv.
  Context {W : Type}.
  Variable n : nat.
  Variables deps inv : nat -> list nat.
  Variable run : nat -> W -> tres -> W -> Prop.
  Hypothesis deps_inv : forall i j, In j (deps i) <-> In i (inv j).
  Hypothesis deps_nodup : forall i, NoDup (deps i).
  Hypothesis inv_nodup : forall i, NoDup (inv i).
  Hypothesis deps_lt : forall i j, In j (deps i) -> i < n /\ j < n.
  Implicit Types s : state W.

  Lemma decrease_all_eq order s :
    NoDup order -> (forall d, In d order -> 1 <= s_depcount s d)%Z ->
    decrease_all order s =
    inl (ST (dc_after order (s_depcount s)) (s_isdone s)
            (s_queue s ++ newly order (s_depcount s))
            (s_unfinished s + Z.of_nat (List.length (newly order (s_depcount s))))
            (s_released s) (s_workers s) (s_on_base s) (s_error s) (s_main s) (s_log s) (s_world s)).
  Proof.
    revert s; induction order as [|d o IH]; intros s Hn H.
    - simpl. destruct s; simpl. rewrite app_nil_r, Z.add_0_r. reflexivity.
    - apply NoDup_cons_iff in Hn. destruct Hn as [H1 H2].
      simpl decrease_all. unfold decrease.
      pose proof (H d (or_introl eq_refl)) as Hd.
      destruct (Z.leb_spec 0 (s_depcount s d - 1)) as [Hl|Hl]; [|lia].
      assert (Hup : forall x, In x o -> upd (s_depcount s) d (s_depcount s d - 1)%Z x = s_depcount s x).
      { intros x Hx. unfold upd. destruct (Nat.eqb_spec x d) as [->|]; [contradiction|reflexivity]. }
      rewrite IH; [|exact H2|].
      + simpl. destruct (Z.eqb_spec (s_depcount s d - 1) 0) as [E|E]; simpl.
        * rewrite <- app_assoc. simpl. f_equal. f_equal. lia.
        * reflexivity.
      + intros x Hx.
        destruct (s_depcount s d - 1 =? 0)%Z; simpl; rewrite Hup by exact Hx; apply H; now right.
  Qed.

  Lemma drain_items_eq q s :
    s_queue s = q -> (Z.of_nat (List.length q) <= s_unfinished s)%Z ->
    drain_items q s =
    Some (ST (s_depcount s) (s_isdone s) [] (s_unfinished s - Z.of_nat (List.length q))
             (s_released s || (match q with [] => false | _ => true end
                               && (s_unfinished s - Z.of_nat (List.length q) =? 0)%Z))
             (s_workers s) (s_on_base s) (s_error s) (s_main s) (s_log s ++ map EDrop q) (s_world s)).
  Proof.
    revert s; induction q as [|t q IH]; intros s Hq Hu.
    - simpl. destruct s; simpl in *. subst. rewrite app_nil_r, orb_false_r, Z.sub_0_r. reflexivity.
    - simpl drain_items. unfold task_done. simpl List.length in *.
      destruct (Z.leb_spec (s_unfinished (add_log (EDrop t) (set_queue q s))) 0) as [Hl|Hl].
      { simpl in Hl. lia. }
      simpl in Hl. rewrite IH; simpl; [|reflexivity|lia].
      f_equal. rewrite <- app_assoc. simpl.
      replace (s_unfinished s - 1 - Z.of_nat (List.length q))%Z
        with (s_unfinished s - Z.of_nat (S (List.length q)))%Z by lia.
      f_equal. rewrite <- orb_assoc. f_equal.
      destruct q as [|t' q]; [simpl; now rewrite orb_false_r|].
      simpl List.length in *.
      destruct (Z.eqb_spec (s_unfinished s - 1) 0); [lia|reflexivity].
  Qed.

  Lemma release_queue_eq w s :
    (Z.of_nat (List.length (s_queue s)) <= s_unfinished s)%Z ->
    release_queue w s =
    ST (s_depcount s) (s_isdone s) [] (s_unfinished s - Z.of_nat (List.length (s_queue s)))
       (s_released s || (match s_queue s with [] => false | _ => true end
                         && (s_unfinished s - Z.of_nat (List.length (s_queue s)) =? 0)%Z))
       (lupd (s_workers s) w WDrain) (s_on_base s) (s_error s) (s_main s)
       (s_log s ++ map EDrop (s_queue s)) (s_world s).
  Proof. intros H. unfold release_queue. rewrite drain_items_eq; auto. Qed.

  Definition base_ok (x : wstate) (b : bool) : Prop :=
    match x with WGet => b = true | WRun _ => b = false | WDead => b = false | WDrain => True end.

  Record Inv s : Prop := {
    v_core : core n deps (s_depcount s) (s_isdone s) (s_queue s) (s_unfinished s)
                  (running (s_workers s)) (s_log s);
    v_len : List.length (s_on_base s) = List.length (s_workers s);
    v_err : s_error s = any_false (s_log s);
    v_errq : s_error s = true -> s_queue s = [];
    v_drop : s_error s = false -> dropped (s_log s) = [];
    v_base : forall w x b, nth_error (s_workers s) w = Some x ->
               nth_error (s_on_base s) w = Some b -> base_ok x b;
    v_drain : s_error s = false -> In WDrain (s_workers s) ->
               s_queue s = [] /\ forall b, In b (s_on_base s) -> b = true;
    v_rel : s_released s = true <-> s_unfinished s = 0%Z;
    v_dead : List.length (raised (s_log s)) = deads (s_workers s) }.

  Record Pre (w : nat) s : Prop := {
    p_core : core n deps (s_depcount s) (s_isdone s) (s_queue s) (s_unfinished s)
                  (running (lupd (s_workers s) w WGet)) (s_log s);
    p_lt : w < List.length (s_workers s);
    p_len : List.length (s_on_base s) = List.length (s_workers s);
    p_err : s_error s = any_false (s_log s);
    p_drop : s_error s = false -> dropped (s_log s) = [];
    p_base : forall w' x b, w' <> w -> nth_error (s_workers s) w' = Some x ->
               nth_error (s_on_base s) w' = Some b -> base_ok x b;
    p_drain : s_error s = false -> forall w', w' <> w -> nth_error (s_workers s) w' <> Some WDrain;
    p_rel : s_released s = true <-> s_unfinished s = 0%Z;
    p_dead : List.length (raised (s_log s)) = deads (lupd (s_workers s) w WGet) }.

  Lemma running_lupd_other ws w x y : w < List.length ws -> runs_of x = [] -> runs_of y = [] ->
    Permutation (running (lupd ws w x)) (running (lupd ws w y)).
  Proof.
    intros Hw Hx Hy. rewrite <- (lupd_lupd ws w y x).
    pose proof (running_lupd (lupd ws w y) w x y (nth_error_lupd_eq ws w y Hw)) as P.
    rewrite Hx, Hy in P. exact P.
  Qed.
  Lemma deads_lupd_other ws w x y : w < List.length ws -> dead_of x = 0 -> dead_of y = 0 ->
    deads (lupd ws w x) = deads (lupd ws w y).
  Proof.
    intros Hw Hx Hy. rewrite <- (lupd_lupd ws w y x).
    pose proof (deads_lupd (lupd ws w y) w x y (nth_error_lupd_eq ws w y Hw)) as P. lia.
  Qed.

  Lemma core_unf_ge dc dn q unf rn l : core n deps dc dn q unf rn l ->
    (Z.of_nat (List.length q) <= unf)%Z.
  Proof. intros H. rewrite (c_unf _ _ _ _ _ _ _ _ H). lia. Qed.

  Lemma pre_release w s : Pre w s ->
    s_error s = true \/ (s_queue s = [] /\ forall b, In b (s_on_base s) -> b = true) ->
    Inv (release_queue w s).
  Proof.
    intros [H1 H2 H3 H4 H5 H6 H7 H8 H9] Hc.
    rewrite release_queue_eq by (eapply core_unf_ge; eauto).
    split; simpl.
    - eapply core_rn; [|apply core_drain; exact H1]. now apply running_lupd_other.
    - now rewrite lupd_length.
    - now rewrite any_false_app, any_false_drops, orb_false_r.
    - reflexivity.
    - intros He. rewrite dropped_app, dropped_drops, (H5 He).
      destruct Hc as [Hc|[-> _]]; [congruence|reflexivity].
    - intros w' x b Hx Hb. destruct (Nat.eq_dec w w') as [<-|Hn].
      + rewrite nth_error_lupd_eq in Hx by exact H2. injection Hx as <-. exact I.
      + rewrite nth_error_lupd_neq in Hx by exact Hn. eapply H6; eauto.
    - intros He _. destruct Hc as [Hc|[_ Hc]]; [congruence|]. auto.
    - rewrite orb_true_iff, andb_true_iff, Z.eqb_eq, H8.
      destruct (s_queue s) as [|t q] eqn:Eq; simpl List.length.
      + rewrite Z.sub_0_r. intuition discriminate.
      + pose proof (c_unf _ _ _ _ _ _ _ _ H1) as Hu. simpl List.length in Hu.
        split; [intros [Hz|[_ Hz]]; [exfalso; lia|exact Hz]|]. intros Hz. right. auto.
    - rewrite raised_app, raised_drops, app_nil_r, H9. now apply deads_lupd_other.
  Qed.

  Lemma pre_loop w s : Pre w s -> s_error s = false -> nth_error (s_on_base s) w = Some true ->
    Inv (loop_head w s).
  Proof.
    intros [H1 H2 H3 H4 H5 H6 H7 H8 H9] He Hw. unfold loop_head.
    destruct (s_queue s) as [|t q] eqn:Eq.
    - split; simpl; auto.
      + now rewrite Eq.
      + now rewrite lupd_length.
      + intros w' x b Hx Hb. destruct (Nat.eq_dec w w') as [<-|Hn].
        * rewrite nth_error_lupd_eq in Hx by exact H2. injection Hx as <-. simpl. congruence.
        * rewrite nth_error_lupd_neq in Hx by exact Hn. eapply H6; eauto.
      + intros _ Hd. exfalso. apply In_nth_error in Hd. destruct Hd as [w' Hd].
        destruct (Nat.eq_dec w w') as [<-|Hn].
        * rewrite nth_error_lupd_eq in Hd by exact H2. discriminate.
        * rewrite nth_error_lupd_neq in Hd by exact Hn. eapply H7; eauto.
    - simpl. rewrite He.
      assert (Hf : any_false (s_log s) = false) by congruence.
      split; simpl; auto.
      + eapply core_rn; [|apply core_start; [exact Hf|exact H1]].
        pose proof (running_lupd (lupd (s_workers s) w WGet) w (WRun t) WGet
                      (nth_error_lupd_eq _ w WGet H2)) as P.
        rewrite lupd_lupd in P. simpl in P. now symmetry.
      + now rewrite !lupd_length.
      + rewrite any_false_app. simpl. now rewrite Hf.
      + congruence.
      + intros _. rewrite dropped_app. simpl. rewrite app_nil_r. auto.
      + intros w' x b Hx Hb. destruct (Nat.eq_dec w w') as [<-|Hn].
        * rewrite nth_error_lupd_eq in Hx by exact H2. injection Hx as <-.
          rewrite nth_error_lupd_eq in Hb by lia. injection Hb as <-. reflexivity.
        * rewrite nth_error_lupd_neq in Hx by exact Hn. rewrite nth_error_lupd_neq in Hb by exact Hn. eapply H6; eauto.
      + intros _ Hd. exfalso. apply In_nth_error in Hd. destruct Hd as [w' Hd].
        destruct (Nat.eq_dec w w') as [<-|Hn].
        * rewrite nth_error_lupd_eq in Hd by exact H2. discriminate.
        * rewrite nth_error_lupd_neq in Hd by exact Hn. eapply H7; eauto.
      + rewrite raised_app. simpl. rewrite app_nil_r, H9. now apply deads_lupd_other.
  Qed.

  Lemma Inv_idle_pre w s : Inv s -> nth_error (s_workers s) w = Some WGet -> s_queue s <> [] ->
    Pre w s /\ s_error s = false /\ nth_error (s_on_base s) w = Some true.
  Proof.
    intros [H1 H2 H3 H4 H5 H6 H7 H8 H9] Hw Hq.
    assert (He : s_error s = false).
    { destruct (s_error s); [|reflexivity]. exfalso. auto. }
    split; [|split; [exact He|]].
    - split; auto.
      + now rewrite lupd_same.
      + now apply nth_error_lt in Hw.
      + intros; eauto.
      + intros _ w' _ Hd. apply nth_error_In in Hd. destruct (H7 He Hd). contradiction.
      + now rewrite lupd_same.
    - destruct (nth_error (s_on_base s) w) as [b|] eqn:E.
      + pose proof (H6 _ _ _ Hw E) as Hb. simpl in Hb. now subst.
      + apply nth_error_None in E. apply nth_error_lt in Hw. lia.
  Qed.

  Lemma Inv_run_nodrain w t s : Inv s -> nth_error (s_workers s) w = Some (WRun t) ->
    s_error s = false -> ~ In WDrain (s_workers s).
  Proof.
    intros H Hw He Hd. destruct (v_drain _ H He Hd) as [_ Hb].
    destruct (nth_error (s_on_base s) w) as [b|] eqn:E.
    - pose proof (v_base _ H _ _ _ Hw E) as Hx. simpl in Hx. subst.
      apply nth_error_In in E. apply Hb in E. discriminate.
    - apply nth_error_None in E. apply nth_error_lt in Hw. rewrite (v_len _ H) in E. lia.
  Qed.

  Lemma step_Inv s s' : Inv s -> step inv run s s' -> Inv s'.
  Proof.
    intros HI St. destruct St as [w s Hm Hw Hq|w s Hm Hw Hq|w t r world' order s Hm Hw Hr HP|s Hm Hrel].
    - destruct (Inv_idle_pre w s HI Hw Hq) as (P & He & Hb). now apply pre_loop.
    - exfalso. assert (He : s_error s = false).
      { destruct (s_error s) eqn:E; [|reflexivity]. exfalso. apply Hq. now apply (v_errq _ HI). }
      destruct (v_drain _ HI He) as [Hx _]; [now apply nth_error_In in Hw|contradiction].
    - pose proof (nth_error_lt _ _ _ Hw) as Hlt.
      assert (Hrun : Permutation (running (s_workers s)) (t :: running (lupd (s_workers s) w WGet))).
      { pose proof (running_lupd (s_workers s) w WGet _ Hw) as P. simpl in P. now symmetry. }
      pose proof (core_rn _ _ _ _ _ _ _ _ _ Hrun (v_core _ HI)) as Hcore.
      pose proof (Inv_run_nodrain w t s HI Hw) as Hnd.
      assert (Hb : nth_error (s_on_base s) w = Some false).
      { destruct (nth_error (s_on_base s) w) as [b|] eqn:E.
        - pose proof (v_base _ HI _ _ _ Hw E) as Hx. simpl in Hx. now subst.
        - apply nth_error_None in E. rewrite (v_len _ HI) in E. lia. }
      assert (Hdl : deads (lupd (s_workers s) w WGet) = deads (s_workers s)).
      { pose proof (deads_lupd (s_workers s) w WGet _ Hw) as P. simpl in P. exact P. }
      assert (Hexn : forall e, Inv (die w (ERaise t) (set_world e s))).
      { intros e. unfold die. split; simpl.
        - eapply core_rn; [|eapply core_raise; exact Hcore].
          now apply running_lupd_other.
        - rewrite lupd_length. apply (v_len _ HI).
        - rewrite any_false_app. simpl. rewrite orb_false_r. apply (v_err _ HI).
        - apply (v_errq _ HI).
        - intros He. rewrite dropped_app. simpl. rewrite app_nil_r. now apply (v_drop _ HI).
        - intros w' x b Hx Hb'. destruct (Nat.eq_dec w w') as [<-|Hn].
          + rewrite nth_error_lupd_eq in Hx by exact Hlt. injection Hx as <-. simpl. congruence.
          + rewrite nth_error_lupd_neq in Hx by exact Hn. eapply (v_base _ HI); eauto.
        - intros He Hd. exfalso. apply (Hnd He). apply In_nth_error in Hd. destruct Hd as [w' Hd].
          destruct (Nat.eq_dec w w') as [<-|Hn].
          + rewrite nth_error_lupd_eq in Hd by exact Hlt. discriminate.
          + rewrite nth_error_lupd_neq in Hd by exact Hn. now apply nth_error_In in Hd.
        - apply (v_rel _ HI).
        - rewrite raised_app, app_length, (v_dead _ HI). simpl.
          pose proof (deads_lupd (s_workers s) w WDead _ Hw) as P. simpl in P. lia. }
      assert (Hpre : r <> RExn ->
         exists s2, decrease_all order (add_log (EFinish t r) (set_done t (set_world world' s))) = inl s2 /\
         exists s3, task_done s2 = Some s3 /\ s_error s3 = s_error s /\ s_on_base s3 = s_on_base s /\
           (any_false (s_log s3) = any_false (s_log s) || match r with RFalse => true | _ => false end) /\
           (forall s4, s_depcount s4 = s_depcount s3 -> s_isdone s4 = s_isdone s3 ->
              s_queue s4 = s_queue s3 -> s_unfinished s4 = s_unfinished s3 ->
              s_released s4 = s_released s3 -> s_workers s4 = s_workers s3 ->
              s_on_base s4 = lupd (s_on_base s3) w true \/ s_on_base s4 = s_on_base s3 ->
              s_log s4 = s_log s3 ->
              s_error s4 = s_error s || match r with RFalse => true | _ => false end ->
              Pre w s4)).
      { intros Hne. destruct (core_finish n deps inv deps_inv deps_nodup inv_nodup deps_lt
                                _ _ t r order _ _ _ _ Hne HP Hcore) as [Hge Hfin].
        eexists. split.
        { apply decrease_all_eq; [|exact Hge]. eapply Permutation_NoDup; [exact HP|apply inv_nodup]. }
        simpl. unfold task_done. simpl.
        pose proof (c_unf _ _ _ _ _ _ _ _ Hcore) as Hu. simpl List.length in Hu.
        destruct (Z.leb_spec (s_unfinished s + Z.of_nat (List.length (newly order (s_depcount s)))) 0)
          as [Hl|Hl]; [lia|].
        assert (Hnf : s_released s = false).
        { destruct (s_released s) eqn:E; [|reflexivity]. apply (v_rel _ HI) in E. lia. }
        eexists. split; [reflexivity|]. simpl. split; [reflexivity|]. split; [reflexivity|]. split.
        { rewrite any_false_app. simpl. now rewrite orb_false_r. }
        intros s4 E1 E2 E3 E4 E5 E6 E7 E8 E9.
        split; rewrite ?E1, ?E2, ?E3, ?E4, ?E5, ?E6, ?E8, ?E9; auto.
        - destruct E7 as [-> | ->]; rewrite ?lupd_length; apply (v_len _ HI).
        - rewrite any_false_app. simpl. rewrite orb_false_r. f_equal. apply (v_err _ HI).
        - intros He. apply orb_false_iff in He. rewrite dropped_app. simpl. rewrite app_nil_r.
          now apply (v_drop _ HI).
        - intros w' x b Hn Hx Hb'.
          assert (Hb'' : nth_error (s_on_base s) w' = Some b).
          { destruct E7 as [-> | ->] in Hb'; [|exact Hb']. now rewrite nth_error_lupd_neq in Hb' by auto. }
          eapply (v_base _ HI); eauto.
        - intros He w' Hn Hd. apply orb_false_iff in He. apply (Hnd (proj1 He)).
          now apply nth_error_In in Hd.
        - rewrite Hnf. simpl. rewrite Z.eqb_eq. reflexivity.
        - rewrite raised_app. simpl. rewrite app_nil_r, (v_dead _ HI). congruence. }
      unfold after_task. destruct r; [| |apply Hexn].
      + destruct Hpre as (s2 & E2 & s3 & E3 & Ee & Eo & Ea & Hp); [discriminate|]. rewrite E2, E3.
        rewrite orb_false_r in Ea.
        destruct (s_error s3) eqn:Es3.
        * apply pre_release; [|now left]. apply Hp; auto. now rewrite orb_false_r, <- Ee.
        * destruct (forallb (fun b => b) (s_on_base (set_base w true s3))
                    && match s_queue (set_base w true s3) with [] => true | _ => false end) eqn:Eb.
          -- apply andb_true_iff in Eb. destruct Eb as [Eb1 Eb2].
             apply pre_release.
             ++ apply Hp; simpl; auto. now rewrite orb_false_r, Es3.
             ++ right. split; [simpl in *; now destruct (s_queue s3)|].
                intros b Hb'. rewrite forallb_forall in Eb1. now apply Eb1.
          -- apply pre_loop.
             ++ apply Hp; simpl; auto. now rewrite orb_false_r, Es3.
             ++ exact Es3.
             ++ simpl. apply nth_error_lupd_eq. rewrite Eo, (v_len _ HI). exact Hlt.
      + destruct Hpre as (s2 & E2 & s3 & E3 & Ee & Eo & Ea & Hp); [discriminate|]. rewrite E2, E3.
        rewrite orb_true_r in Ea.
        destruct (s_error s3) eqn:Es3.
        * apply pre_release; [|now left]. apply Hp; auto. now rewrite orb_true_r.
        * apply pre_release; [|now left]. apply Hp; simpl; auto. now rewrite orb_true_r.
    - destruct HI as [H1 H2 H3 H4 H5 H6 H7 H8 H9]. split; auto.
  Qed.
End Inv.
