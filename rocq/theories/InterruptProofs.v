(** Lemmas: Ctrl-C during a build (C91). *)
From Coq Require Import Permutation.
From Verif Require Import PyBase PyPath SolverModel SpecGraph InvokerModel SpecTrace InvokerProofs InvokerInv
  InvokerThms InvokerPath CoreModel SpecCore CoreProofs NeedProofs RuProofs CoreThms MakeModel MakeEval SpecMake
  MakeProofs MakeFacts MakeBuild BuildSafe InterruptModel.

Section Others.
  Context {W : Type}.
  Implicit Types s : state W.

  (** What a worker does leaves the other workers alone. *)
  Definition others (w : nat) s s' : Prop := forall w', w' <> w -> nth_error (s_workers s') w' = nth_error (s_workers s) w'.
  Lemma others_same w s s' : s_workers s' = s_workers s -> others w s s'.
  Proof. intros E w' _. now rewrite E. Qed.
  Lemma others_trans w a b c : others w a b -> others w b c -> others w a c.
  Proof. intros H1 H2 w' Hn. rewrite H2 by exact Hn. now apply H1. Qed.
  Lemma others_worker w x s : others w s (set_worker w x s).
  Proof. intros w' Hn. apply nth_error_lupd_neq. congruence. Qed.
  Lemma others_die w e s : others w s (die w e s).
  Proof. exact (others_worker w WDead s). Qed.
  Lemma workers_task_done s s' : task_done s = Some s' -> s_workers s' = s_workers s.
  Proof. unfold task_done. destruct (s_unfinished s <=? 0)%Z; [discriminate|]. now intros [= <-]. Qed.
  Lemma workers_drain q s s' : drain_items q s = Some s' -> s_workers s' = s_workers s.
  Proof.
    revert s; induction q as [|t q IH]; intros s; cbn [drain_items].
    - now intros [= <-].
    - destruct (task_done _) as [s1|] eqn:E; [|discriminate]. intros H. apply IH in H. apply workers_task_done in E. now rewrite H, E.
  Qed.
  Lemma others_release w s : others w s (release_queue w s).
  Proof.
    unfold release_queue. destruct (drain_items (s_queue s) s) as [s'|] eqn:E; [|apply others_die].
    apply workers_drain in E. eapply others_trans; [apply others_same; exact E|apply others_worker].
  Qed.
  Lemma others_loop w s : others w s (loop_head w s).
  Proof.
    unfold loop_head. destruct (s_queue s) as [|t q]; [apply others_worker|]. destruct (s_error (set_queue q s)).
    - eapply others_trans; [|apply others_release]. now apply others_same.
    - intros w' Hn. apply nth_error_lupd_neq. congruence.
  Qed.
  Lemma workers_decrease_all ds s : match decrease_all ds s with inl s' | inr s' => s_workers s' = s_workers s end.
  Proof.
    revert s; induction ds as [|d ds IH]; intros s; cbn [decrease_all]; [reflexivity|].
    assert (H : match decrease d s with inl s' | inr s' => s_workers s' = s_workers s end).
    { unfold decrease. destruct (0 <=? s_depcount s d - 1)%Z; destruct (s_depcount s d - 1 =? 0)%Z; reflexivity. }
    destruct (decrease d s) as [s'|s']; [|exact H]. specialize (IH s'). destruct (decrease_all ds s') as [s2|s2]; congruence.
  Qed.
  Lemma others_after w t r order s : others w s (after_task w t r order s).
  Proof.
    unfold after_task.
    assert (G : forall e (k : state W -> state W), (forall s3, others w s3 (k s3)) ->
      others w s match decrease_all order (add_log e (set_done t s)) with
       | inl s2 => match task_done s2 with Some s3 => k s3 | None => die w EAbort s2 end
       | inr s2 => die w EAbort s2 end).
    { intros e k Hk. pose proof (workers_decrease_all order (add_log e (set_done t s))) as H.
      destruct (decrease_all order _) as [s2|s2]; (eapply others_trans; [apply others_same; exact H|]); [|apply others_die].
      destruct (task_done s2) as [s3|] eqn:E; [|apply others_die]. apply workers_task_done in E.
      eapply others_trans; [apply others_same; exact E|apply Hk]. }
    destruct r.
    - apply G. intros s3. destruct (s_error s3); [apply others_release|]. cbv zeta. eapply others_trans; [apply (others_same w s3 (set_base w true s3)); reflexivity|].
      destruct (_ && _); [apply others_release|apply others_loop].
    - apply G. intros s3. destruct (s_error s3); [apply others_release|]. eapply others_trans; [apply (others_same w s3 (set_error s3)); reflexivity|apply others_release].
    - apply others_die.
  Qed.
End Others.

Lemma in_threads_running {W} (s : state W) : in_threads s = running (s_workers s).
Proof. reflexivity. Qed.

Section Finish.
  Context {W : Type}.
  Variable run : nat -> W -> tres -> W -> Prop.
  Variables (so : set_order) (ts : list dtarget) (th : Z) (sv : solver).
  Hypothesis Hso : fair_order so.
  Hypothesis Hsv : solver_init so ts (Some th) = inr sv.
  Implicit Types s : state W.
  Notation inv := (inv_of (sv_inv sv)).

  (** A running task comes to its end, everything else stays. *)
  Lemma finish_one w0 s t r w1 : exec_reaches sv run w0 s -> s_main s = MJoin -> In t (in_threads s) -> run t (s_world s) r w1 ->
    exists s', steps inv run s s' /\ exec_reaches sv run w0 s' /\ s_main s' = MJoin /\ s_world s' = w1 /\
      (forall t', t' <> t -> In t' (in_threads s) -> In t' (in_threads s')) /\
      ended (s_log s') = ended (s_log s) ++ [(t, r)].
  Proof.
    intros Hex Hm Ht Hr. rewrite in_threads_running in Ht. apply running_In in Ht as (w & Hw).
    pose (s1 := set_world w1 s). exists (after_task w t r (inv t) s1).
    destruct (after_task_frame w t r (inv t) s1) as (F1 & F2 & _ & lg & F4 & F5 & F6).
    pose proof (step_finish inv run w t r w1 (inv t) s Hm Hw Hr (Permutation_refl _)) as St. split; [|split; [|split; [|split; [|split]]]].
    - eapply steps_snoc; [apply steps_refl|exact St].
    - eapply steps_snoc; [exact Hex|exact St].
    - rewrite F1. exact Hm.
    - rewrite F2. reflexivity.
    - intros t' Hn Ht'. rewrite in_threads_running in *. apply running_In in Ht' as (w' & Hw'). apply running_In. exists w'.
      rewrite others_after; [exact Hw'|]. intros ->. rewrite Hw in Hw'. injection Hw' as E. now apply Hn.
    - rewrite F4. cbn [s_log add_log]. rewrite !ended_app, (ended_finished lg F5 F6), app_nil_r. destruct r; reflexivity.
  Qed.

  Lemma running_started s t : reach run sv s -> In t (in_threads s) -> In (EStart t) (s_log s).
  Proof.
    intros Hr Ht. pose proof (v_core _ _ _ (reach_Inv run so ts th sv Hso Hsv s Hr)) as C.
    apply started_In. eapply Permutation_in; [apply Permutation_sym; exact (c_perm _ _ _ _ _ _ _ _ C)|]. apply in_app_iff. now left.
  Qed.
  Lemma running_nodup s : reach run sv s -> NoDup (in_threads s).
  Proof.
    intros Hr. pose proof (v_core _ _ _ (reach_Inv run so ts th sv Hso Hsv s Hr)) as C.
    pose proof (c_nodup _ _ _ _ _ _ _ _ C) as N. apply NoDup_app_iff in N. destruct N as (_ & N & _). apply NoDup_app_iff in N. destruct N as (N & _).
    eapply Permutation_NoDup in N; [|exact (c_perm _ _ _ _ _ _ _ _ C)]. apply NoDup_app_iff in N. tauto.
  Qed.

  (** Without killed commands, Ctrl-C is the same as killing the process a bit later. *)
  Lemma interrupt_is_kill w0 s w' : exec_reaches sv run w0 s -> interrupted run (fun _ _ _ => False) s w' ->
    exists s', steps inv run s s' /\ s_world s' = w'.
  Proof.
    intros Hex (Hm & order & Hp & Hs).
    assert (N : NoDup order) by (eapply Permutation_NoDup; [exact Hp|apply running_nodup; now exists w0]).
    assert (Hin : forall t, In t order -> In t (in_threads s)) by (intros t; apply Permutation_in; now apply Permutation_sym).
    clear Hp. remember (s_world s) as w eqn:Ew. revert s Hex Hm Ew Hin N.
    induction Hs as [w|t l w w' Hs IH|t l r w w1 w' Hr Hs IH|t l w w1 w' []]; intros s Hex Hm Ew Hin N.
    - exists s. split; [apply steps_refl|auto].
    - apply (IH s); auto; [intros x Hx; apply Hin; now right|]. now inversion N.
    - subst w. destruct (finish_one w0 s t r w1 Hex Hm (Hin t (or_introl eq_refl)) Hr) as (s' & H0 & H1 & H2 & H3 & H4 & _).
      inversion N as [|? ? Nt Nl]; subst. destruct (IH s') as (s2 & S2 & E2); auto; [|exists s2; split; [eapply steps_trans; eauto|exact E2]].
      intros x Hx. apply H4; [intros ->; contradiction|apply Hin; now right].
  Qed.

  (** At most [th] calls were running. *)
  Lemma interrupt_width w0 s : exec_reaches sv run w0 s -> List.length (in_threads s) <= Z.to_nat th.
  Proof.
    intros H. rewrite <- (reach_workers run so ts th sv Hso Hsv s (ex_intro _ w0 H)). eapply running_length; eauto.
  Qed.
End Finish.

Section Sim.
  Variable canon : string -> string.
  Variable kind : nat -> mkind.
  Variable other_if : nat -> res bool.
  Variable P : project.
  Variables (c0 : core) (i : nat) (fs : fsys) (now : nat) (ca : cache) (c : core) (objs : list nat) (ca1 : cache).
  Variables (so : set_order) (dts : list dtarget) (th : Z) (sv : solver).
  Hypothesis Hso : fair_order so.
  Hypothesis Hsv : solver_init so dts (Some th) = inr sv.
  Notation run := (mk_task canon kind false c objs).
  Notation w0 := (WD fs ca1 now now []).
  Hypothesis Him : implements canon kind P c0 i.
  Hypothesis Hbo : forall s, exec_reaches sv run w0 s -> build_of canon kind other_if false c0 i fs now ca c objs s.
  Hypothesis Hro : reads_only P.
  Hypothesis Hdat : dated fs now.
  Notation at_ k := (nth k objs (List.length (c_heap c))).
  Notation nm j := (t_name (obj c j)).
  Notation cone := (in_cone canon c i).

  (** What is known about a reachable state and its running tasks. *)
  Lemma known s : exec_reaches sv run w0 s -> s_main s = MJoin -> exists v0 l, run_of canon kind false P c i fs now l v0 (s_world s) /\
    forall t, In t (in_threads s) -> cone (at_ t) /\ ~ In (at_ t) (map fst l) /\ forall d, obj_dep canon c (at_ t) d -> In (d, RNotFalse) l.
  Proof.
    intros Hex Em. destruct (build_run_log canon kind other_if false P c0 i fs now ca c objs s Him (Hbo s Hex)) as (_ & v0 & l & R & _ & Hst & El).
    exists v0, l. split; [exact R|]. intros t Ht.
    destruct (Hst t (running_started run so dts th sv Hso Hsv s t (ex_intro _ w0 Hex) Ht)) as (Hc & Hd). split; [exact Hc|]. split; [|exact Hd].
    destruct (mk_tasks_end canon kind false c objs (ro_wf _ _ _ _ _ _ _ _ _ _ _ R) t (s_world s)) as (r & w1 & Hr).
    destruct (finish_one run sv w0 s t r w1 Hex Em Ht Hr) as (s' & _ & Hex' & _ & _ & _ & Ee).
    destruct (build_run_log canon kind other_if false P c0 i fs now ca c objs s' Him (Hbo s' Hex')) as (_ & v0' & l' & R' & _ & _ & El').
    pose proof (ro_nodup _ _ _ _ _ _ _ _ _ _ _ R') as N. rewrite El', Ee, map_app, map_app in N. cbn [map fst snd] in N. rewrite <- El in N.
    apply NoDup_remove_2 in N. now rewrite app_nil_r in N.
  Qed.

  (** The inputs of a running task are finished. *)
  Lemma inputs_done s v0 l : run_of canon kind false P c i fs now l v0 (s_world s) ->
    forall j k, input canon kind c j k -> (forall d, obj_dep canon c j d -> In (d, RNotFalse) l) -> In k (map fst l).
  Proof.
    intros R j k Hk. pose proof (ro_wf _ _ _ _ _ _ _ _ _ _ _ R) as Hw.
    induction Hk as [j d k Hdd Hg Hkk|j d x k Hdd Hg Hkk Hin IH]; intros Hd.
    - apply in_map_iff. exists (k, RNotFalse). split; [reflexivity|]. apply Hd. exists d. split; [exact Hdd|]. now apply get_resolves.
    - apply IH. intros d' Hd'. assert (Hx : In (x, RNotFalse) l).
      { apply Hd. exists d. split; [exact Hdd|now apply get_resolves]. }
      apply in_split in Hx. destruct Hx as (a & b & E). rewrite E. apply in_app_iff. left.
      eapply (ro_deps _ _ _ _ _ _ _ _ _ _ _ R a x RNotFalse b E d' Hd').
  Qed.

  (** [z]: a state of the build in which only the calls that came to an end have gone on;
      [w]: the world after the interrupt; [K]: the killed tasks. *)
  Record sim (K : list nat) (z : state world) (w : world) : Prop := SIM {
    sim_base : w_base w = w_base (s_world z);
    sim_now : w_now (s_world z) <= w_now w;
    sim_dated : dated (w_fs w) (w_now w);
    sim_files : forall p, is_file P p -> w_fs w p = w_fs (s_world z) p \/ (w_fs w p = None /\ exists t, In t K /\ p = nm (at_ t)) }.

  Lemma sim_settle order w w' : settles run (mk_killed kind false c objs) order w w' ->
    forall K z, exec_reaches sv run w0 z -> s_main z = MJoin -> NoDup (K ++ order) -> (forall t, In t (K ++ order) -> In t (in_threads z)) ->
    sim K z w -> exists K' z', steps (inv_of (sv_inv sv)) run z z' /\ sim K' z' w'.
  Proof.
    intros Hs. induction Hs as [w|t l w w' Hs IH|t l r w w1 w' Hr Hs IH|t l w w1 w' Hk Hs IH]; intros K z Hex Em N Hin Hsim.
    - exists K, z. split; [apply steps_refl|exact Hsim].
    - apply (IH K z Hex Em); [now apply NoDup_remove_1 in N| |exact Hsim].
      intros x Hx. apply Hin. rewrite in_app_iff in *. cbn. tauto.
    - destruct (known z Hex Em) as (v0 & lz & R & Kn).
      assert (Ht : In t (in_threads z)) by (apply Hin; rewrite in_app_iff; right; now left).
      destruct (Kn t Ht) as (Hc & Hnt & Hd). destruct (ro_imp _ _ _ _ _ _ _ _ _ _ _ R _ Hc) as [Hcl Hkd].
      pose proof (mk_task_obj canon kind false c objs t w r w1 Hr) as T.
      assert (Hno : kind (at_ t) <> MOther) by (intros E; now rewrite E in Hkd).
      destruct (task_touches canon kind false c (at_ t) w r w1 Hcl Hno T) as (B & Nw & F).
      assert (D1 : dated (w_fs w1) (w_now w1)).
      { intros p m n E. destruct (F p) as [G|[(_ & _ & _ & [G|(m' & v & G & L)])|(_ & _ & _ & m' & G & L)]]; rewrite G in E.
        - pose proof (sim_dated _ _ _ Hsim p m n E). lia.
        - discriminate.
        - injection E as -> _. lia.
        - injection E as -> _. lia. }
      assert (Nl : NoDup (K ++ l)) by now apply NoDup_remove_1 in N.
      assert (Nt : ~ In t (K ++ l)) by now apply NoDup_remove_2 in N.
      assert (Hl : forall x, In x (K ++ l) -> In x (in_threads z)).
      { intros x Hx. apply Hin. rewrite in_app_iff in *. cbn. tauto. }
      (* the task wrote nothing of the project *)
      assert (Quiet : (forall p, is_file P p -> w_fs w1 p = w_fs w p) -> exists K' z', steps (inv_of (sv_inv sv)) run z z' /\ sim K' z' w').
      { intros Q. apply (IH K z Hex Em Nl Hl). split.
        - rewrite B. apply (sim_base _ _ _ Hsim).
        - pose proof (sim_now _ _ _ Hsim). lia.
        - exact D1.
        - intros p Hp. rewrite (Q p Hp). now apply (sim_files _ _ _ Hsim). }
      (* the simulated call *)
      assert (Loud : forall w2, run t (s_world z) r w2 -> w_base w2 = w_base (s_world z) -> w_now w2 <= w_now w1 ->
        (forall p, p <> nm (at_ t) -> w_fs w2 p = w_fs (s_world z) p) ->
        (w_fs w1 (nm (at_ t)) = w_fs w2 (nm (at_ t))) -> (forall p, p <> nm (at_ t) -> w_fs w1 p = w_fs w p) ->
        exists K' z', steps (inv_of (sv_inv sv)) run z z' /\ sim K' z' w').
      { intros w2 Hr2 B2 N2 F2 E2 F1. destruct (finish_one run sv w0 z t r w2 Hex Em Ht Hr2) as (z' & St & Hex' & Em' & Ew & Hrn & _).
        assert (G : exists K' z2, steps (inv_of (sv_inv sv)) run z' z2 /\ sim K' z2 w'); [|destruct G as (K' & z2 & G1 & G2); exists K', z2; split; [eapply steps_trans; eauto|exact G2]].
        apply (IH K z' Hex' Em' Nl).
        - intros x Hx. apply Hrn; [intros ->; contradiction|now apply Hl].
        - split.
          + rewrite B, Ew, B2. apply (sim_base _ _ _ Hsim).
          + rewrite Ew. exact N2.
          + exact D1.
          + intros p Hp. rewrite Ew. destruct (string_dec p (nm (at_ t))) as [->|Hn]; [now left|].
            rewrite (F1 p Hn), (F2 p Hn). now apply (sim_files _ _ _ Hsim). }
      (* the inputs are the same *)
      assert (Same : forall f b, kind (at_ t) = MFile f b -> (forall k, input canon kind c (at_ t) k -> w_fs w (nm k) = w_fs (s_world z) (nm k)) /\
        b (contents (w_fs w)) = b (contents (w_fs (s_world z)))).
      { intros f b Ek. assert (S1 : forall k, input canon kind c (at_ t) k -> w_fs w (nm k) = w_fs (s_world z) (nm k)).
        { intros k Hk. assert (Hpk : is_file P (nm k)).
          { eapply p_input_file. eapply (input_p canon kind P c i); [exact (ro_wf _ _ _ _ _ _ _ _ _ _ _ R)|exact (ro_imp _ _ _ _ _ _ _ _ _ _ _ R)|exact Hc|exact Hk]. }
          destruct (sim_files _ _ _ Hsim (nm k) Hpk) as [E|(_ & t' & Ht' & E)]; [exact E|]. exfalso.
          destruct (Kn t') as (Hc' & Hn' & _); [apply Hin; rewrite in_app_iff; now left|].
          pose proof (inputs_done z v0 lz R (at_ t) k Hk Hd) as Hkl.
          assert (Hck : cone k).
          { apply in_map_iff in Hkl as ([k' rk] & Ek' & Hk'). cbn in Ek'. subst k'. exact (ro_cone _ _ _ _ _ _ _ _ _ _ _ R k rk Hk'). }
          apply Hn'. rewrite <- (cone_inj canon c i (ro_wf _ _ _ _ _ _ _ _ _ _ _ R) (ro_co _ _ _ _ _ _ _ _ _ _ _ R) (ro_reg _ _ _ _ _ _ _ _ _ _ _ R) k (at_ t') Hck Hc' E). exact Hkl. }
        split; [exact S1|]. rewrite Ek in Hkd. destruct Hkd as (ds & HP & _). apply (Hro _ _ _ _ HP). intros q Hq.
        destruct (p_input_obj canon kind P c i (ro_wf _ _ _ _ _ _ _ _ _ _ _ R) (ro_imp _ _ _ _ _ _ _ _ _ _ _ R) _ _ Hq (at_ t) Hc ltac:(congruence) eq_refl) as (k & Hk & <-).
        unfold contents. now rewrite (S1 k Hk). }
      assert (Dir : kind (at_ t) = MDir \/ (exists f b, kind (at_ t) = MFile f b) \/ (kind (at_ t) <> MDir /\ forall f b, kind (at_ t) <> MFile f b)).
      { destruct (kind (at_ t)); eauto; right; right; split; congruence. }
      destruct Dir as [Ek|[(f & b & Ek)|[Hnd Hnf]]].
      + apply Quiet. intros p Hp. rewrite Ek in Hkd. destruct (F p) as [G|[(_ & (f & b & E) & _)|(_ & _ & Ep & _)]]; [exact G|congruence|].
        now destruct (proj1 Hkd p Ep).
      + destruct (t_need (obj c (at_ t))) as [need|] eqn:En.
        2:{ apply Quiet. intros p Hp. destruct (F p) as [G|[(_ & _ & E & _)|(E & _)]]; [exact G|congruence|congruence]. }
        destruct need.
        2:{ apply Quiet. intros p Hp. destruct (F p) as [G|[(_ & _ & E & _)|(E & _)]]; [exact G|congruence|congruence]. }
        destruct (Same f b Ek) as (S1 & Eb).
        assert (U : forall r2 w2, mk_update canon kind false c (at_ t) (s_world z) r2 w2 -> run t (s_world z) r2 w2).
        { intros r2 w2 H. unfold mk_task, task_behaviour. rewrite Ek, Hcl, En. exact H. }
        unfold obj_task in T. rewrite Ek, Hcl, En in T.
        destruct T as [force b0 v m Ek' E Hm Hi p fs'|force b0 fs' now' r ca' Ek' E p Hf Hrr|Ek' p|Ek'|r w1 Ek']; try congruence; rewrite Ek in Ek'; injection Ek' as <- <-.
        * apply (Loud (WD (fs_set (w_fs (s_world z)) p (Some (m, Reg v))) (update_info (fs_set (w_fs (s_world z)) p (Some (m, Reg v))) (w_cache (s_world z)) p)
                  (w_base (s_world z)) (Nat.max (w_now (s_world z)) m) (w_ran (s_world z) ++ [(p, true)]))).
          -- apply U. eapply (up_rule canon kind false c (at_ t) (s_world z) f b v m Ek).
             ++ now rewrite <- Eb.
             ++ now rewrite <- (sim_base _ _ _ Hsim).
             ++ intros j mj nj Hj Ej. apply (Hi j mj nj Hj). now rewrite (S1 j Hj).
          -- reflexivity.
          -- cbn [w_now]. pose proof (sim_now _ _ _ Hsim). lia.
          -- intros q Hq. cbn [w_fs]. unfold fs_set. destruct (String.eqb_spec q p); [contradiction|reflexivity].
          -- cbn [w_fs]. unfold fs', fs_set. fold p. now rewrite String.eqb_refl.
          -- intros q Hq. cbn [w_fs]. unfold fs', fs_set. destruct (String.eqb_spec q p); [contradiction|reflexivity].
        * assert (Fail : forall fz, (fz = w_fs (s_world z) \/ fz = fs_set (w_fs (s_world z)) p None) ->
            run t (s_world z) r (WD fz (match r with RFalse => update_info fz (w_cache (s_world z)) p | _ => w_cache (s_world z) end) (w_base (s_world z)) (w_now (s_world z)) (w_ran (s_world z) ++ [(p, false)]))).
          { intros fz Hz. apply U. eapply (up_rule_fails canon kind false c (at_ t) (s_world z) f b); [exact Ek|now rewrite <- Eb| |].
            - destruct Hz as [->| ->]; auto.
            - destruct Hrr as [[-> _]|[-> _]]; auto. }
          destruct Hf as [[-> ->]|[[-> ->]|(Hpo & _)]]; [| |discriminate].
          -- apply Quiet. intros q Hq. reflexivity.
          -- eapply Loud; [apply Fail; right; reflexivity|reflexivity| | | |].
             ++ cbn [w_now]. apply (sim_now _ _ _ Hsim).
             ++ intros q Hq. cbn [w_fs]. unfold fs_set. destruct (String.eqb_spec q p); [contradiction|reflexivity].
             ++ cbn [w_fs]. unfold fs_set. fold p. now rewrite String.eqb_refl.
             ++ intros q Hq. cbn [w_fs]. unfold fs_set. destruct (String.eqb_spec q p); [contradiction|reflexivity].
      + apply Quiet. intros p Hp. destruct (F p) as [G|[(_ & (f & b & E) & _)|(E & _)]]; [exact G|now destruct (Hnf f b)|contradiction].
    - apply (IH (t :: K) z Hex Em).
      + cbn. apply NoDup_cons; [now apply NoDup_remove_2 in N|now apply NoDup_remove_1 in N].
      + intros x Hx. apply Hin. cbn in Hx. rewrite in_app_iff in *. cbn. destruct Hx as [->|[?|?]]; auto.
      + destruct Hk as [force b fs' now' ca' i' p' Ek En Hf]. subst p' i'. destruct Hsim as [S1 S2 S3 S4].
        assert (Hn : now' = w_now w) by (destruct Hf as [[_ H]|[[_ H]|[H _]]]; [exact H|exact H|discriminate]).
        assert (HF : forall q, fs' q = w_fs w q \/ (fs' q = None /\ q = nm (at_ t))).
        { intros q. destruct Hf as [[-> _]|[[-> _]|[H _]]]; [now left| |discriminate]. unfold fs_set.
          destruct (String.eqb_spec q (nm (at_ t))) as [->|]; auto. }
        split; cbn [w_base w_now w_fs]; [exact S1|lia| |].
        * intros q m n E. rewrite Hn. destruct (HF q) as [G|[G _]]; rewrite G in E; [now apply (S3 q m n)|discriminate].
        * intros q Hq. destruct (HF q) as [G|[G ->]].
          -- rewrite G. destruct (S4 q Hq) as [S|(S & t' & Ht' & E)]; [now left|]. right. split; [exact S|]. exists t'. split; [now right|exact E].
          -- right. split; [exact G|]. exists t. split; [now left|reflexivity].
  Qed.

  Theorem interrupt_sim s w' : exec_reaches sv run w0 s -> interrupted run (mk_killed kind false c objs) s w' ->
    exists z, steps (inv_of (sv_inv sv)) run s z /\ outside_step P (w_fs (s_world z)) (w_now (s_world z)) (w_fs w') (w_now w').
  Proof.
    intros Hex (Em & order & Hp & Hs).
    destruct (known s Hex Em) as (v0 & l & R & _).
    destruct (run_times canon kind false P c i fs now v0 l (s_world s) R) as (_ & _ & Hd).
    destruct (sim_settle order (s_world s) w' Hs [] s Hex Em) as (K & z & Hz & [S1 S2 S3 S4]).
    - eapply Permutation_NoDup; [exact Hp|]. apply (running_nodup run so dts th sv Hso Hsv). now exists w0.
    - intros t Ht. eapply Permutation_in; [apply Permutation_sym; exact Hp|exact Ht].
    - split; auto.
    - exists z. split; [exact Hz|]. split; [exact S2|]. intros p.
      assert (Dec : is_file P p \/ ~ is_file P p).
      { destruct (P p) as [[|f ds b|ds]|] eqn:E; [left; now left|left; right; unfold is_rule; eauto| | ]; right; (intros [H|(f' & ds' & b' & H)]; congruence). }
      destruct Dec as [Hf|Hf].
      + destruct (S4 p Hf) as [E|[E _]]; auto.
      + destruct (w_fs w' p) as [[m n]|] eqn:E; [|auto]. right. right. right. split; [exact Hf|]. exists m, n. split; [reflexivity|]. eapply S3; eauto.
  Qed.
End Sim.

(** Only files whose rule was running may change. *)
Section Touch.
  Variable canon : string -> string.
  Variable kind : nat -> mkind.
  Variable other_if : nat -> res bool.
  Variable partial : bool.
  Variable P : project.
  Lemma interrupt_touches c0 i fs now ca c objs s w' : implements canon kind P c0 i ->
    build_of canon kind other_if partial c0 i fs now ca c objs s ->
    interrupted (mk_task canon kind partial c objs) (mk_killed kind partial c objs) s w' ->
    forall p, is_file P p -> w_fs w' p <> w_fs (s_world s) p ->
    is_rule P p /\ exists t, In t (in_threads s) /\ p = t_name (obj c (nth t objs (List.length (c_heap c)))).
  Proof.
    intros Him Hbo (Em & order & Hp & Hs) p Hf Hne.
    destruct (build_run_log canon kind other_if partial P c0 i fs now ca c objs s Him Hbo) as (_ & v0 & l & R & _ & Hst & _).
    assert (Hin : forall t, In t order -> In t (in_threads s) /\ in_cone canon c i (nth t objs (List.length (c_heap c)))).
    { intros t Ht. assert (Hr : In t (in_threads s)) by (eapply Permutation_in; [apply Permutation_sym; exact Hp|exact Ht]). split; [exact Hr|].
      apply Hst. destruct Hbo as (Pc & Co & Rg & Cc & fuel & ca1 & ord & so & threads & th & sv & He & Ho & Hso & Hth & Hru & Hex).
      destruct (build_facts canon kind other_if partial c0 i fs now ca c objs s) as (_ & Rd & Sst & _); [repeat split; eauto 20|].
      destruct Rg as [nm Hi]. destruct Rd as (Hw & Hx1 & Hx2 & Hx3 & Hnp).
      assert (Hco : coherent canon c) by (eapply coherent_static; eauto).
      assert (Hi1 : resolves canon c (t_name (obj c i)) i) by (apply (Hco nm); destruct Sst as (<- & _); exact Hi).
      destruct (ru_exec_facts canon c Hw Hco Hnp i Hi1 ord Ho so Hso threads th Hth objs sv Hru) as (dts & _ & _ & _ & Hsv & _).
      eapply (running_started (mk_task canon kind partial c objs) so dts th sv Hso Hsv); [|exact Hr]. eexists. exact Hex. }
    clear Hp Em. pose proof (ro_imp _ _ _ _ _ _ _ _ _ _ _ R) as Imp. clear R Hst.
    assert (G : w_fs w' p = w_fs (s_world s) p \/ exists t, In t order /\ p = t_name (obj c (nth t objs (List.length (c_heap c)))) /\ exists f b, kind (nth t objs (List.length (c_heap c))) = MFile f b).
    { clear Hne. remember (s_world s) as w eqn:Ew. clear Ew.
      assert (Hin' : forall t, In t order -> in_cone canon c i (nth t objs (List.length (c_heap c)))) by (intros t Ht; now apply Hin). clear Hin.
      induction Hs as [w|t ts w w' Hs IH|t ts r w w1 w' Hr Hs IH|t ts w w1 w' Hk Hs IH].
      - now left.
      - destruct IH as [E|(t' & Ht' & E)]; [intros; apply Hin'; now right|now left|right; exists t'; split; [now right|exact E]].
      - assert (T : w_fs w1 p = w_fs w p \/ p = t_name (obj c (nth t objs (List.length (c_heap c)))) /\ exists f b, kind (nth t objs (List.length (c_heap c))) = MFile f b).
        { pose proof (Hin' t (or_introl eq_refl)) as Hc. destruct (Imp _ Hc) as [Hcl Hkd].
          apply mk_task_obj in Hr. destruct (task_touches canon kind partial c _ w r w1 Hcl) with (2 := Hr) as (_ & _ & F); [intros E; now rewrite E in Hkd|].
          destruct (F p) as [E|[(E & K & _)|(K & _ & E & _)]]; [now left|right; auto|]. exfalso. rewrite K in Hkd. now apply (proj1 Hkd p). }
        destruct IH as [E|(t' & Ht' & E)]; [intros; apply Hin'; now right| |right; exists t'; split; [now right|exact E]].
        destruct T as [T|T]; [left; congruence|]. right. exists t. split; [now left|exact T].
      - assert (T : w_fs w1 p = w_fs w p \/ p = t_name (obj c (nth t objs (List.length (c_heap c)))) /\ exists f b, kind (nth t objs (List.length (c_heap c))) = MFile f b).
        { destruct Hk as [force b fs' now' ca' i' p' Ek En Hf']. subst p' i'. cbn [w_fs].
          destruct (string_dec p (t_name (obj c (nth t objs (List.length (c_heap c)))))) as [->|Hn]; [right; eauto|]. left.
          destruct Hf' as [[-> _]|[[-> _]|(_ & m & v & _ & -> & _)]]; [reflexivity|..]; unfold fs_set;
            destruct (String.eqb_spec p (t_name (obj c (nth t objs (List.length (c_heap c)))))); congruence. }
        destruct IH as [E|(t' & Ht' & E)]; [intros; apply Hin'; now right| |right; exists t'; split; [now right|exact E]].
        destruct T as [T|T]; [left; congruence|]. right. exists t. split; [now left|exact T]. }
    destruct G as [G|(t & Ht & Ep & f & b & Ek)]; [contradiction|]. destruct (Hin t Ht) as [Hr Hc]. split; [|eauto].
    destruct (Imp _ Hc) as [_ Hkd]. rewrite Ek in Hkd. destruct Hkd as (ds & HP & _). rewrite Ep. exists f, ds, b. exact HP.
  Qed.
End Touch.

(** *** A worker catches the exception *)
Section Caught.
  Context {W : Type}.
  Variable run : nat -> W -> tres -> W -> Prop.
  Implicit Types s : state W.

  (** More tasks are unaccounted for than will ever be reported. *)
  Record lost (busy : nat) s : Prop := LOST {
    lo_main : s_main s = MJoin;
    lo_rel : s_released s = false;
    lo_err : s_error s = true;
    lo_unf : (Z.of_nat (List.length (s_queue s)) + Z.of_nat busy < s_unfinished s)%Z }.
  Definition busy s : nat := List.length (running (s_workers s)).

  Lemma lost_task_done b s s' : lost b s -> (Z.of_nat (List.length (s_queue s)) + Z.of_nat b + 1 < s_unfinished s)%Z ->
    task_done s = Some s' -> lost b s' /\ s_workers s' = s_workers s /\ s_queue s' = s_queue s /\ s_log s' = s_log s.
  Proof.
    intros [H1 H2 H3 H4] H5. unfold task_done. destruct (s_unfinished s <=? 0)%Z; [discriminate|]. intros [= <-].
    split; [|auto]. split; cbn; auto; [|lia]. rewrite H2. cbn. apply Z.eqb_neq. lia.
  Qed.
  Lemma lost_drain b q : forall s s', s_queue s = q -> lost b s -> drain_items q s = Some s' ->
    lost b s' /\ s_workers s' = s_workers s /\ started (s_log s') = started (s_log s).
  Proof.
    induction q as [|t q IH]; intros s s' Eq H; cbn [drain_items]; [intros [= <-]; auto|].
    destruct (task_done _) as [s1|] eqn:E; [|discriminate]. intros Hd. destruct H as [H1 H2 H3 H4]. rewrite Eq in H4. cbn [List.length] in H4.
    destruct (lost_task_done b (add_log (EDrop t) (set_queue q s)) s1) as (G & Gw & Gq & Gl); auto.
    - split; cbn; auto. lia.
    - cbn. lia.
    - destruct (IH s1 s' Gq G Hd) as (K & Kw & Kl). split; [exact K|]. split; [rewrite Kw, Gw; reflexivity|].
      rewrite Kl, Gl. cbn [s_log add_log set_queue]. rewrite started_app. cbn. now rewrite app_nil_r.
  Qed.
  Lemma busy_worker w x s : w < List.length (s_workers s) -> runs_of x = [] -> List.length (running (lupd (s_workers s) w x)) = List.length (running (lupd (s_workers s) w WGet)).
  Proof. intros Hw Hx. apply Permutation_length. now apply running_lupd_other. Qed.
  Lemma lost_release w s : w < List.length (s_workers s) -> lost (List.length (running (lupd (s_workers s) w WGet))) s ->
    lost (busy (release_queue w s)) (release_queue w s) /\ started (s_log (release_queue w s)) = started (s_log s).
  Proof.
    intros Hw H. unfold release_queue. destruct (drain_items (s_queue s) s) as [s'|] eqn:E.
    - destruct (lost_drain _ _ s s' eq_refl H E) as ([H1 H2 H3 H4] & Ew & El). split; [|exact El].
      unfold busy. cbn [set_worker s_workers]. rewrite Ew. rewrite (busy_worker w WDrain s Hw eq_refl). split; cbn; auto.
    - destruct H as [H1 H2 H3 H4]. split; [|cbn; rewrite started_app; cbn; now rewrite app_nil_r].
      unfold busy. cbn [die add_log set_worker s_workers]. rewrite (busy_worker w WDead s Hw eq_refl). split; cbn; auto.
  Qed.
  Lemma decrease_all_lost ds : forall b s, lost b s -> match decrease_all ds s with inl s' | inr s' => lost b s' /\ s_workers s' = s_workers s /\ s_log s' = s_log s /\
    (s_unfinished s' - Z.of_nat (List.length (s_queue s')) = s_unfinished s - Z.of_nat (List.length (s_queue s)))%Z end.
  Proof.
    induction ds as [|d ds IH]; intros b s H; cbn [decrease_all]; [auto|].
    assert (G : match decrease d s with inl s' | inr s' => lost b s' /\ s_workers s' = s_workers s /\ s_log s' = s_log s /\
      (s_unfinished s' - Z.of_nat (List.length (s_queue s')) = s_unfinished s - Z.of_nat (List.length (s_queue s)))%Z end).
    { destruct H as [H1 H2 H3 H4]. unfold decrease. destruct (0 <=? s_depcount s d - 1)%Z; destruct (s_depcount s d - 1 =? 0)%Z; cbn; rewrite ?app_length; cbn; (split; [split; cbn; rewrite ?app_length; cbn; auto; lia|]); (split; [reflexivity|]); (split; [reflexivity|lia]). }
    destruct (decrease d s) as [s'|s']; [|exact G]. destruct G as (G1 & G2 & G3 & G4). specialize (IH b s' G1).
    destruct (decrease_all ds s') as [s2|s2]; destruct IH as (I1 & I2 & I3 & I4); (split; [exact I1|]); (split; [congruence|]); (split; [congruence|lia]).
  Qed.
  Lemma busy_finish w t s : nth_error (s_workers s) w = Some (WRun t) -> busy s = S (List.length (running (lupd (s_workers s) w WGet))).
  Proof. intros H. unfold busy. pose proof (Permutation_length (running_lupd (s_workers s) w WGet _ H)) as E. cbn in E. now rewrite <- E. Qed.

  Lemma lost_step inv s s' : lost (busy s) s -> step inv run s s' -> lost (busy s') s' /\ started (s_log s') = started (s_log s).
  Proof.
    intros H St. destruct St as [w s Hm Hw Hq|w s Hm Hw Hq|w t r world' order s Hm Hw Hr HP|s Hm Hrel].
    - unfold loop_head. destruct (s_queue s) as [|t q] eqn:Eq; [contradiction|]. destruct H as [H1 H2 H3 H4]. cbn [set_queue s_error]. rewrite H3.
      assert (E : busy s = List.length (running (lupd (s_workers s) w WGet))).
      { unfold busy. now rewrite (lupd_same (s_workers s) w WGet Hw). }
      assert (L := lost_release w (add_log (EDrop t) (set_queue q s))). cbn [s_log add_log set_queue s_workers] in L. rewrite started_app in L. cbn [started] in L.
      destruct L as [L1 L2]; [now apply nth_error_lt in Hw| |split; [exact L1|rewrite L2; cbn; now rewrite app_nil_r]].
      rewrite <- E. rewrite Eq in H4. cbn [List.length] in H4. split; cbn; auto. lia.
    - apply lost_release; [now apply nth_error_lt in Hw|].
      assert (E : busy s = List.length (running (lupd (s_workers s) w WGet))).
      { unfold busy. rewrite <- (busy_worker w WDrain s); [|now apply nth_error_lt in Hw|reflexivity]. now rewrite (lupd_same (s_workers s) w WDrain Hw). }
      now rewrite <- E.
    - pose proof (busy_finish w t s Hw) as Eb. assert (Hlt := nth_error_lt _ _ _ Hw).
      set (n := List.length (running (lupd (s_workers s) w WGet))) in *.
      assert (Die : forall e s1, match e with EStart _ => False | _ => True end -> s_workers s1 = s_workers s -> lost n s1 -> lost (busy (die w e s1)) (die w e s1) /\ started (s_log (die w e s1)) = started (s_log s1)).
      { intros e s1 He Ew [D1 D2 D3 D4]. split.
        - unfold busy. cbn [die add_log set_worker s_workers]. rewrite Ew, (busy_worker w WDead s Hlt eq_refl). split; cbn; auto.
        - cbn. rewrite started_app. destruct e; [destruct He|..]; cbn; now rewrite app_nil_r. }
      assert (G : forall e (k : state W -> state W), match e with EStart _ => False | _ => True end ->
        (forall s3, lost n s3 -> s_workers s3 = s_workers s -> lost (busy (k s3)) (k s3) /\ started (s_log (k s3)) = started (s_log s3)) ->
        let s' := match decrease_all order (add_log e (set_done t (set_world world' s))) with
         | inl s2 => match task_done s2 with Some s3 => k s3 | None => die w EAbort s2 end
         | inr s2 => die w EAbort s2 end in lost (busy s') s' /\ started (s_log s') = started (s_log s)).
      { intros e k He Hk s'. assert (L0 : lost (busy s) (add_log e (set_done t (set_world world' s)))).
        { destruct H as [H1 H2 H3 H4]. split; cbn; auto. }
        assert (Es : started (s_log (add_log e (set_done t (set_world world' s)))) = started (s_log s)).
        { cbn. rewrite started_app. destruct e; [destruct He|..]; cbn; now rewrite app_nil_r. }
        pose proof (decrease_all_lost order (busy s) _ L0) as D. unfold s'. clear s'.
        destruct (decrease_all order _) as [s2|s2]; destruct D as (D1 & D2 & D3 & D4).
        - assert (L1 : lost n s2) by (destruct D1 as [E1 E2 E3 E4]; split; auto; lia).
          destruct (task_done s2) as [s3|] eqn:Ed.
          + destruct (lost_task_done n s2 s3 L1) as (T1 & T2 & T3 & T4); [destruct D1 as [_ _ _ E4]; lia|exact Ed|].
            destruct (Hk s3 T1) as [K1 K2]; [rewrite T2; exact D2|]. split; [exact K1|]. rewrite K2, T4, D3. exact Es.
          + destruct (Die EAbort s2 I D2 L1) as [K1 K2]. split; [exact K1|]. rewrite K2, D3. exact Es.
        - assert (L1 : lost n s2) by (destruct D1 as [E1 E2 E3 E4]; split; auto; lia).
          destruct (Die EAbort s2 I D2 L1) as [K1 K2]. split; [exact K1|]. rewrite K2, D3. exact Es. }
      assert (Rel : forall s3, lost n s3 -> s_workers s3 = s_workers s -> lost (busy (release_queue w s3)) (release_queue w s3) /\ started (s_log (release_queue w s3)) = started (s_log s3)).
      { intros s3 L Ew. apply lost_release; [now rewrite Ew|]. now rewrite Ew. }
      unfold after_task. destruct r.
      + apply (G (EFinish t RNotFalse) (fun s3 => if s_error s3 then release_queue w s3 else
            let s4 := set_base w true s3 in if forallb (fun b => b) (s_on_base s4) && match s_queue s4 with [] => true | _ => false end then release_queue w s4 else loop_head w s4)); [exact I|].
        intros s3 L Ew. cbv beta. rewrite (lo_err _ _ L). now apply Rel.
      + apply (G (EFinish t RFalse) (fun s3 => if s_error s3 then release_queue w s3 else release_queue w (set_error s3))); [exact I|].
        intros s3 L Ew. cbv beta. rewrite (lo_err _ _ L). now apply Rel.
      + apply (Die (ERaise t) (set_world world' s) I eq_refl). destruct H as [H1 H2 H3 H4]. split; cbn; auto. lia.
    - rewrite (lo_rel _ _ H) in Hrel. discriminate.
  Qed.

  Variables (so : set_order) (ts : list dtarget) (th : Z) (sv : solver).
  Hypothesis Hso : fair_order so.
  Hypothesis Hsv : solver_init so ts (Some th) = inr sv.
  Notation inv := (inv_of (sv_inv sv)).

  Lemma caught_lost w0 s s1 : exec_reaches sv run w0 s -> caught run inv s s1 -> lost (busy s1) s1 /\ started (s_log s1) = started (s_log s).
  Proof.
    intros Hex Hc. pose proof (reach_Inv run so ts th sv Hso Hsv s (ex_intro _ w0 Hex)) as HI. pose proof (v_core _ _ _ HI) as C.
    pose proof (c_unf _ _ _ _ _ _ _ _ C) as Hu. pose proof (v_rel _ _ _ HI) as Hr.
    destruct Hc as [w t q s Hm Hw Hq|w t r world' told untold s s1 Hm Hw Hrun Hne HP Hd].
    - apply (lost_release w (set_error (set_queue q s))); [now apply nth_error_lt in Hw|].
      cbn [set_error set_queue s_workers]. rewrite (lupd_same (s_workers s) w WGet Hw). rewrite Hq in Hu. cbn [List.length] in Hu.
      split; cbn; auto; [|lia]. destruct (s_released s); [|reflexivity]. destruct Hr as [Hr _]. specialize (Hr eq_refl). lia.
    - pose proof (busy_finish w t s Hw) as Eb. unfold busy in Eb.
      set (s0 := add_log (EFinish t r) (set_done t (set_world world' s))) in *.
      assert (L0 : lost (List.length (running (lupd (s_workers s) w WGet))) (set_error s0)).
      { split; cbn; auto; [|lia]. destruct (s_released s); [|reflexivity]. destruct Hr as [Hr _]. specialize (Hr eq_refl). lia. }
      assert (Hd' : decrease_all told (set_error s0) = inl (set_error s1)).
      { assert (Q : forall ds (x : state W), decrease_all ds (set_error x) = match decrease_all ds x with inl y => inl (set_error y) | inr y => inr (set_error y) end).
        { induction ds as [|d ds IH]; intros x; cbn [decrease_all]; [reflexivity|].
          assert (E : decrease d (set_error x) = match decrease d x with inl y => inl (set_error y) | inr y => inr (set_error y) end).
          { unfold decrease. cbn [set_error s_depcount s_isdone s_queue s_unfinished s_released s_workers s_on_base s_error s_main s_log s_world].
            destruct (s_depcount x d - 1 =? 0)%Z, (0 <=? s_depcount x d - 1)%Z; reflexivity. }
          rewrite E. destruct (decrease d x); [apply IH|reflexivity]. }
        rewrite Q, Hd. reflexivity. }
      pose proof (decrease_all_lost told _ _ L0) as D. rewrite Hd' in D. destruct D as (D1 & D2 & D3 & _).
      destruct (lost_release w (set_error s1)) as [K1 K2].
      + rewrite D2. now apply nth_error_lt in Hw.
      + rewrite D2. exact D1.
      + split; [exact K1|]. rewrite K2, D3. cbn. rewrite started_app. cbn. now rewrite app_nil_r.
  Qed.
  (** The build neither goes on nor ends. *)
  Lemma caught_hangs w0 s s1 s2 : exec_reaches sv run w0 s -> caught run inv s s1 -> steps inv run s1 s2 ->
    s_main s2 = MJoin /\ started (s_log s2) = started (s_log s).
  Proof.
    intros Hex Hc Hs. destruct (caught_lost w0 s s1 Hex Hc) as [L E]. rewrite <- E. clear E Hc Hex.
    assert (G : lost (busy s2) s2 /\ started (s_log s2) = started (s_log s1)).
    { induction Hs as [s1|s1 s2 s3 _ IH St]; [auto|]. destruct (IH L) as [I1 I2]. destruct (lost_step inv s2 s3 I1 St) as [J1 J2]. split; [exact J1|congruence]. }
    destruct G as [[G _ _ _] E]. auto.
  Qed.
End Caught.
