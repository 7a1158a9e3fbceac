(** Lemmas: calls that take time (C99). *)
From Coq Require Import Permutation.
From Verif Require Import PyBase SolverModel SpecGraph InvokerModel SpecTrace InvokerProofs InvokerInv InvokerThms InvokerPath
  CoreModel SpecCore CoreProofs NeedProofs RuProofs CoreThms MakeModel MakeEval SpecMake MakeProofs MakeFacts MakeTimes MakeBuild MakeThms MakeClaims IdleProofs RegBuild RegModel CliModel SpecUtil SpecReg SpecProject FineModel SpecFine.
Local Open Scope string_scope.
Local Open Scope list_scope.

(** ** The scheduler does not look at the world. *)
Section World.
  Context {W : Type}.
  Implicit Types s : state W.

  Lemma drain_world x q : forall s, drain_items q (set_world x s) = match drain_items q s with Some s' => Some (set_world x s') | None => None end.
  Proof.
    induction q as [|t q IH]; intros s; [reflexivity|]. cbn [drain_items]. unfold task_done, add_log, set_queue, set_world in *. cbn.
    destruct (s_unfinished s <=? 0)%Z; [reflexivity|]. rewrite <- IH. reflexivity.
  Qed.
  Lemma release_world x w s : release_queue w (set_world x s) = set_world x (release_queue w s).
  Proof.
    unfold release_queue. change (s_queue (set_world x s)) with (s_queue s). rewrite drain_world. now destruct (drain_items (s_queue s) s).
  Qed.
  Lemma loop_world x w s : loop_head w (set_world x s) = set_world x (loop_head w s).
  Proof.
    unfold loop_head. change (s_queue (set_world x s)) with (s_queue s). destruct (s_queue s) as [|t q]; [reflexivity|].
    change (s_error (set_queue q (set_world x s))) with (s_error (set_queue q s)). destruct (s_error (set_queue q s)); [|reflexivity].
    rewrite <- release_world. reflexivity.
  Qed.
  Lemma decrease_world x ds : forall s, decrease_all ds (set_world x s) =
    match decrease_all ds s with inl s' => inl (set_world x s') | inr s' => inr (set_world x s') end.
  Proof.
    induction ds as [|d ds IH]; intros s; [reflexivity|]. cbn [decrease_all]. unfold decrease.
    change (s_depcount (set_world x s) d) with (s_depcount s d).
    destruct (s_depcount s d - 1 =? 0)%Z, (0 <=? s_depcount s d - 1)%Z; try reflexivity; rewrite <- IH; reflexivity.
  Qed.
  Lemma after_world x w t r order s : after_task w t r order (set_world x s) = set_world x (after_task w t r order s).
  Proof.
    assert (G : forall r, match decrease_all order (add_log (EFinish t r) (set_done t (set_world x s))) with
                          | inr s2 => die w EAbort s2
                          | inl s2 => match task_done s2 with
                                      | None => die w EAbort s2
                                      | Some s3 => if s_error s3 then release_queue w s3
                                                   else match r with
                                                        | RFalse => release_queue w (set_error s3)
                                                        | _ => let s4 := set_base w true s3 in
                                                               if forallb (fun b => b) (s_on_base s4) && match s_queue s4 with [] => true | _ => false end
                                                               then release_queue w s4 else loop_head w s4
                                                        end
                                      end
                          end = set_world x
                          match decrease_all order (add_log (EFinish t r) (set_done t s)) with
                          | inr s2 => die w EAbort s2
                          | inl s2 => match task_done s2 with
                                      | None => die w EAbort s2
                                      | Some s3 => if s_error s3 then release_queue w s3
                                                   else match r with
                                                        | RFalse => release_queue w (set_error s3)
                                                        | _ => let s4 := set_base w true s3 in
                                                               if forallb (fun b => b) (s_on_base s4) && match s_queue s4 with [] => true | _ => false end
                                                               then release_queue w s4 else loop_head w s4
                                                        end
                                      end
                          end).
    { intros r'. change (add_log (EFinish t r') (set_done t (set_world x s))) with (set_world x (add_log (EFinish t r') (set_done t s))).
      rewrite decrease_world. destruct (decrease_all order _) as [s2|s2]; [|reflexivity].
      unfold task_done. change (s_unfinished (set_world x s2)) with (s_unfinished s2). destruct (s_unfinished s2 <=? 0)%Z; [reflexivity|].
      set (s3 := ST (s_depcount s2) (s_isdone s2) (s_queue s2) (s_unfinished s2 - 1) (s_released s2 || (s_unfinished s2 - 1 =? 0)%Z)
                    (s_workers s2) (s_on_base s2) (s_error s2) (s_main s2) (s_log s2) (s_world s2)).
      change (ST (s_depcount (set_world x s2)) _ _ _ _ _ _ _ _ _ _) with (set_world x s3).
      change (s_error (set_world x s3)) with (s_error s3). destruct (s_error s3); [apply release_world|].
      assert (N : (let s4 := set_base w true (set_world x s3) in
                   if forallb (fun b => b) (s_on_base s4) && match s_queue s4 with [] => true | _ => false end then release_queue w s4 else loop_head w s4) =
                  set_world x (let s4 := set_base w true s3 in
                   if forallb (fun b => b) (s_on_base s4) && match s_queue s4 with [] => true | _ => false end then release_queue w s4 else loop_head w s4)).
      { cbv zeta. change (set_base w true (set_world x s3)) with (set_world x (set_base w true s3)).
        change (s_on_base (set_world x (set_base w true s3))) with (s_on_base (set_base w true s3)).
        change (s_queue (set_world x (set_base w true s3))) with (s_queue (set_base w true s3)).
        destruct (forallb _ _ && _); [apply release_world|apply loop_world]. }
      destruct r'; [exact N| |exact N].
      change (set_error (set_world x s3)) with (set_world x (set_error s3)). apply release_world. }
    destruct r; [exact (G RNotFalse)|exact (G RFalse)|reflexivity].
  Qed.
  Lemma set_world_same s : set_world (s_world s) s = s.
  Proof. now destruct s. Qed.
  Lemma plain_world inv (run : nat -> W -> tres -> W -> Prop) x s s' : step inv (fun _ _ _ _ => False) s s' ->
    step inv run (set_world x s) (set_world x s') /\ frame s s' \/
    s_main s' = MReturned /\ step inv run (set_world x s) (set_world x s') /\ s_log s' = s_log s /\ s_world s' = s_world s.
  Proof.
    intros [w s1 Hm Hw Hq|w s1 Hm Hw Hq|w t r world' order s1 Hm Hw Hr HP|s1 Hm Hrel].
    - left. split; [rewrite <- loop_world; now apply step_get|apply frame_loop].
    - left. split; [rewrite <- release_world; now apply step_drain|apply frame_release].
    - destruct Hr.
    - right. split; [reflexivity|]. split; [|auto]. now apply (step_join inv run (set_world x s1)).
  Qed.
End World.

(** ** Calls that are going on. *)
Lemma busy_dec l t : busy l t \/ ~ busy l t.
Proof.
  unfold busy. destruct (in_dec Nat.eq_dec t (started l)), (in_dec Nat.eq_dec t (finished l)), (in_dec Nat.eq_dec t (raised l)); tauto.
Qed.
Lemma busy_more l l' t : busy (l ++ l') t -> In t (started l) -> busy l t.
Proof. unfold busy. rewrite finished_app, raised_app, !in_app_iff. tauto. Qed.
Lemma busy_quiet l l' t : finished l' = [] -> raised l' = [] -> busy l t -> busy (l ++ l') t.
Proof. unfold busy. rewrite started_app, finished_app, raised_app, !in_app_iff. intros -> ->. simpl. tauto. Qed.
Lemma busy_began (h : list (state world)) t : (exists s, In s h /\ busy (s_log s) t) -> exists s0, began h t s0.
Proof.
  intros H. assert (G : (exists s0, began h t s0) \/ forall s, In s h -> ~ busy (s_log s) t).
  { clear H. induction h as [|s h IH]; [right; intros s []|].
    destruct IH as [(s0 & h1 & h2 & -> & Hb & Hn)|IH].
    - left. exists s0, (s :: h1), h2. auto.
    - destruct (busy_dec (s_log s) t) as [Hb|Hb].
      + left. exists s, [], h. auto.
      + right. intros s' [<-|Hs]; auto. }
  destruct G as [G|G]; [exact G|]. destruct H as (s & Hs & Hb). exfalso. exact (G s Hs Hb).
Qed.

Section Sim.
  Variable canon : string -> string.
  Variable kind : nat -> mkind.
  Variable other_if : nat -> res bool.
  Variable partial : bool.
  Variable P : project.
  Variables (c : core) (i : nat) (fs : fsys) (now : nat) (ca : cache) (c1 : core) (objs : list nat).
  Variables (fuel : nat) (ca1 : cache) (order : list nat -> list nat) (so : set_order) (threads : option Z) (th : Z) (sv : solver).
  Hypothesis Him : implements canon kind P c i.
  Hypothesis Hro : reads_settled P.
  Hypothesis Hpc : process_core canon kind c.
  Hypothesis Hco : coherent canon c.
  Hypothesis Hreg : exists nm, In (nm, i) (c_targets c).
  Hypothesis Hcur : cache_current canon kind c i fs ca.
  Hypothesis He : mevaluate canon kind other_if fs fuel (c, ca) = Ok (c1, ca1).
  Hypothesis Hord : forall l, Permutation l (order l).
  Hypothesis Hso : fair_order so.
  Hypothesis Hth : ru_threads c1 threads = Some th.
  Hypothesis Hru : recurse_update canon c1 order so i threads = RuExec objs sv.

  Local Notation w0 := (WD fs ca1 now now []).
  Local Notation o t := (nth t objs (List.length (c_heap c1))).
  Local Notation nm j := (t_name (obj c1 j)).
  Local Notation task := (mk_task canon kind partial c1 objs).
  Local Notation atom a := (exec_reaches sv task w0 a).
  Local Notation natom n a := (nsteps (inv_of (sv_inv sv)) task n (init_state sv w0) a).
  Lemma natom_atom n a : natom n a -> atom a.
  Proof. unfold exec_reaches. generalize (init_state sv w0). induction 1; [apply steps_refl|eapply steps_snoc; eauto]. Qed.
  Lemma atom_natom a : atom a -> exists n, natom n a.
  Proof.
    intros H. unfold exec_reaches in H. remember (init_state sv w0) as s0. induction H as [s|s1 s2 s3 H IH St]; [exists 0; constructor|].
    destruct (IH Heqs0) as [n Hn]. exists (Datatypes.S n). econstructor; eauto.
  Qed.

  Lemma atom_build a : atom a -> build_of canon kind other_if partial c i fs now ca c1 objs a.
  Proof.
    intros Ha. split; [exact Hpc|]. split; [exact Hco|]. split; [exact Hreg|]. split; [exact Hcur|].
    exists fuel, ca1, order, so, threads, th, sv. auto 10.
  Qed.
  Lemma static1 : same_static c c1.
  Proof. eapply mevaluate_right; eauto. now apply (process_ready canon kind). Qed.
  Lemma solver_facts : exists dts, NoDup objs /\ solver_init so dts (Some th) = inr sv /\ List.length dts = List.length objs.
  Proof.
    pose proof (process_ready canon kind c Hpc) as Hr.
    destruct (mevaluate_right canon kind other_if fs fuel c ca c1 ca1 Hr He) as (Hr1 & S & V & N).
    assert (Hco1 : coherent canon c1) by (eapply coherent_static; eauto).
    destruct Hreg as [x Hx].
    assert (Hx1 : In (x, i) (c_targets c1)) by (destruct S as (<- & _); exact Hx).
    assert (Hi1 : resolves canon c1 (nm i) i) by (now apply (Hco1 x)).
    destruct (ru_exec_facts canon c1 (proj1 Hr1) Hco1 ltac:(apply Hr1) i Hi1 order Hord so Hso threads th Hth objs sv Hru)
      as (dts & Hnd & _ & _ & Hs & Hl & _).
    exists dts. auto.
  Qed.

  Lemma o_inj t k : t < List.length objs -> k < List.length objs -> o t = o k -> t = k.
  Proof.
    intros Ht Hk. destruct solver_facts as (dts & Hnd & _). now apply (proj1 (NoDup_nth objs (List.length (c_heap c1))) Hnd).
  Qed.
  Lemma atom_run a : atom a -> exists l, run_of canon kind partial P c1 i fs now l w0 (s_world a) /\
    (forall k, In k (started (s_log a)) -> k < List.length objs /\ in_cone canon c1 i (o k) /\
       forall d, obj_dep canon c1 (o k) d -> In (d, RNotFalse) l) /\
    (forall j r, In (j, r) l -> exists k, j = o k /\ k < List.length objs /\ (In k (finished (s_log a)) \/ In k (raised (s_log a)))).
  Proof.
    intros Ha. destruct (build_run_world canon kind other_if partial P c i fs now ca c1 objs a Him (atom_build a Ha))
      as (_ & w0' & l & R & _ & Hst & El & _).
    destruct solver_facts as (dts & Hnd & Hs & Hlen).
    destruct (exec_path task so dts th sv Hso Hs w0 a Ha) as (Pa & _ & B & _).
    exists l. split; [|split].
    - destruct R as [H1 H2 H3 H4 H5 H6 H7 Hp Hn Hc Hd]. constructor; auto.
      + intros j Hj Hk. destruct (mevaluate_right canon kind other_if fs fuel c ca c1 ca1 (process_ready canon kind c Hpc) He) as (_ & S & V & _).
        cbn. rewrite V. rewrite <- (static_name c c1 j S). apply (current_view canon kind c i fs ca Hcur); [|exact Hk].
        apply (static_cone canon c1 c); [now apply static_sym|exact Hj].
      + rewrite El. clear - Pa. set (w1 := s_world a) in *. clearbody w1. set (e := ended (s_log a)) in *. clearbody e.
        induction Pa as [w|e t r wa wb wc Pa IH Hr]; [constructor|].
        rewrite map_app. simpl. econstructor; [exact IH|]. exact Hr.
    - intros k Hk. assert (Hk' : In (EStart k) (s_log a)) by (now apply started_In).
      destruct (Hst k Hk') as [K1 K2]. split; [|auto]. rewrite <- Hlen.
      apply (started_bound task so dts th sv Hso Hs a k (ex_intro (fun w => exec_reaches sv task w a) w0 Ha) Hk').
    - intros j r Hj. rewrite El in Hj. apply in_map_iff in Hj. destruct Hj as ([k r'] & [= <- <-] & Hk). exists k. split; [reflexivity|].
      split; [rewrite <- Hlen; now apply (B k r')|].
      apply ended_In in Hk. destruct Hk as [Hk|[_ Hk]]; [left; apply finished_In; eauto|right].
      unfold raised. apply in_flat_map. exists (ERaise k). split; [exact Hk|now left].
  Qed.
  Lemma busy_run a w t : atom a -> nth_error (s_workers a) w = Some (WRun t) -> busy (s_log a) t.
  Proof.
    intros Ha Hw. destruct solver_facts as (dts & Hnd & Hs & Hlen).
    pose proof (reach_Inv task so dts th sv Hso Hs a (ex_intro (fun w => exec_reaches sv task w a) w0 Ha)) as HI.
    pose proof (v_core _ _ _ HI) as C.
    destruct (inv_nodup_parts task dts sv a HI) as (N & _).
    pose proof (Permutation_NoDup (c_perm _ _ _ _ _ _ _ _ C) N) as M.
    apply NoDup_app_iff in M. destruct M as (_ & _ & M).
    assert (Ht : In t (running (s_workers a))) by (apply running_In; eauto).
    specialize (M t Ht). rewrite in_app_iff in M.
    split; [|tauto]. apply (Permutation_in t (Permutation_sym (c_perm _ _ _ _ _ _ _ _ C))). apply in_app_iff. now left.
  Qed.

  (** What a call reads is not being made by another call that is going on. *)
  Lemma reads_apart a t k q : atom a -> busy (s_log a) t -> busy (s_log a) k -> kind (o t) <> MDir ->
    p_input P (nm (o t)) q -> q <> nm (o k).
  Proof.
    intros Ha (Ht & _) (Hk & Hk1 & Hk2) Hd Hq ->.
    destruct (atom_run a Ha) as (l & R & Hst & Hl).
    destruct (Hst t Ht) as (Lt & Ct & Dt). destruct (Hst k Hk) as (Lk & Ck & _).
    pose proof (ro_wf _ _ _ _ _ _ _ _ _ _ _ R) as Hw. pose proof (ro_co _ _ _ _ _ _ _ _ _ _ _ R) as Hc1.
    pose proof (ro_reg _ _ _ _ _ _ _ _ _ _ _ R) as Hi1. pose proof (ro_imp _ _ _ _ _ _ _ _ _ _ _ R) as Hi2.
    destruct (p_input_obj canon kind P c1 i Hw Hi2 _ _ Hq (o t) Ct Hd eq_refl) as (k' & Hin & En).
    destruct (input_cone canon kind c1 i Hw (o t) k' Ct Hin) as [Ck' _].
    assert (E : k' = o k) by (apply (cone_inj canon c1 i Hw Hc1 Hi1); auto). subst k'.
    assert (G : forall x y, input canon kind c1 x y -> clos_trans nat (obj_dep canon c1) x y).
    { intros x y H. induction H as [x d y Hx Hg Hy|x d s y Hx Hg Hy Hs IH].
      - apply t_step. exists d. split; [exact Hx|]. apply get_resolves; [exact Hw|exact Hg].
      - eapply t_trans; [apply t_step|exact IH]. exists d. split; [exact Hx|]. apply get_resolves; [exact Hw|exact Hg]. }
    pose proof (below_ended canon kind partial P c1 i fs now w0 l _ R (o t) (o k) Dt (G _ _ Hin)) as Hend.
    destruct (Hl _ _ Hend) as (k2 & E2 & L2 & F2).
    assert (k = k2) by (apply o_inj; auto). subst k2. tauto.
  Qed.
  Lemma names_apart a t k : atom a -> In t (started (s_log a)) -> In k (started (s_log a)) -> nm (o t) = nm (o k) -> t = k.
  Proof.
    intros Ha Ht Hk E. destruct (atom_run a Ha) as (l & R & Hst & _).
    destruct (Hst t Ht) as (Lt & Ct & _). destruct (Hst k Hk) as (Lk & Ck & _).
    apply o_inj; auto. apply (cone_inj canon c1 i (ro_wf _ _ _ _ _ _ _ _ _ _ _ R) (ro_co _ _ _ _ _ _ _ _ _ _ _ R) (ro_reg _ _ _ _ _ _ _ _ _ _ _ R)); auto.
  Qed.

  Lemma busy_ended a t k : atom a -> busy (s_log a) t -> In k (finished (s_log a)) \/ In k (raised (s_log a)) -> nm (o k) <> nm (o t).
  Proof.
    intros Ha Bt Hk E. assert (Hs : In k (started (s_log a))).
    { destruct solver_facts as (dts & Hnd & Hs & Hlen).
      pose proof (reach_Inv task so dts th sv Hso Hs a (ex_intro (fun w => exec_reaches sv task w a) w0 Ha)) as HI.
      apply (Permutation_in k (Permutation_sym (c_perm _ _ _ _ _ _ _ _ (v_core _ _ _ HI)))). rewrite !in_app_iff. tauto. }
    assert (k = t) by (apply (names_apart a k t Ha Hs (proj1 Bt) E)). subst k. destruct Bt as (_ & B1 & B2). tauto.
  Qed.
  Lemma busy_ran a t b : atom a -> busy (s_log a) t -> ~ In (nm (o t), b) (w_ran (s_world a)).
  Proof.
    intros Ha Bt Hr. destruct (atom_run a Ha) as (l & R & _ & Hl).
    destruct (run_ran_need canon kind partial P c1 i fs now w0 l _ R _ _ Hr) as (j & Hj & _ & E & _).
    apply in_map_iff in Hj. destruct Hj as ([j' r] & <- & Hj). destruct (Hl _ _ Hj) as (k & -> & _ & Hk).
    exact (busy_ended a t k Ha Bt Hk E).
  Qed.

  (** ** The execution with calls at one moment that goes with an execution. *)
  Definition rule_of_task (t : nat) : Prop := exists f b, kind (o t) = MFile f b.
  Record with_atom (n : nat) (s : state world) (h : list (state world)) (a : state world) : Prop := WA {
    wa_n : natom n a;
    wa_same : a = set_world (s_world a) s;
    wa_rest : w_cache (s_world s) = w_cache (s_world a) /\ w_base (s_world s) = w_base (s_world a) /\
              w_now (s_world s) = w_now (s_world a) /\ w_ran (s_world s) = w_ran (s_world a);
    wa_files : forall q, w_fs (s_world s) q = w_fs (s_world a) q \/
                 exists k, rule_of_task k /\ t_need (obj c1 (o k)) = Some true /\ busy (s_log s) k /\ q = nm (o k);
    wa_reads : forall t, rule_of_task t -> busy (s_log s) t -> forall s', In s' (s :: h) -> busy (s_log s') t ->
                 forall q, p_input P (nm (o t)) q -> w_fs (s_world s') q = w_fs (s_world a) q;
    wa_began : forall t, rule_of_task t -> busy (s_log s) t -> forall s0, began (s :: h) t s0 ->
                 w_fs (s_world s0) (nm (o t)) = w_fs (s_world a) (nm (o t));
    wa_other : forall s' q, In s' (s :: h) -> ~ is_rule P q -> contents (w_fs (s_world s')) q = contents (w_fs (s_world a)) q;
    wa_past : forall t s', In s' (s :: h) -> busy (s_log s') t -> In t (started (s_log s)) }.

  Lemma wa_atom n s h a : with_atom n s h a -> atom a.
  Proof. intros H. exact (natom_atom _ _ (wa_n _ _ _ _ H)). Qed.
  Lemma same_log (s a : state world) : a = set_world (s_world a) s -> s_log a = s_log s.
  Proof. intros ->. reflexivity. Qed.

  Lemma task_file t : forall a, atom a -> In t (started (s_log a)) -> rule_of_task t ->
    exists f b ds, kind (o t) = MFile f b /\ P (nm (o t)) = Some (DRule f ds b) /\ in_cone canon c1 i (o t).
  Proof.
    intros a Ha Ht (f & b & Hk). destruct (atom_run a Ha) as (l & R & Hst & _). destruct (Hst t Ht) as (_ & Ct & _).
    destruct (ro_imp _ _ _ _ _ _ _ _ _ _ _ R (o t) Ct) as [_ H]. rewrite Hk in H. destruct H as (ds & HP & _). exists f, b, ds. auto.
  Qed.

  Lemma with_atom_step n n' s h a s' a' l' : with_atom n s h a ->
    natom n' a' -> a' = set_world (s_world a') s' -> s_log s' = s_log s ++ l' ->
    w_cache (s_world s') = w_cache (s_world a') /\ w_base (s_world s') = w_base (s_world a') /\
      w_now (s_world s') = w_now (s_world a') /\ w_ran (s_world s') = w_ran (s_world a') ->
    (forall q, w_fs (s_world s') q = w_fs (s_world a') q \/
       exists k, rule_of_task k /\ t_need (obj c1 (o k)) = Some true /\ busy (s_log s) k /\ busy (s_log s') k /\ q = nm (o k)) ->
    (forall q, is_file P q -> w_fs (s_world a') q = w_fs (s_world a) q \/ exists u, busy (s_log s) u /\ ~ busy (s_log s') u /\ q = nm (o u)) ->
    (forall q, ~ is_rule P q -> contents (w_fs (s_world a')) q = contents (w_fs (s_world a)) q) ->
    with_atom n' s' (s :: h) a'.
  Proof.
    intros [Hna Es Er Ef Ed Eb Eo Ep] Hna' Es' El Er' Ef' Hch Hoth.
    pose proof (natom_atom _ _ Hna) as Ha. pose proof (natom_atom _ _ Hna') as Ha'.
    pose proof (same_log _ _ Es) as La. pose proof (same_log _ _ Es') as La'.
    assert (Hstart : forall t, In t (started (s_log s)) -> In t (started (s_log s'))) by (intros t Ht; rewrite El, started_app, in_app_iff; now left).
    assert (Back : forall t, busy (s_log s') t -> In t (started (s_log s)) -> busy (s_log s) t).
    { intros t Hb Ht. rewrite El in Hb. exact (busy_more _ _ _ Hb Ht). }
    constructor; auto.
    - intros q. destruct (Ef' q) as [E|(k & Rk & Nk & _ & Bk & Eq)]; [now left|right; eauto].
    - intros t Rt Bt s1 Hs1 Bs1 q Hq.
      assert (Nd : kind (o t) <> MDir) by (destruct Rt as (f & b & ->); discriminate).
      destruct Hs1 as [<-|Hs1].
      + destruct (Ef' q) as [E|(k & Rk & Nk & _ & Bk & Eq)]; [exact E|]. exfalso.
        apply (reads_apart a' t k q Ha'); [rewrite La'; exact Bt|rewrite La'; exact Bk|exact Nd|exact Hq|exact Eq].
      + assert (Bt0 : busy (s_log s) t) by (apply Back; [exact Bt|exact (Ep t s1 Hs1 Bs1)]).
        rewrite (Ed t Rt Bt0 s1 Hs1 Bs1 q Hq).
        destruct (Hch q (p_input_file P _ _ Hq)) as [E|(u & Bu & _ & Eq)]; [now symmetry|].
        exfalso. apply (reads_apart a t u q Ha); [rewrite La; exact Bt0|rewrite La; exact Bu|exact Nd|exact Hq|exact Eq].
    - intros t Rt Bt s0 (h1 & h2 & Eh & Bs0 & Hn). destruct h1 as [|x h1]; simpl in Eh; injection Eh as E1 E2.
      + subst s0 h2. destruct (Ef' (nm (o t))) as [E|(k & Rk & Nk & Bk & Bk' & Eq)]; [exact E|]. exfalso.
        assert (t = k).
        { apply (names_apart a' t k Ha'); [rewrite La'; apply Bt|rewrite La'; apply Bk'|exact Eq]. }
        subst k. apply (Hn s); [now left|exact Bk].
      + subst x. assert (Hin : In s0 (s :: h)) by (rewrite E2; apply in_app_iff; right; now left).
        assert (Bt0 : busy (s_log s) t) by (apply Back; [exact Bt|exact (Ep t s0 Hin Bs0)]).
        assert (G : w_fs (s_world s0) (nm (o t)) = w_fs (s_world a) (nm (o t))).
        { apply Eb; auto. exists h1, h2. auto. }
        rewrite G. destruct (task_file t a Ha) as (f & b & ds & _ & HP & _); [rewrite La; apply Bt0|exact Rt|].
        destruct (Hch (nm (o t))) as [E|(u & Bu & Bu' & Eq)]; [right; exists f, ds, b; exact HP|now symmetry|].
        exfalso. assert (t = u) by (apply (names_apart a t u Ha); [rewrite La; apply Bt0|rewrite La; apply Bu|exact Eq]).
        subst u. contradiction.
    - intros s1 q [<-|Hs1] Hq; [|rewrite (Hoth q Hq); now apply Eo].
      destruct (Ef' q) as [E|(k & Rk & _ & _ & Bk & ->)]; [unfold contents; now rewrite E|]. exfalso. apply Hq.
      destruct (task_file k a' Ha') as (f & b & ds & _ & HP & _); [rewrite La'; apply Bk|exact Rk|exists f, ds, b; exact HP].
    - intros t s1 [<-|Hs1] Bs1; [apply Bs1|]. apply Hstart. eapply Ep; eauto.
  Qed.

  (** ** One call. *)
  Lemma file_there n s h a q : with_atom n s h a -> ~ is_rule P q -> w_fs (s_world s) q = w_fs (s_world a) q.
  Proof.
    intros H Hq. destruct (wa_files _ _ _ _ H q) as [E|(k & Rk & _ & Bk & ->)]; [exact E|]. exfalso. apply Hq.
    destruct (task_file k a (wa_atom _ _ _ _ H)) as (f & b & ds & _ & HP & _); [|exact Rk|exists f, ds, b; exact HP].
    rewrite (same_log _ _ (wa_same _ _ _ _ H)). apply Bk.
  Qed.
  Lemma stat_at (f f' : fsys) p : f p = f' p -> stat f p = stat f' p.
  Proof. unfold stat. now intros ->. Qed.
  Lemma update_at (f f' : fsys) l p : f p = f' p -> update_info f l p = update_info f' l p.
  Proof. intros H. unfold update_info. now rewrite (stat_at f f'). Qed.
  Lemma get_at (f f' : fsys) l p : f p = f' p -> get_info f l p = get_info f' l p.
  Proof. intros H. unfold get_info. now rewrite (update_at f f'), (stat_at f f'). Qed.

  Definition after_call (s : state world) (t : nat) (world' wa' : world) : Prop :=
    (w_cache world' = w_cache wa' /\ w_base world' = w_base wa' /\ w_now world' = w_now wa' /\ w_ran world' = w_ran wa') /\
    forall q, w_fs world' q = w_fs wa' q \/
      exists k, k <> t /\ rule_of_task k /\ t_need (obj c1 (o k)) = Some true /\ busy (s_log s) k /\ q = nm (o k).

  Lemma one_call z s h a t r world' : with_atom z s h a -> busy (s_log s) t ->
    fine_task canon kind partial c1 objs (s :: h) t (s_world s) r world' ->
    exists wa', task t (s_world a) r wa' /\ after_call s t world' wa'.
  Proof.
    intros H Bt T. pose proof (wa_atom _ _ _ _ H) as Ha. pose proof (same_log _ _ (wa_same _ _ _ _ H)) as La.
    destruct (wa_rest _ _ _ _ H) as (Ec & Eb & En & Er).
    destruct (atom_run a Ha) as (l & R & Hst & _). destruct (Hst t) as (Lt & Ct & _); [rewrite La; apply Bt|].
    destruct (ro_imp _ _ _ _ _ _ _ _ _ _ _ R (o t) Ct) as [Hcl HI].
    assert (Keep : (rule_of_task t -> t_need (obj c1 (o t)) <> Some true) -> after_call s t (s_world s) (s_world a)).
    { intros Hnr. split; [auto|]. intros q. destruct (wa_files _ _ _ _ H q) as [E|(k & Rk & Nk & Bk & Eq)]; [now left|right].
      exists k. split; [intros ->; now apply Hnr|auto]. }
    unfold fine_task, mk_task, task_behaviour in *. rewrite Hcl in *.
    assert (Plain : (forall f b, kind (o t) <> MFile f b) -> kind (o t) <> MDir ->
      match t_need (obj c1 (o t)) with
      | None => r = RExn /\ world' = s_world s
      | Some true => mk_update canon kind partial c1 (o t) (s_world s) r world'
      | Some false => r = RNotFalse /\ world' = s_world s
      end -> exists wa', match t_need (obj c1 (o t)) with
      | None => r = RExn /\ wa' = s_world a
      | Some true => mk_update canon kind partial c1 (o t) (s_world a) r wa'
      | Some false => r = RNotFalse /\ wa' = s_world a
      end /\ after_call s t world' wa').
    { intros Hk1 Hk2 T'. assert (Hnr : rule_of_task t -> t_need (obj c1 (o t)) <> Some true) by (intros (f & b & E); now destruct (Hk1 f b)).
      specialize (Keep Hnr).
      destruct (t_need (obj c1 (o t))) as [[|]|].
      - destruct T' as [force b v m Hk|force b fs' now' r ca' Hk|Hk p|Hk|r w' Hk]; try (now destruct (Hk1 _ _ Hk)).
        + assert (Eq : w_fs (s_world s) p = w_fs (s_world a) p).
          { apply (file_there z s h); [exact H|]. rewrite Hk in HI. destruct HI as [HP _]. intros (f & ds & b & E). unfold p in E. congruence. }
          eexists. split; [now apply up_source|]. split; [|apply Keep]. cbn. rewrite <- Ec, <- Er.
          unfold p in Eq. rewrite (get_at (w_fs (s_world s)) (w_fs (s_world a)) _ _ Eq), (update_at (w_fs (s_world s)) (w_fs (s_world a)) _ _ Eq). auto.
        + eexists. split; [now apply up_set|exact Keep].
        + rewrite Hk in HI. destruct HI.
      - destruct T' as [-> ->]. eexists. split; [split; reflexivity|exact Keep].
      - destruct T' as [-> ->]. eexists. split; [split; reflexivity|exact Keep]. }
    assert (Unplain : (forall f b, kind (o t) <> MFile f b) ->
      match t_need (obj c1 (o t)) with
      | None => r = RExn /\ world' = s_world s
      | Some true => fine_update canon kind partial c1 t (s :: h) (o t) (s_world s) r world'
      | Some false => r = RNotFalse /\ world' = s_world s
      end -> match t_need (obj c1 (o t)) with
      | None => r = RExn /\ world' = s_world s
      | Some true => mk_update canon kind partial c1 (o t) (s_world s) r world'
      | Some false => r = RNotFalse /\ world' = s_world s
      end).
    { intros Hk1. destruct (t_need (obj c1 (o t))) as [[|]|]; auto.
      intros [force b f v m Hk|force b f fs' now' r' ca' Hk|r' w' Hk Hu]; [now destruct (Hk1 _ _ Hk)|now destruct (Hk1 _ _ Hk)|exact Hu]. }
    destruct (kind (o t)) as [f b| | | |] eqn:Ek.
    - assert (Rt : rule_of_task t) by (exists f, b; exact Ek).
      destruct HI as (ds & HP & _).
      assert (Rd : forall mix, seen (s :: h) t mix -> b mix = b (contents (w_fs (s_world a)))).
      { intros mix Hm. apply (Hro _ _ _ _ HP). intros q Hq. destruct (Hm q) as (s1 & Hs1 & Bs1 & ->).
        destruct Hq as [Hq|Hq]; [|exact (wa_other _ _ _ _ H s1 q Hs1 Hq)].
        unfold contents. now rewrite (wa_reads _ _ _ _ H t Rt Bt s1 Hs1 Bs1 q Hq). }
      destruct (t_need (obj c1 (o t))) as [[|]|] eqn:End.
      + assert (Oth : forall f1 f2 q, q <> nm (o t) -> f1 q = w_fs (s_world s) q -> f2 q = w_fs (s_world a) q ->
          f1 q = f2 q \/ exists k, k <> t /\ rule_of_task k /\ t_need (obj c1 (o k)) = Some true /\ busy (s_log s) k /\ q = nm (o k)).
        { intros f1 f2 q Hq E1 E2. destruct (wa_files _ _ _ _ H q) as [E|(k & Rk & Nk & Bk & Eq)]; [left; congruence|right].
          exists k. split; [intros ->; contradiction|auto]. }
        destruct T as [force b' mix v m Hk Hm Hb Hlt Hin p fs'|force b' mix fs' now' r ca' Hk Hm Hb p Hf Hp Hr|r w' Hk Hu].
        * rewrite Ek in Hk. injection Hk as <- <-. rewrite (Rd mix Hm) in Hb. eexists. split.
          -- eapply up_rule; [exact Ek|exact Hb|rewrite <- Eb; exact Hlt|].
             intros j mj nj Hj E. apply (Hin j mj nj Hj).
             rewrite (wa_reads _ _ _ _ H t Rt Bt s (or_introl eq_refl) Bt); [exact E|].
             now apply (input_p canon kind P c1 i (ro_wf _ _ _ _ _ _ _ _ _ _ _ R) (ro_imp _ _ _ _ _ _ _ _ _ _ _ R)).
          -- unfold after_call. cbn. rewrite <- Ec, <- Eb, <- En, <- Er. fold p.
             assert (Ep : forall g : fsys, fs_set g p (Some (m, Reg v)) p = Some (m, Reg v)) by (intros g; unfold fs_set; now rewrite String.eqb_refl).
             split.
             ++ split; [|auto]. apply update_at. unfold fs'. now rewrite !Ep.
             ++ intros q. destruct (String.eqb_spec q p) as [->|n]; [left; unfold fs'; now rewrite !Ep|].
                assert (Eo : forall g : fsys, fs_set g p (Some (m, Reg v)) q = g q)
                  by (intros g; unfold fs_set; destruct (String.eqb_spec q p); [contradiction|reflexivity]).
                apply Oth; [exact n|apply Eo|apply Eo].
        * rewrite Ek in Hk. injection Hk as <- <-. rewrite (Rd mix Hm) in Hb.
          assert (Ex : exists fsa nowa, nowa = now' /\ fsa p = fs' p /\ (forall q, q <> p -> fsa q = w_fs (s_world a) q) /\
            (fsa = w_fs (s_world a) /\ nowa = w_now (s_world a) \/
             fsa = fs_set (w_fs (s_world a)) p None /\ nowa = w_now (s_world a) \/
             partial = true /\ (exists m v, (w_base (s_world a) < m)%nat /\
               fsa = fs_set (w_fs (s_world a)) p (Some (m, Reg v)) /\ nowa = Nat.max (w_now (s_world a)) m))).
          { assert (Eo : forall (g : fsys) e q, q <> p -> fs_set g p e q = g q)
              by (intros g e q n; unfold fs_set; destruct (String.eqb_spec q p); [contradiction|reflexivity]).
            assert (Ep : forall (g : fsys) e, fs_set g p e p = e) by (intros g e; unfold fs_set; now rewrite String.eqb_refl).
            destruct Hp as [((s0 & B0 & E0) & ->)|[(E0 & ->)|(Hpo & m & v & Hlt & E0 & ->)]].
            - exists (w_fs (s_world a)), (w_now (s_world s)). split; [reflexivity|]. split; [|split; [auto|left; auto]].
              rewrite E0. symmetry. apply (wa_began _ _ _ _ H t Rt Bt s0 B0).
            - exists (fs_set (w_fs (s_world a)) p None), (w_now (s_world s)). split; [reflexivity|]. split; [now rewrite Ep|].
              split; [intros q n; now apply Eo|]. right. left. auto.
            - exists (fs_set (w_fs (s_world a)) p (Some (m, Reg v))), (Nat.max (w_now (s_world s)) m). split; [reflexivity|]. split; [now rewrite Ep|].
              split; [intros q n; now apply Eo|]. right. right. split; [exact Hpo|]. exists m, v. rewrite <- Eb, <- En. auto. }
          destruct Ex as (fsa & nowa & -> & Efp & Efo & Hpa).
          eexists. split.
          -- eapply (up_rule_fails canon kind partial c1 (o t) (s_world a) f b fsa now' r ca'); [exact Ek|exact Hb|exact Hpa|].
             destruct Hr as [[-> ->]|[-> ->]]; [left|right]; (split; [reflexivity|]).
             ++ rewrite Ec. now apply update_at.
             ++ exact Ec.
          -- unfold after_call. cbn. rewrite <- Eb, <- Er. split; [auto|].
             intros q. destruct (String.eqb_spec q p) as [->|n]; [left; now rewrite Efp|]. apply Oth; [exact n|now apply Hf|now apply Efo].
        * now destruct (Hk f b).
      + destruct T as [-> ->]. eexists. split; [split; reflexivity|]. apply Keep. intros _. discriminate.
      + destruct T as [-> ->]. eexists. split; [split; reflexivity|]. apply Keep. intros _. discriminate.
    - apply Plain; [discriminate|discriminate|]. apply Unplain; [discriminate|exact T].
    - clear Plain Unplain. destruct HI as [HD _].
      assert (Hno : forall p, p = nm (o t) \/ In p (ancestors (nm (o t))) -> w_fs (s_world s) p = w_fs (s_world a) p).
      { intros p Hp. apply (file_there z s h a p H). intros Hr. apply (HD p Hp). now right. }
      assert (Hnr : rule_of_task t -> t_need (obj c1 (o t)) <> Some true) by (intros (f & b & E); congruence).
      specialize (Keep Hnr).
      assert (Hex : existsb (is_reg (w_fs (s_world s))) (ancestors (nm (o t))) = existsb (is_reg (w_fs (s_world a))) (ancestors (nm (o t)))).
      { clear - Hno. assert (G : forall q, In q (ancestors (nm (o t))) -> is_reg (w_fs (s_world s)) q = is_reg (w_fs (s_world a)) q).
        { intros q Hq. unfold is_reg. now rewrite Hno by (now right). }
        clear Hno. induction (ancestors (nm (o t))) as [|x xs IH]; [reflexivity|]. cbn. rewrite (G x (or_introl eq_refl)), IH; [reflexivity|].
        intros q Hq. apply G. now right. }
      assert (Eg : forall l p, p = nm (o t) -> get_info (w_fs (s_world s)) l p = get_info (w_fs (s_world a)) l p).
      { intros l0 p ->. apply get_at. apply Hno. now left. }
      destruct T as [x ca' Hg Hx|x ca' m p Hg Hx Hf Ha' Hm fs'|x ca' p Hg Hx Hf].
      + rewrite Ec, Eg in Hg by reflexivity. eexists. split; [eapply dir_exists; [exact Hg|exact Hx]|]. split; [cbn; auto|]. apply Keep.
      + rewrite Ec, Eg in Hg by reflexivity. eexists. split.
        * eapply dir_created; [exact Hg|exact Hx| | |].
          -- rewrite <- Hno; [exact Hf|now left].
          -- rewrite <- Hex. exact Ha'.
          -- rewrite <- Eb. exact Hm.
        * unfold after_call. cbn. rewrite <- Eb, <- En, <- Er. fold p. split.
          -- split; [|auto]. apply update_at. unfold fs', makedirs. now rewrite String.eqb_refl.
          -- intros q. destruct (proj2 Keep q) as [E|E]; [left|now right]. unfold fs', makedirs. now rewrite E.
      + rewrite Ec, Eg in Hg by reflexivity. eexists. split.
        * eapply dir_raises; [exact Hg|exact Hx|]. rewrite <- Hex, <- Hno by (now left). exact Hf.
        * unfold after_call. cbn. rewrite <- Er. split; [auto|]. apply Keep.
    - apply Plain; [discriminate|discriminate|]. apply Unplain; [discriminate|exact T].
    - destruct HI.
  Qed.

  (** ** Executions. *)
  Local Notation fin n h := (interleaved canon kind partial sv c1 objs w0 n h).

  Lemma started_atom : with_atom 0 (init_state sv w0) [] (init_state sv w0).
  Proof.
    constructor; auto.
    - constructor.
    - intros t _ (Hb & _). destruct Hb.
    - intros t _ (Hb & _). destruct Hb.
    - intros s' q [<-|[]] _. reflexivity.
    - intros t s' [<-|[]] (Hb & _). exact Hb.
  Qed.

  (** Files without rules keep their contents. *)
  Lemma call_other a t r wa' q : atom a -> In t (started (s_log a)) -> task t (s_world a) r wa' -> ~ is_rule P q ->
    contents (w_fs wa') q = contents (w_fs (s_world a)) q.
  Proof.
    intros Ha Ht T Hq. destruct (atom_run a Ha) as (l & R & Hst & _). destruct (Hst t Ht) as (_ & Ct & _).
    destruct (ro_imp _ _ _ _ _ _ _ _ _ _ _ R (o t) Ct) as [_ HI]. revert T. unfold mk_task, task_behaviour.
    assert (G : mk_update canon kind partial c1 (o t) (s_world a) r wa' -> contents (w_fs wa') q = contents (w_fs (s_world a)) q).
    { assert (Eo : forall force b, kind (o t) = MFile force b -> forall (g : fsys) e, contents (fs_set g (nm (o t)) e) q = contents g q).
      { intros force b Hk g e. rewrite Hk in HI. destruct HI as (ds & HP & _). unfold contents, fs_set.
        destruct (String.eqb_spec q (nm (o t))) as [->|]; [|reflexivity]. destruct Hq. exists force, ds, b. exact HP. }
      intros U. destruct U as [force b v m Hk Hb Hlt Hin p fs'|force b fs' now' r' ca' Hk Hb p Hf' Hr|Hk p|Hk|r' w' Hk]; cbn; try reflexivity.
      - exact (Eo _ _ Hk _ _).
      - destruct Hf' as [[-> _]|[[-> _]|(_ & m & v & _ & -> & _)]]; [reflexivity|exact (Eo _ _ Hk _ _)|exact (Eo _ _ Hk _ _)].
      - rewrite Hk in HI. destruct HI. }
    assert (G2 : match t_class (obj c1 (o t)) with
      | Plain => r = RExn /\ wa' = s_world a
      | Updatable => match t_need (obj c1 (o t)) with
                   | None => r = RExn /\ wa' = s_world a
                   | Some true => mk_update canon kind partial c1 (o t) (s_world a) r wa'
                   | Some false => r = RNotFalse /\ wa' = s_world a
                   end
      end -> contents (w_fs wa') q = contents (w_fs (s_world a)) q).
    { destruct (t_class (obj c1 (o t))); [now intros [_ ->]|destruct (t_need (obj c1 (o t))) as [[|]|]; [exact G|now intros [_ ->]|now intros [_ ->]]]. }
    destruct (kind (o t)); try exact G2.
    intros T. destruct T as [x ca' Hg Hx|x ca' m p Hg Hx Hf Ha' Hm fs'|x ca' p Hg Hx Hf]; [reflexivity| |reflexivity].
    cbn. unfold contents, fs', makedirs. destruct (String.eqb_spec q p) as [->|]; [now rewrite Hf|].
    destruct (w_fs (s_world a) q) as [[]|]; [reflexivity|]. now destruct (smem _ _ _).
  Qed.

  Lemma ended_call (a : state world) w t r order' wa' : let a' := after_task w t r order' (set_world wa' a) in
    exists l', s_log a' = s_log a ++ match r with RExn => ERaise t | _ => EFinish t r end :: l' /\ s_world a' = wa' /\
      (forall k, k <> t -> busy (s_log a) k -> busy (s_log a') k) /\ ~ busy (s_log a') t.
  Proof.
    intros a'. destruct (after_task_frame w t r order' (set_world wa' a)) as (_ & Hw & _ & l' & Hl & Hf & Hra). fold a' in Hw, Hl. cbn in Hl, Hw.
    exists l'. split; [rewrite Hl, <- app_assoc; reflexivity|]. split; [exact Hw|]. rewrite Hl. split.
    - intros k Hk Hb. apply busy_quiet; [exact Hf|exact Hra|]. unfold busy in *. rewrite started_app, finished_app, raised_app, !in_app_iff.
      destruct r; cbn; intuition congruence.
    - intros (_ & H1 & H2). rewrite finished_app, raised_app, finished_app, raised_app, !in_app_iff in *.
      destruct r; cbn in *; tauto.
  Qed.

  Lemma with_atom_end z s h a w t r world' wa' order' : with_atom z s h a ->
    s_main s = MJoin -> nth_error (s_workers s) w = Some (WRun t) ->
    Permutation (inv_of (sv_inv sv) t) order' -> busy (s_log s) t ->
    task t (s_world a) r wa' -> after_call s t world' wa' ->
    with_atom (Datatypes.S z) (after_task w t r order' (set_world world' s)) (s :: h) (after_task w t r order' (set_world wa' a)).
  Proof.
    intros H Hm Hw HP Bt T [Er Ef].
    pose proof (wa_atom _ _ _ _ H) as Ha. pose proof (wa_same _ _ _ _ H) as Es. pose proof (same_log _ _ Es) as La.
    assert (Ha' : natom (Datatypes.S z) (after_task w t r order' (set_world wa' a))).
    { eapply nsteps_S; [exact (wa_n _ _ _ _ H)|]. apply step_finish; [rewrite Es; exact Hm|rewrite Es; exact Hw|exact T|exact HP]. }
    destruct (ended_call s w t r order' world') as (l1 & Hl1 & Hw1 & Hb1 & Hn1).
    destruct (ended_call a w t r order' wa') as (l2 & Hl2 & Hw2 & _ & _).
    destruct (atom_run a Ha) as (l & R & Hst & _). destruct (Hst t) as (Lt & Ct & _); [rewrite La; apply Bt|].
    eapply (with_atom_step z (Datatypes.S z) s h a); [exact H|exact Ha'| |exact Hl1| | | |].
    - rewrite Hw2. rewrite Es at 1. change (set_world wa' (set_world (s_world a) s)) with (set_world wa' (set_world world' s)). now rewrite after_world.
    - rewrite Hw1, Hw2. exact Er.
    - intros q. rewrite Hw1, Hw2. destruct (Ef q) as [E|(k & Nk & Rk & Dk & Bk & Eq)]; [now left|right]. exists k. auto 10.
    - intros q Hq. rewrite Hw2. destruct (String.eqb_spec q (nm (o t))) as [->|n].
      + right. exists t. auto.
      + left. eapply (run_own canon kind partial P c1 i fs now w0 l (s_world a) (o t) r wa' q R Ct); [exact T|exact Hq|exact n].
    - intros q Hq. rewrite Hw2. apply (call_other a t r wa' q Ha); [rewrite La; apply Bt|exact T|exact Hq].
  Qed.

  Lemma fine_atom z h0 : fin z h0 -> forall s h, h0 = s :: h -> exists a, with_atom z s h a.
  Proof.
    induction 1 as [|z s h s' Hf IH Mv|z s h t f b e Hf IH Hm Bt j Hk Hn w]; intros s1 h1 [= <- <-];
      [|destruct Mv as [s s' St|s w t r world' order' Hm Hw T HP]|].
    - exists (init_state sv w0). apply started_atom.
    - destruct (IH s h eq_refl) as (a & H).
      pose proof (wa_atom _ _ _ _ H) as Ha. pose proof (wa_same _ _ _ _ H) as Es.
      exists (set_world (s_world a) s').
      assert (G : step (inv_of (sv_inv sv)) task (set_world (s_world a) s) (set_world (s_world a) s') /\
                  s_world s' = s_world s /\ exists l', s_log s' = s_log s ++ l' /\ finished l' = [] /\ raised l' = []).
      { destruct (plain_world (inv_of (sv_inv sv)) task (s_world a) s s' St) as [(S1 & _ & Hw & _ & l' & Hl)|(_ & S1 & Hl & Hw)].
        - split; [exact S1|]. split; [exact Hw|]. exists l'. exact Hl.
        - split; [exact S1|]. split; [exact Hw|]. exists []. now rewrite app_nil_r. }
      destruct G as (S1 & Hw & l' & Hl & Hl1 & Hl2). rewrite <- Es in S1.
      eapply (with_atom_step z (Datatypes.S z) s h a); [exact H| |reflexivity|exact Hl| | | |reflexivity].
      + eapply nsteps_S; [exact (wa_n _ _ _ _ H)|exact S1].
      + rewrite Hw. apply (wa_rest _ _ _ _ H).
      + intros q. rewrite Hw. destruct (wa_files _ _ _ _ H q) as [E|(k & Rk & Nk & Bk & Eq)]; [now left|right]. exists k.
        do 3 (split; [assumption|]). split; [|exact Eq]. rewrite Hl. now apply busy_quiet.
      + intros q _. now left.
    - destruct (IH s h eq_refl) as (a & H).
      pose proof (wa_atom _ _ _ _ H) as Ha. pose proof (wa_same _ _ _ _ H) as Es. pose proof (same_log _ _ Es) as La.
      assert (Bt : busy (s_log s) t).
      { rewrite <- La. apply (busy_run a w t Ha). rewrite Es. exact Hw. }
      destruct (one_call z s h a t r world' H Bt T) as (wa' & T' & Hac).
      exists (after_task w t r order' (set_world wa' a)). eapply with_atom_end; eauto.
    - destruct (IH s h eq_refl) as (a & H). exists a.
      pose proof (wa_atom _ _ _ _ H) as Ha. pose proof (wa_same _ _ _ _ H) as Es.
      eapply (with_atom_step z z s h a _ a []); [exact H|exact (wa_n _ _ _ _ H)|exact Es| | | | |reflexivity].
      + cbn. now rewrite app_nil_r.
      + cbn. apply (wa_rest _ _ _ _ H).
      + intros q. cbn. unfold fs_set. destruct (String.eqb_spec q (t_name (obj c1 j))) as [->|n].
        * right. exists t. split; [exists f, b; exact Hk|]. split; [exact Hn|]. auto.
        * destruct (wa_files _ _ _ _ H q) as [E|(k & Rk & Nk & Bk & Eq)]; [now left|right]. exists k. auto 10.
      + intros q _. now left.
  Qed.

  (** Executions with calls at one moment are among the executions. *)
  Lemma atom_fine z a : natom z a -> exists h, fin z (a :: h) /\ with_atom z a h a.
  Proof.
    intros Ha. remember (init_state sv w0) as s0 eqn:E0. induction Ha as [s|z s1 a a' Ha IH St]; subst.
    - exists []. split; [constructor|apply started_atom].
    - destruct (IH eq_refl) as (h & Hf & H). clear IH. exists (a :: h).
      assert (Ha1 : atom a) by exact (natom_atom _ _ Ha).
      assert (Q : forall s', step (inv_of (sv_inv sv)) (fun _ _ _ _ => False) a s' -> step (inv_of (sv_inv sv)) task a s' ->
                s_world s' = s_world a -> (exists l', s_log s' = s_log a ++ l' /\ finished l' = [] /\ raised l' = []) ->
                fin (Datatypes.S z) (s' :: a :: h) /\ with_atom (Datatypes.S z) s' (a :: h) s').
      { intros s' S1 S2 Hw (l' & Hl & Hl1 & Hl2). split; [apply il_moves; [exact Hf|now apply fm_plain]|].
        eapply (with_atom_step z (Datatypes.S z) a h a); [exact H| |now rewrite set_world_same|exact Hl|auto| | |now intros q _; rewrite Hw].
        - eapply nsteps_S; [exact (wa_n _ _ _ _ H)|exact S2].
        - intros q. now left.
        - intros q _. left. now rewrite Hw. }
      destruct St as [w s2 Hm Hw Hq|w s2 Hm Hw Hq|w t r world' order' s2 Hm Hw T HP|s2 Hm Hrel].
      + destruct (frame_loop w s2) as (_ & Fw & _ & Fl). apply Q; [now apply step_get|now apply step_get|exact Fw|exact Fl].
      + destruct (frame_release w s2) as (_ & Fw & _ & Fl). apply Q; [now apply step_drain|now apply step_drain|exact Fw|exact Fl].
      + pose proof (busy_run s2 w t Ha1 Hw) as Bt.
        split; [|eapply with_atom_end; eauto; split; [auto|now left]].
        apply il_moves; [exact Hf|]. apply fm_ends; auto. revert T. unfold fine_task, mk_task, task_behaviour.
        assert (Hself : seen (s2 :: h) t (contents (w_fs (s_world s2)))).
        { intros q. exists s2. split; [now left|auto]. }
        assert (G : forall r w', mk_update canon kind partial c1 (o t) (s_world s2) r w' ->
                    fine_update canon kind partial c1 t (s2 :: h) (o t) (s_world s2) r w').
        { intros r0 w' U. destruct U as [force b v m Hk Hb Hlt Hin p fs'|force b fs' now' r' ca' Hk Hb p Hf' Hr|Hk p|Hk|r' w' Hk].
          - eapply fu_rule; eauto.
          - assert (Rt : rule_of_task t) by (exists force, b; exact Hk).
            assert (Eo : forall (g : fsys) e q, q <> p -> fs_set g p e q = g q)
              by (intros g e q n; unfold fs_set; destruct (String.eqb_spec q p); [contradiction|reflexivity]).
            assert (Ep : forall (g : fsys) e, fs_set g p e p = e) by (intros g e; unfold fs_set; now rewrite String.eqb_refl).
            eapply fu_rule_fails; [exact Hk|exact Hself|exact Hb| | |exact Hr].
            + intros q n. destruct Hf' as [[-> _]|[[-> _]|(_ & m & v & _ & -> & _)]]; [reflexivity|now apply Eo|now apply Eo].
            + destruct Hf' as [[-> ->]|[[-> ->]|(Hpo & m & v & Hlt & -> & ->)]].
              * left. split; [|reflexivity]. destruct (busy_began (s2 :: h) t) as (s0 & B0); [exists s2; split; [now left|exact Bt]|].
                exists s0. split; [exact B0|]. symmetry. exact (wa_began _ _ _ _ H t Rt Bt s0 B0).
              * right. left. split; [apply Ep|reflexivity].
              * right. right. split; [exact Hpo|]. exists m, v. split; [exact Hlt|]. split; [apply Ep|reflexivity].
          - apply fu_plain; [congruence|now apply up_source].
          - apply fu_plain; [congruence|now apply up_set].
          - apply fu_plain; [congruence|now apply up_other]. }
        destruct (kind (o t)); try (exact (fun x => x));
          destruct (t_class (obj c1 (o t))); try (exact (fun x => x)); destruct (t_need (obj c1 (o t))) as [[|]|]; try (exact (fun x => x)); apply G.
      + apply Q; [now apply step_join|now apply step_join|reflexivity|exists []; now rewrite app_nil_r].
  Qed.

  Lemma atom_returned a : atom a -> s_main a = MReturned -> forall t, ~ busy (s_log a) t.
  Proof.
    intros Ha Hm t (B1 & B2 & B3). destruct solver_facts as (dts & Hnd & Hs & Hlen).
    pose proof (ex_intro (fun w => exec_reaches sv task w a) w0 Ha) as Hr.
    destruct (returned_idle task so dts th sv Hso Hs a Hr Hm) as (Hi & _).
    rewrite (in_progress_workers task so dts th sv Hso Hs a Hr) in Hi.
    pose proof (reach_Inv task so dts th sv Hso Hs a Hr) as HI. pose proof (c_perm _ _ _ _ _ _ _ _ (v_core _ _ _ HI)) as Pm.
    apply (Permutation_in t Pm) in B1. rewrite !in_app_iff in B1. destruct (running (s_workers a)); [|discriminate].
    cbn in B1. tauto.
  Qed.
End Sim.
