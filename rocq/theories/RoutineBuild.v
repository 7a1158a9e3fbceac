(** Lemmas: what routines find when they run, and histories with routines (C96). *)
From Coq Require Import Permutation.
From Verif Require Import PyBase PyPath PathProofs SolverModel SpecGraph InvokerModel SpecTrace InvokerProofs InvokerInv InvokerThms InvokerPath
  CoreModel SpecCore CoreProofs NeedProofs RuProofs CoreThms MakeModel MakeEval SpecMake MakeProofs MakeFacts MakeTimes MakeBuild MakeThms MakeClaims
  RegModel CliModel SpecUtil UtilProofs SpecReg RegProofs RegScript RegBuild RegTotal BuildSafe SpecProject ProjectProofs CliProofs ProjectBuild SpecRoutine
  RoutineProofs.
Local Open Scope string_scope.
Local Open Scope list_scope.

(** What has been called successfully has its whole cone called successfully before. *)
Lemma cone_called canon kind partial P c i fs now calls w0 w : run_of canon kind partial P c i fs now calls w0 w ->
  forall j k, In (j, RNotFalse) calls -> in_cone canon c j k -> In (k, RNotFalse) calls.
Proof.
  intros R j k Hj Hk. apply Operators_Properties.clos_rt_rtn1 in Hk. induction Hk as [|y z Hyz _ IH]; [exact Hj|].
  apply in_split in IH. destruct IH as (l1 & l2 & E). rewrite E. apply in_app_iff. left.
  exact (ro_deps _ _ _ _ _ _ _ _ _ _ _ R l1 y RNotFalse l2 E z Hyz).
Qed.

Section Routine.
  Variables (cwd home : string) (fs : fsys) (exists_ : string -> bool) (glob_ : string -> list string) (l : list stmt).
  Hypothesis disk : disk_ok cwd (present fs) exists_.
  Hypothesis ok : in_order cwd home glob_ exists_ l.
  Notation canon := (realpath cwd).
  Notation P := (project_of cwd home glob_ l).
  Notation P' := (project_of cwd home glob_ (tamed l)).
  Notation declares := (declares cwd home glob_).
  Notation makes := (makes cwd home glob_).
  Notation wanted := (wanted cwd home glob_ l).
  Notation inv := (inv cwd home (present fs) exists_ glob_).

  Lemma routine_files x th now kind c1 objs sv s : dated fs now -> faithful P fs -> no_dirs P fs -> reads_only P -> wanted x ->
    building cwd home exists_ glob_ false l x th fs now kind c1 objs sv s -> none_over l c1 objs s ->
    forall y ds, In (STarget true y ds) l -> begun c1 objs s y ->
    forall d p, In d (expand_names glob_ ds) -> is_file P p -> p_cone P (meaning cwd l d) p ->
    right_content P (contents (w_fs (s_world s))) p (contents (w_fs (s_world s)) p).
  Proof.
    intros Hd Hf Hnd Hro Hx Hb Hno y ds Hy (k & Hk & Hky) d p Hdd Hp Hc.
    destruct (routine_run cwd home fs exists_ glob_ l disk ok false x th now kind c1 objs sv s Hx Hb Hno)
      as (r & i & c1' & w0 & calls & I & -> & S & S' & Ri & Hn & Hkd & Hko & R & _ & Hst & _).
    destruct (Hst k Hk) as [Hj Hjd]. set (j := nth k objs (List.length (c_heap c1))) in *.
    destruct (cone_registered_name canon (fst r) i j Ri Hj) as [nm Hnm].
    assert (Ny : nm_of r j = y).
    { rewrite <- Hky. unfold name_at. fold j. exact (static_name (fst r) c1 j S). }
    pose proof (ro_imp _ _ _ _ _ _ _ _ _ _ _ R) as Him. pose proof (ro_wf _ _ _ _ _ _ _ _ _ _ _ R) as Hw.
    assert (Hj' : in_cone canon c1' i j) by (now apply (static_cone canon (fst r) c1')).
    assert (Hcl : t_class (obj (fst r) j) = Updatable).
    { destruct (Him j Hj') as [E _]. destruct S' as (_ & _ & _ & S4). destruct (S4 j) as (_ & _ & ->). exact E. }
    assert (Ek : kind_of r j = MOther).
    { apply (routine_kind cwd home fs exists_ glob_ l ok r I nm j Hnm Hcl). rewrite Ny. now exists ds. }
    destruct (whole_desc cwd home (present fs) exists_ glob_ l r I nm j Hnm) as (_ & _ & _ & C). rewrite Ek in C.
    destruct C as (C1 & s' & u & ds' & C2 & C3 & C4 & _). unfold nm_of in Ny. rewrite C1 in Ny. subst nm.
    destruct s' as [| | | |u' y' ds0]; try discriminate. injection C3 as -> -> <-.
    assert (E : STarget u y ds0 = STarget true y ds).
    { eapply (once_same cwd home (present fs) exists_ glob_ l ok r I _ _ y C2 Hy); now left. }
    injection E as -> ->.
    assert (Hm : In d (mentions home glob_ (STarget true y ds))) by exact Hdd.
    destruct (dep_registered cwd home (present fs) exists_ glob_ l ok r I (STarget true y ds) d Hy Hdd) as [jd Hjr].
    destruct (dep_means cwd home (present fs) exists_ glob_ l ok r I (STarget true y ds) d jd Hy Hm Hjr) as (Md & Mn & _).
    assert (Dj : obj_dep canon (fst r) j jd) by (exists d; split; [rewrite C4; exact Hdd|exact Hjr]).
    pose proof (Hjd jd Dj) as Hin.
    assert (Hjc : in_cone canon c1' i jd) by exact (ro_cone _ _ _ _ _ _ _ _ _ _ _ R jd _ Hin).
    assert (Hc1 : in_cone canon (fst r) i jd) by (apply (static_cone canon c1' (fst r)); [now apply static_sym|exact Hjc]).
    destruct (cone_registered_name canon (fst r) i jd Ri Hc1) as [nmd Hnd'].
    assert (Kd : kind_of (treg r) jd <> MDir) by (intros E; apply Md; now apply (kind_dir cwd home fs exists_ glob_ l r I nmd jd Hnd')).
    assert (NR : ~ is_routine l (meaning cwd l d)).
    { intros Rt. apply Operators_Properties.clos_rt_rt1n in Hc. inversion Hc as [E|y0 z Hyz _ E]; subst.
      - now apply (rule_no_routine cwd home glob_ exists_ l ok _ Hp).
      - destruct Hyz as (ds1 & _ & H). rewrite (routine_none cwd home glob_ exists_ l ok _ Rt) in H.
        destruct H as [H|(f & b & H)]; discriminate. }
    assert (Hc' : p_cone P' (t_name (obj c1' jd)) p).
    { rewrite <- (static_name (fst r) c1' jd S'). unfold nm_of in Mn. rewrite Mn. apply (tamed_cone cwd home glob_ exists_ l ok); [exact NR|].
      split; [exact Hc|]. now apply (rule_no_routine cwd home glob_ exists_ l ok). }
    destruct (p_cone_obj canon (kind_of (treg r)) P' c1' i Hw Him jd p Hjc Kd Hc') as (q & Hq & Hkq & <-).
    assert (Hqi : in_cone canon c1' i q) by (eapply rt_trans; eauto).
    apply (tamed_right cwd home glob_ exists_ l ok).
    apply (done_contents canon P' (tamed_reads cwd home glob_ exists_ l ok Hro) (kind_of (treg r)) c1' i fs now calls w0 _ Hd); [| |exact R| |].
    - now apply (tamed_faithful cwd home glob_ exists_ l ok).
    - now apply (tamed_no_dirs cwd home glob_ exists_ l ok).
    - eapply cone_called; eauto.
    - apply (p_file_kind canon (kind_of (treg r)) P' c1' i Him q Hqi Hkq). now apply (tamed_file cwd home glob_ exists_ l ok).
  Qed.

  Lemma routine_keeps x th now kind c1 objs sv s : dated fs now -> faithful P fs -> no_dirs P fs -> reads_only P -> wanted x ->
    building cwd home exists_ glob_ false l x th fs now kind c1 objs sv s -> none_over l c1 objs s ->
    dated (w_fs (s_world s)) (w_now (s_world s)) /\ faithful P (w_fs (s_world s)) /\ no_dirs P (w_fs (s_world s)).
  Proof.
    intros Hd Hf Hnd Hro Hx Hb Hno.
    destruct (routine_run cwd home fs exists_ glob_ l disk ok false x th now kind c1 objs sv s Hx Hb Hno)
      as (r & i & c1' & w0 & calls & I & -> & S & S' & Ri & Hn & Hkd & Hko & R & _).
    split; [now apply (run_times canon (kind_of (treg r)) false P' c1' i fs now w0 calls (s_world s) R)|]. split.
    - apply (tamed_faithful cwd home glob_ exists_ l ok).
      eapply (run_faithful canon P' (tamed_reads cwd home glob_ exists_ l ok Hro)); [exact Hd| |exact R]. now apply (tamed_faithful cwd home glob_ exists_ l ok).
    - apply (tamed_no_dirs cwd home glob_ exists_ l ok). eapply run_no_dirs; [|exact R]. now apply (tamed_no_dirs cwd home glob_ exists_ l ok).
  Qed.

  (** Files are made without routines. *)
  Lemma makes_none_over partial x th now kind c1 objs sv s : In x (flat_map makes l) ->
    building cwd home exists_ glob_ partial l x th fs now kind c1 objs sv s -> none_over l c1 objs s.
  Proof.
    intros Hx Hb y res Hy (k & Hk & Hky).
    destruct (building_of cwd home fs exists_ glob_ l disk ok partial x th now kind c1 objs sv s Hx Hb) as (c & i & other_if & Him & Hbo & _ & _).
    destruct (build_run_log canon kind other_if partial P c i fs now [] c1 objs s Him Hbo) as (S & w0 & calls & R & _ & _ & El).
    assert (Hin : In (nth k objs (List.length (c_heap c1)), res) calls).
    { rewrite El. apply in_map_iff. exists (k, res). auto. }
    unfold name_at in Hky. set (j := nth k objs (List.length (c_heap c1))) in *.
    pose proof (ro_cone _ _ _ _ _ _ _ _ _ _ _ R j res Hin) as Hj. pose proof (ro_imp _ _ _ _ _ _ _ _ _ _ _ R j Hj) as [_ HI].
    destruct Hb as (fuel & st & _ & other_if' & fuel' & ca1 & _ & _ & Hr & -> & _ & He & _).
    pose proof (threads_inv cwd home fs exists_ glob_ l _ th (script_inv cwd home fs exists_ glob_ l disk ok fuel st Hr)) as I.
    set (rg := (set_threads (fst (reg st 0)) th, snd (reg st 0))) in *.
    destruct (evaluated cwd home fs exists_ glob_ l disk ok fuel st Hr th other_if' fuel' c1 ca1 He) as (_ & S' & _ & _).
    assert (Reg : exists nm, In (nm, j) (c_targets (fst rg))).
    { destruct (ro_reg _ _ _ _ _ _ _ _ _ _ _ R) as [nm Hi].
      destruct (cone_registered_name canon c1 i j (ex_intro _ nm Hi) Hj) as [nm' Hn]. exists nm'. destruct S' as (E' & _). unfold rg. cbn [fst]. rewrite E'. exact Hn. }
    destruct Reg as [nm Hnm].
    assert (E : kind_of rg j = MOther).
    { apply (routine_kind cwd home fs exists_ glob_ l ok rg I nm j Hnm).
      - destruct (ro_imp _ _ _ _ _ _ _ _ _ _ _ R j Hj) as [Hcl _]. destruct S' as (_ & _ & _ & S4). destruct (S4 j) as (_ & _ & E4). cbn [fst rg]. rewrite E4. exact Hcl.
      - unfold nm_of. rewrite (static_name (fst rg) c1 j S'), Hky. exact Hy. }
    change (kind_of rg j) with (kind_of (reg st 0) j) in E. now rewrite E in HI.
  Qed.

  (** A build of files, after any history that keeps the files faithful. *)
  Lemma made_right x th now kind c1 objs sv s : dated fs now -> faithful P fs -> no_dirs P fs -> reads_only P -> In x (flat_map makes l) ->
    building cwd home exists_ glob_ false l x th fs now kind c1 objs sv s -> succeeded objs s ->
    forall p, is_file P p -> p_cone P x p -> right_content P (contents (w_fs (s_world s))) p (contents (w_fs (s_world s)) p).
  Proof.
    intros Hd Hf Hnd Hro Hx Hb Hok p Hp Hc.
    destruct (building_of cwd home fs exists_ glob_ l disk ok false x th now kind c1 objs sv s Hx Hb) as (c & i & other_if & Him & Hbo & Hn & Hk).
    destruct (build_run canon kind other_if false P c i fs now [] c1 objs s Him Hbo) as (S & w0 & cl & R & Hs).
    pose proof (ro_imp _ _ _ _ _ _ _ _ _ _ _ R) as Him1. pose proof (ro_wf _ _ _ _ _ _ _ _ _ _ _ R) as Hw.
    rewrite <- Hn, (static_name c c1 i S) in Hc.
    destruct (p_cone_obj canon kind P c1 i Hw Him1 i p (rt_refl _ _ _) Hk Hc) as (j & Hj & Hkj & <-).
    apply (success_contents canon P Hro kind c1 i fs now cl w0 _ Hd Hf Hnd R (Hs Hok) j Hj).
    exact (p_file_kind canon kind P c1 i Him1 j Hj Hkj Hp).
  Qed.

  (** ** Progress *)
  Lemma tamed_free : dirs_free cwd home l fs -> dirs_free cwd home (tamed l) fs.
  Proof.
    intros H s p a m v Hs Hp. apply tamed_In in Hs. destruct Hs as (s0 & Hs & <-). rewrite tame_places in Hp. eapply H; eauto.
  Qed.
  Lemma routine_calls partial x th now kind c1 objs sv s : wanted x -> dirs_free cwd home l fs ->
    building cwd home exists_ glob_ partial l x th fs now kind c1 objs sv s -> none_over l c1 objs s -> no_rule_failed P (s_world s) ->
    forall k r, In (k, r) (ended (s_log s)) -> r = RNotFalse.
  Proof.
    intros Hx Hfree Hb Hno Hnf k res Hk. apply tamed_free in Hfree.
    destruct (routine_run cwd home fs exists_ glob_ l disk ok partial x th now kind c1 objs sv s Hx Hb Hno)
      as (r & i & c1' & w0 & calls & I & -> & S & S' & Ri & Hn & Hkd & Hko & R & _ & _ & El).
    pose proof (treg_inv cwd home (present fs) exists_ glob_ l ok r I) as I'. pose proof (tamed_ok cwd home glob_ exists_ l ok) as ok'.
    assert (Reg : forall j, in_cone canon c1' i j -> exists nm, In (nm, j) (c_targets (fst r))).
    { intros j Hj. apply (cone_registered_name canon (fst r) i j Ri). apply (static_cone canon c1' (fst r)); [now apply static_sym|exact Hj]. }
    assert (Nm : forall j, t_name (obj c1' j) = nm_of (treg r) j) by (intros j; symmetry; exact (static_name (fst r) c1' j S')).
    destruct (run_safe canon (kind_of (treg r)) partial P' c1' i fs now w0) with (l := calls) (w := s_world s) as [F _].
    - intros j a Hj Hkj Ha Hna. destruct (Reg j Hj) as [nm Hn']. rewrite Nm in Ha.
      destruct (whole_dirs cwd home (present fs) exists_ glob_ disk (tamed l) ok' (treg r) I' a _ nm j Hn' Hkj Ha) as (d & D1 & D2 & D3).
      { unfold present. now rewrite Hna. }
      exists d. split; [apply (static_path canon (fst r) c1'); [exact S'|exact D1]|]. split; [exact D2|]. now rewrite Nm.
    - intros j a m v Hj Hkj Hna Ha. destruct (Reg j Hj) as [nm Hn']. rewrite Nm in Ha.
      destruct (whole_desc cwd home (present fs) exists_ glob_ (tamed l) (treg r) I' nm j Hn') as (_ & _ & _ & C).
      rewrite Hkj in C. destruct C as (C1 & _ & (_ & s' & p & Hs & Hp & Hab) & _).
      apply (Hfree s' p a m v Hs Hp). eapply above_trans; [eapply ancestors_above; exact Ha|]. unfold nm_of. now rewrite C1.
    - exact R.
    - assert (Hin : In (nth k objs (List.length (c_heap c1)), res) calls).
      { rewrite El. apply in_map_iff. exists (k, res). auto. }
      destruct (F _ Hin) as [Hr'|[(f & b & Hkf) Hran]]; [exact Hr'|]. exfalso. cbn [fst] in *.
      pose proof (ro_cone _ _ _ _ _ _ _ _ _ _ _ R _ _ Hin) as Hj.
      destruct (ro_imp _ _ _ _ _ _ _ _ _ _ _ R _ Hj) as [_ HI]. rewrite Hkf in HI. destruct HI as (ds & HI & _).
      apply (Hnf (t_name (obj c1' (nth k objs (List.length (c_heap c1)))))); [|exact Hran].
      exists f, ds, b. now apply (tamed_rule cwd home glob_ exists_ l ok).
  Qed.

  Lemma routine_goes_on partial x th now kind c1 objs sv s : wanted x -> dirs_free cwd home l fs -> (1 <= th)%Z ->
    building cwd home exists_ glob_ partial l x th fs now kind c1 objs sv s -> none_over l c1 objs s -> no_rule_failed P (s_world s) ->
    succeeded objs s \/
    s_main s = MJoin /\ exists s', step (inv_of (sv_inv sv)) (mk_task canon kind partial c1 objs) s s'.
  Proof.
    intros Hx Hfree Ht Hb Hno Hnf. pose proof (routine_calls partial x th now kind c1 objs sv s Hx Hfree Hb Hno Hnf) as E.
    destruct Hb as (fuel & st & i & other_if & fuel' & ca1 & order & so & Hr & -> & Hg & He & Ho & Hso & Hru & Hex).
    destruct (declared_get cwd home fs exists_ glob_ l disk ok fuel st Hr x (wanted_declared cwd home glob_ l x Hx)) as (i2 & Hg' & Hn & Hk & [nm Hi] & _).
    rewrite Hg in Hg'. injection Hg' as <-.
    destruct (evaluated cwd home fs exists_ glob_ l disk ok fuel st Hr th other_if fuel' c1 ca1 He) as ((Hw & _ & _ & _ & Hnp) & S & Hco & Hth).
    assert (Hi1 : resolves canon c1 (t_name (obj c1 i)) i).
    { apply (Hco nm). destruct S as (<- & _). exact Hi. }
    destruct (ru_exec_facts canon c1 Hw Hco Hnp i Hi1 order Ho so Hso None th Hth objs sv Hru) as (dts & _ & _ & _ & Hs & Hlen & _).
    set (run := mk_task canon (kind_of (reg st 0)) partial c1 objs) in *.
    assert (Hreach : reach run sv s) by (eexists; exact Hex).
    destruct (s_main s) eqn:Em.
    - right. split; [reflexivity|].
      apply (progress run so dts th sv Hso Hs s); [now apply mk_tasks_end|exact Ht|exact Hreach|exact Em|].
      destruct (raised (s_log s)) as [|k rest] eqn:Er; [reflexivity|]. exfalso.
      assert (Hin : In (k, RExn) (ended (s_log s))).
      { apply ended_In. right. split; [reflexivity|]. apply raised_In. rewrite Er. now left. }
      apply E in Hin. discriminate.
    - left. split; [exact Em|]. rewrite <- Hlen.
      destruct (exec_result_cases run so dts th sv Hso Hs s Hreach Em) as [[F _]|(_ & F & _)]; [|exact F]. exfalso.
      destruct F as [k F]. assert (Hin : In (k, RFalse) (ended (s_log s))) by (apply ended_In; now left).
      apply E in Hin. discriminate.
  Qed.
  Lemma routine_bounded partial x th now kind c1 objs sv s n : wanted x ->
    building cwd home exists_ glob_ partial l x th fs now kind c1 objs sv s ->
    forall w0, nsteps (inv_of (sv_inv sv)) (mk_task canon kind partial c1 objs) n (init_state sv w0) s -> n <= 2 * List.length objs + 1.
  Proof.
    intros Hx (fuel & st & i & other_if & fuel' & ca1 & order & so & Hr & -> & Hg & He & Ho & Hso & Hru & Hex) w0 Hn.
    destruct (declared_get cwd home fs exists_ glob_ l disk ok fuel st Hr x (wanted_declared cwd home glob_ l x Hx)) as (i2 & Hg' & _ & _ & [nm Hi] & _).
    rewrite Hg in Hg'. injection Hg' as <-.
    destruct (evaluated cwd home fs exists_ glob_ l disk ok fuel st Hr th other_if fuel' c1 ca1 He) as ((Hw & _ & _ & _ & Hnp) & S & Hco & Hth).
    assert (Hi1 : resolves canon c1 (t_name (obj c1 i)) i).
    { apply (Hco nm). destruct S as (<- & _). exact Hi. }
    destruct (ru_exec_facts canon c1 Hw Hco Hnp i Hi1 order Ho so Hso None th Hth objs sv Hru) as (dts & _ & _ & _ & Hs & Hlen & _).
    rewrite <- Hlen. exact (steps_bounded _ so dts th sv Hso Hs n w0 s Hn).
  Qed.
  Lemma routine_under_way partial x th now order so other_if : (forall i, exists b, other_if i = Ok b) -> wanted x ->
    (forall k, Permutation k (order k)) -> fair_order so ->
    exists f0, forall fuel, f0 <= fuel -> exists st, mrun canon exists_ glob_ home fuel 0 (map op_of l) [empty_reg] = Ok st /\
      exists f1, forall fuel', f1 <= fuel' -> exists i c1 ca1 objs sv,
      core_get canon (fst (reg st 0)) x = Ok i /\
      mevaluate canon (kind_of (reg st 0)) other_if fs fuel' (set_threads (fst (reg st 0)) th, []) = Ok (c1, ca1) /\
      recurse_update canon c1 order so i None = RuExec objs sv /\
      building cwd home exists_ glob_ partial l x th fs now (kind_of (reg st 0)) c1 objs sv (init_state sv (WD fs ca1 now now [])).
  Proof.
    intros Hoi Hx Ho Hso. destruct (stmts_total cwd home (present fs) exists_ glob_ disk l) as [f0 H0]. exists f0. intros fuel Hf.
    destruct (H0 fuel [empty_reg] Hf) as [st Hr]. exists st. split; [exact Hr|].
    destruct (script_evaluates cwd home fs exists_ glob_ l disk ok fuel st Hr th other_if [] Hoi) as [f1 H1]. exists f1. intros fuel' Hf'.
    destruct (H1 fuel' Hf') as (c1 & ca1 & He).
    destruct (declared_get cwd home fs exists_ glob_ l disk ok fuel st Hr x (wanted_declared cwd home glob_ l x Hx)) as (i & Hg & _ & _ & Hi & _).
    destruct (script_runs cwd home fs exists_ glob_ l disk ok fuel st Hr th other_if fuel' c1 ca1 He i order so Hi Ho Hso) as (objs & sv & Hru).
    exists i, c1, ca1, objs, sv. split; [exact Hg|]. split; [exact He|]. split; [exact Hru|].
    exists fuel, st, i, other_if, fuel', ca1, order, so. repeat (split; [assumption || reflexivity|]). constructor.
  Qed.
End Routine.

Lemma routine_history_ok cwd home glob_ l fs now : reads_only (project_of cwd home glob_ l) -> routine_history cwd home glob_ l fs now ->
  dated fs now /\ faithful (project_of cwd home glob_ l) fs /\ no_dirs (project_of cwd home glob_ l) fs.
Proof.
  intros Hro. induction 1 as [fs now Hd Hr Hn|fs now fs' now' _ (Hd & Hf & Hn) Ho|fs now exists_ x th kind c1 objs sv s _ (Hd & Hf & Hn) D K X B N].
  - split; [exact Hd|]. split; [|exact Hn]. intros p f ds b m v HP E. rewrite Hr in E; [discriminate|]. exists f, ds, b. exact HP.
  - eapply outside_ok; eauto.
  - eapply routine_keeps; eauto.
Qed.
Lemma script_routine_history cwd home glob_ l fs now : script_history cwd home glob_ l fs now -> routine_history cwd home glob_ l fs now.
Proof.
  induction 1 as [fs now A B C|fs now fs' now' _ IH O|fs now exists_ x th kind c1 objs sv s _ IH D K X B].
  - now apply rh_start.
  - eapply rh_outside; eauto.
  - eapply rh_process; eauto; [now left|]. eapply makes_none_over; eauto.
Qed.
