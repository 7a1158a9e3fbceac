(** C97: processes that make and clean several targets, one after the other
    ([licant.do("a"); licant.do("b"); licant.do("a", "clean")] in a script).  [in_turn … done]:
    the script was read and what [done] says was done, each build with its result;
    [making … s]: the process was told to make one more and is in state [s]; [stands x done]:
    [x] was made with success and no later cleaning was about a file made for it.  All share
    the registry and the cache of file dates. *)
From Coq Require Import Permutation.
From Verif Require Import PyBase PyPath SolverModel SpecGraph InvokerModel InvokerPath SpecTrace CoreModel SpecCore CoreProofs MakeModel MakeEval SpecMake
  RegModel CliModel SpecUtil SpecReg RegExamples SpecProject ProjectProofs ProjectBuild ProjectExamples RoutineExamples SpecSession SessionProofs SessionExamples.
Local Open Scope string_scope.
Local Open Scope list_scope.

(** Every target that was made with success has the right content in all its files, whatever
    was made afterwards, with success or not, and whatever else was cleaned. *)
Theorem C97_made_targets_are_right :
  forall cwd home fs0 exists_ glob_ l, disk_ok cwd (present fs0) exists_ -> in_order cwd home glob_ exists_ l ->
  forall fuel st th, mrun (realpath cwd) exists_ glob_ home fuel 0 (map op_of l) [empty_reg] = Ok st ->
  forall now0 c ca fs now done, reads_only (project_of cwd home glob_ l) -> turn_history cwd home glob_ l fs0 now0 ->
  in_turn cwd home glob_ l (kind_of (reg st 0)) (set_threads (fst (reg st 0)) th) fs0 now0 c ca fs now done ->
  forall x, stands (project_of cwd home glob_ l) x done ->
  forall p, is_file (project_of cwd home glob_ l) p -> p_cone (project_of cwd home glob_ l) x p ->
  right_content (project_of cwd home glob_ l) (contents fs) p (contents fs p).
Proof. intros. eapply turn_right; eauto. now apply turn_histories. Qed.
Print Assumptions C97_made_targets_are_right.
(** They are right at every moment of the next build, too. *)
Theorem C97_right_during_the_next :
  forall cwd home fs0 exists_ glob_ l, disk_ok cwd (present fs0) exists_ -> in_order cwd home glob_ exists_ l ->
  forall fuel st th, mrun (realpath cwd) exists_ glob_ home fuel 0 (map op_of l) [empty_reg] = Ok st ->
  forall now0 c ca fs now done, reads_only (project_of cwd home glob_ l) -> turn_history cwd home glob_ l fs0 now0 ->
  in_turn cwd home glob_ l (kind_of (reg st 0)) (set_threads (fst (reg st 0)) th) fs0 now0 c ca fs now done ->
  forall y now' c1 objs sv s, In y (flat_map (makes cwd home glob_) l) ->
  making cwd false (kind_of (reg st 0)) c ca y fs now' c1 objs sv s ->
  forall x, stands (project_of cwd home glob_ l) x done ->
  forall p, is_file (project_of cwd home glob_ l) p -> p_cone (project_of cwd home glob_ l) x p ->
  right_content (project_of cwd home glob_ l) (contents (w_fs (s_world s))) p (contents (w_fs (s_world s)) p).
Proof.
  intros cwd home fs0 exists_ glob_ l D K fuel st th Hr now0 c ca fs now done Hro Hh T y now' c1 objs sv s Hy Hm x Hx.
  eapply (making_keeps cwd home fs0 exists_ glob_ l D K fuel st th Hr); [|exact Hy|exact Hro|exact Hm|].
  - eapply turn_between; eauto.
  - eapply turn_right; eauto. now apply turn_histories.
Qed.
Print Assumptions C97_right_during_the_next.

(** The next build starts without an exception, cannot hang, and fails only if a rule does. *)
Theorem C97_starts :
  forall cwd home fs0 exists_ glob_ l, disk_ok cwd (present fs0) exists_ -> in_order cwd home glob_ exists_ l ->
  forall fuel st th, mrun (realpath cwd) exists_ glob_ home fuel 0 (map op_of l) [empty_reg] = Ok st ->
  forall now0 c ca fs now done,
  in_turn cwd home glob_ l (kind_of (reg st 0)) (set_threads (fst (reg st 0)) th) fs0 now0 c ca fs now done ->
  forall partial x now' order so other_if, In x (flat_map (makes cwd home glob_) l) -> (forall i, exists b, other_if i = Ok b) ->
  (forall k, Permutation k (order k)) -> fair_order so ->
  exists f1, forall fuel', f1 <= fuel' -> exists i c1 ca1 objs sv,
    core_get (realpath cwd) c x = Ok i /\ mevaluate (realpath cwd) (kind_of (reg st 0)) other_if fs fuel' (c, ca) = Ok (c1, ca1) /\
    recurse_update (realpath cwd) c1 order so i None = RuExec objs sv /\
    making cwd partial (kind_of (reg st 0)) c ca x fs now' c1 objs sv (init_state sv (WD fs ca1 now' now' [])).
Proof. intros. eapply making_starts; eauto. eapply turn_between; eauto. Qed.
Print Assumptions C97_starts.
Theorem C97_goes_on :
  forall cwd home fs0 exists_ glob_ l, disk_ok cwd (present fs0) exists_ -> in_order cwd home glob_ exists_ l ->
  forall fuel st th, mrun (realpath cwd) exists_ glob_ home fuel 0 (map op_of l) [empty_reg] = Ok st ->
  forall now0 c ca fs now done, dirs_free cwd home l fs0 -> (1 <= th)%Z ->
  in_turn cwd home glob_ l (kind_of (reg st 0)) (set_threads (fst (reg st 0)) th) fs0 now0 c ca fs now done ->
  forall partial x now' c1 objs sv s, In x (flat_map (makes cwd home glob_) l) ->
  making cwd partial (kind_of (reg st 0)) c ca x fs now' c1 objs sv s -> no_rule_failed (project_of cwd home glob_ l) (s_world s) ->
  succeeded objs s \/
  s_main s = MJoin /\ exists s', step (inv_of (sv_inv sv)) (mk_task (realpath cwd) (kind_of (reg st 0)) partial c1 objs) s s'.
Proof. intros. eapply making_goes_on; eauto. eapply turn_between; eauto. Qed.
Print Assumptions C97_goes_on.
Theorem C97_only_rules_fail :
  forall cwd home fs0 exists_ glob_ l, disk_ok cwd (present fs0) exists_ -> in_order cwd home glob_ exists_ l ->
  forall fuel st th, mrun (realpath cwd) exists_ glob_ home fuel 0 (map op_of l) [empty_reg] = Ok st ->
  forall now0 c ca fs now done, dirs_free cwd home l fs0 ->
  in_turn cwd home glob_ l (kind_of (reg st 0)) (set_threads (fst (reg st 0)) th) fs0 now0 c ca fs now done ->
  forall partial x now' c1 objs sv s, In x (flat_map (makes cwd home glob_) l) ->
  making cwd partial (kind_of (reg st 0)) c ca x fs now' c1 objs sv s -> no_rule_failed (project_of cwd home glob_ l) (s_world s) ->
  forall k r, In (k, r) (ended (s_log s)) -> r = RNotFalse.
Proof.
  intros cwd home fs0 exists_ glob_ l D K fuel st th Hr now0 c ca fs now done F T partial x now' c1 objs sv s Hx Hm Hn.
  eapply (making_calls cwd home fs0 exists_ glob_ l D K fuel st th Hr c ca fs x now' c1 objs sv s); eauto. eapply turn_between; eauto.
Qed.
Print Assumptions C97_only_rules_fail.
Theorem C97_bounded :
  forall cwd home fs0 exists_ glob_ l, disk_ok cwd (present fs0) exists_ -> in_order cwd home glob_ exists_ l ->
  forall fuel st th, mrun (realpath cwd) exists_ glob_ home fuel 0 (map op_of l) [empty_reg] = Ok st ->
  forall now0 c ca fs now done,
  in_turn cwd home glob_ l (kind_of (reg st 0)) (set_threads (fst (reg st 0)) th) fs0 now0 c ca fs now done ->
  forall partial x now' c1 objs sv s n w0, In x (flat_map (makes cwd home glob_) l) ->
  making cwd partial (kind_of (reg st 0)) c ca x fs now' c1 objs sv s ->
  nsteps (inv_of (sv_inv sv)) (mk_task (realpath cwd) (kind_of (reg st 0)) partial c1 objs) n (init_state sv w0) s ->
  n <= 2 * List.length objs + 1.
Proof.
  intros cwd home fs0 exists_ glob_ l D K fuel st th Hr now0 c ca fs now done T partial x now' c1 objs sv s n w0 Hx Hm Hn.
  eapply (making_bounded cwd home fs0 exists_ glob_ l D K fuel st th Hr c ca fs x now' c1 objs sv s); eauto. eapply turn_between; eauto.
Qed.
Print Assumptions C97_bounded.

(** What was made with success is not made again: its files stay untouched while other
    targets are made, and making it once more does nothing at all. *)
Theorem C97_nothing_is_made_twice :
  forall cwd home fs0 exists_ glob_ l, disk_ok cwd (present fs0) exists_ -> in_order cwd home glob_ exists_ l ->
  forall fuel st th, mrun (realpath cwd) exists_ glob_ home fuel 0 (map op_of l) [empty_reg] = Ok st ->
  forall now0 c ca fs now done x,
  in_turn cwd home glob_ l (kind_of (reg st 0)) (set_threads (fst (reg st 0)) th) fs0 now0 c ca fs now done ->
  stands (project_of cwd home glob_ l) x done -> steady (project_of cwd home glob_ l) fs0 x ->
  (forall y now' c1 objs sv s, In y (flat_map (makes cwd home glob_) l) -> making cwd false (kind_of (reg st 0)) c ca y fs now' c1 objs sv s ->
     forall p, is_file (project_of cwd home glob_ l) p -> p_cone (project_of cwd home glob_ l) x p -> w_fs (s_world s) p = fs p) /\
  forall now' c1 objs sv s, making cwd false (kind_of (reg st 0)) c ca x fs now' c1 objs sv s ->
    w_fs (s_world s) = fs /\ w_ran (s_world s) = [].
Proof. intros. eapply turn_idle; eauto. Qed.
Print Assumptions C97_nothing_is_made_twice.

(** Cleaning removes exactly the files that were made for the target, and is always possible. *)
Theorem C97_clean_removes_what_was_made :
  forall cwd home fs0 exists_ glob_ l, disk_ok cwd (present fs0) exists_ -> in_order cwd home glob_ exists_ l ->
  forall fuel st th, mrun (realpath cwd) exists_ glob_ home fuel 0 (map op_of l) [empty_reg] = Ok st ->
  forall now0 c ca fs now done,
  in_turn cwd home glob_ l (kind_of (reg st 0)) (set_threads (fst (reg st 0)) th) fs0 now0 c ca fs now done ->
  forall x c2 ca2 fs2, In x (flat_map (makes cwd home glob_) l) -> cleaning cwd (kind_of (reg st 0)) c ca x fs c2 ca2 fs2 ->
  (forall p, is_rule (project_of cwd home glob_ l) p -> p_cone (project_of cwd home glob_ l) x p -> contents fs2 p = None) /\
  (forall p, fs2 p <> fs p -> fs2 p = None /\ is_rule (project_of cwd home glob_ l) p /\ p_cone (project_of cwd home glob_ l) x p).
Proof.
  intros cwd home fs0 exists_ glob_ l D K fuel st th Hr now0 c ca fs now done T x c2 ca2 fs2 Hx Hc.
  destruct (cleaning_spec cwd home fs0 exists_ glob_ l D K fuel st th Hr c ca fs x c2 ca2 fs2) as (_ & _ & A & B); [eapply turn_between; eauto|exact Hx|exact Hc|].
  split; [|exact B]. intros p Hp Hcp. destruct (same_entry (fs2 p) (fs p)) as [E|N]; unfold contents; [|destruct (B p N) as [-> _]; reflexivity].
  destruct (fs p) as [[m [v|]]|] eqn:Ef; rewrite E; [|reflexivity..].
  rewrite (A p Hp Hcp) in E; [discriminate|]. unfold is_reg. now rewrite Ef.
Qed.
Print Assumptions C97_clean_removes_what_was_made.
Theorem C97_clean_starts :
  forall cwd home fs0 exists_ glob_ l, disk_ok cwd (present fs0) exists_ -> in_order cwd home glob_ exists_ l ->
  forall fuel st th, mrun (realpath cwd) exists_ glob_ home fuel 0 (map op_of l) [empty_reg] = Ok st ->
  forall now0 c ca fs now done,
  in_turn cwd home glob_ l (kind_of (reg st 0)) (set_threads (fst (reg st 0)) th) fs0 now0 c ca fs now done ->
  forall x other_if, In x (flat_map (makes cwd home glob_) l) -> (forall i, exists b, other_if i = Ok b) ->
  exists f1, forall fuel', f1 <= fuel' -> exists i c1 ca1 names c2 ca2 fs2,
    core_get (realpath cwd) c x = Ok i /\ mevaluate (realpath cwd) (kind_of (reg st 0)) other_if fs fuel' (c, ca) = Ok (c1, ca1) /\
    depends_as_set (realpath cwd) c1 (ByName (t_name (obj c1 i))) true = Ok (names, c2) /\
    clean (realpath cwd) (kind_of (reg st 0)) c1 i (fs, ca1) = Ok (fs2, ca2).
Proof.
  intros cwd home fs0 exists_ glob_ l D K fuel st th Hr now0 c ca fs now done T x other_if Hx Ho.
  eapply (cleaning_starts cwd home fs0 exists_ glob_ l D K fuel st th Hr c ca fs x); eauto. eapply turn_between; eauto.
Qed.
Print Assumptions C97_clean_starts.

(** Such processes may come before, finished or killed: later ones make right files. *)
Theorem C97_later_processes_are_right :
  forall cwd home fs exists_ glob_ l, disk_ok cwd (present fs) exists_ -> in_order cwd home glob_ exists_ l ->
  forall x th now kind c1 objs sv s, In x (flat_map (makes cwd home glob_) l) ->
  building cwd home exists_ glob_ false l x th fs now kind c1 objs sv s -> succeeded objs s ->
  reads_only (project_of cwd home glob_ l) -> turn_history cwd home glob_ l fs now ->
  forall p, is_file (project_of cwd home glob_ l) p -> p_cone (project_of cwd home glob_ l) x p ->
  right_content (project_of cwd home glob_ l) (contents (w_fs (s_world s))) p (contents (w_fs (s_world s)) p).
Proof. intros. eapply building_right; eauto. now apply turn_histories. Qed.
Print Assumptions C97_later_processes_are_right.

(** A process whose first build fails, and which then makes a file and another that needs it. *)
Example C97_case : exists st c ca fs now,
  disk_ok "/w" (present gfs) (on_path gdisk) /\ in_order "/w" "/h" no_glob (on_path gdisk) sscript /\ dirs_free "/w" "/h" sscript gfs /\
  reads_only sproj /\ turn_history "/w" "/h" no_glob sscript gfs 1 /\ steady sproj gfs "/w/out/a" /\
  mrun (realpath "/w") (on_path gdisk) no_glob "/h" 20 0 (map op_of sscript) [empty_reg] = Ok st /\
  in_turn "/w" "/h" no_glob sscript (kind_of (reg st 0)) (set_threads (fst (reg st 0)) 2) gfs 1 c ca fs now [("/w/bad", Made false); ("/w/out/a", Made true); ("/w/out/b", Made true)] /\
  contents fs "/w/out/a" = Some "a:old" /\ contents fs "/w/out/b" = Some "b:a:old".
Proof.
  destruct sturns as (st & c & ca & fs & now & H). exists st, c, ca, fs, now. split; [exact gfs_ok|]. split; [exact sscript_ok|]. split; [exact sscript_free|].
  split; [exact sproj_reads|]. split; [exact sstart|]. split; [apply ssteady|exact H].
Qed.
(** The next build of that process, and a history with that process. *)
Example C97_case_history : exists fs now, turn_history "/w" "/h" no_glob sscript fs now /\ contents fs "/w/out/b" = Some "b:a:old".
Proof.
  destruct sturns as (st & c & ca & fs & now & R & T & A & B).
  assert (Hx : In "/w/out/a" (flat_map (makes "/w" "/h" no_glob) sscript)) by (apply smade; cbn; tauto).
  destruct (C97_starts "/w" "/h" gfs (on_path gdisk) no_glob sscript gfs_ok sscript_ok 20 st 2%Z R 1 c ca fs now _ T false "/w/out/a" now (fun l => l) id_order (fun _ => Ok false) Hx)
    as [f1 H]; [eauto|intros; apply Permutation_refl|split; intros; apply Permutation_refl|].
  destruct (H f1 (le_n _)) as (i & c1 & ca1 & objs & sv & _ & _ & _ & M).
  eexists _, _. split; [|exact B].
  exact (tu_process "/w" "/h" no_glob sscript gfs 1 (on_path gdisk) 20 st 2%Z c ca fs now _ "/w/out/a" now c1 objs sv _ sstart gfs_ok sscript_ok R T Hx (le_n _) M).
Qed.
(** A process that makes a file, cleans it and what it needs, and makes a part of it again. *)
Example C97_case_clean : exists st c ca fs now,
  mrun (realpath "/w") (on_path gdisk) no_glob "/h" 20 0 (map op_of sscript) [empty_reg] = Ok st /\
  in_turn "/w" "/h" no_glob sscript (kind_of (reg st 0)) (set_threads (fst (reg st 0)) 2) gfs 1 c ca fs now
    [("/w/out/b", Made true); ("/w/out/b", Cleaned); ("/w/out/a", Made true); ("/w/bad", Cleaned)] /\
  stands sproj "/w/out/a" [("/w/out/b", Made true); ("/w/out/b", Cleaned); ("/w/out/a", Made true); ("/w/bad", Cleaned)] /\
  contents fs "/w/out/a" = Some "a:old" /\ fs "/w/out/b" = None.
Proof.
  destruct cturns as (st & c & ca & fs & now & R & T & A & B). exists st, c, ca, fs, now. split; [exact R|]. split; [exact T|]. split; [|split; assumption].
  exists [("/w/out/b", Made true); ("/w/out/b", Cleaned)], [("/w/bad", Cleaned)]. split; [reflexivity|].
  intros y [Hy|[]]. injection Hy as <-. exact capart.
Qed.
