(** C96: scripts with routines.  A routine is a function of the script that licant runs as a
    target ([STarget true y deps]); files may be among its dependencies.  What its function
    does to the disk is unknown.  [building … s]: a process has read the script, was asked
    for a target and is now in state [s]; [none_over … s]: no routine of this process has
    come to its end; [begun … s y]: the process has started the function of [y]. *)
From Coq Require Import Permutation.
From Verif Require Import PyBase PyPath SolverModel SpecGraph InvokerModel InvokerPath SpecTrace CoreModel SpecCore CoreProofs MakeModel MakeEval SpecMake
  RegModel CliModel SpecUtil SpecReg RegExamples SpecProject ProjectProofs ProjectBuild ProjectExamples SpecRoutine RoutineProofs RoutineBuild RoutineExamples.
Local Open Scope string_scope.
Local Open Scope list_scope.

(** When the first function of a routine starts, every file it needs has the right content. *)
Theorem C96_routines_find_right_files :
  forall cwd home fs exists_ glob_ l, disk_ok cwd (present fs) exists_ -> in_order cwd home glob_ exists_ l ->
  forall x th now kind c1 objs sv s, wanted cwd home glob_ l x ->
  building cwd home exists_ glob_ false l x th fs now kind c1 objs sv s -> none_over l c1 objs s ->
  reads_only (project_of cwd home glob_ l) -> routine_history cwd home glob_ l fs now ->
  forall y ds, In (STarget true y ds) l -> begun c1 objs s y ->
  forall d p, In d (expand_names glob_ ds) -> is_file (project_of cwd home glob_ l) p -> p_cone (project_of cwd home glob_ l) (meaning cwd l d) p ->
  right_content (project_of cwd home glob_ l) (contents (w_fs (s_world s))) p (contents (w_fs (s_world s)) p).
Proof.
  intros. edestruct routine_history_ok as (A & B & C); [eassumption|eassumption|]. eapply routine_files; eauto.
Qed.
Print Assumptions C96_routines_find_right_files.

(** Processes with routines may come before: files made afterwards are right. *)
Theorem C96_files_are_right :
  forall cwd home fs exists_ glob_ l, disk_ok cwd (present fs) exists_ -> in_order cwd home glob_ exists_ l ->
  forall x th now kind c1 objs sv s, In x (flat_map (makes cwd home glob_) l) ->
  building cwd home exists_ glob_ false l x th fs now kind c1 objs sv s -> succeeded objs s ->
  reads_only (project_of cwd home glob_ l) -> routine_history cwd home glob_ l fs now ->
  forall p, is_file (project_of cwd home glob_ l) p -> p_cone (project_of cwd home glob_ l) x p ->
  right_content (project_of cwd home glob_ l) (contents (w_fs (s_world s))) p (contents (w_fs (s_world s)) p).
Proof.
  intros. edestruct routine_history_ok as (A & B & C); [eassumption|eassumption|]. eapply made_right; eauto.
Qed.
Print Assumptions C96_files_are_right.
(** No process that makes a file runs a routine. *)
Theorem C96_files_run_no_routine :
  forall cwd home fs exists_ glob_ l, disk_ok cwd (present fs) exists_ -> in_order cwd home glob_ exists_ l ->
  forall partial x th now kind c1 objs sv s, In x (flat_map (makes cwd home glob_) l) ->
  building cwd home exists_ glob_ partial l x th fs now kind c1 objs sv s -> none_over l c1 objs s.
Proof. exact makes_none_over. Qed.
Print Assumptions C96_files_run_no_routine.

(** A process asked for a routine starts, and cannot hang before a routine ends. *)
Theorem C96_starts :
  forall cwd home fs exists_ glob_ l, disk_ok cwd (present fs) exists_ -> in_order cwd home glob_ exists_ l ->
  forall partial x th now order so other_if, (forall i, exists b, other_if i = Ok b) -> wanted cwd home glob_ l x ->
  (forall k, Permutation k (order k)) -> fair_order so ->
  exists f0, forall fuel, f0 <= fuel -> exists st,
    mrun (realpath cwd) exists_ glob_ home fuel 0 (map op_of l) [empty_reg] = Ok st /\
    exists f1, forall fuel', f1 <= fuel' -> exists i c1 ca1 objs sv,
      core_get (realpath cwd) (fst (reg st 0)) x = Ok i /\
      mevaluate (realpath cwd) (kind_of (reg st 0)) other_if fs fuel' (set_threads (fst (reg st 0)) th, []) = Ok (c1, ca1) /\
      recurse_update (realpath cwd) c1 order so i None = RuExec objs sv /\
      building cwd home exists_ glob_ partial l x th fs now (kind_of (reg st 0)) c1 objs sv (init_state sv (WD fs ca1 now now [])).
Proof. exact routine_under_way. Qed.
Print Assumptions C96_starts.
Theorem C96_goes_on :
  forall cwd home fs exists_ glob_ l, disk_ok cwd (present fs) exists_ -> in_order cwd home glob_ exists_ l ->
  forall partial x th now kind c1 objs sv s, wanted cwd home glob_ l x -> dirs_free cwd home l fs -> (1 <= th)%Z ->
  building cwd home exists_ glob_ partial l x th fs now kind c1 objs sv s -> none_over l c1 objs s ->
  no_rule_failed (project_of cwd home glob_ l) (s_world s) ->
  succeeded objs s \/
  s_main s = MJoin /\ exists s', step (inv_of (sv_inv sv)) (mk_task (realpath cwd) kind partial c1 objs) s s'.
Proof. exact routine_goes_on. Qed.
Print Assumptions C96_goes_on.
Theorem C96_bounded :
  forall cwd home fs exists_ glob_ l, disk_ok cwd (present fs) exists_ -> in_order cwd home glob_ exists_ l ->
  forall partial x th now kind c1 objs sv s n, wanted cwd home glob_ l x ->
  building cwd home exists_ glob_ partial l x th fs now kind c1 objs sv s ->
  forall w0, nsteps (inv_of (sv_inv sv)) (mk_task (realpath cwd) kind partial c1 objs) n (init_state sv w0) s ->
  n <= 2 * List.length objs + 1.
Proof. exact routine_bounded. Qed.
Print Assumptions C96_bounded.
Theorem C96_only_rules_fail :
  forall cwd home fs exists_ glob_ l, disk_ok cwd (present fs) exists_ -> in_order cwd home glob_ exists_ l ->
  forall partial x th now kind c1 objs sv s, wanted cwd home glob_ l x -> dirs_free cwd home l fs ->
  building cwd home exists_ glob_ partial l x th fs now kind c1 objs sv s -> none_over l c1 objs s ->
  no_rule_failed (project_of cwd home glob_ l) (s_world s) ->
  forall k r, In (k, r) (ended (s_log s)) -> r = RNotFalse.
Proof. exact routine_calls. Qed.
Print Assumptions C96_only_rules_fail.

Example C96_case : exists kind c1 objs sv s,
  wanted "/w" "/h" no_glob pscript "test" /\ disk_ok "/w" (present pfs) (on_path pdisk) /\ in_order "/w" "/h" no_glob (on_path pdisk) pscript /\
  dirs_free "/w" "/h" pscript pfs /\ routine_history "/w" "/h" no_glob pscript pfs 1 /\ reads_only pproj /\
  building "/w" "/h" (on_path pdisk) no_glob false pscript "test" 2 pfs 1 kind c1 objs sv s /\
  none_over pscript c1 objs s /\ begun c1 objs s "test" /\ no_rule_failed pproj (s_world s) /\
  contents (w_fs (s_world s)) "/w/out/app" = Some "o:src+main".
Proof.
  destruct prun_begun as (kind & c1 & objs & sv & s & H). exists kind, c1, objs, sv, s.
  split; [exact ptest_wanted|]. split; [exact pfs_ok|]. split; [exact pscript_ok|]. split; [exact pscript_free|].
  split; [exact (script_routine_history _ _ _ _ _ _ pstart)|]. split; [exact pproj_reads_only|]. exact H.
Qed.
(** After that process, killed while the routine ran, its effect on the files is an outside step. *)
Example C96_case_history : exists fs now, routine_history "/w" "/h" no_glob pscript fs now /\
  contents fs "/w/out/app" = Some "o:src+main" /\ contents fs "/w/report" = Some "passed".
Proof.
  destruct prun_begun as (kind & c1 & objs & sv & s & B & N & _ & _ & A).
  assert (H : routine_history "/w" "/h" no_glob pscript (w_fs (s_world s)) (w_now (s_world s))).
  { eapply rh_process; [exact (script_routine_history _ _ _ _ _ _ pstart)|exact pfs_ok|exact pscript_ok|exact ptest_wanted|exact B|exact N]. }
  exists (fs_set (w_fs (s_world s)) "/w/report" (Some (w_now (s_world s), Reg "passed"))), (w_now (s_world s)).
  split; [|split; [unfold contents, fs_set; cbn [String.eqb]; exact A|reflexivity]].
  eapply rh_outside; [exact H|]. split; [auto|]. intros p. unfold fs_set. destruct (String.eqb_spec p "/w/report") as [->|_]; [|now left].
  right. right. right. split; [intros [E|(f & ds & b & E)]; rewrite pproj_eq in E; discriminate|]. exists (w_now (s_world s)), (Reg "passed"). auto.
Qed.

(** False without [none_over]: a routine that depends on a routine which writes a source, and
    on a file made from that source, finds the file out of date, in a process in which
    nothing fails. *)
Theorem C96_after_another_routine_refuted : exists cwd home fs exists_ glob_ l x th now kind c1 objs sv s y ds d p,
  disk_ok cwd (present fs) exists_ /\ in_order cwd home glob_ exists_ l /\ wanted cwd home glob_ l x /\
  building cwd home exists_ glob_ false l x th fs now kind c1 objs sv s /\ no_rule_failed (project_of cwd home glob_ l) (s_world s) /\
  reads_only (project_of cwd home glob_ l) /\ routine_history cwd home glob_ l fs now /\
  In (STarget true y ds) l /\ begun c1 objs s y /\ In d (expand_names glob_ ds) /\
  is_file (project_of cwd home glob_ l) p /\ p_cone (project_of cwd home glob_ l) (meaning cwd l d) p /\
  ~ right_content (project_of cwd home glob_ l) (contents (w_fs (s_world s))) p (contents (w_fs (s_world s)) p).
Proof.
  destruct grun_begun as (kind & c1 & objs & sv & s & B & Hb & Hf & Ho & Hi).
  exists "/w", "/h", gfs, (on_path gdisk), no_glob, gscript, "test", 2%Z, 1, kind, c1, objs, sv, s, "test", ["gen"; "out"], "out", "/w/out".
  split; [exact gfs_ok|]. split; [exact gscript_ok|]. split; [right; exists ["gen"; "out"]; cbn; tauto|]. split; [exact B|]. split; [exact Hf|].
  split; [exact gproj_reads|]. split; [exact gstart|]. split; [cbn; tauto|]. split; [exact Hb|]. split; [vm_compute; tauto|].
  split; [right; eexists _, _, _; exact gproj_out|]. split; [replace (meaning "/w" gscript "out") with "/w/out" by (vm_compute; reflexivity); apply rt_refl|].
  intros H. rewrite Ho in H. inversion H as [p HP|p f ds b s0 v HP Hin E]; subst; [rewrite gproj_out in HP; discriminate|].
  rewrite gproj_out in HP. injection HP as <- <- <-.
  assert (I1 : p_input gproj "/w/out" "/w/in").
  { apply pi_file; [|left; exact gproj_in]. exists ["/w/in"]. split; [now left|]. right. eexists _, _. exact gproj_out. }
  specialize (Hin _ I1). inversion Hin as [p HP'|p f ds b s1 v1 HP' _ _]; subst; [|rewrite gproj_in in HP'; discriminate].
  unfold read1 in E. match goal with [H : contents _ "/w/in" = s0 "/w/in" |- _] => rewrite <- H in E | [H : s0 "/w/in" = contents _ "/w/in" |- _] => rewrite H in E | _ => idtac end.
  rewrite Hi in E. discriminate.
Qed.
Print Assumptions C96_after_another_routine_refuted.
