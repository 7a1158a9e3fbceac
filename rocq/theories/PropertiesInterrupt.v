(** C91: Ctrl-C during a build. *)
From Coq Require Import Permutation.
From Verif Require Import PyBase PyPath SolverModel SpecGraph InvokerModel SpecTrace CoreModel SpecCore
  MakeModel SpecMake RegModel CliModel SpecUtil SpecReg RegExamples SpecProject ProjectExamples ProjectBuild
  CommandModel SpecCommand CommandProofs CommandExamples InterruptModel InterruptProofs InterruptBuild InterruptExamples InvokerExamples InvokerExec.
Local Open Scope string_scope.
Local Open Scope list_scope.

(** If no command is killed, Ctrl-C has the effect of killing the process a bit later: a state
    of the same execution has the same world. *)
Theorem C91_as_if_killed_later : forall W (run : nat -> W -> tres -> W -> Prop) ts th sv, constructed ts th sv ->
  forall w0 s w', exec_reaches sv run w0 s -> interrupted run (fun _ _ _ => False) s w' ->
  List.length (in_threads s) <= Z.to_nat th /\
  exists s', steps (inv_of (sv_inv sv)) run s s' /\ s_world s' = w'.
Proof.
  intros W run ts th sv (so & Hso & Hsv) w0 s w' Hex Hi.
  split; [exact (interrupt_width run so ts th sv Hso Hsv w0 s Hex)|exact (interrupt_is_kill run so ts th sv Hso Hsv w0 s w' Hex Hi)].
Qed.
Print Assumptions C91_as_if_killed_later.
Example C91_later_case : constructed diamond 2 (diamond_solver 2) /\
  exists s, exec_reaches (diamond_solver 2) (frun app_task) [] s /\ in_threads s = [1; 2] /\
    interrupted (frun app_task) (fun _ _ _ => False) s [0; 2].
Proof. split; [exact diamond_constructed|exact diamond_cut]. Qed.

(** If a worker itself catches the exception before it has reported its task, no further task
    is started and exec() never returns. *)
Theorem C91_caught_by_a_worker_hangs : forall W (run : nat -> W -> tres -> W -> Prop) ts th sv, constructed ts th sv ->
  forall w0 s s1 s2, exec_reaches sv run w0 s -> caught run (inv_of (sv_inv sv)) s s1 -> steps (inv_of (sv_inv sv)) run s1 s2 ->
  s_main s2 = MJoin /\ started (s_log s2) = started (s_log s).
Proof.
  intros W run ts th sv (so & Hso & Hsv) w0 s s1 s2. exact (caught_hangs run so ts th sv Hso Hsv w0 s s1 s2).
Qed.
Print Assumptions C91_caught_by_a_worker_hangs.
Example C91_caught_case : constructed diamond 2 (diamond_solver 2) /\
  (exists s s1, exec_reaches (diamond_solver 2) (frun app_task) [] s /\ caught (frun app_task) (inv_of (sv_inv (diamond_solver 2))) s s1) /\
  (exists s s1, exec_reaches (diamond_solver 2) (frun app_task) [] s /\ caught (frun app_task) (inv_of (sv_inv (diamond_solver 2))) s s1 /\ started (s_log s) = [0]).
Proof. split; [exact diamond_constructed|]. split; [exact diamond_taken|exact diamond_told]. Qed.

(** Builds by a script.  What Ctrl-C still changes are targets of the rules that were running,
    at most as many as there are threads ... *)
Theorem C91_only_running_rules :
  forall cwd home fs exists_ glob_ l, disk_ok cwd (present fs) exists_ -> in_order cwd home glob_ exists_ l ->
  forall partial x th now kind c1 objs sv s w', In x (flat_map (makes cwd home glob_) l) ->
  building cwd home exists_ glob_ partial l x th fs now kind c1 objs sv s ->
  interrupted (mk_task (realpath cwd) kind partial c1 objs) (mk_killed kind partial c1 objs) s w' ->
  List.length (in_threads s) <= Z.to_nat th /\
  forall p, is_file (project_of cwd home glob_ l) p -> w_fs w' p <> w_fs (s_world s) p ->
  is_rule (project_of cwd home glob_ l) p /\ exists t, In t (in_threads s) /\ p = t_name (obj c1 (nth t objs (List.length (c_heap c1)))).
Proof. exact building_touches. Qed.
Print Assumptions C91_only_running_rules.
(** ... and if a rule whose commands are killed leaves no output, the files are as after some
    history of edits and builds ... *)
Theorem C91_interrupted_build_is_history :
  forall cwd home fs exists_ glob_ l, disk_ok cwd (present fs) exists_ -> in_order cwd home glob_ exists_ l ->
  forall x th now kind c1 objs sv s w', In x (flat_map (makes cwd home glob_) l) ->
  building cwd home exists_ glob_ false l x th fs now kind c1 objs sv s ->
  interrupted (mk_task (realpath cwd) kind false c1 objs) (mk_killed kind false c1 objs) s w' ->
  reads_only (project_of cwd home glob_ l) -> script_history cwd home glob_ l fs now ->
  script_history cwd home glob_ l (w_fs w') (w_now w').
Proof. exact script_interrupt. Qed.
Print Assumptions C91_interrupted_build_is_history.
Theorem C91_interrupted_command_is_history :
  forall cwd home fs exists_ glob_ l, disk_ok cwd (present fs) exists_ -> in_order cwd home glob_ exists_ l ->
  forall other default ws x th now kind c1 objs sv s w',
  calls_for cwd home glob_ l default ws x "makefile" -> In (meaning cwd l x) (flat_map (makes cwd home glob_) l) ->
  commanded cwd home exists_ glob_ false other l default ws th fs now kind c1 objs sv s ->
  interrupted (mk_task (realpath cwd) kind false c1 objs) (mk_killed kind false c1 objs) s w' ->
  reads_only (project_of cwd home glob_ l) -> command_history cwd home glob_ l fs now ->
  command_history cwd home glob_ l (w_fs w') (w_now w').
Proof. exact command_interrupt. Qed.
Print Assumptions C91_interrupted_command_is_history.
(** ... so that the next command that succeeds leaves the right content in every file that its
    target needs. *)
Theorem C91_next_command_is_right :
  forall cwd home fs exists_ glob_ l, disk_ok cwd (present fs) exists_ -> in_order cwd home glob_ exists_ l ->
  forall other default ws x th now kind c1 objs sv s w',
  calls_for cwd home glob_ l default ws x "makefile" -> In (meaning cwd l x) (flat_map (makes cwd home glob_) l) ->
  commanded cwd home exists_ glob_ false other l default ws th fs now kind c1 objs sv s ->
  interrupted (mk_task (realpath cwd) kind false c1 objs) (mk_killed kind false c1 objs) s w' ->
  reads_only (project_of cwd home glob_ l) -> command_history cwd home glob_ l fs now ->
  forall exists_', disk_ok cwd (present (w_fs w')) exists_' -> in_order cwd home glob_ exists_' l ->
  forall other' default' ws' x' th' kind' c1' objs' sv' s',
  calls_for cwd home glob_ l default' ws' x' "makefile" -> In (meaning cwd l x') (flat_map (makes cwd home glob_) l) ->
  commanded cwd home exists_' glob_ false other' l default' ws' th' (w_fs w') (w_now w') kind' c1' objs' sv' s' -> succeeded objs' s' ->
  forall p, is_file (project_of cwd home glob_ l) p -> p_cone (project_of cwd home glob_ l) (meaning cwd l x') p ->
  right_content (project_of cwd home glob_ l) (contents (w_fs (s_world s'))) p (contents (w_fs (s_world s')) p).
Proof.
  intros cwd home fs exists_ glob_ l D O other default ws x th now kind c1 objs sv s w' C M B I R H exists_' D' O' other' default' ws' x' th' kind' c1' objs' sv' s' C' M' B' S'.
  exact (commands_right cwd home (w_fs w') exists_' glob_ l D' O' other' default' ws' x' th' (w_now w') kind' c1' objs' sv' s' C' M' B' S' R
    (command_interrupt cwd home fs exists_ glob_ l D O other default ws x th now kind c1 objs sv s w' C M B I R H)).
Qed.
Print Assumptions C91_next_command_is_right.
Example C91_case :
  disk_ok "/w" (present pfs) (on_path pdisk) /\ in_order "/w" "/h" no_glob (on_path pdisk) pscript /\
  calls_for "/w" "/h" no_glob pscript (Some "libs") ["./out/app"] "./out/app" "makefile" /\
  In (meaning "/w" pscript "./out/app") (flat_map (makes "/w" "/h" no_glob) pscript) /\
  reads_only pproj /\ command_history "/w" "/h" no_glob pscript pfs 1 /\
  (exists kind c1 objs sv s w',
    commanded "/w" "/h" (on_path pdisk) no_glob false no_info pscript (Some "libs") ["./out/app"] 2 pfs 1 kind c1 objs sv s /\
    interrupted (mk_task (realpath "/w") kind false c1 objs) (mk_killed kind false c1 objs) s w' /\
    List.length (in_threads s) = 2 /\ w_fs w' = ifs /\ w_now w' = 4) /\
  disk_ok "/w" (present ifs) (on_path idisk) /\ in_order "/w" "/h" no_glob (on_path idisk) pscript /\
  exists kind c1 objs sv s,
    commanded "/w" "/h" (on_path idisk) no_glob false no_info pscript (Some "libs") ["./out/app"] 1 ifs 4 kind c1 objs sv s /\
    succeeded objs s /\ contents (w_fs (s_world s)) "/w/out/app" = Some "o:src+main".
Proof.
  destruct pcalls as (A & _ & B & _). split; [exact pfs_ok|]. split; [exact pscript_ok|]. split; [exact A|]. split; [exact B|].
  split; [exact pproj_reads_only|]. split; [exact pcommands|]. split; [exact word_cut|]. split; [exact ifs_ok|]. split; [exact iscript_ok|exact word_next].
Qed.
Example C91_touched_case : exists kind c1 objs sv s w',
  In "/w/out/app" (flat_map (makes "/w" "/h" no_glob) pscript) /\ script_history "/w" "/h" no_glob pscript pfs 1 /\
  building "/w" "/h" (on_path pdisk) no_glob false pscript "/w/out/app" 2 pfs 1 kind c1 objs sv s /\
  interrupted (mk_task (realpath "/w") kind false c1 objs) (mk_killed kind false c1 objs) s w' /\
  is_file pproj "/w/out/a.h" /\ w_fs w' "/w/out/a.h" <> w_fs (s_world s) "/w/out/a.h".
Proof.
  destruct (script_cut false ifs 4 (or_introl (conj eq_refl eq_refl))) as (kind & c1 & objs & sv & s & w' & B & I & _ & Ef & _ & Hn).
  exists kind, c1, objs, sv, s, w'. split; [exact papp_made|]. split; [exact pstart|]. split; [exact B|]. split; [exact I|].
  split; [right; exists false, ["/w/a.h"], (read1 "" "/w/a.h"); rewrite pproj_eq; reflexivity|]. rewrite Hn, Ef. discriminate.
Qed.

(** False if a killed compiler leaves a half-written output (licant does not delete it): the
    next build takes it for finished. *)
Theorem C91_half_written_output_refuted :
  exists cwd home glob_ l x th fs now exists_ exists_' kind c1 objs sv s w' th' kind' c1' objs' sv' s' p,
  disk_ok cwd (present fs) exists_ /\ in_order cwd home glob_ exists_ l /\ In x (flat_map (makes cwd home glob_) l) /\
  reads_only (project_of cwd home glob_ l) /\ script_history cwd home glob_ l fs now /\
  building cwd home exists_ glob_ false l x th fs now kind c1 objs sv s /\
  interrupted (mk_task (realpath cwd) kind false c1 objs) (mk_killed kind true c1 objs) s w' /\
  disk_ok cwd (present (w_fs w')) exists_' /\ in_order cwd home glob_ exists_' l /\
  building cwd home exists_' glob_ false l x th' (w_fs w') (w_now w') kind' c1' objs' sv' s' /\ succeeded objs' s' /\
  is_file (project_of cwd home glob_ l) p /\ p_cone (project_of cwd home glob_ l) x p /\
  ~ right_content (project_of cwd home glob_ l) (contents (w_fs (s_world s'))) p (contents (w_fs (s_world s')) p).
Proof. exact half_written_linked. Qed.
Print Assumptions C91_half_written_output_refuted.
