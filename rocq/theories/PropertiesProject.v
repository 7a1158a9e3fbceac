(** C77-C80: whole build scripts, from the statements to the files.  A script is a list of
    statements ([stmt]: source, makefile, copy, fileset); [project_of] is the project that a
    reader takes it to describe; [building … s]: a process has read the script, was asked
    to make a target and is now in state [s]. *)
From Coq Require Import Permutation.
From Verif Require Import PyBase PyPath SolverModel SpecGraph InvokerModel InvokerPath SpecTrace CoreModel SpecCore CoreProofs MakeModel MakeEval SpecMake
  RegModel CliModel SpecUtil SpecReg RegExamples SpecProject ProjectProofs ProjectBuild ProjectExamples.
Local Open Scope string_scope.
Local Open Scope list_scope.

(** C77.  A script in order registers what it says: each registered target does what the
    project says and depends on what the project says. *)
Theorem C77_registry_is_the_project :
  forall cwd home fs exists_ glob_ l, disk_ok cwd (present fs) exists_ -> in_order cwd home glob_ exists_ l ->
  forall fuel st, mrun (realpath cwd) exists_ glob_ home fuel 0 (map op_of l) [empty_reg] = Ok st ->
  forall i, (exists nm, In (nm, i) (c_targets (fst (reg st 0)))) -> kind_of (reg st 0) i <> MOther ->
  implements (realpath cwd) (kind_of (reg st 0)) (project_of cwd home glob_ l) (fst (reg st 0)) i.
Proof. exact script_implements. Qed.
Print Assumptions C77_registry_is_the_project.
(** Names declared and names mentioned are found, and are what the project says they are. *)
Theorem C77_declared_names_are_found :
  forall cwd home fs exists_ glob_ l, disk_ok cwd (present fs) exists_ -> in_order cwd home glob_ exists_ l ->
  forall fuel st, mrun (realpath cwd) exists_ glob_ home fuel 0 (map op_of l) [empty_reg] = Ok st ->
  forall x, In x (flat_map (declares cwd home glob_) l) ->
  exists i, core_get (realpath cwd) (fst (reg st 0)) x = Ok i /\ t_name (obj (fst (reg st 0)) i) = x.
Proof. exact declared_found. Qed.
Print Assumptions C77_declared_names_are_found.
Theorem C77_mentioned_names_are_found :
  forall cwd home fs exists_ glob_ l, disk_ok cwd (present fs) exists_ -> in_order cwd home glob_ exists_ l ->
  forall fuel st s d, mrun (realpath cwd) exists_ glob_ home fuel 0 (map op_of l) [empty_reg] = Ok st ->
  In s l -> In d (mentions home glob_ s) ->
  exists i, core_get (realpath cwd) (fst (reg st 0)) d = Ok i /\ t_name (obj (fst (reg st 0)) i) = meaning cwd l d.
Proof. exact names_found. Qed.
Print Assumptions C77_mentioned_names_are_found.
Example C77_case :
  disk_ok "/w" (present pfs) (on_path pdisk) /\ in_order "/w" "/h" no_glob (on_path pdisk) pscript /\
  pproj "/w/out/app" = Some (DRule false ["libs"; "/w/main.c"] link_app) /\
  pproj "libs" = Some (DSet ["/w/out/lib/a.o"; "/w/out/a.h"]) /\ pproj "/w/main.c" = Some DSource.
Proof. split; [exact pfs_ok|]. split; [exact pscript_ok|]. rewrite !pproj_eq. repeat split. Qed.

(** C78.  Reading the script, the evaluation of what is out of date, and the preparation of
    the build all end without an exception. *)
Theorem C78_building_starts :
  forall cwd home fs exists_ glob_ l, disk_ok cwd (present fs) exists_ -> in_order cwd home glob_ exists_ l ->
  forall partial x th now order so other_if, (forall i, exists b, other_if i = Ok b) -> In x (flat_map (makes cwd home glob_) l) ->
  (forall k, Permutation k (order k)) -> fair_order so ->
  exists f0, forall fuel, f0 <= fuel -> exists st,
    mrun (realpath cwd) exists_ glob_ home fuel 0 (map op_of l) [empty_reg] = Ok st /\
    exists f1, forall fuel', f1 <= fuel' -> exists i c1 ca1 objs sv,
      core_get (realpath cwd) (fst (reg st 0)) x = Ok i /\
      mevaluate (realpath cwd) (kind_of (reg st 0)) other_if fs fuel' (set_threads (fst (reg st 0)) th, []) = Ok (c1, ca1) /\
      recurse_update (realpath cwd) c1 order so i None = RuExec objs sv /\
      building cwd home exists_ glob_ partial l x th fs now (kind_of (reg st 0)) c1 objs sv (init_state sv (WD fs ca1 now now [])).
Proof. exact building_under_way. Qed.
Print Assumptions C78_building_starts.
(** Scripts that are not in order are still read to the end. *)
Theorem C78_reading_ends :
  forall cwd home ex exists_ glob_, disk_ok cwd ex exists_ -> forall l,
  exists f0, forall fuel st, f0 <= fuel -> exists st', mrun (realpath cwd) exists_ glob_ home fuel 0 (map op_of l) st = Ok st'.
Proof. exact stmts_total. Qed.
Print Assumptions C78_reading_ends.
Example C78_case :
  disk_ok "/w" (present pfs) (on_path pdisk) /\ in_order "/w" "/h" no_glob (on_path pdisk) pscript /\
  In "/w/out/app" (flat_map (makes "/w" "/h" no_glob) pscript) /\ fair_order id_order.
Proof. split; [exact pfs_ok|]. split; [exact pscript_ok|]. split; [exact papp_made|]. split; intros; apply Permutation_refl. Qed.

(** C79.  From the script to the files: after any history of edits and of builds by this
    script (finished, failed or killed), a build that succeeds leaves the right content in
    every file that the target needs. *)
Theorem C79_files_are_right :
  forall cwd home fs exists_ glob_ l, disk_ok cwd (present fs) exists_ -> in_order cwd home glob_ exists_ l ->
  forall x th now kind c1 objs sv s, In x (flat_map (makes cwd home glob_) l) ->
  building cwd home exists_ glob_ false l x th fs now kind c1 objs sv s -> succeeded objs s ->
  reads_only (project_of cwd home glob_ l) -> script_history cwd home glob_ l fs now ->
  forall p, is_file (project_of cwd home glob_ l) p -> p_cone (project_of cwd home glob_ l) x p ->
  right_content (project_of cwd home glob_ l) (contents (w_fs (s_world s))) p (contents (w_fs (s_world s)) p).
Proof. exact script_right. Qed.
Print Assumptions C79_files_are_right.
Example C79_case : exists kind c1 objs sv s,
  building "/w" "/h" (on_path pdisk) no_glob false pscript "/w/out/app" 2 pfs 1 kind c1 objs sv s /\ succeeded objs s /\
  reads_only pproj /\ script_history "/w" "/h" no_glob pscript pfs 1 /\
  contents (w_fs (s_world s)) "/w/out/app" = Some "o:src+main" /\ contents (w_fs (s_world s)) "/w/out/a.h" = Some "hdr".
Proof.
  destruct prun_done as (kind & c1 & objs & sv & s & A & B & _ & C & D). exists kind, c1, objs, sv, s.
  split; [exact A|]. split; [exact B|]. split; [exact pproj_reads_only|]. split; [exact pstart|]. auto.
Qed.
Example C79_case_edited : exists fs now, script_history "/w" "/h" no_glob pscript fs now /\
  contents fs "/w/out/app" = Some "o:src+main" /\ contents fs "/w/src.c" = Some "new".
Proof. exact pedited. Qed.

(** C80.  As long as no rule has failed, a build with at least one thread either has
    returned True or can go on, and it ends: the build cannot hang, and making directories
    does not fail. *)
Theorem C80_goes_on_until_success :
  forall cwd home fs exists_ glob_ l, disk_ok cwd (present fs) exists_ -> in_order cwd home glob_ exists_ l ->
  forall partial x th now kind c1 objs sv s, In x (flat_map (makes cwd home glob_) l) ->
  dirs_free cwd home l fs -> (1 <= th)%Z ->
  building cwd home exists_ glob_ partial l x th fs now kind c1 objs sv s ->
  no_rule_failed (project_of cwd home glob_ l) (s_world s) ->
  succeeded objs s \/
  s_main s = MJoin /\ exists s', step (inv_of (sv_inv sv)) (mk_task (realpath cwd) kind partial c1 objs) s s'.
Proof. exact building_goes_on. Qed.
Print Assumptions C80_goes_on_until_success.
Theorem C80_bounded :
  forall cwd home fs exists_ glob_ l, disk_ok cwd (present fs) exists_ -> in_order cwd home glob_ exists_ l ->
  forall partial x th now kind c1 objs sv s n, In x (flat_map (makes cwd home glob_) l) ->
  building cwd home exists_ glob_ partial l x th fs now kind c1 objs sv s ->
  forall w0, nsteps (inv_of (sv_inv sv)) (mk_task (realpath cwd) kind partial c1 objs) n (init_state sv w0) s ->
  n <= 2 * List.length objs + 1.
Proof. exact building_bounded. Qed.
Print Assumptions C80_bounded.
Theorem C80_only_rules_fail :
  forall cwd home fs exists_ glob_ l, disk_ok cwd (present fs) exists_ -> in_order cwd home glob_ exists_ l ->
  forall partial x th now kind c1 objs sv s, In x (flat_map (makes cwd home glob_) l) -> dirs_free cwd home l fs ->
  building cwd home exists_ glob_ partial l x th fs now kind c1 objs sv s ->
  no_rule_failed (project_of cwd home glob_ l) (s_world s) ->
  forall k r, In (k, r) (ended (s_log s)) -> r = RNotFalse.
Proof. exact building_calls. Qed.
Print Assumptions C80_only_rules_fail.
Example C80_case : exists kind c1 objs sv s,
  dirs_free "/w" "/h" pscript pfs /\
  building "/w" "/h" (on_path pdisk) no_glob false pscript "/w/out/app" 2 pfs 1 kind c1 objs sv s /\
  s_main s = MJoin /\ no_rule_failed pproj (s_world s) /\ contents (w_fs (s_world s)) "/w/out/a.h" = Some "hdr" /\
  contents (w_fs (s_world s)) "/w/out/app" = None.
Proof.
  destruct prun_middle as (kind & c1 & objs & sv & s & H). exists kind, c1, objs, sv, s. split; [exact pscript_free|exact H].
Qed.
