(** C95: scripts with a core of their own.  The calls [ops] are methods of core number [k], an
    object of class MakeCore, mixed with functions for the default core, which is number 0;
    [core_script] are the statements they make about core [k]. *)
From Coq Require Import Permutation.
From Verif Require Import PyBase PyPath SolverModel SpecGraph InvokerModel InvokerPath SpecTrace CoreModel SpecCore CoreProofs MakeModel MakeEval SpecMake
  RegModel CliModel SpecUtil SpecReg RegExamples SpecProject ProjectProofs ProjectBuild ProjectExamples SpecMakeCore MakeCoreProofs MakeCoreBuild MakeCoreExamples.
Local Open Scope string_scope.
Local Open Scope list_scope.

(** The core holds what the calls say. *)
Theorem C95_registry_is_the_project :
  forall cwd home fs exists_ glob_ ops k n, disk_ok cwd (present fs) exists_ -> core_in_order cwd home glob_ exists_ ops -> 0 < k < n ->
  forall fuel st, mrun (realpath cwd) exists_ glob_ home fuel k ops (repeat empty_reg n) = Ok st ->
  forall i, (exists nm, In (nm, i) (c_targets (fst (reg st k)))) -> kind_of (reg st k) i <> MOther ->
  implements (realpath cwd) (kind_of (reg st k)) (project_of cwd home glob_ (core_script home ops)) (fst (reg st k)) i.
Proof.
  intros cwd home fs exists_ glob_ ops k n D K L fuel st R i. eapply whole_implements; [exact D|exact (co_script _ _ _ _ _ K)|].
  eapply core_script_inv; eauto.
Qed.
Print Assumptions C95_registry_is_the_project.
(** Declared and mentioned names are found in it. *)
Theorem C95_declared_names_are_found :
  forall cwd home fs exists_ glob_ ops k n, disk_ok cwd (present fs) exists_ -> core_in_order cwd home glob_ exists_ ops -> 0 < k < n ->
  forall fuel st, mrun (realpath cwd) exists_ glob_ home fuel k ops (repeat empty_reg n) = Ok st ->
  forall x, In x (flat_map (declares cwd home glob_) (core_script home ops)) ->
  exists i, core_get (realpath cwd) (fst (reg st k)) x = Ok i /\ t_name (obj (fst (reg st k)) i) = x.
Proof.
  intros cwd home fs exists_ glob_ ops k n D K L fuel st R x Hx.
  destruct (core_declared_get cwd home fs exists_ glob_ ops k n D K L fuel st R x Hx) as (i & A & B & _). eauto.
Qed.
Print Assumptions C95_declared_names_are_found.
Theorem C95_mentioned_names_are_found :
  forall cwd home fs exists_ glob_ ops k n, disk_ok cwd (present fs) exists_ -> core_in_order cwd home glob_ exists_ ops -> 0 < k < n ->
  forall fuel st s d, mrun (realpath cwd) exists_ glob_ home fuel k ops (repeat empty_reg n) = Ok st ->
  In s (core_script home ops) -> In d (mentions home glob_ s) ->
  exists i, core_get (realpath cwd) (fst (reg st k)) d = Ok i /\ t_name (obj (fst (reg st k)) i) = meaning cwd (core_script home ops) d.
Proof. exact core_names_found. Qed.
Print Assumptions C95_mentioned_names_are_found.
(** The calls, the evaluation and the preparation of the build end without an exception, with
    the number of threads in runtime["threads"] or, if there is none, in the argument. *)
Theorem C95_building_starts :
  forall cwd home fs exists_ glob_ ops k n rt th t, disk_ok cwd (present fs) exists_ -> core_in_order cwd home glob_ exists_ ops -> 0 < k < n ->
  threads_of rt th = Some t ->
  forall partial x now order so other_if, (forall i, exists b, other_if i = Ok b) ->
  In x (flat_map (makes cwd home glob_) (core_script home ops)) -> (forall l, Permutation l (order l)) -> fair_order so ->
  exists f0, forall fuel, f0 <= fuel -> exists st,
    mrun (realpath cwd) exists_ glob_ home fuel k ops (repeat empty_reg n) = Ok st /\
    exists f1, forall fuel', f1 <= fuel' -> exists i c1 ca1 objs sv,
      core_get (realpath cwd) (fst (reg st k)) x = Ok i /\
      mevaluate (realpath cwd) (kind_of (reg st k)) other_if fs fuel' (with_runtime (fst (reg st k)) rt, []) = Ok (c1, ca1) /\
      recurse_update (realpath cwd) c1 order so i th = RuExec objs sv /\
      core_building cwd home exists_ glob_ partial ops k n x rt th fs now (kind_of (reg st k)) c1 objs sv (init_state sv (WD fs ca1 now now [])).
Proof. exact core_building_under_way. Qed.
Print Assumptions C95_building_starts.
(** A build that succeeds leaves the right content in every file that the target needs,
    after any history of edits and of such builds. *)
Theorem C95_files_are_right :
  forall cwd home fs exists_ glob_ ops k n rt th t, disk_ok cwd (present fs) exists_ -> core_in_order cwd home glob_ exists_ ops -> 0 < k < n ->
  threads_of rt th = Some t ->
  forall x now kind c1 objs sv s, In x (flat_map (makes cwd home glob_) (core_script home ops)) ->
  core_building cwd home exists_ glob_ false ops k n x rt th fs now kind c1 objs sv s -> succeeded objs s ->
  reads_only (project_of cwd home glob_ (core_script home ops)) -> core_history cwd home glob_ ops k n fs now ->
  forall p, is_file (project_of cwd home glob_ (core_script home ops)) p -> p_cone (project_of cwd home glob_ (core_script home ops)) x p ->
  right_content (project_of cwd home glob_ (core_script home ops)) (contents (w_fs (s_world s))) p (contents (w_fs (s_world s)) p).
Proof.
  intros cwd home fs exists_ glob_ ops k n rt th t D K L T x now kind c1 objs sv s X B Su R H.
  eapply core_building_right; eauto. eapply core_history_ok; eauto.
Qed.
Print Assumptions C95_files_are_right.
(** It cannot hang, and only rules make it fail. *)
Theorem C95_goes_on_until_success :
  forall cwd home fs exists_ glob_ ops k n rt th t, disk_ok cwd (present fs) exists_ -> core_in_order cwd home glob_ exists_ ops -> 0 < k < n ->
  threads_of rt th = Some t ->
  forall partial x now kind c1 objs sv s, In x (flat_map (makes cwd home glob_) (core_script home ops)) ->
  dirs_free cwd home (core_script home ops) fs -> (1 <= t)%Z ->
  core_building cwd home exists_ glob_ partial ops k n x rt th fs now kind c1 objs sv s ->
  no_rule_failed (project_of cwd home glob_ (core_script home ops)) (s_world s) ->
  succeeded objs s \/
  s_main s = MJoin /\ exists s', step (inv_of (sv_inv sv)) (mk_task (realpath cwd) kind partial c1 objs) s s'.
Proof. exact core_building_goes_on. Qed.
Print Assumptions C95_goes_on_until_success.
Theorem C95_bounded :
  forall cwd home fs exists_ glob_ ops k n rt th t, disk_ok cwd (present fs) exists_ -> core_in_order cwd home glob_ exists_ ops -> 0 < k < n ->
  threads_of rt th = Some t ->
  forall partial x now kind c1 objs sv s m, In x (flat_map (makes cwd home glob_) (core_script home ops)) ->
  core_building cwd home exists_ glob_ partial ops k n x rt th fs now kind c1 objs sv s ->
  forall w0, nsteps (inv_of (sv_inv sv)) (mk_task (realpath cwd) kind partial c1 objs) m (init_state sv w0) s ->
  m <= 2 * List.length objs + 1.
Proof. exact core_building_bounded. Qed.
Print Assumptions C95_bounded.
Theorem C95_only_rules_fail :
  forall cwd home fs exists_ glob_ ops k n rt th t, disk_ok cwd (present fs) exists_ -> core_in_order cwd home glob_ exists_ ops -> 0 < k < n ->
  threads_of rt th = Some t ->
  forall partial x now kind c1 objs sv s, In x (flat_map (makes cwd home glob_) (core_script home ops)) -> dirs_free cwd home (core_script home ops) fs ->
  core_building cwd home exists_ glob_ partial ops k n x rt th fs now kind c1 objs sv s ->
  no_rule_failed (project_of cwd home glob_ (core_script home ops)) (s_world s) ->
  forall j r, In (j, r) (ended (s_log s)) -> r = RNotFalse.
Proof. exact core_building_calls. Qed.
Print Assumptions C95_only_rules_fail.
(** What [core_in_order] asks beyond [in_order] is needed.  A dependency that exists but is
    declared in the default core only: no build of the target ever starts, although the same
    statement for the default core is in order. *)
Theorem C95_existing_dependency_refuted :
  exists ops, in_order "/w" "/h" (fun _ => []) (on_path pdisk) (core_script "/h" ops) /\
  disk_ok "/w" (present pfs) (on_path pdisk) /\
  In "/w/app" (flat_map (makes "/w" "/h" (fun _ => [])) (core_script "/h" ops)) /\
  forall partial rt th t now kind c1 objs sv s, threads_of rt th = Some t ->
  ~ core_building "/w" "/h" (on_path pdisk) (fun _ => []) partial ops 1 2 "/w/app" rt th pfs now kind c1 objs sv s.
Proof.
  exists lone. split; [exact lone_order|]. split; [exact pfs_ok|]. split; [apply mem_In; vm_compute; reflexivity|]. exact lone_fails.
Qed.
Print Assumptions C95_existing_dependency_refuted.
(** A file set with the name of a missing directory: nothing makes the directory. *)
Theorem C95_directory_name_refuted :
  exists ops st, in_order "/w" "/h" (fun _ => []) (on_path pdisk) (core_script "/h" ops) /\
  mrun (realpath "/w") (on_path pdisk) (fun _ => []) "/h" 20 1 ops (repeat empty_reg 2) = Ok st /\
  core_get (realpath "/w") (fst (reg st 1)) "out/a.o" = Ok 2 /\ on_path pdisk "/w/out" = false /\
  forall i, kind_of (reg st 1) i <> MDir.
Proof. exists clash_ops, clash_regs. split; [exact clash_order|exact clash_no_dir]. Qed.
Print Assumptions C95_directory_name_refuted.

Example C95_case : exists kind c1 objs sv s,
  disk_ok "/w" (present pfs) (on_path pdisk) /\ core_in_order "/w" "/h" no_glob (on_path pdisk) mops /\
  In "/w/out/app" (flat_map (makes "/w" "/h" no_glob) (core_script "/h" mops)) /\ dirs_free "/w" "/h" (core_script "/h" mops) pfs /\
  core_building "/w" "/h" (on_path pdisk) no_glob false mops 1 2 "/w/out/app" None (Some 1%Z) pfs 1 kind c1 objs sv s /\ succeeded objs s /\
  reads_only mproj /\ core_history "/w" "/h" no_glob mops 1 2 pfs 1 /\
  contents (w_fs (s_world s)) "/w/out/app" = Some "o:src+main" /\ contents (w_fs (s_world s)) "/w/out/a.h" = Some "hdr".
Proof.
  destruct mrun_done as (kind & c1 & objs & sv & s & A & B & _ & C & D). exists kind, c1, objs, sv, s.
  split; [exact pfs_ok|]. split; [exact mops_ok|]. split; [exact mapp_made|]. split; [exact mops_free|]. split; [exact A|]. split; [exact B|].
  split; [exact mproj_reads_only|]. split; [exact mstart|]. auto.
Qed.
Example C95_case_middle : exists kind c1 objs sv s,
  core_building "/w" "/h" (on_path pdisk) no_glob false mops 1 2 "/w/out/app" (Some 2%Z) (Some 1%Z) pfs 1 kind c1 objs sv s /\
  s_main s = MJoin /\ no_rule_failed mproj (s_world s) /\ contents (w_fs (s_world s)) "/w/out/a.h" = Some "hdr" /\
  contents (w_fs (s_world s)) "/w/out/app" = None.
Proof. exact mrun_middle. Qed.
Example C95_case_edited : exists fs now, core_history "/w" "/h" no_glob mops 1 2 fs now /\
  contents fs "/w/out/app" = Some "o:src+main" /\ contents fs "/w/src.c" = Some "new".
Proof. exact medited. Qed.
