(** C84: a build does no needless work.  [w_ran]: the files whose rules ran, and whether they
    succeeded; [p_cone P x p]: target [x] needs [p], directly or indirectly; [needs_update]:
    something at or below a file is missing, forced, or older than what it depends on. *)
From Verif Require Import PyBase PyPath SolverModel SpecGraph InvokerModel SpecTrace CoreModel SpecCore MakeModel UtilModel SpecMake
  RegModel CliModel SpecUtil SpecReg SpecProject SpecTrack SpecCxxTrack CxxTrack RegExamples ProjectExamples TrackExamples IdleProofs CxxIdle IdleExamples.
Local Open Scope string_scope.
Local Open Scope list_scope.

(** The process may be stopped at any time. *)
Theorem C84_only_what_needs_it :
  forall cwd home fs exists_ glob_ l, disk_ok cwd (present fs) exists_ -> in_order cwd home glob_ exists_ l ->
  forall partial x th now kind c1 objs sv s, In x (flat_map (makes cwd home glob_) l) ->
  building cwd home exists_ glob_ partial l x th fs now kind c1 objs sv s ->
  forall p b, is_rule (project_of cwd home glob_ l) p -> In (p, b) (w_ran (s_world s)) ->
  p_cone (project_of cwd home glob_ l) x p /\ needs_update (project_of cwd home glob_ l) fs p.
Proof. exact ran_needed. Qed.
Print Assumptions C84_only_what_needs_it.
(** After success, exactly these rules have run. *)
Theorem C84_exactly_what_needs_it :
  forall cwd home fs exists_ glob_ l, disk_ok cwd (present fs) exists_ -> in_order cwd home glob_ exists_ l ->
  forall partial x th now kind c1 objs sv s, In x (flat_map (makes cwd home glob_) l) ->
  building cwd home exists_ glob_ partial l x th fs now kind c1 objs sv s -> succeeded objs s ->
  forall p, is_rule (project_of cwd home glob_ l) p ->
  In p (map fst (w_ran (s_world s))) <-> p_cone (project_of cwd home glob_ l) x p /\ needs_update (project_of cwd home glob_ l) fs p.
Proof. exact ran_exactly. Qed.
Print Assumptions C84_exactly_what_needs_it.
Theorem C84_nothing_to_do :
  forall cwd home fs exists_ glob_ l, disk_ok cwd (present fs) exists_ -> in_order cwd home glob_ exists_ l ->
  forall partial x th now kind c1 objs sv s, In x (flat_map (makes cwd home glob_) l) ->
  building cwd home exists_ glob_ partial l x th fs now kind c1 objs sv s -> ~ needs_update (project_of cwd home glob_ l) fs x ->
  w_fs (s_world s) = fs /\ w_ran (s_world s) = [] /\
  (forall k r, In (EFinish k r) (s_log s) -> r = RNotFalse) /\ forall k, ~ In (ERaise k) (s_log s).
Proof. exact idle_building. Qed.
Print Assumptions C84_nothing_to_do.
(** After a successful process, files are changed arbitrarily ([fs2]), and another process
    builds something that the first one has built: a rule runs only if something that its file
    depends on, or the file itself, was changed. *)
Theorem C84_after_changes :
  forall cwd home fs exists_ glob_ l, disk_ok cwd (present fs) exists_ -> in_order cwd home glob_ exists_ l ->
  let P := project_of cwd home glob_ l in
  forall partial x th now kind c1 objs sv s, In x (flat_map (makes cwd home glob_) l) ->
  building cwd home exists_ glob_ partial l x th fs now kind c1 objs sv s -> succeeded objs s ->
  (forall p ds b, p_cone P x p -> P p <> Some (DRule true ds b)) ->
  (forall p, p_cone P x p -> P p = Some DSource -> fs p <> None) ->
  forall fs2 exists_2, disk_ok cwd (present fs2) exists_2 -> in_order cwd home glob_ exists_2 l ->
  forall partial2 y th2 now2 kind2 c2 objs2 sv2 s2, In y (flat_map (makes cwd home glob_) l) -> p_cone P x y ->
  building cwd home exists_2 glob_ partial2 l y th2 fs2 now2 kind2 c2 objs2 sv2 s2 ->
  forall p b, is_rule P p -> In (p, b) (w_ran (s_world s2)) ->
  exists q, p_cone P p q /\ is_file P q /\ fs2 q <> w_fs (s_world s) q.
Proof. exact second_process. Qed.
Print Assumptions C84_after_changes.
Theorem C84_second_process_is_idle :
  forall cwd home fs exists_ glob_ l, disk_ok cwd (present fs) exists_ -> in_order cwd home glob_ exists_ l ->
  let P := project_of cwd home glob_ l in
  forall partial x th now kind c1 objs sv s, In x (flat_map (makes cwd home glob_) l) ->
  building cwd home exists_ glob_ partial l x th fs now kind c1 objs sv s -> succeeded objs s ->
  (forall p ds b, p_cone P x p -> P p <> Some (DRule true ds b)) ->
  (forall p, p_cone P x p -> P p = Some DSource -> fs p <> None) ->
  forall exists_2, disk_ok cwd (present (w_fs (s_world s))) exists_2 -> in_order cwd home glob_ exists_2 l ->
  forall partial2 th2 now2 kind2 c2 objs2 sv2 s2,
  building cwd home exists_2 glob_ partial2 l x th2 (w_fs (s_world s)) now2 kind2 c2 objs2 sv2 s2 ->
  w_fs (s_world s2) = w_fs (s_world s) /\ w_ran (s_world s2) = [].
Proof. exact second_process_idle. Qed.
Print Assumptions C84_second_process_is_idle.
(** A program made from a.o and b.o is built; then one process runs when nothing was changed,
    and another one when a.c was changed. *)
Example C84_case :
  disk_ok "/w" (present dfs) (on_path ddisk) /\ in_order "/w" "/h" ProjectExamples.no_glob (on_path ddisk) dscript /\
  In "/w/app" (flat_map (makes "/w" "/h" ProjectExamples.no_glob) dscript) /\
  (exists kind c1 objs sv s, building "/w" "/h" (on_path ddisk) ProjectExamples.no_glob false dscript "/w/app" 1 dfs 1 kind c1 objs sv s /\ succeeded objs s /\
    w_fs (s_world s) = dfs1) /\
  (forall p ds b, p_cone (project_of "/w" "/h" ProjectExamples.no_glob dscript) "/w/app" p -> project_of "/w" "/h" ProjectExamples.no_glob dscript p <> Some (DRule true ds b)) /\
  (forall p, p_cone (project_of "/w" "/h" ProjectExamples.no_glob dscript) "/w/app" p -> project_of "/w" "/h" ProjectExamples.no_glob dscript p = Some DSource -> dfs p <> None) /\
  disk_ok "/w" (present dfs1) (on_path ddisk1) /\ disk_ok "/w" (present dfs2) (on_path ddisk1) /\ in_order "/w" "/h" ProjectExamples.no_glob (on_path ddisk1) dscript /\
  (exists kind c1 objs sv s, building "/w" "/h" (on_path ddisk1) ProjectExamples.no_glob false dscript "/w/app" 1 dfs1 dnow1 kind c1 objs sv s /\ succeeded objs s) /\
  exists kind c1 objs sv s, building "/w" "/h" (on_path ddisk1) ProjectExamples.no_glob false dscript "/w/app" 1 dfs2 dnow1 kind c1 objs sv s /\
    In "/w/app" (map fst (w_ran (s_world s))) /\ ~ In "/w/b.o" (map fst (w_ran (s_world s))).
Proof.
  split; [exact ddisk_ok|]. split; [exact dorder|]. split; [exact dapp|]. split; [exact dbuilt|]. split; [exact dno_force|]. split; [exact dsources|].
  split; [exact ddisk1_ok|]. split; [exact ddisk2_ok|]. split; [exact dorder1|]. split; [exact didle|exact dagain].
Qed.
(** Forced rules, and sources that do not exist, are the exceptions: what depends on them is
    made again by every process. *)
Theorem C84_exceptions :
  forall cwd home fs exists_ glob_ l, disk_ok cwd (present fs) exists_ -> in_order cwd home glob_ exists_ l ->
  let P := project_of cwd home glob_ l in
  forall partial x th now kind c1 objs sv s, In x (flat_map (makes cwd home glob_) l) ->
  building cwd home exists_ glob_ partial l x th fs now kind c1 objs sv s -> succeeded objs s ->
  forall p q, is_rule P p -> p_cone P x p -> p_cone P p q -> (exists ds b, P q = Some (DRule true ds b)) \/ (P q = Some DSource /\ fs q = None) ->
  In p (map fst (w_ran (s_world s))).
Proof. exact always_run. Qed.
Print Assumptions C84_exceptions.
(** Both occur, and the process after a successful one makes the target again. *)
Example C84_forced_case : exists cwd home fs exists_ glob_ l x th now kind c1 objs sv s exists_2 th2 now2 kind2 c2 objs2 sv2 s2,
  let P := project_of cwd home glob_ l in
  disk_ok cwd (present fs) exists_ /\ in_order cwd home glob_ exists_ l /\ In x (flat_map (makes cwd home glob_) l) /\
  building cwd home exists_ glob_ false l x th fs now kind c1 objs sv s /\ succeeded objs s /\
  (forall p, p_cone P x p -> P p = Some DSource -> fs p <> None) /\
  disk_ok cwd (present (w_fs (s_world s))) exists_2 /\ in_order cwd home glob_ exists_2 l /\
  building cwd home exists_2 glob_ false l x th2 (w_fs (s_world s)) now2 kind2 c2 objs2 sv2 s2 /\
  In x (map fst (w_ran (s_world s2))).
Proof. exact forced_again. Qed.
Example C84_missing_case : exists cwd home fs exists_ glob_ l x th now kind c1 objs sv s exists_2 th2 now2 kind2 c2 objs2 sv2 s2,
  let P := project_of cwd home glob_ l in
  disk_ok cwd (present fs) exists_ /\ in_order cwd home glob_ exists_ l /\ In x (flat_map (makes cwd home glob_) l) /\
  building cwd home exists_ glob_ false l x th fs now kind c1 objs sv s /\ succeeded objs s /\
  (forall p ds b, p_cone P x p -> P p <> Some (DRule true ds b)) /\
  disk_ok cwd (present (w_fs (s_world s))) exists_2 /\ in_order cwd home glob_ exists_2 l /\
  building cwd home exists_2 glob_ false l x th2 (w_fs (s_world s)) now2 kind2 c2 objs2 sv2 s2 /\
  In x (map fst (w_ran (s_world s2))).
Proof. exact missing_again. Qed.

(** The same for sources with headers (C82): the lists of headers that a successful process
    leaves are the ones that the next process finds, so that process does nothing although its
    objects may depend on other headers than in the first process. *)
Theorem C84_second_process_with_headers_is_idle :
  forall cwd home glob_ its, honest cwd home glob_ its ->
  forall fs now exists_ x th kind c1 objs sv s, cxx_history cwd home glob_ (empty_list cwd its) its fs now ->
  disk_ok cwd (present fs) exists_ -> in_order cwd home glob_ exists_ (script_at cwd its (contents fs)) ->
  In x (flat_map (makes cwd home glob_) (script_at cwd its (contents fs))) ->
  building cwd home exists_ glob_ true (script_at cwd its (contents fs)) x th fs now kind c1 objs sv s -> succeeded objs s ->
  let fs' := w_fs (s_world s) in let P' := project_at cwd home glob_ its (contents fs') in
  (forall st p ds b, In (IStmt st) its -> rule_of cwd home glob_ st = Some (p, ds, (true, b)) -> ~ p_cone P' x p) ->
  (forall p, p_cone P' x p -> P' p = Some DSource -> contents fs' p <> None) ->
  forall exists_2, disk_ok cwd (present fs') exists_2 -> in_order cwd home glob_ exists_2 (script_at cwd its (contents fs')) ->
  forall partial th2 now2 kind2 c2 objs2 sv2 s2,
  building cwd home exists_2 glob_ partial (script_at cwd its (contents fs')) x th2 fs' now2 kind2 c2 objs2 sv2 s2 ->
  w_fs (s_world s2) = fs' /\ w_ran (s_world s2) = [].
Proof. exact cxx_second_process_idle. Qed.
Print Assumptions C84_second_process_with_headers_is_idle.
(** And if files other than the lists are changed in between. *)
Theorem C84_after_changes_with_headers :
  forall cwd home glob_ its, honest cwd home glob_ its ->
  forall fs now exists_ x th kind c1 objs sv s, cxx_history cwd home glob_ (empty_list cwd its) its fs now ->
  disk_ok cwd (present fs) exists_ -> in_order cwd home glob_ exists_ (script_at cwd its (contents fs)) ->
  In x (flat_map (makes cwd home glob_) (script_at cwd its (contents fs))) ->
  building cwd home exists_ glob_ true (script_at cwd its (contents fs)) x th fs now kind c1 objs sv s -> succeeded objs s ->
  let fs' := w_fs (s_world s) in let P' := project_at cwd home glob_ its (contents fs') in
  (forall st p ds b, In (IStmt st) its -> rule_of cwd home glob_ st = Some (p, ds, (true, b)) -> ~ p_cone P' x p) ->
  (forall p, p_cone P' x p -> P' p = Some DSource -> contents fs' p <> None) ->
  forall fs2 exists_2, disk_ok cwd (present fs2) exists_2 -> in_order cwd home glob_ exists_2 (script_at cwd its (contents fs2)) ->
  (forall u, In (IUnit u) its -> contents fs2 (realpath cwd (u_dep u)) = contents fs' (realpath cwd (u_dep u))) ->
  forall partial y th2 now2 kind2 c2 objs2 sv2 s2, In y (flat_map (makes cwd home glob_) (script_at cwd its (contents fs2))) -> p_cone P' x y ->
  building cwd home exists_2 glob_ partial (script_at cwd its (contents fs2)) y th2 fs2 now2 kind2 c2 objs2 sv2 s2 ->
  forall p b, is_rule P' p -> In (p, b) (w_ran (s_world s2)) -> exists q, p_cone P' p q /\ is_file P' q /\ fs2 q <> fs' q.
Proof. exact cxx_second_process. Qed.
Print Assumptions C84_after_changes_with_headers.
(** The process of [C82_case], in which a.o gets the new header b.h, and the process after it. *)
Example C84_headers_case :
  cxx_history "/w" "/h" ProjectExamples.no_glob (empty_list "/w" xits) xits xfs2 xnow2 /\
  (exists kind c1 objs sv s,
    building "/w" "/h" (on_path xdisk2) ProjectExamples.no_glob true (script_at "/w" xits (contents xfs2)) "/w/app" 1 xfs2 xnow2 kind c1 objs sv s /\
    succeeded objs s /\ w_fs (s_world s) = xfs3) /\
  (forall st p ds b, In (IStmt st) xits -> rule_of "/w" "/h" ProjectExamples.no_glob st = Some (p, ds, (true, b)) ->
    ~ p_cone (project_at "/w" "/h" ProjectExamples.no_glob xits (contents xfs3)) "/w/app" p) /\
  (forall p, p_cone (project_at "/w" "/h" ProjectExamples.no_glob xits (contents xfs3)) "/w/app" p ->
    project_at "/w" "/h" ProjectExamples.no_glob xits (contents xfs3) p = Some DSource -> contents xfs3 p <> None) /\
  disk_ok "/w" (present xfs3) (on_path xdisk2) /\ in_order "/w" "/h" ProjectExamples.no_glob (on_path xdisk2) (script_at "/w" xits (contents xfs3)) /\
  exists kind c1 objs sv s,
    building "/w" "/h" (on_path xdisk2) ProjectExamples.no_glob true (script_at "/w" xits (contents xfs3)) "/w/app" 1 xfs3 xnow3 kind c1 objs sv s /\ succeeded objs s.
Proof.
  split; [exact xedited|]. split; [exact xbuilt|]. split; [exact xno_force|]. split; [exact xsources|]. split; [exact xdisk3_ok|]. split; [exact xorder3|exact xidle].
Qed.
