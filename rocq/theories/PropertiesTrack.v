(** C82-C83: headers.  Objects depend on the headers that an earlier process found in the list
    made by [c++ -MM]; so processes that find different lists read different projects from the
    same script.  A script is a list of items ([item]): statements, and sources to be compiled
    ([cunit]); [script_at its s]: the statements for a process that finds the contents [s];
    [project_at its s]: the project that they describe. *)
From Verif Require Import PyBase PyPath SolverModel SpecGraph InvokerModel SpecTrace CoreModel SpecCore MakeModel UtilModel SpecMake
  RegModel CliModel SpecUtil SpecReg SpecProject SpecTrack SpecCxxTrack CxxTrack RegExamples ProjectExamples TrackExamples
  FormatModel ModulesModel CxxModel SpecCxxScript CxxItems CxxExamples.
Local Open Scope string_scope.
Local Open Scope list_scope.

(** C82.  [cxx_history its fs now]: what edits and processes, finished, failed or killed, may
    have left, where interrupted list commands leave an empty list or nothing. *)
Theorem C82_objects_follow_their_headers :
  forall cwd home glob_ its, honest cwd home glob_ its ->
  forall fs now exists_ x th kind c1 objs sv s u, cxx_history cwd home glob_ (empty_list cwd its) its fs now ->
  disk_ok cwd (present fs) exists_ -> in_order cwd home glob_ exists_ (script_at cwd its (contents fs)) ->
  In x (flat_map (makes cwd home glob_) (script_at cwd its (contents fs))) ->
  building cwd home exists_ glob_ true (script_at cwd its (contents fs)) x th fs now kind c1 objs sv s -> succeeded objs s ->
  In (IUnit u) its -> p_cone (project_at cwd home glob_ its (contents fs)) x (realpath cwd (u_obj u)) ->
  let s' := contents (w_fs (s_world s)) in
  exists l o, s' (realpath cwd (u_dep u)) = Some l /\ u_list u s' = Some l /\
    s' (realpath cwd (u_obj u)) = Some o /\ u_comp u s' = Some o /\
    forall h, In h (listed (Some l)) -> p_input (project_at cwd home glob_ its s') (realpath cwd (u_obj u)) (realpath cwd h).
Proof. exact cxx_unit. Qed.
Print Assumptions C82_objects_follow_their_headers.
(** The same for all files that the target needs. *)
Theorem C82_files_are_right :
  forall cwd home glob_ its, honest cwd home glob_ its ->
  forall fs now exists_ x th kind c1 objs sv s, cxx_history cwd home glob_ (empty_list cwd its) its fs now ->
  disk_ok cwd (present fs) exists_ -> in_order cwd home glob_ exists_ (script_at cwd its (contents fs)) ->
  In x (flat_map (makes cwd home glob_) (script_at cwd its (contents fs))) ->
  building cwd home exists_ glob_ true (script_at cwd its (contents fs)) x th fs now kind c1 objs sv s -> succeeded objs s ->
  forall p, p_cone (project_at cwd home glob_ its (contents fs)) x p ->
  forall b, rules_in cwd home glob_ its p = Some b ->
  exists v, b (contents (w_fs (s_world s))) = Some v /\ contents (w_fs (s_world s)) p = Some v.
Proof. exact cxx_success. Qed.
Print Assumptions C82_files_are_right.
(** A first process was killed while it made the list and left it empty, a second one has
    finished, and then a.h was edited and now includes b.h. *)
Example C82_case :
  honest "/w" "/h" ProjectExamples.no_glob xits /\ cxx_history "/w" "/h" ProjectExamples.no_glob (empty_list "/w" xits) xits xfs2 xnow2 /\
  disk_ok "/w" (present xfs2) (on_path xdisk2) /\ in_order "/w" "/h" ProjectExamples.no_glob (on_path xdisk2) (script_at "/w" xits (contents xfs2)) /\
  (contents xfs2 "/w/a.d" = Some "a.o: a.c gen.h a.h" /\ contents xfs2 "/w/a.o" = Some "o:g,x" /\ contents xfs2 "/w/a.h" = Some "b") /\
  exists kind c1 objs sv s,
  building "/w" "/h" (on_path xdisk2) ProjectExamples.no_glob true (script_at "/w" xits (contents xfs2)) "/w/app" 1 xfs2 xnow2 kind c1 objs sv s /\ succeeded objs s /\
  contents (w_fs (s_world s)) "/w/a.d" = Some "a.o: a.c gen.h a.h b.h" /\ contents (w_fs (s_world s)) "/w/a.o" = Some "o:g,b,y".
Proof.
  split; [exact xhonest|]. split; [exact xedited|]. split; [exact xdisk2_ok|]. split; [exact xorder2|]. split; [exact xedited_files|exact xremade].
Qed.
(** If an interrupted list command may leave the beginning of a list, later processes do not
    notice edits of the headers that are missing in it. *)
Theorem C82_cut_lists_refuted : exists cwd home glob_ its exists_ fs now x th kind c1 objs sv s u,
  honest cwd home glob_ its /\ cxx_history cwd home glob_ (cut_list cwd its) its fs now /\ disk_ok cwd (present fs) exists_ /\
  in_order cwd home glob_ exists_ (script_at cwd its (contents fs)) /\ In x (flat_map (makes cwd home glob_) (script_at cwd its (contents fs))) /\
  building cwd home exists_ glob_ true (script_at cwd its (contents fs)) x th fs now kind c1 objs sv s /\ succeeded objs s /\
  In (IUnit u) its /\ p_cone (project_at cwd home glob_ its (contents fs)) x (realpath cwd (u_obj u)) /\
  contents (w_fs (s_world s)) (realpath cwd (u_obj u)) <> u_comp u (contents (w_fs (s_world s))).
Proof. exact cut_lists_fail. Qed.
Print Assumptions C82_cut_lists_refuted.

(** C83.  The calls of application, shared_library, static_library and objects are such a
    script: what they return and which modules they read does not depend on the lists, and
    their statements are those of the same items whatever is in the lists.  [sh cmd p]: what
    the shell command [cmd] leaves in file [p]. *)
Theorem C83_calls_of_modules_are_items :
  forall sh cwd home tool glob_ fuel dfile0 lib below top name target impl type default kw r o lib' ev,
  task home tool glob_ dfile0 fuel lib below top name target impl type default kw = Ok (r, o, lib', ev) ->
  exists its, Forall (compiled_item sh cwd) its /\ forall s : string -> option string, exists ev',
    task home tool glob_ (fun d => s (realpath cwd d)) fuel lib below top name target impl type default kw = Ok (r, o, lib', ev') /\
    map (event_stmt sh cwd home) ev' = script_at cwd its s.
Proof. exact task_items. Qed.
Print Assumptions C83_calls_of_modules_are_items.
Example C83_case :
  make_app app_kw None = Ok ([RTarget "app"], app_opts, app_lib, app_events) /\
  filter (fun e => match e with VRule RDepend _ _ _ _ _ _ | VRule RObject _ _ _ _ _ _ => true | _ => false end) app_events <> [].
Proof. split; [exact app_made|vm_compute; discriminate]. Qed.
