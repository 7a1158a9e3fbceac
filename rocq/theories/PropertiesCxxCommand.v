(** C92: the command line of a C++ project.  [commanded … l default ws th fs now … s]: a state
    of the build that the words [ws] start in a script of the statements [l] that ends with
    licant.ex(default); for a script with C++ sources (C82, C83, C89) the statements are those
    for the lists of headers that the process finds. *)
From Coq Require Import Relations.
From Verif Require Import PyBase PyPath SolverModel SpecGraph InvokerModel SpecTrace CoreModel SpecCore MakeModel UtilModel SpecMake
  RegModel CliModel SpecUtil SpecReg SpecProject SpecTrack SpecCxxTrack CxxTrack RegExamples ProjectExamples TrackExamples IdleProofs CxxIdle IdleExamples
  CommandModel SpecCommand CommandProofs CommandExamples SpecCxxCommand CxxCommandProofs CxxCommandExamples.
Local Open Scope string_scope.
Local Open Scope list_scope.

(** [python3 make.py] without words builds the default target. *)
Theorem C92_no_words_is_default : forall cwd home fs exists_ glob_ l, disk_ok cwd (present fs) exists_ -> in_order cwd home glob_ exists_ l ->
  forall other partial x th now kind c1 objs sv s, In (meaning cwd l x) (flat_map (makes cwd home glob_) l) ->
  building cwd home exists_ glob_ partial l (meaning cwd l x) th fs now kind c1 objs sv s <->
  commanded cwd home exists_ glob_ partial other l (Some x) [] th fs now kind c1 objs sv s.
Proof. exact building_default. Qed.
Print Assumptions C92_no_words_is_default.

(** Any command that makes a target runs a rule only if its file is needed and out of date,
    however far it gets ... *)
Theorem C92_only_what_needs_it :
  forall cwd home fs exists_ glob_ l, disk_ok cwd (present fs) exists_ -> in_order cwd home glob_ exists_ l ->
  let P := project_of cwd home glob_ l in
  forall other partial default ws x th now kind c1 objs sv s,
  calls_for cwd home glob_ l default ws x "makefile" -> In (meaning cwd l x) (flat_map (makes cwd home glob_) l) ->
  commanded cwd home exists_ glob_ partial other l default ws th fs now kind c1 objs sv s ->
  forall p b, is_rule P p -> In (p, b) (w_ran (s_world s)) -> p_cone P (meaning cwd l x) p /\ needs_update P fs p.
Proof. exact command_needed. Qed.
Print Assumptions C92_only_what_needs_it.
(** ... and has run all of these when it has succeeded ... *)
Theorem C92_exactly_what_needs_it :
  forall cwd home fs exists_ glob_ l, disk_ok cwd (present fs) exists_ -> in_order cwd home glob_ exists_ l ->
  let P := project_of cwd home glob_ l in
  forall other partial default ws x th now kind c1 objs sv s,
  calls_for cwd home glob_ l default ws x "makefile" -> In (meaning cwd l x) (flat_map (makes cwd home glob_) l) ->
  commanded cwd home exists_ glob_ partial other l default ws th fs now kind c1 objs sv s -> succeeded objs s ->
  forall p, is_rule P p -> In p (map fst (w_ran (s_world s))) <-> p_cone P (meaning cwd l x) p /\ needs_update P fs p.
Proof. exact command_exactly. Qed.
Print Assumptions C92_exactly_what_needs_it.
(** ... and if nothing is out of date it changes no file, runs no rule and fails nowhere. *)
Theorem C92_nothing_to_do :
  forall cwd home fs exists_ glob_ l, disk_ok cwd (present fs) exists_ -> in_order cwd home glob_ exists_ l ->
  let P := project_of cwd home glob_ l in
  forall other partial default ws x th now kind c1 objs sv s,
  calls_for cwd home glob_ l default ws x "makefile" -> In (meaning cwd l x) (flat_map (makes cwd home glob_) l) ->
  commanded cwd home exists_ glob_ partial other l default ws th fs now kind c1 objs sv s -> ~ needs_update P fs (meaning cwd l x) ->
  w_fs (s_world s) = fs /\ w_ran (s_world s) = [] /\
  (forall k r, In (EFinish k r) (s_log s) -> r = RNotFalse) /\ forall k, ~ In (ERaise k) (s_log s).
Proof. exact command_idle. Qed.
Print Assumptions C92_nothing_to_do.

(** [cxx_commands its fs now]: what edits, commands that make (finished, failed or killed) and
    commands that clean may have left, where interrupted list commands leave an empty list or
    nothing.  After a command that succeeds, every file that the target needs has the content
    that its rule makes of the files as they are now ... *)
Theorem C92_files_are_right :
  forall cwd home glob_ its, honest cwd home glob_ its ->
  forall fs now exists_ other default ws x th kind c1 objs sv s, cxx_commands cwd home glob_ (empty_list cwd its) its fs now ->
  disk_ok cwd (present fs) exists_ -> in_order cwd home glob_ exists_ (script_at cwd its (contents fs)) ->
  calls_for cwd home glob_ (script_at cwd its (contents fs)) default ws x "makefile" ->
  In (meaning cwd (script_at cwd its (contents fs)) x) (flat_map (makes cwd home glob_) (script_at cwd its (contents fs))) ->
  commanded cwd home exists_ glob_ true other (script_at cwd its (contents fs)) default ws th fs now kind c1 objs sv s -> succeeded objs s ->
  forall p, p_cone (project_at cwd home glob_ its (contents fs)) (meaning cwd (script_at cwd its (contents fs)) x) p ->
  forall b, rules_in cwd home glob_ its p = Some b ->
  exists v, b (contents (w_fs (s_world s))) = Some v /\ contents (w_fs (s_world s)) p = Some v.
Proof. exact command_right_now. Qed.
Print Assumptions C92_files_are_right.
(** ... and each object is what the compiler makes now of a source and the headers that it
    includes now, and depends on all of these from the next process on. *)
Theorem C92_objects_follow_their_headers :
  forall cwd home glob_ its, honest cwd home glob_ its ->
  forall fs now exists_ other default ws x th kind c1 objs sv s, cxx_commands cwd home glob_ (empty_list cwd its) its fs now ->
  disk_ok cwd (present fs) exists_ -> in_order cwd home glob_ exists_ (script_at cwd its (contents fs)) ->
  calls_for cwd home glob_ (script_at cwd its (contents fs)) default ws x "makefile" ->
  In (meaning cwd (script_at cwd its (contents fs)) x) (flat_map (makes cwd home glob_) (script_at cwd its (contents fs))) ->
  commanded cwd home exists_ glob_ true other (script_at cwd its (contents fs)) default ws th fs now kind c1 objs sv s -> succeeded objs s ->
  forall u, In (IUnit u) its ->
  p_cone (project_at cwd home glob_ its (contents fs)) (meaning cwd (script_at cwd its (contents fs)) x) (realpath cwd (u_obj u)) ->
  let s' := contents (w_fs (s_world s)) in
  exists l o, s' (realpath cwd (u_dep u)) = Some l /\ u_list u s' = Some l /\
    s' (realpath cwd (u_obj u)) = Some o /\ u_comp u s' = Some o /\
    forall h, In h (listed (Some l)) -> p_input (project_at cwd home glob_ its s') (realpath cwd (u_obj u)) (realpath cwd h).
Proof. exact command_unit. Qed.
Print Assumptions C92_objects_follow_their_headers.
(** A first command was killed while it made the list and left it empty, a second one has
    finished, and a.h was edited and now includes b.h.  The third command. *)
Example C92_case :
  honest "/w" "/h" ProjectExamples.no_glob xits /\ cxx_commands "/w" "/h" ProjectExamples.no_glob (empty_list "/w" xits) xits xfs2 xnow2 /\
  disk_ok "/w" (present xfs2) (on_path xdisk2) /\ in_order "/w" "/h" ProjectExamples.no_glob (on_path xdisk2) (script_at "/w" xits (contents xfs2)) /\
  calls_for "/w" "/h" ProjectExamples.no_glob (script_at "/w" xits (contents xfs2)) (Some "app") [] "app" "makefile" /\
  In (meaning "/w" (script_at "/w" xits (contents xfs2)) "app") (flat_map (makes "/w" "/h" ProjectExamples.no_glob) (script_at "/w" xits (contents xfs2))) /\
  (contents xfs2 "/w/a.d" = Some "a.o: a.c gen.h a.h" /\ contents xfs2 "/w/a.o" = Some "o:g,x" /\ contents xfs2 "/w/a.h" = Some "b") /\
  (exists kind c1 objs sv s,
  commanded "/w" "/h" (on_path xdisk2) ProjectExamples.no_glob true no_info (script_at "/w" xits (contents xfs2)) (Some "app") [] 1 xfs2 xnow2 kind c1 objs sv s /\
  succeeded objs s /\ contents (w_fs (s_world s)) "/w/a.d" = Some "a.o: a.c gen.h a.h b.h" /\ contents (w_fs (s_world s)) "/w/a.o" = Some "o:g,b,y") /\
  p_cone (project_at "/w" "/h" ProjectExamples.no_glob xits (contents xfs2)) (meaning "/w" (script_at "/w" xits (contents xfs2)) "app") "/w/a.o".
Proof.
  split; [exact xhonest|]. split; [exact zedited|]. split; [exact xdisk2_ok|]. split; [exact xorder2|]. split; [apply xcalls|]. split; [apply xasked|].
  split; [exact xedited_files|]. split; [exact zremade|]. rewrite xmean. exact (proj1 xcone).
Qed.
(** Cleaning is part of such histories, and removes the lists. *)
Example C92_clean_case : exists fs',
  cleaned "/w" "/h" (on_path xdisk2) ProjectExamples.no_glob no_info (script_at "/w" xits (contents xfs2)) (Some "app") ["app"; "clean"] 1 xfs2 fs' /\
  cxx_commands "/w" "/h" ProjectExamples.no_glob (empty_list "/w" xits) xits fs' xnow2 /\ contents fs' "/w/a.d" = None /\ contents fs' "/w/a.h" = Some "b".
Proof. exact zcleaned. Qed.

(** After a successful command files are changed, but not the lists, and another command makes
    something that the first one has made: a rule runs only if something that its file depends
    on, or the file itself, was changed.  (Not if forced rules, or sources that do not exist,
    are needed: C84.) *)
Theorem C92_after_changes :
  forall cwd home glob_ its, honest cwd home glob_ its ->
  forall fs now exists_ other default ws x th kind c1 objs sv s, cxx_commands cwd home glob_ (empty_list cwd its) its fs now ->
  disk_ok cwd (present fs) exists_ -> in_order cwd home glob_ exists_ (script_at cwd its (contents fs)) ->
  calls_for cwd home glob_ (script_at cwd its (contents fs)) default ws x "makefile" ->
  In (meaning cwd (script_at cwd its (contents fs)) x) (flat_map (makes cwd home glob_) (script_at cwd its (contents fs))) ->
  commanded cwd home exists_ glob_ true other (script_at cwd its (contents fs)) default ws th fs now kind c1 objs sv s -> succeeded objs s ->
  let fs' := w_fs (s_world s) in let P' := project_at cwd home glob_ its (contents fs') in let t := meaning cwd (script_at cwd its (contents fs)) x in
  (forall st p ds b, In (IStmt st) its -> rule_of cwd home glob_ st = Some (p, ds, (true, b)) -> ~ p_cone P' t p) ->
  (forall p, p_cone P' t p -> P' p = Some DSource -> contents fs' p <> None) ->
  forall fs2 exists_2, disk_ok cwd (present fs2) exists_2 -> in_order cwd home glob_ exists_2 (script_at cwd its (contents fs2)) ->
  (forall u, In (IUnit u) its -> contents fs2 (realpath cwd (u_dep u)) = contents fs' (realpath cwd (u_dep u))) ->
  forall partial other2 default2 ws2 y th2 now2 kind2 c2 objs2 sv2 s2,
  calls_for cwd home glob_ (script_at cwd its (contents fs2)) default2 ws2 y "makefile" ->
  In (meaning cwd (script_at cwd its (contents fs2)) y) (flat_map (makes cwd home glob_) (script_at cwd its (contents fs2))) ->
  p_cone P' t (meaning cwd (script_at cwd its (contents fs2)) y) ->
  commanded cwd home exists_2 glob_ partial other2 (script_at cwd its (contents fs2)) default2 ws2 th2 fs2 now2 kind2 c2 objs2 sv2 s2 ->
  forall p b, is_rule P' p -> In (p, b) (w_ran (s_world s2)) -> exists q, p_cone P' p q /\ is_file P' q /\ fs2 q <> fs' q.
Proof. exact next_command. Qed.
Print Assumptions C92_after_changes.
(** If nothing was changed the command changes nothing and runs no rule. *)
Theorem C92_second_command_is_idle :
  forall cwd home glob_ its, honest cwd home glob_ its ->
  forall fs now exists_ other default ws x th kind c1 objs sv s, cxx_commands cwd home glob_ (empty_list cwd its) its fs now ->
  disk_ok cwd (present fs) exists_ -> in_order cwd home glob_ exists_ (script_at cwd its (contents fs)) ->
  calls_for cwd home glob_ (script_at cwd its (contents fs)) default ws x "makefile" ->
  In (meaning cwd (script_at cwd its (contents fs)) x) (flat_map (makes cwd home glob_) (script_at cwd its (contents fs))) ->
  commanded cwd home exists_ glob_ true other (script_at cwd its (contents fs)) default ws th fs now kind c1 objs sv s -> succeeded objs s ->
  let fs' := w_fs (s_world s) in let P' := project_at cwd home glob_ its (contents fs') in let t := meaning cwd (script_at cwd its (contents fs)) x in
  (forall st p ds b, In (IStmt st) its -> rule_of cwd home glob_ st = Some (p, ds, (true, b)) -> ~ p_cone P' t p) ->
  (forall p, p_cone P' t p -> P' p = Some DSource -> contents fs' p <> None) ->
  forall exists_2, disk_ok cwd (present fs') exists_2 -> in_order cwd home glob_ exists_2 (script_at cwd its (contents fs')) ->
  forall partial other2 default2 ws2 y th2 now2 kind2 c2 objs2 sv2 s2,
  calls_for cwd home glob_ (script_at cwd its (contents fs')) default2 ws2 y "makefile" ->
  In (meaning cwd (script_at cwd its (contents fs')) y) (flat_map (makes cwd home glob_) (script_at cwd its (contents fs'))) ->
  p_cone P' t (meaning cwd (script_at cwd its (contents fs')) y) ->
  commanded cwd home exists_2 glob_ partial other2 (script_at cwd its (contents fs')) default2 ws2 th2 fs' now2 kind2 c2 objs2 sv2 s2 ->
  w_fs (s_world s2) = fs' /\ w_ran (s_world s2) = [].
Proof. exact next_command_idle. Qed.
Print Assumptions C92_second_command_is_idle.
(** A fourth command, when nothing was changed. *)
Example C92_idle_case :
  (exists kind c1 objs sv s,
    commanded "/w" "/h" (on_path xdisk2) ProjectExamples.no_glob true no_info (script_at "/w" xits (contents xfs2)) (Some "app") [] 1 xfs2 xnow2 kind c1 objs sv s /\
    succeeded objs s /\ w_fs (s_world s) = xfs3) /\
  (forall st p ds b, In (IStmt st) xits -> rule_of "/w" "/h" ProjectExamples.no_glob st = Some (p, ds, (true, b)) ->
    ~ p_cone (project_at "/w" "/h" ProjectExamples.no_glob xits (contents xfs3)) (meaning "/w" (script_at "/w" xits (contents xfs2)) "app") p) /\
  (forall p, p_cone (project_at "/w" "/h" ProjectExamples.no_glob xits (contents xfs3)) (meaning "/w" (script_at "/w" xits (contents xfs2)) "app") p ->
    project_at "/w" "/h" ProjectExamples.no_glob xits (contents xfs3) p = Some DSource -> contents xfs3 p <> None) /\
  disk_ok "/w" (present xfs3) (on_path xdisk2) /\ in_order "/w" "/h" ProjectExamples.no_glob (on_path xdisk2) (script_at "/w" xits (contents xfs3)) /\
  exists kind c1 objs sv s,
    commanded "/w" "/h" (on_path xdisk2) ProjectExamples.no_glob true no_info (script_at "/w" xits (contents xfs3)) (Some "app") [] 1 xfs3 xnow3 kind c1 objs sv s /\ succeeded objs s.
Proof.
  split; [exact zbuilt|]. rewrite xmean. split; [exact xno_force|]. split; [exact xsources|]. split; [exact xdisk3_ok|]. split; [exact xorder3|exact zidle].
Qed.
