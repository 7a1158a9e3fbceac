(** Vocabulary: commands (C90). *)
From Verif Require Import PyBase PyPath InvokerModel MakeModel SpecMake RegModel CliModel SpecReg SpecProject CommandModel.
Local Open Scope string_scope.
Local Open Scope list_scope.

(** The word names nothing that the script declares, mentions or needs as a directory. *)
Definition free_word (cwd home : string) (glob_ : string -> list string) (l : list stmt) (w : string) : Prop :=
  is_name l w = false /\ ~ is_file (project_of cwd home glob_ l) (realpath cwd w) /\
  forall s p, In s l -> In p (places_of home s) -> ~ above (realpath cwd w) (realpath cwd p).

(** The words of a command line ask for the action [act] of the target that the script
    calls [x].  [default]: the argument of licant.ex. *)
Inductive calls_for (cwd home : string) (glob_ : string -> list string) (l : list stmt) (default : option string) : list string -> string -> string -> Prop :=
| cf_default x : default = Some x -> calls_for cwd home glob_ l default [] x "makefile"
| cf_target x : has_star x = false -> calls_for cwd home glob_ l default [x] x "makefile"
| cf_action x act : has_star x = false -> In act ["makefile"; "clean"] -> calls_for cwd home glob_ l default [x; act] x act
| cf_default_action x act : default = Some x -> In act ["makefile"; "clean"] -> free_word cwd home glob_ l act ->
    calls_for cwd home glob_ l default [act] x act.

(** Everything that happens around a script that is used by its command line: edits, commands that
    make some declared target, up to any state of the build, and commands that clean. *)
Inductive command_history (cwd home : string) (glob_ : string -> list string) (l : list stmt) : fsys -> nat -> Prop :=
| ch_start fs now : dated fs now ->
    (forall p, is_rule (project_of cwd home glob_ l) p -> fs p = None) ->
    (forall p m, is_file (project_of cwd home glob_ l) p -> fs p <> Some (m, Dir)) -> command_history cwd home glob_ l fs now
| ch_outside fs now fs' now' : command_history cwd home glob_ l fs now ->
    outside_step (project_of cwd home glob_ l) fs now fs' now' -> command_history cwd home glob_ l fs' now'
| ch_makefile fs now exists_ other default ws x th kind c1 objs sv s : command_history cwd home glob_ l fs now ->
    disk_ok cwd (present fs) exists_ -> in_order cwd home glob_ exists_ l ->
    calls_for cwd home glob_ l default ws x "makefile" -> In (meaning cwd l x) (flat_map (makes cwd home glob_) l) ->
    commanded cwd home exists_ glob_ false other l default ws th fs now kind c1 objs sv s ->
    command_history cwd home glob_ l (w_fs (s_world s)) (w_now (s_world s))
| ch_clean fs now exists_ other default ws x th fs' : command_history cwd home glob_ l fs now ->
    disk_ok cwd (present fs) exists_ -> in_order cwd home glob_ exists_ l ->
    calls_for cwd home glob_ l default ws x "clean" -> In (meaning cwd l x) (flat_map (makes cwd home glob_) l) ->
    cleaned cwd home exists_ glob_ other l default ws th fs fs' -> command_history cwd home glob_ l fs' now.
