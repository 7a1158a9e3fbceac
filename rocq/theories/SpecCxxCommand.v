(** Vocabulary: scripts with C++ sources, used by the command line (C92). *)
From Verif Require Import PyBase PyPath InvokerModel MakeModel SpecMake RegModel CliModel SpecReg SpecProject CommandModel SpecCommand SpecTrack SpecCxxTrack.
Local Open Scope string_scope.
Local Open Scope list_scope.

(** Everything that happens around such a script: files that no rule makes are edited, anything
    is deleted, and commands read the script, whose statements depend on the lists of headers
    that they find, and make or clean some declared target.  Processes that make may end in
    any state of the build; rules that fail or are killed leave nothing in their files but
    [junk]. *)
Inductive cxx_commands (cwd home : string) (glob_ : string -> list string) (junk : string -> string -> Prop) (its : list item) : fsys -> nat -> Prop :=
| cc_start fs now : dated fs now -> (forall p, rules_in cwd home glob_ its p <> None -> fs p = None) ->
    cxx_commands cwd home glob_ junk its fs now
| cc_outside fs now fs' now' : cxx_commands cwd home glob_ junk its fs now ->
    track_outside (rules_in cwd home glob_ its) fs now fs' now' -> cxx_commands cwd home glob_ junk its fs' now'
| cc_makefile fs now exists_ other default ws x th kind c1 objs sv s fs' now' : cxx_commands cwd home glob_ junk its fs now ->
    disk_ok cwd (present fs) exists_ -> in_order cwd home glob_ exists_ (script_at cwd its (contents fs)) ->
    calls_for cwd home glob_ (script_at cwd its (contents fs)) default ws x "makefile" ->
    In (meaning cwd (script_at cwd its (contents fs)) x) (flat_map (makes cwd home glob_) (script_at cwd its (contents fs))) ->
    commanded cwd home exists_ glob_ true other (script_at cwd its (contents fs)) default ws th fs now kind c1 objs sv s ->
    leaves_junk junk (s_world s) -> left_by (rules_in cwd home glob_ its) junk c1 objs s fs' now' ->
    cxx_commands cwd home glob_ junk its fs' now'
| cc_clean fs now exists_ other default ws x th fs' : cxx_commands cwd home glob_ junk its fs now ->
    disk_ok cwd (present fs) exists_ -> in_order cwd home glob_ exists_ (script_at cwd its (contents fs)) ->
    calls_for cwd home glob_ (script_at cwd its (contents fs)) default ws x "clean" ->
    In (meaning cwd (script_at cwd its (contents fs)) x) (flat_map (makes cwd home glob_) (script_at cwd its (contents fs))) ->
    cleaned cwd home exists_ glob_ other (script_at cwd its (contents fs)) default ws th fs fs' ->
    cxx_commands cwd home glob_ junk its fs' now.
