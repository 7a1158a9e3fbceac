(** Model of the choice of a toolchain: licant/cxx_make.py:8-12, 71-116, licant/cli.py:54-73 and
    the places that keep a toolchain when licant is imported. *)
From Verif Require Import PyBase PyPath UtilModel RegModel ModulesModel CxxModel.
Local Open Scope string_scope.
Local Open Scope list_scope.

(** cxx_make.py:84-106 [options] with no other argument than [toolchain]: flag_prefix of None is
    the empty string.  [name] is the value of DEFAULT_TOOLCHAIN (8). *)
Definition new_options (name : string) (given : option toolchain) : res cxxopts :=
  do! t <- (match given with Some t => Ok t | None => default_toolchain name end);
  Ok (CO t "" "" "" "" "" "" "" "").

(** What a process keeps.  [pr_name] is DEFAULT_TOOLCHAIN; [pr_memo] holds the flags
    --clang_toolchain and --gcc_toolchain of cli.opts; [pr_table] is the default of the option
    toolchain of C++ modules (cxx_modules.py:145); [pr_args] is the default argument opts=options()
    of object, qt_moc, qt_uic, depend, executable, dynamic_library and static_library
    (cxx_make.py:129, 161, 177, 193, 237, 250, 263).  Python evaluates the latter two once, when
    the module is imported. *)
Record proc : Type := PR {
  pr_name : string; pr_memo : option (bool * bool); pr_table : toolchain; pr_args : cxxopts }.
(** import licant: cxx_make.py:8, and licant/__init__.py:3-23 imports cxx_make and cxx_modules, so
    that nothing can be called in between. *)
Definition imported : res proc :=
  do! t <- default_toolchain "std";
  do! o <- new_options "std" None;
  Ok (PR "std" None t o).

(** What a script or the command line can do to it: cli.parse(argv) (called by licant.ex as well,
    cli.py:139) and set_default_toolchain(name). *)
Inductive pcall : Type := PParse (argv : list string) | PSet (name : string).
Section Calls.
  Variable flags_of : list string -> res (bool * bool).   (* argparse: (clang, gcc) *)
  (** cxx_make.py:10-12 *)
  Definition set_default_toolchain (p : proc) (name : string) : proc :=
    PR name (pr_memo p) (pr_table p) (pr_args p).
  (** cli.py:60-73 *)
  Definition parse_tools (p : proc) (argv : list string) : res proc :=
    do! f <- (match pr_memo p with Some f => Ok f | None => flags_of argv end);
    let p1 := PR (pr_name p) (Some f) (pr_table p) (pr_args p) in
    let p2 := if fst f then set_default_toolchain p1 "clang" else p1 in
    Ok (if snd f then set_default_toolchain p2 "gcc" else p2).
  Definition pcall_step (p : proc) (a : pcall) : res proc :=
    match a with
    | PParse argv => parse_tools p argv
    | PSet name => Ok (set_default_toolchain p name)
    end.
  Definition pcalls (l : list pcall) : res proc := do! p <- imported; fold_res pcall_step l p.
End Calls.

(** cxx_make.py:129-158 [object] and 237-247 [executable], called by a script without the
    arguments type and deps. *)
Definition or_default (p : proc) (o : option cxxopts) : cxxopts :=
  match o with Some o => o | None => pr_args p end.
Definition call_object (p : proc) (src tgt : string) (o : option cxxopts) : res event :=
  object src tgt (or_default p o) [src].
Definition call_executable (p : proc) (tgt : string) (srcs : list string) (o : option cxxopts) : event :=
  VRule RLink tgt (String.concat " " srcs) srcs execrule (or_default p o) false.
