(** Vocabulary for scripts that use a core of their own, an object of class MakeCore
    (make.py:286-378), instead of the functions for the default core. *)
From Coq Require Import Permutation.
From Verif Require Import PyBase PyPath SolverModel SpecGraph InvokerModel CoreModel SpecCore MakeModel RegModel CliModel SpecUtil SpecMake SpecReg
  SpecProject.
Local Open Scope string_scope.
Local Open Scope list_scope.

(** The statement that a call makes about the core of the script; calls of the functions for
    the default core make none. *)
Definition core_stmt (home : string) (o : mop) : list stmt :=
  match o with
  | OFtarget tgt b deps => [SRule false (expanduser home tgt) deps b]
  | OCopy src dst b deps => [SCopy dst src deps b]
  | OSource src => [SSource src]
  | OSet nm ts deps => [SSet nm (deps ++ ts)]
  | OTarget u nm deps => [STarget u nm deps]
  | OMakefile _ _ _ _ | OCopyFn _ _ _ _ | OSourceFn _ => []
  end.
Definition core_script (home : string) (ops : list mop) : list stmt := flat_map (core_stmt home) ops.

(** The path of the output. *)
Definition out_of (home : string) (s : stmt) : list string :=
  match s with SRule _ t _ _ => [t] | SCopy t _ _ _ => [expanduser home t] | _ => [] end.

(** The calls are in order: the statements are, everything a target depends on is declared in
    the same core, outputs end in a file name, sources are written without a tilde, and no
    file set or other target has the name of a directory on the way to a file. *)
Record core_in_order cwd home glob_ exists_ (ops : list mop) : Prop := {
  co_script : in_order cwd home glob_ exists_ (core_script home ops);
  co_own : forall s d, In s (core_script home ops) -> In d (deps_of home glob_ s) ->
    In (meaning cwd (core_script home ops) d) (flat_map (declares cwd home glob_) (core_script home ops)) \/
    In (meaning cwd (core_script home ops) d) (map (meaning cwd (core_script home ops)) (flat_map (sources_of home) (core_script home ops)));
  co_outs : forall s p, In s (core_script home ops) -> In p (out_of home s) -> file_name (basename p);
  co_tilde : forall s p, In s (core_script home ops) -> In p (sources_of home s) -> expanduser home p = p;
  co_names : forall s p nm, In s (core_script home ops) -> In p (places_of home s) -> is_name (core_script home ops) nm = true ->
    ~ above (realpath cwd nm) (realpath cwd p) }.

(** What the script put into runtime["threads"] of its core. *)
Definition with_runtime (c : core) (rt : option Z) : core := CO (c_targets c) (c_heap c) (c_lazy c) rt.

(** State [s] of a build: a process has made the calls [ops], those of methods on core number
    [k] of [n] (core 0 is the default core), and has asked that core to make [x].  [rt]:
    runtime["threads"] of the core, [th]: the argument of recurse_update, which is 1 for
    the action "makefile" (make.py:99-100, core.py:364).  [fs], [now], [kind], [c1], [objs],
    [sv]: as in [building]. *)
Definition core_building cwd home exists_ glob_ partial (ops : list mop) (k n : nat) (x : string) (rt th : option Z) (fs : fsys) (now : nat)
           (kind : nat -> mkind) (c1 : core) (objs : list nat) (sv : solver) (s : state world) : Prop :=
  let canon := realpath cwd in
  exists fuel st i other_if fuel' ca1 order so,
    mrun canon exists_ glob_ home fuel k ops (repeat empty_reg n) = Ok st /\
    kind = kind_of (reg st k) /\
    core_get canon (fst (reg st k)) x = Ok i /\
    mevaluate canon kind other_if fs fuel' (with_runtime (fst (reg st k)) rt, []) = Ok (c1, ca1) /\
    (forall l, Permutation l (order l)) /\ fair_order so /\
    recurse_update canon c1 order so i th = RuExec objs sv /\
    exec_reaches sv (mk_task canon kind partial c1 objs) (WD fs ca1 now now []) s.

(** The number of threads of such a build. *)
Definition threads_of (rt th : option Z) : option Z := match rt with Some t => Some t | None => th end.

(** Everything that happens around the calls [ops]: outputs are absent at first, files that no
    rule makes are edited, and processes make the calls and build, up to any state. *)
Inductive core_history (cwd home : string) (glob_ : string -> list string) (ops : list mop) (k n : nat) : fsys -> nat -> Prop :=
| ch_start fs now : dated fs now ->
    (forall p, is_rule (project_of cwd home glob_ (core_script home ops)) p -> fs p = None) ->
    (forall p m, is_file (project_of cwd home glob_ (core_script home ops)) p -> fs p <> Some (m, Dir)) -> core_history cwd home glob_ ops k n fs now
| ch_outside fs now fs' now' : core_history cwd home glob_ ops k n fs now ->
    outside_step (project_of cwd home glob_ (core_script home ops)) fs now fs' now' -> core_history cwd home glob_ ops k n fs' now'
| ch_process fs now exists_ x rt th kind c1 objs sv s : core_history cwd home glob_ ops k n fs now ->
    disk_ok cwd (present fs) exists_ -> core_in_order cwd home glob_ exists_ ops ->
    In x (flat_map (makes cwd home glob_) (core_script home ops)) -> threads_of rt th <> None ->
    core_building cwd home exists_ glob_ false ops k n x rt th fs now kind c1 objs sv s ->
    core_history cwd home glob_ ops k n (w_fs (s_world s)) (w_now (s_world s)).
