(** Vocabulary for statements about whole build scripts: the statements of a script for the
    default core, the project that a reader takes them to describe, and when a script is in
    order.  Nothing here mentions registries or targets. *)
From Coq Require Import Permutation.
From Verif Require Import PyBase PyPath SolverModel SpecGraph InvokerModel CoreModel SpecCore MakeModel RegModel CliModel SpecUtil SpecMake SpecReg.
Local Open Scope string_scope.
Local Open Scope list_scope.

Inductive stmt :=
| SSource (p : string)                                                  (* source(p) *)
| SRule (force : bool) (tgt : string) (deps : list string) (build : buildfun)  (* makefile(tgt, deps, func, force=...) *)
| SCopy (tgt src : string) (adddeps : list string) (build : buildfun)   (* copy(tgt, src, adddeps) *)
| SSet (name : string) (deps : list string)                             (* fileset(name, deps) *)
| STarget (upd : bool) (name : string) (deps : list string).            (* core.target, core.updtarget, @routine *)
Definition op_of (s : stmt) : mop :=
  match s with
  | SSource p => OSourceFn p
  | SRule f t ds b => OMakefile f t ds b
  | SCopy t s ds b => OCopyFn t s ds b
  | SSet nm ds => OSet nm ds []
  | STarget u nm ds => OTarget u nm ds
  end.
(** What [import licant] itself puts into the default core before the first statement of the
    script runs: four plain targets and the script [argv0] as a source (cxx_make.py:320-326,
    scripter.py:10, modules.py:189-198, cxx_modules.py:628-638, libs.py:112-123; the order is
    that of the imports in __init__.py:3-23). *)
Definition importing (argv0 : string) : list stmt :=
  [STarget false "binutils" []; SSource argv0; STarget false "m" []; STarget false "cxxm" []; STarget false "l" []].
Definition built_in (nm : string) : Prop := In nm ["binutils"; "m"; "cxxm"; "l"].

Section Project.
  Variables (cwd home : string) (glob_ : string -> list string).

  (** The rule for a file: its path, its dependencies as written (names with a star stand
      for the files that they match), whether it is always run, and its function. *)
  Definition rule_of (s : stmt) : option (string * list string * (bool * buildfun)) :=
    match s with
    | SRule f t ds b => Some (realpath cwd t, expand_names glob_ ds, (f, b))
    | SCopy t s ds b => Some (realpath cwd (expanduser home t), expand_names glob_ (expanduser home s :: ds), (false, b))
    | _ => None
    end.
  Definition set_of (s : stmt) : option (string * list string) :=
    match s with SSet nm ds => Some (nm, expand_names glob_ ds) | _ => None end.
  (** Targets that are neither files nor file sets: routines, and targets with actions. *)
  Definition other_of (s : stmt) : option (bool * string * list string) :=
    match s with STarget u nm ds => Some (u, nm, expand_names glob_ ds) | _ => None end.
  (** Names declared to be sources. *)
  Definition sources_of (s : stmt) : list string :=
    match s with SSource p => [p] | SCopy _ s _ _ => [expanduser home s] | _ => [] end.
  Definition deps_of (s : stmt) : list string :=
    match s with
    | SSource _ => []
    | SRule _ _ ds _ | SSet _ ds | STarget _ _ ds => expand_names glob_ ds
    | SCopy _ s ds _ => expand_names glob_ (expanduser home s :: ds)
    end.
  Definition mentions (s : stmt) : list string := sources_of s ++ deps_of s.
  (** What the statement makes: a file with a rule, or a file set. *)
  Definition makes (s : stmt) : list string :=
    match rule_of s, set_of s with
    | Some (p, _, _), _ => [p]
    | None, Some (nm, _) => [nm]
    | None, None => []
    end.
  (** What the statement declares. *)
  Definition declares (s : stmt) : list string :=
    makes s ++ match other_of s with Some (_, nm, _) => [nm] | None => [] end.

  (** A name means the file set or other target of that name, if there is one in the script,
      and a file otherwise. *)
  Definition is_name (l : list stmt) (nm : string) : bool :=
    existsb (fun s => match s with SSet n _ | STarget _ n _ => String.eqb n nm | _ => false end) l.
  Definition meaning (l : list stmt) (d : string) : string := if is_name l d then d else realpath cwd d.

  Definition decl_of (l : list stmt) (s : stmt) (p : string) : option decl :=
    match rule_of s, set_of s with
    | Some (q, ds, r), _ => if String.eqb q p then Some (DRule (fst r) (map (meaning l) ds) (snd r)) else None
    | None, Some (q, ds) => if String.eqb q p then Some (DSet (map (meaning l) ds)) else None
    | None, None => None
    end.
  Fixpoint first_decl (l l' : list stmt) (p : string) : option decl :=
    match l' with
    | [] => None
    | s :: l' => match decl_of l s p with Some d => Some d | None => first_decl l l' p end
    end.
  (** The project described by the script: declared files and file sets are as declared,
      other files that are mentioned are sources. *)
  Definition project_of (l : list stmt) : project := fun p =>
    match first_decl l l p with
    | Some d => Some d
    | None => if is_name l p then None
              else if existsb (fun d => String.eqb (meaning l d) p) (flat_map mentions l) then Some DSource else None
    end.

  (** Paths that the script writes or declares. *)
  Definition places_of (s : stmt) : list string :=
    match s with
    | SSource p => [p]
    | SRule _ t _ _ => [t]
    | SCopy t s _ _ => [expanduser home t; expanduser home s]
    | SSet _ _ | STarget _ _ _ => []
    end.

  (** A script in order: nothing is declared twice, things are declared before they are
      mentioned, what is not declared exists, files do not lie in files, targets that are
      neither files nor file sets are mentioned by such targets only, and not mentioned at
      all if they cannot be updated. *)
  Record in_order (exists_ : string -> bool) (l : list stmt) : Prop := {
    io_cwd : has_star cwd = false;
    io_star : forall s p, In s l -> In p (places_of s) -> has_star p = false;
    io_once : NoDup (flat_map declares l);
    io_names : forall nm, is_name l nm = true -> starts_slash nm = false;
    io_others : forall s d u ds, In s l -> In d (mentions s) -> In (STarget u d ds) l -> u = true /\ other_of s <> None;
    io_before : forall l1 s l2 d, l = l1 ++ s :: l2 -> In d (mentions s) ->
      In (meaning l d) (flat_map declares l) -> In (meaning l d) (flat_map declares l1);
    io_there : forall s d, In s l -> In d (deps_of s) ->
      In (meaning l d) (flat_map declares l) \/ In (meaning l d) (map (meaning l) (flat_map sources_of l)) \/ exists_ d = true;
    io_files : forall s p a, In s l -> In p (places_of s) -> above a (realpath cwd p) -> ~ is_file (project_of l) a }.

  (** The script does not use the names of the built-in targets, and its own path is not one
      of its outputs, nor a directory of one of its files. *)
  Record clear_of_import (argv0 : string) (l : list stmt) : Prop := {
    ci_mentions : forall s d, In s l -> In d (mentions s) -> ~ built_in d;
    ci_names : forall nm, is_name l nm = true -> ~ built_in nm;
    ci_star : has_star argv0 = false;
    ci_script : is_name l argv0 = false /\ ~ built_in argv0;
    ci_output : ~ In (realpath cwd argv0) (flat_map declares l);
    ci_below : forall s p, In s (SSource argv0 :: l) -> In p (places_of s) -> ~ above (realpath cwd argv0) (realpath cwd p);
    ci_above : forall a, above a (realpath cwd argv0) -> ~ is_file (project_of l) a }.
End Project.

(** State [s] of a build: a process has read the script [l] for the default core, got [th]
    threads from the command line, and was asked to make [x].  [fs]: the file system when
    the process started, at time [now].  [c1]: the registry after the evaluation, [kind]:
    the kinds of its targets, [objs]: the targets that take part, [sv]: their solver. *)
Definition building cwd home exists_ glob_ partial (l : list stmt) (x : string) (th : Z) (fs : fsys) (now : nat)
           (kind : nat -> mkind) (c1 : core) (objs : list nat) (sv : solver) (s : state world) : Prop :=
  let canon := realpath cwd in
  exists fuel st i other_if fuel' ca1 order so,
    mrun canon exists_ glob_ home fuel 0 (map op_of l) [empty_reg] = Ok st /\
    kind = kind_of (reg st 0) /\
    core_get canon (fst (reg st 0)) x = Ok i /\
    mevaluate canon kind other_if fs fuel' (set_threads (fst (reg st 0)) th, []) = Ok (c1, ca1) /\
    (forall k, Permutation k (order k)) /\ fair_order so /\
    recurse_update canon c1 order so i None = RuExec objs sv /\
    exec_reaches sv (mk_task canon kind partial c1 objs) (WD fs ca1 now now []) s.

(** No rule of the project has failed so far. *)
Definition no_rule_failed (P : project) (w : world) : Prop := forall p, is_rule P p -> ~ In (p, false) (w_ran w).

(** No file lies where the script needs a directory. *)
Definition dirs_free (cwd home : string) (l : list stmt) (fs : fsys) : Prop :=
  forall s p a m v, In s l -> In p (places_of home s) -> above a (realpath cwd p) -> fs a <> Some (m, Reg v).

(** Everything that happens around a script: outputs are absent at first, files that no rule
    of the script makes are edited, and processes read the script and make some declared
    target, up to any state of the build. *)
Inductive script_history (cwd home : string) (glob_ : string -> list string) (l : list stmt) : fsys -> nat -> Prop :=
| sh_start fs now : dated fs now ->
    (forall p, is_rule (project_of cwd home glob_ l) p -> fs p = None) ->
    (forall p m, is_file (project_of cwd home glob_ l) p -> fs p <> Some (m, Dir)) -> script_history cwd home glob_ l fs now
| sh_outside fs now fs' now' : script_history cwd home glob_ l fs now ->
    outside_step (project_of cwd home glob_ l) fs now fs' now' -> script_history cwd home glob_ l fs' now'
| sh_process fs now exists_ x th kind c1 objs sv s : script_history cwd home glob_ l fs now ->
    disk_ok cwd (present fs) exists_ -> in_order cwd home glob_ exists_ l -> In x (flat_map (makes cwd home glob_) l) ->
    building cwd home exists_ glob_ false l x th fs now kind c1 objs sv s ->
    script_history cwd home glob_ l (w_fs (s_world s)) (w_now (s_world s)).
