(** Model of the command line on a registry of make.py: licant/cli.py:86-128, licant/core.py:264-297,
    licant/make.py:81-97, 117-119. *)
From Coq Require Import Permutation.
From Verif Require Import PyBase PyPath SolverModel SpecGraph InvokerModel SpecTrace CoreModel MakeModel RegModel CliModel SpecReg SpecProject.
Local Open Scope string_scope.
Local Open Scope list_scope.

(** The classes of make.py as the command line sees them: 82-97 [MakeFileTarget], 117-184
    [FileTarget].  [build] is an Executor, a DirectoryKeeper or a function of the target (the arity
    of functions of the user is not modelled); [clr] is None for sources (217), but is an attribute
    of the class. *)
Definition makefile_actions : list string := updatable_actions ++ ["actlist"; "makefile"; "clean"].
Definition makefile_attrs : list (string * attr) :=
  [("clean", AMethod (exactly 0)); ("makefile", AMethod (exactly 0)); ("is_file", AMethod (exactly 0)); ("mtime", AMethod (exactly 0))] ++ updatable_attrs.
Definition file_actions : list string := makefile_actions ++ ["build"; "clr"].
Definition file_attrs : list (string * attr) :=
  [("update_info", AMethod (exactly 0)); ("is_exist", AMethod (exactly 0)); ("exists", AMethod (exactly 0)); ("warn_if_not_exist", AMethod (exactly 0));
   ("clr", AMethod (exactly 0)); ("internal_update_if", AMethod (exactly 0)); ("update", AMethod (exactly 0)); ("build", ACallable (exactly 1));
   ("isfile", AValue); ("force", AValue); ("clrmsg", AValue)] ++ makefile_attrs.
Definition source_attrs : list (string * attr) := [("clr", AValue); ("dirkeep", ACallable (AR 0 None))] ++ file_attrs.
Definition makefile_info : tinfo := TI false "makefile" makefile_actions (lookup makefile_attrs).
Definition file_info : tinfo := TI false "makefile" file_actions (lookup file_attrs).
Definition source_info : tinfo := TI false "makefile" file_actions (lookup source_attrs).
(** [other]: the targets of core.py. *)
Definition info_of (kind : nat -> mkind) (other : nat -> tinfo) (i : nat) : tinfo :=
  match kind i with
  | MFile _ _ | MDir => file_info
  | MSource => source_info
  | MSet => makefile_info
  | MOther => other i
  end.

(** cli.py:86-128 up to the call of invoke: the registry (core.has adds names), the target, the
    action and its arguments. *)
Definition dispatch (canon : string -> string) (info : nat -> tinfo) (c : core) (default : option string) (args : list string)
    : res (core * nat * string * list string) :=
  match args with
  | [] =>
      match default with
      | None => Raise (SystemExit "default target isn't set")
      | Some d => do! i <- core_get canon c d; Ok (c, i, i_default (info i), [])
      end
  | fnd :: rest =>
      let '(b, c1) := core_has canon c fnd in
      if b then
        do! i <- core_get canon c1 fnd;
        match rest with
        | [] => Ok (c1, i, i_default (info i), [])
        | act :: more =>
            if i_routine (info i) then Ok (c1, i, i_default (info i), rest)
            else if hasaction (i_actions (info i)) act then do! a <- bind_star more; Ok (c1, i, act, a)
            else Raise (SystemExit "is not action of target")
        end
      else
        do! found <-
          match default with
          | None => Ok None
          | Some d => do! i <- core_get canon c1 d; Ok (if hasaction (i_actions (info i)) fnd then Some i else None)
          end;
        match found with
        | Some i => do! a <- bind_star rest; Ok (c1, i, fnd, a)
        | None => Raise (SystemExit "Can't find routine")
        end
  end.

(** core.py:286-297: the attribute must exist and take the arguments. *)
Definition check_call (t : tinfo) (funcname : string) (args : list string) : res unit :=
  match i_attr t funcname with
  | None => Raise (PlainException "WrongAction")
  | Some (AMethod a) => if takes a (List.length args) then Ok tt else Raise (TypeError funcname)
  | Some (ACallable a) => if takes a (S (List.length args)) then Ok tt else Raise (TypeError funcname)
  | Some AValue => Raise (TypeError "not callable")
  end.

(** A command on a registry of files: what is called, and the registry and the cache of file
    information at that moment.  As CliModel.cli, but the evaluation is that of make.py. *)
Record mcall := MC { q_obj : nat; q_act : string; q_args : list string; q_core : core; q_cache : cache }.
Definition mcli canon kind other_if (fs : fsys) (fuel : nat) (other : nat -> tinfo) (c : core) (default : option string) (args : list string) : res mcall :=
  do! (c1, i, act, a) <- dispatch canon (info_of kind other) c default args;
  do! (c2, ca) <- mevaluate canon kind other_if fs fuel (c1, []);
  do! _ <- check_call (info_of kind other i) act a;
  Ok (MC i act a c2 ca).

(** State [s] of a build started by a command: a process has read the script [l], and the command
    line has given [th] threads and the words [ws]; [makefile] (make.py:95-96) is
    recurse_update. *)
Definition commanded cwd home exists_ glob_ partial other (l : list stmt) (default : option string) (ws : list string) (th : Z) (fs : fsys) (now : nat)
           (kind : nat -> mkind) (c1 : core) (objs : list nat) (sv : solver) (s : state world) : Prop :=
  let canon := realpath cwd in
  exists fuel st i other_if fuel' ca1 order so,
    mrun canon exists_ glob_ home fuel 0 (map op_of l) [empty_reg] = Ok st /\
    kind = kind_of (reg st 0) /\
    mcli canon kind other_if fs fuel' other (set_threads (fst (reg st 0)) th) default ws = Ok (MC i "makefile" [] c1 ca1) /\
    (forall k, Permutation k (order k)) /\ fair_order so /\
    recurse_update canon c1 order so i None = RuExec objs sv /\
    exec_reaches sv (mk_task canon kind partial c1 objs) (WD fs ca1 now now []) s.
(** A command that cleans (make.py:87-93): the file system afterwards. *)
Definition cleaned cwd home exists_ glob_ other (l : list stmt) (default : option string) (ws : list string) (th : Z) (fs fs' : fsys) : Prop :=
  let canon := realpath cwd in
  exists fuel st i other_if fuel' c1 ca1 ca2,
    mrun canon exists_ glob_ home fuel 0 (map op_of l) [empty_reg] = Ok st /\
    mcli canon (kind_of (reg st 0)) other_if fs fuel' other (set_threads (fst (reg st 0)) th) default ws = Ok (MC i "clean" [] c1 ca1) /\
    clean canon (kind_of (reg st 0)) c1 i (fs, ca1) = Ok (fs', ca2).
