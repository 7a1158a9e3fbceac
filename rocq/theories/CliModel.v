(** Model of licant/cli.py: what a command line makes licant do.

    The targets are the objects of a [core] (CoreModel.v).  What the model adds is what
    [getattr(target, name)] gives and how many arguments it takes.  The parser object of
    argparse is a parameter ([parse_args]): its option table (cli.py:18-57) is not modelled. *)
From Verif Require Import PyBase SolverModel InvokerModel CoreModel.

(** Numbers of positional arguments a callable takes: at least, at most ([None]: *args). *)
Record arity := AR { ar_min : nat; ar_max : option nat }.
Definition takes (a : arity) (n : nat) : bool :=
  Nat.leb (ar_min a) n && match ar_max a with Some m => Nat.leb n m | None => true end.

(** What [getattr(self, funcname, None)] gives: a bound method (the arity does not count
    self), another callable (a function or callable object stored in the target; the arity
    counts the target), or something that cannot be called. *)
Inductive attr := AMethod (a : arity) | ACallable (a : arity) | AValue.

(** What the command line looks at in a target. *)
Record tinfo := TI {
  i_routine : bool;                          (* isinstance(target, Routine), cli.py:103 *)
  i_default : string;                        (* default_action, core.py:193, 314, 406 *)
  i_actions : list string;                   (* __actions__, core.py:175, 305, 399, 198 *)
  i_attr : string -> option attr }.          (* getattr *)

(** A call made by [Target.invoke]: the object, the attribute, the arguments after the
    target itself, and the registry at that moment. *)
Record call := CA { k_obj : nat; k_act : string; k_args : list string; k_core : core }.

(** Iterating over a Python string ([func( *args)] with [args] a string). *)
Fixpoint chars (s : string) : list string :=
  match s with EmptyString => [] | String a s' => String a EmptyString :: chars s' end.

Section Cli.
  Variable canon : string -> string.
  Variable update_if : nat -> res bool.
  Variable fuel : nat.
  Variable info : nat -> tinfo.

  (** core.py:264-297 [Target.invoke] with critical=True, up to the call of the attribute. *)
  Definition invoke (c : core) (i : nat) (funcname : string) (args : list string) : res call :=
    do! c1 <- update_update_needity canon update_if fuel c;             (* 284 *)
    match i_attr (info i) funcname with                                  (* 286 *)
    | None => Raise (PlainException "WrongAction")                       (* 287-291 *)
    | Some (AMethod a) =>                                                (* 293-294 *)
        if takes a (List.length args) then Ok (CA i funcname args c1)
        else Raise (TypeError funcname)
    | Some (ACallable a) =>                                              (* 296-297 *)
        if takes a (S (List.length args)) then Ok (CA i funcname args c1)
        else Raise (TypeError funcname)
    | Some AValue => Raise (TypeError "not callable")
    end.

  (** cli.py:115, 121: [invoke(act, *rest, critical=True)] on the signature
      [invoke(self, funcname, args=[], critical=False, kwargs={})] (core.py:264): the first
      further word is the list of arguments, the second one is a second value for critical. *)
  Definition bind_star (rest : list string) : res (list string) :=
    match rest with
    | [] => Ok []
    | [a] => Ok (chars a)
    | _ :: _ :: _ => Raise (TypeError "invoke")
    end.
  Definition invoke_star (c : core) (i : nat) (act : string) (rest : list string) : res call :=
    do! args <- bind_star rest; invoke c i act args.

  (** cli.py:76-83 [execute_with_default_action]; every Target has a default_action
      (core.py:193), so the error branch is left out. *)
  Definition execute_with_default_action (c : core) (i : nat) (args : list string) : res call :=
    invoke c i (i_default (info i)) args.

  (** cli.py:86-128 [__cliexecute]. *)
  Definition cli (c : core) (default : option string) (args : list string) : res call :=
    match args with
    | [] =>                                                              (* 90-95 *)
        match default with
        | None => Raise (SystemExit "default target isn't set")
        | Some d => do! i <- core_get canon c d; execute_with_default_action c i []
        end
    | fnd :: rest =>
        let '(b, c1) := core_has canon c fnd in                          (* 100 *)
        if b then
          do! i <- core_get canon c1 fnd;
          match rest with
          | [] => execute_with_default_action c1 i []                    (* 103-104 *)
          | act :: more =>
              if i_routine (info i) then execute_with_default_action c1 i rest
              else if hasaction (i_actions (info i)) act
              then invoke_star c1 i act more                             (* 115 *)
              else Raise (SystemExit "is not action of target")          (* 108-113 *)
          end
        else
          do! found <-                                                   (* 118-121 *)
            match default with
            | None => Ok None
            | Some d =>
                do! i <- core_get canon c1 d;
                Ok (if hasaction (i_actions (info i)) fnd then Some i else None)
            end;
          match found with
          | Some i => invoke_star c1 i fnd rest
          | None => Raise (SystemExit "Can't find routine")              (* 124-128 *)
          end
    end.

  (** ** [cliexecute] (cli.py:131-158). *)

  (** The parsed options that matter here. *)
  Record opts := OP { o_threads : string; o_free : list string }.
  Variable parse_args : list string -> res opts.        (* argparse *)
  Variable py_int : string -> option Z.                 (* int(str); None: ValueError *)
  Variable cpu_count : Z.                               (* os.cpu_count() *)

  (** cli.py:16-17, 60-73 [parse] (the toolchain options are in ToolModel): the result of the first call is kept for the process. *)
  Definition parse (memo : option opts) (argv : list string) : res opts :=
    match memo with Some o => Ok o | None => parse_args argv end.

  (** cli.py:145-147. *)
  Definition threads_of (s : string) : res Z :=
    if String.eqb s "j" then Ok cpu_count
    else match py_int s with Some z => Ok z | None => Raise (ValueError s) end.

  Definition set_threads (c : core) (n : Z) : core :=
    CO (c_targets c) (c_heap c) (c_lazy c) (Some n).

  (** cli.py:152-155: Ctrl-C while the command runs. *)
  Definition on_interrupt {A} (r : res A) : res A :=
    match r with
    | Raise (PlainException m) =>
        if String.eqb m "KeyboardInterrupt" then Raise (SystemExit "interrupted by user") else r
    | _ => r
    end.

  Context {S : Type}.
  (** Effect of the calls: what they return and do. *)
  Variable perform : call -> S -> res (pyval * S).

  (** First component of the result: the options kept for the next call.  The runtime
      entries debug, trace and quite, and all output, are left out. *)
  Definition cliexecute (memo : option opts) (c : core) (default : option string)
             (argv : list string) (s : S) : res (option opts * (pyval * S)) :=
    do! o <- parse memo argv;                                            (* 139 *)
    do! n <- threads_of (o_threads o);
    let c1 := set_threads c n in
    do! (_, s') <- on_interrupt
                     (do! k <- cli c1 default (o_free o); perform k s);  (* 153 *)
    Ok (Some o, (PyNone, s')).                                           (* 157-158 *)
End Cli.

(** Exit status of a script that ends with licant.ex(...): 0 when it returns, 255 for
    exit(-1) (util.py:103-105), 1 for an uncaught exception. *)
Definition exit_status {A} (r : res A) : option Z :=
  match r with
  | Ok _ => Some 0%Z
  | Raise (SystemExit _) => Some 255%Z
  | Raise _ => Some 1%Z
  | OutOfFuel => None
  end.

(** ** The classes of core.py as the command line sees them. *)
Section Classes.
  Local Open Scope string_scope.
  Local Open Scope list_scope.
  Definition exactly (n : nat) : arity := AR n (Some n).
  Definition lookup (l : list (string * attr)) (a : string) : option attr := sget l a.
  (** core.py:221-301 (methods) and 186-204 (fields) of [Target]: "action" is a function of
      the target (core.py:180, 192); the other fields cannot be called. *)
  Definition target_attrs : list (string * attr) :=
    [("actlist", AMethod (exactly 0)); ("print", AMethod (exactly 0)); ("dependies", AMethod (exactly 0));
     ("action", ACallable (exactly 1)); ("update_if", ACallable (exactly 1));
     ("name", AMethod (exactly 0)); ("is_file", AMethod (exactly 0)); ("get_deplist", AMethod (exactly 0));
     ("action_if_need", AMethod (exactly 0)); ("hasaction", AMethod (exactly 1));
     ("tgt", AValue); ("deps", AValue); ("default_action", AValue); ("weakdeps", AValue)].
  (** core.py:322-395 [UpdatableTarget]. *)
  Definition updatable_attrs : list (string * attr) :=
    target_attrs ++
    [("recurse_update_get_args", AMethod (exactly 0)); ("update", AMethod (AR 0 None));
     ("recursive_update_needed_request", AMethod (exactly 0)); ("update_if_need", AMethod (exactly 0));
     ("recurse_update", AMethod (AR 0 (Some 1)))].
  (** core.py:418-423 [Routine]: found before the attributes of the base class. *)
  Definition routine_attrs : list (string * attr) :=
    [("update", AMethod (exactly 0)); ("invoke_routine", AMethod (AR 0 None))] ++ updatable_attrs.

  Definition target_info : tinfo := TI false "action" target_actions (lookup target_attrs).
  Definition updatable_info : tinfo := TI false "recurse_update_get_args" updatable_actions (lookup updatable_attrs).
  Definition routine_info : tinfo := TI true "invoke_routine" routine_actions (lookup routine_attrs).
End Classes.

(** ** Arguments of routines.  core.py:416: [self.args = []]; 421-423 [invoke_routine] stores the
    arguments; 418-419 [update] passes them to the function. *)
Definition routine_args := nat -> list string.
Definition no_args : routine_args := fun _ => [].
Definition store_args (ra : routine_args) (i : nat) (args : list string) : routine_args :=
  fun j => if Nat.eqb j i then args else ra j.
Definition routine_update {W} (ra : routine_args) (func : nat -> list string -> W -> tres -> W -> Prop)
  (i : nat) : W -> tres -> W -> Prop := func i (ra i).
