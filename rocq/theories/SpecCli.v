(** What a command line asks for, stated on the dictionary of targets. *)
From Verif Require Import PyBase SolverModel InvokerModel CoreModel SpecCore CliModel.

(** Words [ws] with default target [default] ask for attribute [a] of target [i], with the
    arguments [args]. *)
Inductive asks (canon : string -> string) (c : core) (info : nat -> tinfo)
  (default : option string) : list string -> nat -> string -> list string -> Prop :=
| asks_nothing d i :
    default = Some d -> resolves canon c d i ->
    asks canon c info default [] i (i_default (info i)) []
| asks_target nm i :
    resolves canon c nm i -> asks canon c info default [nm] i (i_default (info i)) []
| asks_routine nm i args :
    resolves canon c nm i -> i_routine (info i) = true ->
    asks canon c info default (nm :: args) i (i_default (info i)) args
| asks_action nm i act args :
    resolves canon c nm i -> i_routine (info i) = false -> In act (i_actions (info i)) ->
    asks canon c info default (nm :: act :: args) i act args
| asks_of_default act d i args :
    ~ registered canon c act -> default = Some d -> resolves canon c d i ->
    In act (i_actions (info i)) -> asks canon c info default (act :: args) i act args.

(** The words name a target's declared action (whatever the class of the target). *)
Definition names_action canon c (info : nat -> tinfo) (ws : list string) (i : nat) (act : string)
  (args : list string) : Prop :=
  exists nm, ws = nm :: act :: args /\ resolves canon c nm i /\ In act (i_actions (info i)).

(** Attribute [a] of target [i] can be called with [n] further arguments. *)
Definition callable_with (info : nat -> tinfo) (i : nat) (a : string) (n : nat) : Prop :=
  match i_attr (info i) a with
  | Some (AMethod r) => ar_min r <= n /\ forall m, ar_max r = Some m -> n <= m
  | Some (ACallable r) => ar_min r <= S n /\ forall m, ar_max r = Some m -> S n <= m
  | _ => False
  end.

(** The same targets, possibly under more names. *)
Definition same_but_aliases canon (c c' : core) : Prop :=
  c' = c \/ exists nm, c' = snd (core_has canon c nm).

(** Functions of routines that also record with which arguments they were called. *)
Definition recording_calls {W} (func : nat -> list string -> W -> tres -> W -> Prop)
  (i : nat) (args : list string) (w : list (nat * list string) * W) (r : tres)
  (w' : list (nat * list string) * W) : Prop :=
  fst w' = fst w ++ [(i, args)] /\ func i args (snd w) r (snd w').
