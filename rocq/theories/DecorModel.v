(** Model of the decorator [routine]: core.py:141-164 [Core.routine_do], [Core.routine],
    396-415 [Routine.__init__] and 426-428 [routine] (the default core's method).  [k] is the core
    whose method is called (0: the default core).

    [Routine.__init__] keeps the name as it is and expands the dependencies as every target
    does, which is [plain_new] of RegModel.v.  The default action ("invoke_routine") and
    [update_if] are in CoreModel.v.  The function that a routine calls is kept in a table
    beside the heap. *)
From Verif Require Import PyBase PyPath SolverModel InvokerModel CoreModel MakeModel RegModel.
Local Open Scope string_scope.
Local Open Scope list_scope.

(** What may be given for [func]: a function made by [def] or [lambda] (those for which
    inspect.isfunction holds), another object that can be called (a builtin, a bound
    method, a class, a partial; some have no [__name__]), or nothing at all.  The number
    tells objects of one name from each other. *)
Inductive pyobj :=
| PyFunction (name : string) (id : nat)
| PyCallable (name : option string) (id : nat)
| PyNone.

(** The keyword arguments of a call: those that routine_do has (core.py:141), and the names
    of others.  [update_if] does not matter for the registration. *)
Record kwargs := KW { kw_deps : option (list string); kw_tgt : option string; kw_other : list string }.
Definition no_kw : kwargs := KW None None [].

(** What [routine] returns: the function, or the inner function [decorator] (161-164), which
    keeps the keyword arguments. *)
Inductive value := VObj (f : pyobj) | VDecorator (kw : kwargs).

(** The registries, and the attribute [func] of the routines of core [k] (core.py:414). *)
Definition rstate : Type := regs * list (nat * pyobj).
Definition func_of (s : rstate) (i : nat) : option pyobj := dget Nat.eqb (snd s) i.

(** core.py:408 [func.__name__] *)
Definition dunder_name (f : pyobj) : res string :=
  match f with
  | PyFunction n _ | PyCallable (Some n) _ => Ok n
  | _ => Raise (AttributeError "__name__")
  end.

Section Decor.
  Variable canon : string -> string.
  Variable exists_ : string -> bool.
  Variable glob_ : string -> list string.
  Variable k : nat.

  (** core.py:141-143 [routine_do] and 402-415. *)
  Definition routine_do (fuel : nat) (s : rstate) (f : pyobj) (kw : kwargs) : res (rstate * pyobj) :=
    match kw_other kw with
    | x :: _ => Raise (TypeError x)                          (* unexpected keyword argument *)
    | [] =>
        do! tgt <- match kw_tgt kw with Some t => Ok t | None => dunder_name f end;      (* 407-408 *)
        let deps := match kw_deps kw with Some ds => ds | None => [] end in
        do! st <- plain_new canon exists_ glob_ fuel (fst s) k Updatable MOther tgt deps;  (* 409-412, 142 *)
        let i := Nat.pred (List.length (c_heap (fst (reg st k)))) in
        Ok ((st, dset Nat.eqb (snd s) i f), f)               (* 414, 143 *)
    end.

  (** core.py:145-164 *)
  Definition routine (fuel : nat) (s : rstate) (f : pyobj) (kw : kwargs) : res (rstate * value) :=
    match f with
    | PyFunction _ _ => do! (s', g) <- routine_do fuel s f kw; Ok (s', VObj g)          (* 159-160 *)
    | _ => Ok (s, VDecorator kw)                             (* 161-164 *)
    end.
  (** Calling what [routine] has returned.  The functions of the script are not modelled. *)
  Definition decorate (fuel : nat) (s : rstate) (v : value) (f : pyobj) : res (rstate * value) :=
    match v with
    | VDecorator kw => do! (s', g) <- routine_do fuel s f kw; Ok (s', VObj g)
    | VObj _ => OutOfFuel
    end.

  (** Statements of a script about routines. *)
  Inductive dstmt :=
  | DBare (name : string) (id : nat)                   (* @routine            def name(...): ... *)
  | DArgs (kw : kwargs) (name : string) (id : nat)     (* @routine(keywords)  def name(...): ... *)
  | DCall (f : pyobj) (kw : kwargs).                   (* routine(f, keywords) *)

  (** The state of the script: registries, functions of routines, global names. *)
  Record dstate := DS { d_reg : rstate; d_env : list (string * value) }.

  Definition dstep (fuel : nat) (d : dstate) (s : dstmt) : res dstate :=
    match s with
    | DBare n id =>
        do! (s', v) <- routine fuel (d_reg d) (PyFunction n id) no_kw;
        Ok (DS s' (sset (d_env d) n v))
    | DArgs kw n id =>
        do! (s1, w) <- routine fuel (d_reg d) PyNone kw;
        do! (s', v) <- decorate fuel s1 w (PyFunction n id);
        Ok (DS s' (sset (d_env d) n v))
    | DCall f kw =>
        do! (s', _) <- routine fuel (d_reg d) f kw; Ok (DS s' (d_env d))
    end.
  Fixpoint drun (fuel : nat) (l : list dstmt) (d : dstate) : res dstate :=
    match l with
    | [] => Ok d
    | s :: l' => do! d' <- dstep fuel d s; drun fuel l' d'
    end.
End Decor.
