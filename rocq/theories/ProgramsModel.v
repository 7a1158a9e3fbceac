(** Scripts with several C++ programs: cxx_modules.py:545-595, modules.py:112-118. *)
From Verif Require Import PyBase PyPath SolverModel InvokerModel CoreModel MakeModel UtilModel RegModel SpecProject FormatModel ModulesModel
  CxxModel SpecCxxScript.
Local Open Scope string_scope.
Local Open Scope list_scope.

(** Calls of a script, with the keyword arguments [kw], and [default] among them. *)
Inductive ccall :=
| CPlain (s : stmt)                                                                     (* makefile, copy, ... *)
| CModule (name : string) (impl : option string) (default : bool) (kw : opts)           (* licant.module *)
| CTask (type name : string) (target impl : option string) (default : bool) (kw : opts) (* application, shared_library, static_library, objects *)
| CBoth (name static_lib shared_lib : string) (target impl : option string) (default : bool) (kw : opts). (* static_and_shared *)

Section Calls.
  Variables (sh : string -> string -> buildfun) (cwd home : string) (tool : toolchain) (glob_ : string -> list string).
  Variable dfile : string -> option string.
  Variable fuel : nat.

  (** [a.tgt] (cxx_modules.py:592): the canonical path of a file target (make.py:123). *)
  Definition tgt_of (r : list relem) : res string :=
    match r with RTarget t :: _ => Ok (realpath cwd t) | _ => Raise (AttributeError "tgt") end.

  (** The library of modules after the call, and the statements that the call amounts to.
      [below ++ [top]]: the stack of scripts.  cxx_modules.py:545-579 for CTask, 589-593 for CBoth. *)
  Definition ccall_stmts (lib : mlib) (below : list string) (top : string) (c : ccall) : res (mlib * list stmt) :=
    match c with
    | CPlain s => Ok (lib, [s])
    | CModule name impl default kw => do! lib1 <- module lib name impl default below top kw; Ok (lib1, [])
    | CTask type name target impl default kw =>
        do! (_, _, lib1, ev) <- task home tool glob_ dfile fuel lib below top name target impl type default kw;
        Ok (lib1, map (event_stmt sh cwd home) ev)
    | CBoth name a b target impl default kw =>
        do! (ra, _, lib1, ev1) <- task home tool glob_ dfile fuel lib below top a target impl "static_library" default kw;
        do! (rb, _, lib2, ev2) <- task home tool glob_ dfile fuel lib1 below top b target impl "shared_library" default kw;
        do! ta <- tgt_of ra;
        do! tb <- tgt_of rb;
        Ok (lib2, map (event_stmt sh cwd home) (ev1 ++ ev2 ++ [VFileset name [ta; tb]]))
    end.
  (** The calls of scripts, one after the other. *)
  Fixpoint ccalls_stmts (lib : mlib) (l : list (list string * string * ccall)) : res (mlib * list stmt) :=
    match l with
    | [] => Ok (lib, [])
    | (below, top, c) :: l' =>
        do! (lib1, a) <- ccall_stmts lib below top c;
        do! (lib2, b) <- ccalls_stmts lib1 l';
        Ok (lib2, a ++ b)
    end.
End Calls.
