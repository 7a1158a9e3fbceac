(** The function library (cxx_modules.py:582-586). *)
From Verif Require Import PyBase ModulesModel CxxModel.
Local Open Scope string_scope.
Local Open Scope list_scope.

(** library, 582-586, through shared_library and static_library (570-575), whose keyword argument
    [type] is not given. *)
Definition library home tool glob_ dfile (fuel : nat) (lib : mlib) (below : list string) (top name : string)
    (target impl : option string) (shared default : bool) (kw : opts) : res (list relem * opts * mlib * list event) :=
  if shared then task home tool glob_ dfile fuel lib below top name target impl "shared_library" default kw
  else task home tool glob_ dfile fuel lib below top name target impl "static_library" default kw.
