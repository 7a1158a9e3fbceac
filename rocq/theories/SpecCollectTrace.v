(** Vocabulary for C107: which modules are gone through. *)
From Verif Require Import PyBase PyPath ModulesModel SpecModules.
Local Open Scope string_scope.
Local Open Scope list_scope.

(** [walked lib m t]: going through [m] means to go through each module that it asks for with an
    implementation, once for each request, however often this has been done; [t] are the names met. *)
Inductive walked (lib : mlib) : nat -> list string -> Prop :=
| wk_list m r l t : nth_error (l_heap lib) m = Some r -> sget (m_opts r) "mdepends" = Some (VList l) ->
    walked_all lib l t -> walked lib m (m_name r :: t)
| wk_chars m r s : nth_error (l_heap lib) m = Some r -> sget (m_opts r) "mdepends" = Some (VStr s) -> walked lib m [m_name r]
with walked_all (lib : mlib) : list elem -> list string -> Prop :=
| wa_nil : walked_all lib [] []
| wa_name n l t : walked_all lib l t -> walked_all lib (EStr n :: l) t
| wa_leaf n i m r l t : impl_of lib n i m -> nth_error (l_heap lib) m = Some r -> sget (m_opts r) "mdepends" = None ->
    walked_all lib l t -> walked_all lib (EPair n i :: l) t
| wa_node n i m t0 l t : impl_of lib n i m -> walked lib m t0 -> walked_all lib l t -> walked_all lib (EPair n i :: l) (t0 ++ t).
