(** Vocabulary for the order of collected modules. *)
From Verif Require Import PyBase ModulesModel SpecModules.
Local Open Scope list_scope.

Definition before {A} (l : list A) (a b : A) : Prop := exists l1 l2 l3, l = l1 ++ a :: l2 ++ b :: l3.
