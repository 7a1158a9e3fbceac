(** What the informational actions are meant to print (C87). *)
From Verif Require Import PyBase PyPath CliModel ModulesModel SpecModules.
From Coq Require Import Sorted Permutation.
Local Open Scope string_scope.
Local Open Scope list_scope.

Definition in_alphabetical_order (l : list string) : Prop := Sorted (fun a b => String.leb a b = true) l.
(** [w] occurs in [s]. *)
Definition occurs (w s : string) : Prop := exists a b, s = (a ++ w ++ b)%string.
(** Characters that stand for themselves in a regular expression of one character. *)
Definition special_chars : list ascii := ["*"; "+"; "?"; "("; ")"; "["; "\"; "^"; "$"; "|"; "."]%char.
(** [lines] list the modules of the history [h] that [sel] selects, each with its implementations. *)
Definition lists_modules (h : list libop) (sel : string -> Prop) (lines : list (string * list string)) : Prop :=
  in_alphabetical_order (map fst lines) /\ NoDup (map fst lines) /\
  (forall n, In n (map fst lines) <-> known_name h n /\ sel n) /\
  (forall n impls, In (n, impls) lines -> forall i,
     ((exists c, last_registered h n i c) -> In i impls) /\
     (In i impls -> (exists c, last_registered h n i c) \/ i = "__none__")).
(** No module has a name of one character. *)
Definition no_short_names (h : list libop) : Prop := forall n, known_name h n -> String.length n <> 1.
