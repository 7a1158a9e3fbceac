(** Vocabulary for statements about licant.install. *)
From Verif Require Import PyBase PyPath SolverModel InvokerModel CoreModel MakeModel RegModel SpecReg InstallModel.
Local Open Scope string_scope.
Local Open Scope list_scope.

(** [sub] occurs in [s]. *)
Definition occurs (sub s : string) : Prop := exists a b, s = (a ++ sub ++ b)%string.
(** [p] is the search path that consists of the entries [l]. *)
Definition entries (p : string) (l : list string) : Prop :=
  l <> [] /\ p = String.concat ":" l /\ forall e, In e l -> ~ In ":"%char (list_ascii_of_string e).

(** After these calls, looking at any target fails. *)
Definition nothing_works (cwd : string) (r : mreg) : Prop :=
  forall other_if fs fuel ca x, mevaluate (realpath cwd) (kind_of r) other_if fs fuel (fst r, ca) <> Ok x.
(** As many kinds as objects. *)
Definition kinds_ok (r : mreg) : Prop := List.length (snd r) = List.length (c_heap (fst r)).

(** The registries of a process: any number of scripts were run, with any cores. *)
Inductive made canon exists_ glob_ home : regs -> Prop :=
| made_start n : 0 < n -> made canon exists_ glob_ home (repeat empty_reg n)
| made_run fuel k ops st st' : made canon exists_ glob_ home st -> mrun canon exists_ glob_ home fuel k ops st = Ok st' ->
    made canon exists_ glob_ home st'.
