(** Vocabulary for the statements about the solver: what a dependency problem means,
    independently of how solver.py represents it. *)
From Coq Require Export Relations.Relation_Operators.
From Verif Require Import PyBase SolverModel.

(** The name [nm] denotes target number [i]: the last target of the list with that name. *)
Definition denotes (ts : list dtarget) (nm : string) (i : nat) : Prop :=
  nth_error (map dt_name ts) i = Some nm /\
  forall j, i < j -> nth_error (map dt_name ts) j <> Some nm.

(** Target [i] lists a dependency that denotes target [j]. *)
Definition depends_on (ts : list dtarget) (i j : nat) : Prop :=
  exists t nm, nth_error ts i = Some t /\ In nm (dt_deps t) /\ denotes ts nm j.

(** Every dependency names a target of the list. *)
Definition all_known (ts : list dtarget) : Prop :=
  forall t nm, In t ts -> In nm (dt_deps t) -> In nm (map dt_name ts).

(** No target depends on itself through a chain of one or more dependencies. *)
Definition no_cycle (ts : list dtarget) : Prop :=
  forall i, ~ clos_trans nat (depends_on ts) i i.

(** Target [i] has no dependency. *)
Definition dependency_free (ts : list dtarget) (i : nat) : Prop :=
  exists t, nth_error ts i = Some t /\ dt_deps t = [].

(** Some dependency-free target is below (or is) [i]. *)
Definition grounded (ts : list dtarget) (i : nat) : Prop :=
  exists r, dependency_free ts r /\ clos_refl_trans nat (depends_on ts) i r.

(** Consecutive elements of the list are "a, then something that depends on a". *)
Fixpoint dependency_chain (ts : list dtarget) (l : list nat) : Prop :=
  match l with
  | a :: ((b :: _) as l') => depends_on ts b a /\ dependency_chain ts l'
  | _ => True
  end.
