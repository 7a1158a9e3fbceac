(** Theorems about the solver's constructor and dictionary inversion: C01, C02, C15. *)
From Coq Require Import Permutation.
From Verif Require Import PyBase SolverModel SpecGraph InvertProofs DfsProofs SolverProofs.
Local Open Scope string_scope.
Local Open Scope list_scope.

(** C01.  For every iteration order of Python's sets, the constructor succeeds iff the
    list is non-empty, all dependencies are known, and the dependency relation is acyclic. *)
Theorem C01_solver_accepts_exactly :
  forall so, fair_order so -> forall ts th,
  (exists sv, solver_init so ts (Some th) = inr sv) <->
  ts <> [] /\ all_known ts /\ no_cycle ts.
Proof. exact solver_accepts. Qed.
Print Assumptions C01_solver_accepts_exactly.

(** A diamond is accepted, a two-cycle beside a root and an unknown name are not. *)
Example C01_diamond : exists sv,
  solver_init id_order [DT "a" []; DT "b" ["a"]; DT "c" ["a"]; DT "d" ["b"; "c"]] (Some 2%Z) = inr sv.
Proof. vm_compute. eexists. reflexivity. Qed.
Example C01_cycle :
  solver_init id_order [DT "r" []; DT "a" ["b"; "r"]; DT "b" ["a"]] (Some 2%Z)
  = inl (CircularDependencyError [0; 1; 2; 1]).
Proof. vm_compute. reflexivity. Qed.

(** C02. *)
Theorem C02_unknown_target_exact :
  forall so, fair_order so -> forall ts th,
  (exists e, solver_init so ts (Some th) = inl (UnknowTargetError e)) <-> ~ all_known ts.
Proof. exact verdict_unknown. Qed.
Print Assumptions C02_unknown_target_exact.

Theorem C02_unknown_target_names_missing :
  forall so, fair_order so -> forall ts th e,
  solver_init so ts (Some th) = inl (UnknowTargetError e) ->
  exists t, In t ts /\ In e (dt_deps t) /\ ~ In e (map dt_name ts).
Proof. exact verdict_unknown_name. Qed.
Print Assumptions C02_unknown_target_names_missing.

Theorem C02_no_independent_target_exact :
  forall so, fair_order so -> forall ts th,
  solver_init so ts (Some th) = inl NoOneNonDependableTarget <->
  all_known ts /\ forall i, ~ dependency_free ts i.
Proof. exact verdict_noone. Qed.
Print Assumptions C02_no_independent_target_exact.

Theorem C02_circular_error_is_a_cycle :
  forall so, fair_order so -> forall ts th l,
  solver_init so ts (Some th) = inl (CircularDependencyError l) ->
  exists l0 d, l = l0 ++ [d] /\ In d l0 /\ dependency_chain ts l /\
               clos_trans nat (depends_on ts) d d.
Proof. exact verdict_circular. Qed.
Print Assumptions C02_circular_error_is_a_cycle.

Theorem C02_connectivity_error_lists_unreachable :
  forall so, fair_order so -> forall ts th l,
  solver_init so ts (Some th) = inl (ConnectivityError l) ->
  l <> [] /\ forall i, In i l <-> i < List.length ts /\ ~ grounded ts i.
Proof. exact verdict_connectivity. Qed.
Print Assumptions C02_connectivity_error_lists_unreachable.

Theorem C02_no_other_error :
  forall so, fair_order so -> forall ts th e,
  solver_init so ts (Some th) = inl e ->
  match e with
  | UnknowTargetError _ | NoOneNonDependableTarget
  | CircularDependencyError _ | ConnectivityError _ => True
  | _ => False
  end.
Proof. exact verdict_no_other. Qed.
Print Assumptions C02_no_other_error.

Example C02_unknown :
  solver_init id_order [DT "a" []; DT "b" ["zz"]] (Some 1%Z) = inl (UnknowTargetError "zz").
Proof. vm_compute. reflexivity. Qed.
Example C02_noone :
  solver_init id_order [DT "a" ["b"]; DT "b" ["a"]] (Some 1%Z) = inl NoOneNonDependableTarget.
Proof. vm_compute. reflexivity. Qed.
Example C02_connectivity :
  solver_init id_order [DT "r" []; DT "a" ["b"]; DT "b" ["a"]] (Some 1%Z)
  = inl (ConnectivityError [1; 2]).
Proof. vm_compute. reflexivity. Qed.

(** C15.  Dictionaries over an arbitrary key type with decidable equality. *)
Theorem C15_invert_is_relation_inversion :
  forall (K : Type) (eqb : K -> K -> bool), (forall a b, reflect (a = b) (eqb a b)) ->
  forall d : list (K * list K),
  NoDup (dkeys d) ->
  (forall t s x, In (t, s) d -> In x s -> In x (dkeys d)) ->
  exists inv, invert_depends_dictionary eqb d = Some inv /\ dkeys inv = dkeys d /\
    (forall k x, (exists s, In (k, s) inv /\ In x s) <-> (exists s, In (x, s) d /\ In k s)).
Proof. exact @invert_relation. Qed.
Print Assumptions C15_invert_is_relation_inversion.

Theorem C15_invert_twice_is_identity :
  forall (K : Type) (eqb : K -> K -> bool), (forall a b, reflect (a = b) (eqb a b)) ->
  forall d : list (K * list K),
  NoDup (dkeys d) ->
  (forall t s x, In (t, s) d -> In x s -> In x (dkeys d)) ->
  exists inv inv2, invert_depends_dictionary eqb d = Some inv /\
    invert_depends_dictionary eqb inv = Some inv2 /\ dkeys inv2 = dkeys d /\
    (forall k x, (exists s, In (k, s) inv2 /\ In x s) <-> (exists s, In (k, s) d /\ In x s)).
Proof. exact @invert_involutive. Qed.
Print Assumptions C15_invert_twice_is_identity.

Theorem C15_invert_keyerror_exact :
  forall (K : Type) (eqb : K -> K -> bool), (forall a b, reflect (a = b) (eqb a b)) ->
  forall d : list (K * list K),
  NoDup (dkeys d) ->
  (invert_depends_dictionary eqb d = None <->
   exists t s x, In (t, s) d /\ In x s /\ ~ In x (dkeys d)).
Proof. exact @invert_keyerror. Qed.
Print Assumptions C15_invert_keyerror_exact.

Example C15_case :
  invert_depends_dictionary Nat.eqb [(1, [2; 3]); (2, [3]); (3, [])]
  = Some [(1, []); (2, [1]); (3, [1; 2])].
Proof. reflexivity. Qed.
