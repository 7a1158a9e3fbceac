(** Model of the constructor of [InverseRecursiveSolver] (licant/solver.py) and of
    [invert_depends_dictionary] (licant/util.py).  Objects ([DependableTarget],
    [DependableTargetRuntime]) are identified by their position in the list passed to
    the constructor. *)
From Coq Require Import Permutation.
From Verif Require Import PyBase.

(** ** licant/util.py:14-23 [invert_depends_dictionary].
    A set is a duplicate-free list; the order in which Python iterates it is the order
    of the list (arbitrary, quantified by the callers). *)
Section Invert.
  Context {K : Type} (eqb : K -> K -> bool).

  (** util.py:15-17: [inverse_dictionary[target] = set()] for every key. *)
  Definition invert_init (d : list (K * list K)) : list (K * list K) :=
    fold_left (fun acc kv => dset eqb acc (fst kv) []) d [].

  (** util.py:21-22: inner loop over the dependencies of one target;
      [inverse_dictionary[dep]] raises KeyError ([None]) when dep is not a key. *)
  Fixpoint invert_inner (target : K) (deps : list K) (inv : list (K * list K))
    : option (list (K * list K)) :=
    match deps with
    | [] => Some inv
    | dep :: deps' =>
        match dget eqb inv dep with
        | None => None
        | Some s => invert_inner target deps' (dset eqb inv dep (sadd eqb s target))
        end
    end.

  (** util.py:19-22: outer loop. *)
  Fixpoint invert_outer (d : list (K * list K)) (inv : list (K * list K))
    : option (list (K * list K)) :=
    match d with
    | [] => Some inv
    | (target, deps) :: d' =>
        match invert_inner target deps inv with
        | None => None
        | Some inv' => invert_outer d' inv'
        end
    end.

  Definition invert_depends_dictionary (d : list (K * list K)) : option (list (K * list K)) :=
    invert_outer d (invert_init d).
End Invert.

(** ** solver.py:6-13 [DependableTarget.__init__]: name and the [deps] argument
    (before [set(deps)]).  what_to_do/args/kwargs belong to the execution model. *)
Record dtarget := DT { dt_name : string; dt_deps : list string }.

(** Python iterates a set in an order that depends on hashing and history; [so_str i]
    is the order used for the [deps] set of target [i], [so_obj i] the one used for its
    [inverse_deps] set. *)
Record set_order := SO {
  so_str : nat -> list string -> list string;
  so_obj : nat -> list nat -> list nat }.
Definition fair_order (so : set_order) : Prop :=
  (forall i l, Permutation l (so_str so i l)) /\ (forall i l, Permutation l (so_obj so i l)).
Definition id_order : set_order := SO (fun _ l => l) (fun _ l => l).

(** solver.py:163-183: exceptions of the constructor. *)
Inductive solver_error :=
| UnknowTargetError (dep : string)
| NoOneNonDependableTarget
| CircularDependencyError (lst : list nat)
| ConnectivityError (nonvisited : list nat)
| DoubleDependsError (dep : string)
| SolverAssertion
| SolverTypeError
| SolverKeyError                   (* would be a bare KeyError from inversion *)
| DfsOutOfFuel.                    (* model artefact; shown unreachable *)

(** solver.py:9: [self.deps = set(deps)]. *)
Definition deps_set (so : set_order) (i : nat) (t : dtarget) : list string :=
  so_str so i (nodup string_dec (dt_deps t)).

(** solver.py:218-226 [double_depends_check]: the first dep counted more than once. *)
Definition double_dep_of (deps : list string) : option string :=
  find (fun dep => 1 <? List.length (filter (String.eqb dep) deps)) deps.
Fixpoint double_depends_check (so : set_order) (i : nat) (ts : list dtarget) : option string :=
  match ts with
  | [] => None
  | t :: ts' =>
      match double_dep_of (deps_set so i t) with
      | Some d => Some d
      | None => double_depends_check so (S i) ts'
      end
  end.

(** solver.py:198-199: dict comprehension name -> runtime object; a later target with
    the same name replaces the earlier one. *)
Fixpoint names_to_deptargets (i : nat) (ts : list dtarget) (acc : list (string * nat))
  : list (string * nat) :=
  match ts with
  | [] => acc
  | t :: ts' => names_to_deptargets (S i) ts' (sset acc (dt_name t) i)
  end.

(** solver.py:253-254: inner loop of [collect_depends_of_targets];
    [inl dep] is the KeyError turned into UnknowTargetError (256-257). *)
Fixpoint collect_one (names : list (string * nat)) (deps : list string) (acc : list nat)
  : string + list nat :=
  match deps with
  | [] => inr acc
  | dep :: deps' =>
      match sget names dep with
      | None => inl dep
      | Some j => collect_one names deps' (sadd Nat.eqb acc j)
      end
  end.

(** solver.py:248-257 [collect_depends_of_targets]. *)
Fixpoint collect_depends_of_targets (so : set_order) (names : list (string * nat))
         (i : nat) (ts : list dtarget) : string + list (nat * list nat) :=
  match ts with
  | [] => inr []
  | t :: ts' =>
      match collect_one names (deps_set so i t) [] with
      | inl e => inl e
      | inr l =>
          match collect_depends_of_targets so names (S i) ts' with
          | inl e => inl e
          | inr d => inr ((i, l) :: d)
          end
      end
  end.

(** solver.py:268-269 [get_non_dependable_targets]: count_of_deps() = len(deptarget.deps). *)
Fixpoint get_non_dependable_targets (so : set_order) (i : nat) (ts : list dtarget) : list nat :=
  match ts with
  | [] => []
  | t :: ts' =>
      (if List.length (deps_set so i t) =? 0 then [i] else [])
      ++ get_non_dependable_targets so (S i) ts'
  end.

Inductive dfs_res := DfsOk (visited : list nat) | DfsCirc (lst : list nat) | DfsFuel.

(** solver.py:228-236 [dfs].  [succ t] iterates [target.inverse_deps].  The Python
    [path] list is restored by [path.pop()], so it is an argument here. *)
Section Dfs.
  Variable succ : nat -> list nat.
  Fixpoint dfs (fuel : nat) (target : nat) (visited path : list nat) : dfs_res :=
    match fuel with
    | 0 => DfsFuel
    | S fuel' =>
        let path' := path ++ [target] in
        (fix loop (deps : list nat) (visited : list nat) : dfs_res :=
           match deps with
           | [] => DfsOk visited
           | dep :: deps' =>
               if smem Nat.eqb dep path' then DfsCirc (path' ++ [dep])
               else if smem Nat.eqb dep visited then loop deps' visited
               else match dfs fuel' dep visited path' with
                    | DfsOk visited' => loop deps' visited'
                    | r => r
                    end
           end) (succ target) (sadd Nat.eqb visited target)
    end.

  (** solver.py:241-242: loop over the non dependable targets. *)
  Fixpoint dfs_roots (fuel : nat) (roots : list nat) (visited : list nat) : dfs_res :=
    match roots with
    | [] => DfsOk visited
    | r :: rs =>
        match dfs fuel r visited [] with
        | DfsOk visited' => dfs_roots fuel rs visited'
        | e => e
        end
    end.
End Dfs.

(** solver.py:238-246 [connectivity_check]; [None] means it passed. *)
Definition connectivity_check (succ : nat -> list nat) (n : nat) (roots : list nat)
  : option solver_error :=
  match dfs_roots succ (S n) roots [] with
  | DfsFuel => Some DfsOutOfFuel
  | DfsCirc l => Some (CircularDependencyError l)
  | DfsOk visited =>
      if List.length visited =? n then None
      else Some (ConnectivityError
                   (filter (fun i => negb (smem Nat.eqb i visited)) (seq 0 n)))
  end.

(** The constructed solver: what [exec] needs.  [sv_depcount i] = len(deptarget.deps)
    (solver.py:32), [sv_inv i] the inverse_deps set (solver.py:206-207), [sv_queue] the
    initial content of the queue (solver.py:209-211). *)
Record solver := SV {
  sv_n : nat;
  sv_threads : Z;
  sv_deps : list (nat * list nat);
  sv_depcount : list nat;
  sv_inv : list (nat * list nat);
  sv_queue : list nat }.

Fixpoint depcounts (so : set_order) (i : nat) (ts : list dtarget) : list nat :=
  match ts with
  | [] => []
  | t :: ts' => List.length (deps_set so i t) :: depcounts so (S i) ts'
  end.

Definition inv_of (inv : list (nat * list nat)) (i : nat) : list nat :=
  match nget inv i with Some l => l | None => [] end.

(** solver.py:189-216 [InverseRecursiveSolver.__init__].  [threads = None] is Python's
    None ([[True] * None] raises TypeError, solver.py:78).  The isinstance checks of
    [check] (259-266) hold by typing. *)
Definition solver_init (so : set_order) (ts : list dtarget) (threads : option Z)
  : solver_error + solver :=
  match double_depends_check so 0 ts with
  | Some d => inl (DoubleDependsError d)
  | None =>
  match threads with
  | None => inl SolverTypeError
  | Some th =>
  let names := names_to_deptargets 0 ts [] in
  match collect_depends_of_targets so names 0 ts with
  | inl dep => inl (UnknowTargetError dep)
  | inr deps =>
  match invert_depends_dictionary Nat.eqb deps with
  | None => inl SolverKeyError
  | Some inv =>
  if negb (List.length inv =? List.length ts) then inl SolverAssertion else
  let roots := get_non_dependable_targets so 0 ts in
  if List.length roots =? 0 then inl NoOneNonDependableTarget else
  match connectivity_check (fun i => so_obj so i (inv_of inv i)) (List.length ts) roots with
  | Some e => inl e
  | None =>
      inr (SV (List.length ts) th deps (depcounts so 0 ts) inv roots)
  end end end end end.
