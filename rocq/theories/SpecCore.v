(** Vocabulary for statements about the registry: what names mean and what depends on what,
    read off the dictionary without using the lookup functions of the model. *)
From Coq Require Export Relations.Relation_Operators Sorting.Sorted OrderedTypeEx.
From Verif Require Import PyBase SolverModel InvokerModel CoreModel.

(** Name [nm] is registered and means object [i]. *)
Definition resolves (canon : string -> string) (c : core) (nm : string) (i : nat) : Prop :=
  In (nm, i) (c_targets c) \/
  (~ In nm (map fst (c_targets c)) /\ In (canon nm, i) (c_targets c)).
Definition registered canon c nm : Prop := exists i, resolves canon c nm i.

(** The target that [a] means lists [b] as a dependency. *)
Definition name_dep canon (c : core) (a b : string) : Prop :=
  exists i, resolves canon c a i /\ In b (t_deps (obj c i)).

(** Object [i] depends on object [j]. *)
Definition obj_dep canon (c : core) (i j : nat) : Prop :=
  exists d, In d (t_deps (obj c i)) /\ resolves canon c d j.
Definition in_cone canon (c : core) (i j : nat) : Prop := clos_refl_trans nat (obj_dep canon c) i j.

(** Dictionary keys are unique and values are existing objects. *)
Definition wf_core (c : core) : Prop :=
  NoDup (map fst (c_targets c)) /\
  forall nm i, In (nm, i) (c_targets c) -> i < List.length (c_heap c).

(** Whatever object a name means, the object's own name means it too. *)
Definition coherent canon (c : core) : Prop :=
  forall nm i, In (nm, i) (c_targets c) -> resolves canon c (t_name (obj c i)) i.

(** No dependency cycle in the cone of [i]. *)
Definition acyclic_cone canon (c : core) (i : nat) : Prop :=
  forall j, in_cone canon c i j -> ~ clos_trans nat (obj_dep canon c) j j.

(** Every dependency mentioned in the cone of [i] is registered. *)
Definition cone_registered canon (c : core) (i : nat) : Prop :=
  forall j d, in_cone canon c i j -> In d (t_deps (obj c j)) -> registered canon c d.

Definition strictly_sorted (l : list string) : Prop := StronglySorted String_as_OT.lt l.

(** Histories of a registry. *)
Inductive cop :=
| OpNew (cls : tclass) (name : string) (deps : list string)
| OpHas (nm : string)
| OpDepends (a : tgt_arg) (incroot : bool).
Definition cstep canon (c : core) (o : cop) : core :=
  match o with
  | OpNew cls nm deps => core_new c cls nm deps
  | OpHas nm => snd (core_has canon c nm)
  | OpDepends a b => match depends_as_set canon c a b with Ok (_, c') => c' | _ => c end
  end.
Definition crun canon (ops : list cop) (c : core) : core := fold_left (cstep canon) ops c.

(** Objects a name-or-object argument can mean in a program: objects of the heap. *)
Definition valid_arg (c : core) (a : tgt_arg) : Prop :=
  match a with ByName _ => True | ByObj i => i < List.length (c_heap c) end.

(** Something at or below [i] is out of date. *)
Definition out_of_date_below canon (update_if : nat -> res bool) (c : core) (i : nat) : Prop :=
  exists j, in_cone canon c i j /\ update_if j = Ok true.

(** The cached dependency lists are what a lookup would give now. *)
Definition caches_fresh canon (c : core) : Prop :=
  forall i l, t_cached (obj c i) = Some l -> mapM (core_get canon c) (t_deps (obj c i)) = Ok l.

(** Registered targets have only registered, updatable dependencies, there is no cycle, and
    update_if does not raise. *)
Definition healthy canon (update_if : nat -> res bool) (c : core) : Prop :=
  (forall nm i d, In (nm, i) (c_targets c) -> In d (t_deps (obj c i)) -> registered canon c d) /\
  (forall nm i j, In (nm, i) (c_targets c) -> obj_dep canon c i j -> t_class (obj c j) = Updatable) /\
  (forall nm i, In (nm, i) (c_targets c) -> ~ clos_trans nat (obj_dep canon c) i i) /\
  (forall nm i, In (nm, i) (c_targets c) -> t_class (obj c i) = Updatable -> exists b, update_if i = Ok b).

(** A new core whose runtime["threads"] is [th] ([None]: unset). *)
Definition new_core (th : option Z) : core := CO [] [] [] th.

(** Registrations first, then any number of successful evaluations. *)
Inductive session canon (ops : list cop) (th : option Z) : core -> Prop :=
| ses_registered : session canon ops th (crun canon ops (new_core th))
| ses_evaluated c c' update_if fuel :
    session canon ops th c -> update_update_needity canon update_if fuel c = Ok c' ->
    session canon ops th c'.

(** Names of the targets created in a history. *)
Definition new_names (ops : list cop) : list string :=
  flat_map (fun o => match o with OpNew _ nm _ => [nm] | _ => [] end) ops.

(** Names written in the cone of [i]. *)
Definition mentioned canon (c : core) (i : nat) (x : string) : Prop :=
  x = t_name (obj c i) \/ exists j, in_cone canon c i j /\ In x (t_deps (obj c j)).
(** The operation registers nothing that a name of the cone of [i] could mean. *)
Definition unrelated canon (c : core) (i : nat) (o : cop) : Prop :=
  match o with
  | OpNew _ nm _ => forall x, mentioned canon c i x -> x <> nm /\ canon x <> nm
  | _ => True
  end.

(** The targets of a (nested) list argument of core.do, left to right. *)
Fixpoint leaves (t : do_arg) : list do_arg :=
  match t with
  | DList l => (fix go (l : list do_arg) := match l with [] => [] | t :: l' => leaves t ++ go l' end) l
  | _ => [t]
  end.
(** Statements executed one after the other, stopping at the first exception. *)
Fixpoint one_after_other {S A} (act : A -> S -> res S) (l : list A) (s : S) : res S :=
  match l with [] => Ok s | t :: l' => do! s' <- act t s; one_after_other act l' s' end.

(** The operation registers a target called [nm]. *)
Definition adds_name (nm : string) (o : cop) : Prop :=
  match o with OpNew _ n _ => n = nm | _ => False end.

(** Update methods that also record who was called. *)
Definition recording {W} (upd : nat -> W -> tres -> W -> Prop)
  (i : nat) (w : list nat * W) (r : tres) (w' : list nat * W) : Prop :=
  fst w' = fst w ++ [i] /\ upd i (snd w) r (snd w').
