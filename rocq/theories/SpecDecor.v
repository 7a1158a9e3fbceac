(** Vocabulary for statements about decorated functions: what a script says. *)
From Verif Require Import PyBase PyPath SolverModel InvokerModel CoreModel MakeModel RegModel SpecReg DecorModel.
Local Open Scope string_scope.
Local Open Scope list_scope.

(** What one reads in a statement: a routine of that name with these dependencies that calls
    this function.  The name is the function's unless another one is given. *)
Record said := Said { sd_name : string; sd_deps : list string; sd_func : pyobj }.
Definition or_else {A} (o : option A) (x : A) : A := match o with Some y => y | None => x end.
Definition says (s : dstmt) : option said :=
  match s with
  | DBare n id => Some (Said n [] (PyFunction n id))
  | DArgs kw n id | DCall (PyFunction n id) kw =>
      Some (Said (or_else (kw_tgt kw) n) (or_else (kw_deps kw) []) (PyFunction n id))
  | DCall (PyCallable (Some n) id) kw =>
      Some (Said (or_else (kw_tgt kw) n) (or_else (kw_deps kw) []) (PyCallable (Some n) id))
  | DCall (PyCallable None id) kw =>
      match kw_tgt kw with Some t => Some (Said t (or_else (kw_deps kw) []) (PyCallable None id)) | None => None end
  | DCall PyNone _ => None
  end.

(** Only functions are given, with keywords that exist. *)
Definition proper (s : dstmt) : Prop :=
  match s with
  | DBare _ _ => True
  | DArgs kw _ _ => kw_other kw = []
  | DCall (PyFunction _ _) kw => kw_other kw = []
  | DCall _ _ => False
  end.

(** The same in calls of updtarget. *)
Definition plain_op (s : dstmt) : list mop :=
  match says s with Some x => [OTarget true (sd_name x) (sd_deps x)] | None => [] end.

(** The statement is a [def] of [n]. *)
Definition defines (s : dstmt) (n : string) (f : pyobj) : Prop :=
  exists id, f = PyFunction n id /\ (s = DBare n id \/ exists kw, s = DArgs kw n id).

(** The keywords named by the comment of [routine] (core.py:146-157). *)
Definition documented : list string := ["func"; "deps"; "update_if"; "tgt"; "core"; "dependable"].
(** A call with that keyword, which routine_do does not have. *)
Definition with_keyword (k : string) (n : string) (id : nat) : dstmt := DArgs (KW None None [k]) n id.
