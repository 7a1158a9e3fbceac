(** Vocabulary: several programs in one script (C89). *)
From Verif Require Import PyBase PyPath SolverModel InvokerModel CoreModel MakeModel RegModel SpecReg SpecProject.
Local Open Scope string_scope.
Local Open Scope list_scope.

(** In the registry [r], the name [nm] means the file of that path, made by [b] (always, if
    [f]) from [ds] and perhaps directories. *)
Definition rule_for canon (r : mreg) (nm : string) (f : bool) (ds : list string) (b : buildfun) : Prop :=
  exists i dd, core_get canon (fst r) nm = Ok i /\ kind_of r i = MFile f b /\ t_name (obj (fst r) i) = canon nm /\
    t_deps (obj (fst r) i) = ds ++ dd.

(** A pattern that is a canonical path matches no relative path. *)
Definition globs_absolute (cwd : string) (glob_ : string -> list string) (t : string) : Prop :=
  forall p, realpath cwd p = p -> ~ In t (glob_ p).
