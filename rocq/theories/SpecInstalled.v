(** Vocabulary: installed files (C94). *)
From Verif Require Import PyBase PyPath MakeModel SpecMake.
Local Open Scope string_scope.

(** The file that [t] names has the content of the file that [s] names. *)
Definition installed (cwd home : string) (fs : fsys) (s t : string) : Prop :=
  exists v, contents fs (realpath cwd (expanduser home s)) = Some v /\ contents fs (realpath cwd (expanduser home t)) = Some v.
