(** Vocabulary for statements about the commands run on files. *)
From Verif Require Import PyBase PyPath InvokerModel CoreModel MakeModel.
Local Open Scope string_scope.

(** Letters, digits and the punctuation that no shell treats specially. *)
Definition portable : list ascii :=
  list_ascii_of_string "abcdefghijklmnopqrstuvwxyzABCDEFGHIJKLMNOPQRSTUVWXYZ0123456789_./-+,:@%=".
Definition portable_name (p : string) : Prop := forall c, In c (list_ascii_of_string p) -> In c portable.
(** A name that a command takes for an option. *)
Definition option_like (p : string) : Prop := exists q, p = String "-" q.
(** [p] is how [cwd] canonically writes a file. *)
Definition canonical (cwd p : string) : Prop := realpath cwd p = p.

(** The file systems differ in [p] only. *)
Definition only_at (p : string) (fs fs' : fsys) : Prop := forall q, q <> p -> fs' q = fs q.
