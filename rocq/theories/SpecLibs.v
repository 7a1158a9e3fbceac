(** Vocabulary for the library registries. *)
From Verif Require Import PyBase PyPath LibsModel.
Local Open Scope string_scope.
Local Open Scope list_scope.

Fixpoint ascii_only (s : string) : Prop :=
  match s with EmptyString => True | String c s' => nat_of_ascii c < 128 /\ ascii_only s' end.
(** The file is missing or holds a registry. *)
Definition readable (fs : disk) (p : string) : Prop := exists d, load_or_empty fs p = Ok d.
(** What the file says about a name. *)
Definition entry (fs : disk) (p name : string) : option string :=
  match load_or_empty fs p with Ok d => sget d name | _ => None end.
Definition ascii_entries (fs : disk) (p : string) : Prop :=
  forall n v, entry fs p n = Some v -> ascii_only n /\ ascii_only v.
(** Only this file differs. *)
Definition other_files_same (fs fs' : disk) (p : string) : Prop := forall q, q <> p -> fs' q = fs q.
(** The last file of the list that is named like [n]. *)
Fixpoint last_named (n : string) (l : list string) : option string :=
  match l with
  | [] => None
  | f :: l' => match last_named n l' with
               | Some g => Some g
               | None => if String.eqb (first_word (basename f)) n then Some f else None
               end
  end.
