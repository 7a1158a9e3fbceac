(** Vocabulary: files in a tree of directories. *)
From Verif Require Import PyBase PyPath SpecUtil SpecInstall WalkModel ScriptModel.
Local Open Scope string_scope.
Local Open Scope list_scope.

(** There is a file at the end of these names. *)
Inductive file_at : entry -> list string -> Prop :=
| fa_here l n : In (n, EFile) l -> file_at (EDir l) [n]
| fa_below l n e ns : In (n, e) l -> file_at e ns -> file_at (EDir l) (n :: ns).

(** What file systems guarantee: the names in a directory differ and are names. *)
Inductive proper_tree : entry -> Prop :=
| pt_file : proper_tree EFile
| pt_link : proper_tree ELink
| pt_dir l : NoDup (map fst l) -> (forall n e, In (n, e) l -> file_name n /\ proper_tree e) -> proper_tree (EDir l).

(** [x] stands before [y]. *)
Definition before {A} (l : list A) (x y : A) : Prop := exists a b c, l = a ++ x :: b ++ y :: c.

(** The names that a pattern stands for. *)
Inductive stands_for : string -> string -> Prop :=
| sf_nil : stands_for "" ""
| sf_star a p s : stands_for p s -> stands_for (String "*" p) (a ++ s)%string
| sf_any x p s : stands_for p s -> stands_for (String "?" p) (String x s)
| sf_char x p s : x <> "*"%char -> stands_for p s -> stands_for (String x p) (String x s).
(** No character of the pattern is special. *)
Definition literal (p : string) : Prop :=
  forall c, In c (list_ascii_of_string p) -> c <> "*"%char /\ c <> "?"%char.

(** The scripts of [l] were started in turn, each once; all of them, and the script that asked
    for them is the current one again, unless one raised an exception. *)
Definition all_started {G} (l : list string) (s : sstate G) (o : sout G) : Prop :=
  match o with
  | SDone s' => q_trace s' = q_trace s ++ map EvStart l /\ q_stack s' = q_stack s
  | SRaise _ s' => exists l1 p l2, l = l1 ++ p :: l2 /\ q_trace s' = q_trace s ++ map EvStart (l1 ++ [p])
  | SNoFuel => False
  end.
