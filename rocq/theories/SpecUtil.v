(** Vocabulary for statements about licant.util, rule templates and paths. *)
From Verif Require Import PyBase PyPath UtilModel FormatModel.
Local Open Scope string_scope.
Local Open Scope list_scope.

(** ** An unbounded first-in-first-out queue: the list of its elements, oldest first. *)
Definition fifo_step {A} (l : list A) (c : q_call A) : q_answer A * list A :=
  match c with
  | CPut x => (ADone, l ++ [x])
  | CGet => match l with [] => (ARaised, []) | x :: l' => (AGot x, l') end
  | CEmpty => (ABool (match l with [] => true | _ => false end), l)
  end.
Fixpoint fifo_run {A} (l : list A) (cs : list (q_call A)) : list (q_answer A) :=
  match cs with [] => [] | c :: cs' => let '(a, l') := fifo_step l c in a :: fifo_run l' cs' end.

(** ** Dependency files *)
(** A file name made of letters, digits, underscores, dots, slashes and hyphens. *)
Definition name_characters : string :=
  "abcdefghijklmnopqrstuvwxyzABCDEFGHIJKLMNOPQRSTUVWXYZ0123456789_./-".
Definition plain_name (s : string) : Prop :=
  s <> "" /\ forall c, In c (list_ascii_of_string s) -> In c (list_ascii_of_string name_characters).
(** White space, line continuations, the colon. *)
Definition separator (s : string) : Prop :=
  forall c, In c (list_ascii_of_string s) -> In c [" "%char; ":"%char; "\"%char; "010"%char; "013"%char; "009"%char].
(** The names one after the other, each followed by a separator. *)
Fixpoint lay_out (l : list (string * string)) : string :=
  match l with [] => "" | (nm, sep) :: l' => (nm ++ sep ++ lay_out l')%string end.
(** Every name but the last is followed by a separator that is not empty. *)
Fixpoint separated (l : list (string * string)) : Prop :=
  match l with
  | [] => True
  | (nm, sep) :: l' => plain_name nm /\ separator sep /\ (l' <> [] -> sep <> "") /\ separated l'
  end.

(** ** Templates *)
Inductive piece := Lit (c : ascii) | Field (key : string) (attrs : list string).
(** How a piece is written in a template. *)
Definition write_piece (p : piece) : string :=
  match p with
  | Lit c => if Ascii.eqb c "{" then "{{" else if Ascii.eqb c "}" then "}}" else String c ""
  | Field k l => ("{" ++ String.concat "." (k :: l) ++ "}")%string
  end.
Definition write_pieces (l : list piece) : string := String.concat "" (map write_piece l).
(** Names of fields and attributes: not empty, and without characters that mean something
    in a template.  A key that is a number would be a position. *)
Definition plain_field (s : string) : Prop :=
  s <> "" /\ forall c, In c (list_ascii_of_string s) -> ~ In c ["{"%char; "}"%char; "["%char; "!"%char; ":"%char; "."%char].
Definition good_piece (p : piece) : Prop :=
  match p with
  | Lit _ => True
  | Field k l => plain_field k /\ all_digits k = false /\ Forall plain_field l
  end.
(** The value of a field. *)
Inductive attr_value : pyobj -> list string -> string -> Prop :=
| av_here v : attr_value v [] (pv_str v)
| av_attr v a v' l s : sget (pv_attrs v) a = Some v' -> attr_value v' l s -> attr_value v (a :: l) s.
Definition field_value (env : list (string * pyobj)) (k : string) (l : list string) (s : string) : Prop :=
  exists v, sget env k = Some v /\ attr_value v l s.
(** [fills env l s]: [s] is the text with the values put in, as they are. *)
Inductive fills (env : list (string * pyobj)) : list piece -> string -> Prop :=
| fl_nil : fills env [] ""
| fl_lit c l s : fills env l s -> fills env (Lit c :: l) (String c s)
| fl_field k a v l s : field_value env k a v -> fills env l s -> fills env (Field k a :: l) (v ++ s)%string.

(** ** Paths *)
(** A component that names something: not empty, not "." or "..", no slash. *)
Definition file_name (s : string) : Prop :=
  s <> "" /\ s <> "." /\ s <> ".." /\ ~ In "/"%char (list_ascii_of_string s).
(** Normal form: leading slashes (at most two), then ".." (relative paths only), then names. *)
Definition normal_form (s : string) : Prop :=
  s = "." \/
  exists n ups names, (n <= 2)%nat /\ Forall file_name names /\ ((0 < n)%nat -> ups = 0%nat) /\
    (n = 0%nat -> ups = 0%nat -> names <> []) /\
    s = (slashes n ++ String.concat "/" (repeat ".." ups ++ names))%string.
(** Component lists, from the root, that lead to the same place: empty and "." components
    do nothing, ".." undoes the component before it and does nothing at the root. *)
Inductive same_place : list string -> list string -> Prop :=
| sp_refl l : same_place l l
| sp_sym l k : same_place l k -> same_place k l
| sp_trans l k m : same_place l k -> same_place k m -> same_place l m
| sp_empty a b : same_place (a ++ "" :: b) (a ++ b)
| sp_dot a b : same_place (a ++ "." :: b) (a ++ b)
| sp_up a x b : file_name x -> same_place (a ++ x :: ".." :: b) (a ++ b)
| sp_root b : same_place (".." :: b) b.
(** The components of [p] from the root, when the current directory is [cwd]. *)
Definition from_root (cwd p : string) : list string :=
  if starts_slash p then split_slash p else split_slash cwd ++ split_slash p.
Definition same_path (cwd p q : string) : Prop := same_place (from_root cwd p) (from_root cwd q).

(** The realpath of the first query about [p]. *)
Fixpoint first_query (l : list ((string -> string) * string)) (p : string) : option (string -> string) :=
  match l with
  | [] => None
  | (rp, q) :: l' => if String.eqb q p then Some rp else first_query l' p
  end.

(** No dot, no slash. *)
Definition plain_ext (s : string) : Prop :=
  ~ In "."%char (list_ascii_of_string s) /\ ~ In "/"%char (list_ascii_of_string s).
