(** The parts of Python's posixpath module that licant calls.  Nothing here models a licant
    function.  Character strings are Coq strings; the home directory and the current
    directory are parameters; symbolic links are not modelled. *)
From Verif Require Import PyBase.
Local Open Scope string_scope.
Local Open Scope list_scope.

Definition slash : ascii := "/"%char.
Definition dot : ascii := "."%char.

(** [s.startswith("/")] *)
Definition starts_slash (s : string) : bool :=
  match s with String c _ => Ascii.eqb c slash | EmptyString => false end.
(** [s.endswith("/")] *)
Fixpoint ends_slash (s : string) : bool :=
  match s with
  | EmptyString => false
  | String c EmptyString => Ascii.eqb c slash
  | String _ s' => ends_slash s'
  end.

(** [p.split("/")] *)
Fixpoint split_slash (s : string) : list string :=
  match s with
  | EmptyString => [""]
  | String c s' =>
      if Ascii.eqb c slash then "" :: split_slash s'
      else match split_slash s' with
           | h :: t => String c h :: t
           | [] => [String c ""]
           end
  end.

(** [p[:i], p[i:]] for [i = p.rfind("/") + 1] *)
Fixpoint cut_last_slash (s : string) : string * string :=
  match s with
  | EmptyString => ("", "")
  | String c s' =>
      let '(h, t) := cut_last_slash s' in
      match h with
      | EmptyString => if Ascii.eqb c slash then (String c "", t) else ("", String c t)
      | _ => (String c h, t)
      end
  end.

(** [s.rstrip("/")] *)
Fixpoint rstrip_slash (s : string) : string :=
  match s with
  | EmptyString => ""
  | String c s' =>
      match rstrip_slash s' with
      | EmptyString => if Ascii.eqb c slash then "" else String c ""
      | r => String c r
      end
  end.

(** posixpath.split: [if head and head != sep*len(head): head = head.rstrip(sep)]; a head
    of separators only is the one whose rstrip is empty. *)
Definition path_split (p : string) : string * string :=
  let '(h, t) := cut_last_slash p in
  (match rstrip_slash h with EmptyString => h | h' => h' end, t).
Definition dirname (p : string) : string := fst (path_split p).
Definition basename (p : string) : string := snd (path_split p).

(** posixpath.join of two arguments. *)
Definition path_join (a b : string) : string :=
  if starts_slash b then b
  else match a with
       | EmptyString => b
       | _ => if ends_slash a then (a ++ b)%string else (a ++ String slash b)%string
       end.
(** posixpath.join(a, *l). *)
Definition path_joins (a : string) (l : list string) : string := fold_left path_join l a.
Definition isabs : string -> bool := starts_slash.

(** posixpath.normpath: the loop over the components; [acc] is new_comps, reversed. *)
Fixpoint norm_loop (abs : bool) (comps acc : list string) : list string :=
  match comps with
  | [] => acc
  | c :: cs =>
      if String.eqb c "" || String.eqb c "." then norm_loop abs cs acc
      else if negb (String.eqb c "..") then norm_loop abs cs (c :: acc)
      else match acc with
           | [] => if abs then norm_loop abs cs [] else norm_loop abs cs [c]
           | a :: acc' => if String.eqb a ".." then norm_loop abs cs (c :: acc)
                          else norm_loop abs cs acc'
           end
  end.
Definition norm_comps (abs : bool) (comps : list string) : list string :=
  rev (norm_loop abs comps []).
(** Number of leading slashes kept: two are kept, three or more count as one. *)
Definition initial_slashes (p : string) : nat :=
  match p with
  | String a (String b (String c _)) =>
      if Ascii.eqb a slash then
        if Ascii.eqb b slash && negb (Ascii.eqb c slash) then 2 else 1
      else 0
  | String a (String b EmptyString) =>
      if Ascii.eqb a slash then if Ascii.eqb b slash then 2 else 1 else 0
  | String a _ => if Ascii.eqb a slash then 1 else 0
  | EmptyString => 0
  end.
Fixpoint slashes (n : nat) : string :=
  match n with 0 => "" | S n' => String slash (slashes n') end.
Definition normpath (p : string) : string :=
  let n := initial_slashes p in
  let r := (slashes n ++ String.concat "/" (norm_comps (Nat.ltb 0 n) (split_slash p)))%string in
  match r with EmptyString => "." | _ => r end.

(** os.path.realpath without symbolic links ([cwd] absolute and normal). *)
Definition realpath (cwd p : string) : string :=
  String slash (String.concat "/" (norm_comps true (split_slash (path_join cwd p)))).
(** os.path.abspath. *)
Definition abspath (cwd p : string) : string := normpath (path_join cwd p).

(** posixpath.splitext: position of the last dot of the last component, unless only dots
    precede it there. *)
Fixpoint cut_last_dot (s : string) : option (string * string) :=
  match s with
  | EmptyString => None
  | String c s' =>
      match cut_last_dot s' with
      | Some (r, e) => Some (String c r, e)
      | None => if Ascii.eqb c dot then Some ("", s) else None
      end
  end.
Fixpoint only_dots (s : string) : bool :=
  match s with EmptyString => true | String c s' => Ascii.eqb c dot && only_dots s' end.
Definition splitext (p : string) : string * string :=
  let '(h, t) := cut_last_slash p in
  match cut_last_dot t with
  | Some (r, e) => if only_dots r then (p, "") else ((h ++ r)%string, e)
  | None => (p, "")
  end.

(** os.path.expanduser for "~" and "~/..."; "~name" needs the password database and is left
    unchanged as for an unknown user. *)
Definition expanduser (home p : string) : string :=
  match p with
  | String c s' =>
      if Ascii.eqb c "~" then
        match s' with
        | EmptyString => home
        | String d _ => if Ascii.eqb d slash then (rstrip_slash home ++ s')%string else p
        end
      else p
  | EmptyString => p
  end.
