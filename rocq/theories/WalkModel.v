(** Model of [find_recursive] (licant/util.py:215-237) on trees of directories: os.walk, top
    down, links to directories listed but not entered, errors of listings ignored (the
    defaults of os.walk, which the code uses).  Also fnmatch.fnmatch for patterns without
    brackets.  Printing (debug) is left out. *)
From Verif Require Import PyBase PyPath InstallModel.
Local Open Scope string_scope.
Local Open Scope list_scope.

(** What a directory contains, in the order of os.scandir.  [EFile]: anything that is not a
    directory (also a link to a file or to nothing).  [ELink]: a directory that os.walk
    lists and does not enter: a link to a directory, or one that cannot be read. *)
Inductive entry := EFile | ELink | EDir (l : list (string * entry)).

Definition is_file_entry (e : entry) : bool := match e with EFile => true | _ => false end.

(** The walk of what lies at [d]: directories with the names of their files. *)
Fixpoint walk_entry (d : string) (e : entry) : list (string * list string) :=
  match e with
  | EDir l =>
      (d, map fst (filter (fun ne => is_file_entry (snd ne)) l)) ::
      flat_map (fun ne => walk_entry (path_join d (fst ne)) (snd ne)) l
  | _ => []
  end.

Section Walk.
  (** What lies at a path; os.scandir of the empty path fails. *)
  Variable disk : string -> option entry.

  (** os.walk(root) *)
  Definition walk (root : string) : list (string * list string) :=
    if String.eqb root "" then []
    else match disk root with Some e => walk_entry root e | None => [] end.

  (** util.py:215-237 [find_recursive]; 219, 229: os.walk; 221, 232: [pattern in f];
      230: [hide not in d]. *)
  Definition hidden (hide : option string) (d : string) : bool :=
    match hide with None => false | Some h => within h d end.
  Definition find_recursive (root pattern : string) (hide : option string) : list string :=
    flat_map (fun b => if hidden hide (fst b) then []
                       else map (path_join (fst b)) (filter (within pattern) (snd b))) (walk root).
End Walk.

(** fnmatch.fnmatch on POSIX, for patterns without brackets: a star stands for anything (also
    for leading dots and for slashes), a question mark for one character. *)
Fixpoint glob_match (pat s : string) {struct pat} : bool :=
  match pat with
  | EmptyString => match s with EmptyString => true | _ => false end
  | String c pat' =>
      if Ascii.eqb c "*" then
        (fix star (s : string) : bool :=
           glob_match pat' s || match s with EmptyString => false | String _ s' => star s' end) s
      else match s with
           | EmptyString => false
           | String x s' => (Ascii.eqb c "?" || Ascii.eqb c x) && glob_match pat' s'
           end
  end.
