(** Model of licant/licant_libs.py (the licant-libs command) and of [init] and
    [merge_two_dicts] of licant/libs.py.

    A registry is a Python dict from names to paths; its file holds JSON.  Of the json module
    only objects with string values are modelled (the C accelerator and the Python code accept
    the same texts); a file with any other JSON value is outside this model, and so are
    characters outside ASCII.  optparse is not modelled: [lopts] are its results. *)
From Verif Require Import PyBase PyPath.
Local Open Scope string_scope.
Local Open Scope list_scope.

Definition dict := list (string * string).

(** ** json (standard library) *)
Definition quote_ch : ascii := "034"%char.
Definition backslash : ascii := "092"%char.
Definition hexdigit (n : nat) : ascii := ascii_of_nat (if Nat.ltb n 10 then 48 + n else 87 + n).
(** json/encoder.py ESCAPE_DCT and py_encode_basestring_ascii. *)
Definition esc (c : ascii) : string :=
  let n := nat_of_ascii c in
  if Ascii.eqb c quote_ch then String backslash (String quote_ch "")
  else if Ascii.eqb c backslash then String backslash (String backslash "")
  else if Nat.eqb n 10 then String backslash "n"
  else if Nat.eqb n 13 then String backslash "r"
  else if Nat.eqb n 9 then String backslash "t"
  else if Nat.eqb n 12 then String backslash "f"
  else if Nat.eqb n 8 then String backslash "b"
  else if Nat.leb 32 n && Nat.leb n 126 then String c ""
  else String backslash (String "u"%char (String "0"%char (String "0"%char
         (String (hexdigit (n / 16)) (String (hexdigit (n mod 16)) ""))))).
Fixpoint esc_all (s : string) : string :=
  match s with EmptyString => "" | String c s' => (esc c ++ esc_all s')%string end.
Definition dump_str (s : string) : string := (String quote_ch (esc_all s) ++ String quote_ch "")%string.
Fixpoint dump_items (d : dict) : string :=
  match d with
  | [] => ""
  | [(k, v)] => (dump_str k ++ ": " ++ dump_str v)%string
  | (k, v) :: d' => (dump_str k ++ ": " ++ dump_str v ++ ", " ++ dump_items d')%string
  end.
(** json.dump(d, f): the text written. *)
Definition dumps (d : dict) : string := ("{" ++ dump_items d ++ "}")%string.

Definition is_ws (c : ascii) : bool :=
  let n := nat_of_ascii c in Nat.eqb n 32 || Nat.eqb n 9 || Nat.eqb n 10 || Nat.eqb n 13.
Fixpoint skip_ws (s : string) : string :=
  match s with String c s' => if is_ws c then skip_ws s' else s | EmptyString => "" end.
Definition unhex (c : ascii) : option nat :=
  let n := nat_of_ascii c in
  if Nat.leb 48 n && Nat.leb n 57 then Some (n - 48)
  else if Nat.leb 97 n && Nat.leb n 102 then Some (n - 87)
  else if Nat.leb 65 n && Nat.leb n 70 then Some (n - 55)
  else None.
(** json/decoder.py BACKSLASH. *)
Definition unesc (c : ascii) : option ascii :=
  if Ascii.eqb c quote_ch then Some quote_ch
  else if Ascii.eqb c backslash then Some backslash
  else if Ascii.eqb c "/" then Some "/"%char
  else if Ascii.eqb c "b" then Some (ascii_of_nat 8)
  else if Ascii.eqb c "f" then Some (ascii_of_nat 12)
  else if Ascii.eqb c "n" then Some (ascii_of_nat 10)
  else if Ascii.eqb c "r" then Some (ascii_of_nat 13)
  else if Ascii.eqb c "t" then Some (ascii_of_nat 9)
  else None.
Definition hex4 (a b c d : ascii) : option nat :=
  match unhex a, unhex b, unhex c, unhex d with
  | Some a, Some b, Some c, Some d => Some (((a * 16 + b) * 16 + c) * 16 + d)
  | _, _, _, _ => None
  end.
Definition ocons (c : ascii) (o : option (string * string)) : option (string * string) :=
  match o with Some (v, r) => Some (String c v, r) | None => None end.
(** json/decoder.py py_scanstring, after the opening quote: the string and the rest. *)
Fixpoint parse_str (s : string) : option (string * string) :=
  match s with
  | EmptyString => None
  | String c s' =>
      if Ascii.eqb c quote_ch then Some ("", s')
      else if Ascii.eqb c backslash then
        match s' with
        | EmptyString => None
        | String e s2 =>
            if Ascii.eqb e "u" then
              match s2 with
              | String a (String b (String c (String d s3))) =>
                  match hex4 a b c d with
                  | Some n => if Nat.ltb n 128 then ocons (ascii_of_nat n) (parse_str s3) else None
                  | None => None
                  end
              | _ => None
              end
            else match unesc e with Some ch => ocons ch (parse_str s2) | None => None end
        end
      else if Nat.ltb (nat_of_ascii c) 32 then None
      else ocons c (parse_str s')
  end.
Definition expect (c : ascii) (s : string) : option string :=
  match s with String d s' => if Ascii.eqb c d then Some s' else None | EmptyString => None end.
Definition obind {A B} (o : option A) (f : A -> option B) : option B :=
  match o with Some x => f x | None => None end.
(** json/decoder.py JSONObject, after the opening quote of a key. *)
Fixpoint parse_members (fuel : nat) (s : string) : option (dict * string) :=
  match fuel with
  | 0 => None
  | S fuel' =>
      obind (parse_str s) (fun '(k, r0) =>
      obind (expect ":" (skip_ws r0)) (fun r1 =>
      obind (expect quote_ch (skip_ws r1)) (fun r2 =>
      obind (parse_str r2) (fun '(v, r3) =>
      match expect "}" (skip_ws r3) with
      | Some r4 => Some ([(k, v)], r4)
      | None =>
          obind (expect "," (skip_ws r3)) (fun r4 =>
          obind (expect quote_ch (skip_ws r4)) (fun r5 =>
          obind (parse_members fuel' r5) (fun '(d, r6) => Some ((k, v) :: d, r6))))
      end))))
  end.
Definition parse_object (fuel : nat) (s : string) : option (dict * string) :=
  obind (expect "{" (skip_ws s)) (fun r =>
  match expect "}" (skip_ws r) with
  | Some r1 => Some ([], r1)
  | None => obind (expect quote_ch (skip_ws r)) (parse_members fuel)
  end).
(** json.load: the last of several values for a key counts; nothing but white space after. *)
Definition loads (s : string) : option dict :=
  obind (parse_object (S (String.length s)) s) (fun '(d, r) =>
  match skip_ws r with
  | EmptyString => Some (fold_left (fun acc x => sset acc (fst x) (snd x)) d [])
  | _ => None
  end).

(** ** libs.py *)
(** 16-19 *)
Definition merge_two_dicts (x y : dict) : dict := fold_left (fun acc e => sset acc (fst e) (snd e)) y x.
(** The disk: texts of files. *)
Definition disk := string -> option string.
Definition gpath := "/var/lib/licant".
Definition lpath (home : string) : string := expanduser home "~/.licant".
(** 26-35 [init]; json.load raises ValueError (JSONDecodeError) on a text it does not accept. *)
Definition load_or_empty (fs : disk) (p : string) : res dict :=
  match fs p with
  | None => Ok []
  | Some t => match loads t with Some d => Ok d | None => Raise (ValueError "JSONDecodeError") end
  end.
Definition init (home : string) (fs : disk) : res dict :=
  do! g <- load_or_empty fs gpath;
  do! l <- load_or_empty fs (lpath home);
  Ok (merge_two_dicts g l).

(** ** licant_libs.py *)
Record lopts := LO { lo_user : bool; lo_remove : bool; lo_list : bool; lo_args : list string }.

Section Utility.
  Variable cwd home : string.
  Variable exists_ : string -> bool.            (* os.path.exists *)
  Variable glob_ : string -> list string.       (* glob.glob *)

  (** 14-23 [add_record]; [None]: "is not exists", exit(-1). *)
  Definition add_record (name path : string) (paths : dict) : res dict :=
    let a := abspath cwd path in
    if exists_ a then Ok (sset paths name a) else Raise (SystemExit "File is not exists").
  (** str.split('.')[0] *)
  Fixpoint first_word (s : string) : string :=
    match s with
    | EmptyString => ""
    | String c s' => if Ascii.eqb c dot then "" else String c (first_word s')
    end.
  Fixpoint add_all (l : list string) (paths : dict) : res dict :=       (* 71-75 *)
    match l with
    | [] => Ok paths
    | f :: l' => do! p <- add_record (first_word (basename f)) f paths; add_all l' p
    end.
  (** 77-81: [name] is None here (62: it is set for additions only), and the keys of a
      registry are strings, so the [del] raises and the exception is dropped. *)
  Definition remove_record (name : option string) (paths : dict) : dict :=
    match name with None => paths | Some n => ddel String.eqb paths n end.

  Definition paths_file (o : lopts) : string := if lo_user o then lpath home else gpath. (* 35 *)

  (** 26-89.  [Ok (Some t)]: the text [t] is written to the file; [Ok None]: the file is left. *)
  Definition utility (fs : disk) (o : lopts) : res (option string) :=
    do! paths <- match fs (paths_file o) with
                 | None => Ok []
                 | Some t => match loads t with
                             | Some d => Ok d
                             | None => Raise (SystemExit "Wrong format")
                             end
                 end;
    if lo_list o then Ok None                                            (* 47-51 *)
    else if Nat.ltb 2 (List.length (lo_args o)) || (lo_remove o && negb (Nat.eqb (List.length (lo_args o)) 1))
    then Raise (SystemExit "incorrect numbers of argument")              (* 53-55 *)
    else match lo_args o with
         | [] => Raise (AttributeError "help")                           (* 57-58: parser.help() *)
         | [a] => if lo_remove o then Ok (Some (dumps (remove_record None paths)))
                  else do! p <- add_all (glob_ (path_join a "*.g.py")) paths; Ok (Some (dumps p))
         | a :: b :: _ => do! p <- add_record a b paths; Ok (Some (dumps p))
         end.

  (** 85: open(file, "w") empties the file, then the text is written; a process that is killed
      leaves a beginning of the text.  The new states of the file: *)
  Definition prefix_of (p t : string) : Prop := exists q, t = (p ++ q)%string.
  Definition set_file (fs : disk) (p : string) (t : string) : disk :=
    fun q => if String.eqb q p then Some t else fs q.
  (** What the disk may look like when the process ends or is killed. *)
  Inductive left_behind (fs : disk) (o : lopts) : disk -> Prop :=
  | lb_untouched : left_behind fs o fs
  | lb_writing : forall t p, utility fs o = Ok (Some t) -> prefix_of p t ->
      left_behind fs o (set_file fs (paths_file o) p).
  (** When it runs to the end and the file can be written. *)
  Definition after (fs : disk) (o : lopts) : disk :=
    match utility fs o with Ok (Some t) => set_file fs (paths_file o) t | _ => fs end.
End Utility.
