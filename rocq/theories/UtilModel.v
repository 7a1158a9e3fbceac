(** Model of helpers of licant/util.py: queue, canonical_path, cxx_read_depends, changeext,
    flag_prefix. *)
From Verif Require Import PyBase PyPath.
Local Open Scope string_scope.
Local Open Scope list_scope.

(** ** util.py:130-157 [queue] *)
Section Queue.
  Context {A : Type}.
  (** 134-136 [__init__] *)
  Record queue := QU { q_lst : list A; q_rdr : nat }.
  Definition q_new : queue := QU [] 0.
  (** 138-139 *)
  Definition q_put (q : queue) (x : A) : queue := QU (q_lst q ++ [x]) (q_rdr q).
  (** 141-151; [lst[rdr]] raises if there is no such place. *)
  Definition q_get (q : queue) : res (A * queue) :=
    if Nat.eqb (List.length (q_lst q)) 0 then Raise (PlainException "DontHaveArg")
    else match nth_error (q_lst q) (q_rdr q) with
         | None => Raise (ValueError "list index out of range")
         | Some ret =>
             let r := S (q_rdr q) in
             Ok (ret, if Nat.leb (List.length (q_lst q)) r then q_new else QU (q_lst q) r)
         end.
  (** 153-154 *)
  Definition q_empty (q : queue) : bool := Nat.eqb (List.length (q_lst q)) 0.

  (** A program that uses the queue: calls and their answers. *)
  Inductive q_call := CPut (x : A) | CGet | CEmpty.
  Inductive q_answer := ADone | AGot (x : A) | ARaised | ABool (b : bool).
  Definition q_step (q : queue) (c : q_call) : q_answer * queue :=
    match c with
    | CPut x => (ADone, q_put q x)
    | CGet => match q_get q with Ok (x, q') => (AGot x, q') | _ => (ARaised, q) end
    | CEmpty => (ABool (q_empty q), q)
    end.
  Fixpoint q_run (q : queue) (l : list q_call) : list q_answer :=
    match l with [] => [] | c :: l' => let '(a, q') := q_step q c in a :: q_run q' l' end.
End Queue.
Arguments queue : clear implicits.
Arguments q_call : clear implicits.
Arguments q_answer : clear implicits.

(** ** util.py:273-288 [canonical_path] and the dictionary behind it.  [rp] is
    os.path.realpath at the time of the call (it depends on the current directory). *)
Definition pstore := list (string * string).
Definition canonical_path (rp : string -> string) (st : pstore) (p : string) : string * pstore :=
  match sget st p with
  | Some v => (v, st)                       (* defaultdict.__getitem__ *)
  | None => let v := rp p in (v, sset st p v)      (* 278-281 [__missing__] *)
  end.
(** A sequence of queries, each with the realpath of its moment. *)
Fixpoint cp_run (st : pstore) (l : list ((string -> string) * string)) : list string :=
  match l with
  | [] => []
  | (rp, p) :: l' => let '(v, st') := canonical_path rp st p in v :: cp_run st' l'
  end.

(** ** util.py:243-254 [cxx_read_depends].  Characters are ASCII ([\w] of other letters is
    not modelled). *)
Definition in_range (lo hi : nat) (c : ascii) : bool :=
  let n := nat_of_ascii c in Nat.leb lo n && Nat.leb n hi.
(** Characters of [[\w./-]] (240). *)
Definition name_char (c : ascii) : bool :=
  in_range 48 57 c || in_range 65 90 c || in_range 97 122 c ||
  Ascii.eqb c "_" || Ascii.eqb c "." || Ascii.eqb c "/" || Ascii.eqb c "-".
(** [findall]: the maximal runs of such characters ([cur]: the run being read). *)
Fixpoint findall (s cur : string) : list string :=
  match s with
  | EmptyString => match cur with EmptyString => [] | _ => [cur] end
  | String c s' =>
      if name_char c then findall s' (cur ++ String c "")%string
      else match cur with EmptyString => findall s' "" | _ => cur :: findall s' "" end
  end.
(** The argument is the text of the file, [None] if it does not exist. *)
Definition cxx_read_depends (file : option string) : option (list string) :=
  match file with
  | None => None                            (* 244-245 *)
  | Some text =>
      if String.eqb text "" then None       (* 250-251 *)
      else Some (skipn 2 (findall text "")) (* 253-254 *)
  end.

(** ** util.py:204-205 [changeext], 208-212 [flag_prefix] *)
Definition changeext (path newext : string) : string :=
  (fst (splitext path) ++ "." ++ newext)%string.
Definition flag_prefix (pref : string) (l : list string) : string :=
  String.concat " " (map (fun x => (pref ++ x)%string) l).
