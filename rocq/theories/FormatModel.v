(** Python's [str.format] as used for rules and messages (licant/make.py:31, 39-41:
    [rule.format( **target.__dict__ )]).  Fields may select attributes ([{opts.toolchain.cxx}],
    cxx_make.py:103-115).  Conversions ([!r]), format specifications ([:>8]) and indexing
    ([[0]]) do not occur in licant; they are answered with [FUnsupported]. *)
From Verif Require Import PyBase.
Local Open Scope string_scope.
Local Open Scope list_scope.

(** A value: how it prints, and its attributes. *)
Inductive pyobj := PV (str : string) (attrs : list (string * pyobj)).
Definition pv_str (v : pyobj) : string := match v with PV s _ => s end.
Definition pv_attrs (v : pyobj) : list (string * pyobj) := match v with PV _ a => a end.

Inductive fexn :=
| FKey (k : string)       (* KeyError: no such field *)
| FAttr (a : string)      (* AttributeError *)
| FIndex                  (* IndexError: "{}" and "{0}", there are no positional arguments *)
| FEmptyAttr              (* ValueError: empty attribute in format string *)
| FSingle (c : ascii)     (* ValueError: single brace *)
| FOpen                   (* ValueError: expected '}' before end of string *)
| FNested                 (* ValueError: unexpected '{' in field name *)
| FUnsupported.
Inductive fres := FOk (s : string) | FRaise (e : fexn).

Definition ch_open : ascii := "{"%char.
Definition ch_close : ascii := "}"%char.
Definition ch_dot : ascii := "."%char.

Fixpoint split_dot (s : string) : list string :=
  match s with
  | EmptyString => [""]
  | String c s' =>
      if Ascii.eqb c ch_dot then "" :: split_dot s'
      else match split_dot s' with h :: t => String c h :: t | [] => [String c ""] end
  end.
Fixpoint all_digits (s : string) : bool :=
  match s with
  | EmptyString => true
  | String c s' => (Nat.leb 48 (nat_of_ascii c) && Nat.leb (nat_of_ascii c) 57) && all_digits s'
  end.
Fixpoint special (s : string) : bool :=
  match s with
  | EmptyString => false
  | String c s' => Ascii.eqb c "[" || Ascii.eqb c "!" || Ascii.eqb c ":" || special s'
  end.

Fixpoint get_attrs (v : pyobj) (l : list string) : fres :=
  match l with
  | [] => FOk (pv_str v)
  | a :: l' =>
      if String.eqb a "" then FRaise FEmptyAttr
      else match sget (pv_attrs v) a with
           | None => FRaise (FAttr a)
           | Some v' => get_attrs v' l'
           end
  end.
(** The value of field [f]. *)
Definition get_field (env : list (string * pyobj)) (f : string) : fres :=
  if special f then FRaise FUnsupported
  else match split_dot f with
       | [] => FRaise FIndex
       | k :: l => if all_digits k then FRaise FIndex      (* also the empty name *)
                   else match sget env k with
                        | None => FRaise (FKey k)
                        | Some v => get_attrs v l
                        end
       end.

Definition fcons (c : ascii) (r : fres) : fres :=
  match r with FOk s => FOk (String c s) | e => e end.
Definition fapp (a : fres) (r : fres) : fres :=
  match a with
  | FOk s => match r with FOk s' => FOk (s ++ s')%string | e => e end
  | e => e
  end.

(** [field = None]: in literal text; [Some f]: after "{", [f] has been read. *)
Fixpoint fmt (env : list (string * pyobj)) (field : option string) (s : string) : fres :=
  match field, s with
  | None, EmptyString => FOk ""
  | None, String c s' =>
      if Ascii.eqb c ch_open then
        match s' with
        | EmptyString => FRaise (FSingle ch_open)
        | String d s'' => if Ascii.eqb d ch_open then fcons ch_open (fmt env None s'')
                          else fmt env (Some "") s'
        end
      else if Ascii.eqb c ch_close then
        match s' with
        | EmptyString => FRaise (FSingle ch_close)
        | String d s'' => if Ascii.eqb d ch_close then fcons ch_close (fmt env None s'')
                          else FRaise (FSingle ch_close)
        end
      else fcons c (fmt env None s')
  | Some _, EmptyString => FRaise FOpen
  | Some f, String c s' =>
      if Ascii.eqb c ch_close then
        match get_field env f with
        | FOk v => fapp (FOk v) (fmt env None s')
        | e => e
        end
      else if Ascii.eqb c ch_open then FRaise FNested
      else fmt env (Some (f ++ String c "")%string) s'
  end.
(** [template.format( **env )] *)
Definition format (env : list (string * pyobj)) (template : string) : fres := fmt env None template.
