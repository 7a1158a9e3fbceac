(** What the shell makes of the rules "rm -f {tgt}" (licant/make.py:162) and
    "cp {src} {tgt}" (make.py:251, 338), which [do_execute] formats (make.py:31) and passes
    to [sh -c] (make.py:46-47) without quoting.

    Only command lines made of plain characters, blanks and semicolons are modelled, and only
    the commands [rm] and [cp]; anything else yields [None] (not modelled).  There are no
    symbolic links, and every file may be read and written.  [now] is the time stamp that
    files get. *)
From Verif Require Import PyBase PyPath FormatModel InvokerModel CoreModel MakeModel.
Local Open Scope string_scope.
Local Open Scope list_scope.

(** Characters that mean themselves to the shell wherever they stand in an argument. *)
Definition plain_char (c : ascii) : bool :=
  let n := nat_of_ascii c in
  (Nat.leb 48 n && Nat.leb n 57) || (Nat.leb 65 n && Nat.leb n 90) || (Nat.leb 97 n && Nat.leb n 122) ||
  existsb (Ascii.eqb c) ["_"; "."; "/"; "-"; "+"; ","; ":"; "@"; "%"; "="]%char.
Definition blank (c : ascii) : bool := Ascii.eqb c " "%char.

Fixpoint snoc (s : string) (c : ascii) : string :=
  match s with EmptyString => String c "" | String d s' => String d (snoc s' c) end.
(** The word being read, if any, ends here. *)
Definition end_word (w : string) (cmd : list string) : list string :=
  if String.eqb w "" then cmd else cmd ++ [w].

(** [w]: the word being read; [cmd]: the words of the present command. *)
Fixpoint sh_lex (s w : string) (cmd : list string) : option (list (list string)) :=
  match s with
  | EmptyString => Some [end_word w cmd]
  | String c s' =>
      if plain_char c then sh_lex s' (snoc w c) cmd
      else if blank c then sh_lex s' "" (end_word w cmd)
      else if Ascii.eqb c ";" then
        match end_word w cmd with
        | [] => None                               (* syntax error *)
        | cmd' => match sh_lex s' "" [] with Some l => Some (cmd' :: l) | None => None end
        end
      else None
  end.

Definition is_dir (fs : fsys) (p : string) : bool := match fs p with Some (_, Dir) => true | _ => false end.
Definition dash (w : string) : bool := match w with String c _ => Ascii.eqb c "-" | _ => false end.
Definition trailing_slash (w : string) : bool := ends_slash w.

Section Run.
  Variable cwd : string.
  Variable now : nat.

  (** rm(1): directories are refused, missing files are ignored with -f. *)
  Fixpoint rm_all (force : bool) (ops : list string) (fs : fsys) (ok : bool) : fsys * bool :=
    match ops with
    | [] => (fs, ok)
    | p :: ops' =>
        let q := realpath cwd p in
        match fs q with
        | None => rm_all force ops' fs (ok && force)
        | Some (_, Dir) => rm_all force ops' fs false
        | Some (_, Reg _) => rm_all force ops' (fs_set fs q None) ok
        end
    end.
  (** cp(1): one file to the path [dst]. *)
  Definition cp_one (src dst : string) (fs : fsys) : fsys * bool :=
    let s := realpath cwd src in
    match contents fs s with
    | None => (fs, false)
    | Some v =>
        if String.eqb s dst || is_dir fs dst || negb (is_dir fs (dirname dst)) then (fs, false)
        else (fs_set fs dst (Some (now, Reg v)), true)
    end.
  Fixpoint cp_into (dir : string) (srcs : list string) (fs : fsys) (ok : bool) : fsys * bool :=
    match srcs with
    | [] => (fs, ok)
    | s :: srcs' => let '(fs', b) := cp_one s (realpath cwd (path_join dir (basename s))) fs in cp_into dir srcs' fs' (ok && b)
    end.
  Definition cp_all (ops : list string) (fs : fsys) : fsys * bool :=
    match rev ops with
    | [] | [_] => (fs, false)                      (* missing operand *)
    | last :: srcs =>
        let d := realpath cwd last in
        if is_dir fs d then cp_into d (rev srcs) fs true
        else match srcs with
             | [s] => cp_one s d fs
             | _ => (fs, false)                    (* target is not a directory *)
             end
    end.

  Definition run_cmd (words : list string) (fs : fsys) : option (fsys * bool) :=
    match words with
    | [] => Some (fs, true)
    | c :: args =>
        let opts := filter dash args in
        let ops := filter (fun w => negb (dash w)) args in
        if existsb trailing_slash ops then None
        else if String.eqb c "rm" then
          if forallb (String.eqb "-f") opts then
            match ops, opts with
            | [], [] => Some (fs, false)           (* missing operand *)
            | _, _ => Some (rm_all (match opts with [] => false | _ => true end) ops fs true)
            end
          else None
        else if String.eqb c "cp" then
          match opts with [] => Some (cp_all ops fs) | _ => None end
        else None
    end.
  (** The exit status is that of the last command. *)
  Fixpoint run_cmds (cmds : list (list string)) (fs : fsys) (ok : bool) : option (fsys * bool) :=
    match cmds with
    | [] => Some (fs, ok)
    | w :: cmds' => match run_cmd w fs with Some (fs', ok') => run_cmds cmds' fs' ok' | None => None end
    end.
  Definition sh (line : string) (fs : fsys) : option (fsys * bool) :=
    match sh_lex line "" [] with Some cmds => run_cmds cmds fs true | None => None end.

  (** make.py:31, 46-50 for the given rule; [env]: the attributes of the target. *)
  Definition exec_rule (rule : string) (env : list (string * pyobj)) (fs : fsys) : option (fsys * bool) :=
    match format env rule with FOk line => sh line fs | FRaise _ => None end.
End Run.

(** make.py:162 *)
Definition clr_rule : string := "rm -f {tgt}".
(** make.py:251, 338 *)
Definition copy_rule : string := "cp {src} {tgt}".
Definition env_of (src tgt : string) : list (string * pyobj) := [("src", PV src []); ("tgt", PV tgt [])].
