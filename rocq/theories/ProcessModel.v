(** Model of licant/make.py:20-60 [do_execute]: how it runs a command.

    make.py:46-47  [Popen(rule, shell=True, stdout=PIPE, stderr=PIPE)] starts the shell,
                   whose standard output and standard error are pipes of capacity [cap];
    make.py:48-49  the ends to read from;
    make.py:50     [proc.wait()]: waits for the shell, reads nothing;
    make.py:52,54  [stdout.read()], then [stderr.read()]: read until end of file, which comes
                   when the pipe is empty and every process that could write to it is gone;
    make.py:52,54  [.decode("utf-8")] raises UnicodeDecodeError on malformed text;
    make.py:60     the result.

    The processes of the command are the shell (number 0) and those it leaves in the
    background.  Each is the list of the bytes it will write ([true]: to standard output),
    after which it exits; a write to a full pipe waits.  Formatting of the rule is in
    FormatModel.v; messages and [update_info] are left out here. *)
From Verif Require Import PyBase InvokerModel.
Local Open Scope list_scope.

Definition script := list (bool * ascii).

(** Strict UTF-8 (RFC 3629), as [bytes.decode("utf-8")] checks it. *)
Definition between (lo hi : nat) (c : ascii) : bool := Nat.leb lo (nat_of_ascii c) && Nat.leb (nat_of_ascii c) hi.
Fixpoint utf8_ok (l : list ascii) : bool :=
  match l with
  | [] => true
  | c :: l1 =>
      if between 0 127 c then utf8_ok l1
      else match l1 with
      | [] => false
      | c1 :: l2 =>
          if between 194 223 c then between 128 191 c1 && utf8_ok l2
          else match l2 with
          | [] => false
          | c2 :: l3 =>
              if between 224 239 c then
                between (if Nat.eqb (nat_of_ascii c) 224 then 160 else 128)
                        (if Nat.eqb (nat_of_ascii c) 237 then 159 else 191) c1 && between 128 191 c2 && utf8_ok l3
              else match l3 with
              | [] => false
              | c3 :: l4 =>
                  between 240 244 c &&
                  between (if Nat.eqb (nat_of_ascii c) 240 then 144 else 128)
                          (if Nat.eqb (nat_of_ascii c) 244 then 143 else 191) c1 &&
                  between 128 191 c2 && between 128 191 c3 && utf8_ok l4
              end
          end
      end
  end.

(** Where [do_execute] is. *)
Inductive ppc :=
| PWait                                  (* 50 *)
| PReadOut (o : list ascii)              (* 52, [o] read so far *)
| PReadErr (o e : list ascii)            (* 54 *)
| PDone (o e : list ascii)               (* 60 *)
| PRaised (o e : list ascii).            (* an exception leaves do_execute *)

Record pstate := PS {
  p_procs : list (option script);        (* [None]: has exited *)
  p_out : list ascii;                    (* in the pipes *)
  p_err : list ascii;
  p_pc : ppc
}.

Definition gone (o : option script) : bool := match o with None => true | Some _ => false end.
Definition all_gone (l : list (option script)) : bool := forallb gone l.

Inductive pstep (cap : nat) : pstate -> pstate -> Prop :=
| ps_out s i b r : nth_error (p_procs s) i = Some (Some ((true, b) :: r)) -> List.length (p_out s) < cap ->
    pstep cap s (PS (lupd (p_procs s) i (Some r)) (p_out s ++ [b]) (p_err s) (p_pc s))
| ps_err s i b r : nth_error (p_procs s) i = Some (Some ((false, b) :: r)) -> List.length (p_err s) < cap ->
    pstep cap s (PS (lupd (p_procs s) i (Some r)) (p_out s) (p_err s ++ [b]) (p_pc s))
| ps_exit s i : nth_error (p_procs s) i = Some (Some []) ->
    pstep cap s (PS (lupd (p_procs s) i None) (p_out s) (p_err s) (p_pc s))
| ps_waited s : p_pc s = PWait -> nth_error (p_procs s) 0 = Some None ->
    pstep cap s (PS (p_procs s) (p_out s) (p_err s) (PReadOut []))
| ps_read_out s o b l : p_pc s = PReadOut o -> p_out s = b :: l ->
    pstep cap s (PS (p_procs s) l (p_err s) (PReadOut (o ++ [b])))
| ps_eof_out s o : p_pc s = PReadOut o -> p_out s = [] -> all_gone (p_procs s) = true ->
    pstep cap s (PS (p_procs s) (p_out s) (p_err s) (if utf8_ok o then PReadErr o [] else PRaised o []))
| ps_read_err s o e b l : p_pc s = PReadErr o e -> p_err s = b :: l ->
    pstep cap s (PS (p_procs s) (p_out s) l (PReadErr o (e ++ [b])))
| ps_eof_err s o e : p_pc s = PReadErr o e -> p_err s = [] -> all_gone (p_procs s) = true ->
    pstep cap s (PS (p_procs s) (p_out s) (p_err s) (if utf8_ok e then PDone o e else PRaised o e)).

(** Runs of [do_execute] on the command whose processes are [cmd]. *)
Definition pstart (cmd : list script) : pstate := PS (map Some cmd) [] [] PWait.
Inductive psteps (cap : nat) : nat -> pstate -> pstate -> Prop :=
| pss_refl s : psteps cap 0 s s
| pss_step n s s' s'' : psteps cap n s s' -> pstep cap s' s'' -> psteps cap (S n) s s''.

(** make.py:60; [status]: what proc.wait() returned. *)
Definition do_execute_result (status : Z) (pc : ppc) : option (res bool) :=
  match pc with
  | PDone _ _ => Some (Ok (Z.eqb status 0))
  | PRaised _ _ => Some (Raise (ValueError "utf-8"))
  | _ => None
  end.
