(** Vocabulary for statements about running commands. *)
From Verif Require Import PyBase ProcessModel.
Local Open Scope list_scope.

(** What a process writes to one stream ([true]: standard output). *)
Definition writes (st : bool) (p : script) : list ascii :=
  map snd (filter (fun x => Bool.eqb (fst x) st) p).
(** Number of bytes that all processes together write to a stream. *)
Definition amount (st : bool) (cmd : list script) : nat := List.length (flat_map (writes st) cmd).

(** The command's processes: the shell and others. *)
Definition reachable cap (shell : script) (bg : list script) (s : pstate) : Prop :=
  exists n, psteps cap n (pstart (shell :: bg)) s.
(** [do_execute] is through. *)
Definition finished (s : pstate) : Prop := exists o e, p_pc s = PDone o e \/ p_pc s = PRaised o e.

(** Unicode scalar values and their UTF-8 encodings (RFC 3629), as numbers. *)
Definition scalar (n : Z) : Prop := (0 <= n < 55296 \/ 57344 <= n < 1114112)%Z.
Definition encode (n : Z) : list Z :=
  (if n <? 128 then [n]
   else if n <? 2048 then [192 + n / 64; 128 + n mod 64]
   else if n <? 65536 then [224 + n / 4096; 128 + n / 64 mod 64; 128 + n mod 64]
   else [240 + n / 262144; 128 + n / 4096 mod 64; 128 + n / 64 mod 64; 128 + n mod 64])%Z.
Definition code (c : ascii) : Z := Z.of_nat (nat_of_ascii c).
Definition utf8_text (l : list ascii) : Prop := exists ns, Forall scalar ns /\ map code l = flat_map encode ns.
