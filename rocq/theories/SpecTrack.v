(** Vocabulary for builds whose rules depend on more than the script says: what a rule reads
    may depend on the contents of the files, and the project that a process sees depends on
    what earlier processes left (lists of headers).  Nothing here mentions targets. *)
From Verif Require Import PyBase PyPath SolverModel SpecGraph InvokerModel SpecTrace CoreModel SpecCore MakeModel SpecMake.

Definition ctx := string -> option string.

(** [rules p]: the function of the rule for file [p].  [reads p s q]: this rule looks at file
    [q] when the files have the contents [s].  [junk p v]: content that interrupted or failed
    runs of the rule may leave in [p]. *)
Section Tracking.
  Variable rules : string -> option buildfun.
  Variable reads : string -> ctx -> string -> Prop.
  Variable junk : string -> string -> Prop.
  Variable proj : ctx -> project.

  (** The content of [q] is what its rule makes of [s]. *)
  Definition right_now (s : ctx) (q : string) : Prop :=
    forall b, rules q = Some b -> exists v, b s = Some v /\ s q = Some v.

  Record tracking : Prop := {
    (** The rules are the same in all processes; dependencies may differ. *)
    tr_rules : forall s p b, rules p = Some b <-> exists f ds, proj s p = Some (DRule f ds b);
    (** A rule sees nothing but what it reads. *)
    tr_local : forall p b v s s', rules p = Some b -> b s = Some v ->
      (forall q, reads p s q -> right_now s q) -> (forall q, reads p s q -> s' q = s q) ->
      b s' = Some v /\ forall q, reads p s' q -> reads p s q;
    (** If [p] is what its rule made of [s0] and is not always remade, and the files that [p]
        depends on in [proj s] are as they were in [s0], then [proj s] knows all that was read. *)
    tr_tracked : forall p b v s0 s ds, rules p = Some b -> b s0 = Some v ->
      (forall q, reads p s0 q -> right_now s0 q) -> s p = Some v -> proj s p = Some (DRule false ds b) ->
      (forall q, reads p s0 q -> p_input (proj s) p q -> s q = s0 q) ->
      forall q, reads p s0 q -> p_input (proj s) p q;
    (** Files with rules that are read are known in advance. *)
    tr_declared : forall p s s' q, rules p <> None ->
      (forall x, p_input (proj s') p x -> right_now s x) ->
      reads p s q -> rules q <> None -> p_input (proj s') p q;
    (** Junk is remade. *)
    tr_junk : forall p v s ds b, junk p v -> s p = Some v -> proj s p <> Some (DRule false ds b) }.

  (** What may happen between builds: files without rules are written with a later date,
      anything is deleted. *)
  Definition track_outside (fs : fsys) (now : nat) (fs' : fsys) (now' : nat) : Prop :=
    now <= now' /\
    forall p, fs' p = fs p \/ fs' p = None \/
      (rules p = None /\ exists m n, fs' p = Some (m, n) /\ now < m <= now').

  (** What failed rules have left. *)
  Definition leaves_junk (w : world) : Prop :=
    forall p m v, In (p, false) (w_ran w) -> w_fs w p = Some (m, Reg v) -> w_base w < m -> junk p v.
  (** The rule for [p] is running. *)
  Definition running (c1 : core) (objs : list nat) (s : state world) (p : string) : Prop :=
    (exists k, In k (started (s_log s)) /\ t_name (obj c1 (nth k objs (List.length (c_heap c1)))) = p) /\
    forall k, In k (finished (s_log s)) \/ In k (raised (s_log s)) -> t_name (obj c1 (nth k objs (List.length (c_heap c1)))) <> p.
  (** The files when the process is gone: rules that were running may have left junk. *)
  Definition left_by (c1 : core) (objs : list nat) (s : state world) (fs' : fsys) (now' : nat) : Prop :=
    w_now (s_world s) <= now' /\
    forall p, fs' p = w_fs (s_world s) p \/
      (rules p <> None /\ running c1 objs s p /\
       exists m v, fs' p = Some (m, Reg v) /\ w_base (s_world s) < m <= now' /\ junk p v).

  (** Each build sees the project of the files that are there when its process starts. *)
  Inductive track_history canon : fsys -> nat -> Prop :=
  | th_start fs now : dated fs now -> (forall p, rules p <> None -> fs p = None) -> track_history canon fs now
  | th_outside fs now fs' now' : track_history canon fs now -> track_outside fs now fs' now' ->
      track_history canon fs' now'
  | th_build fs now kind other_if c i ca c1 objs s fs' now' : track_history canon fs now ->
      implements canon kind (proj (contents fs)) c i ->
      build_of canon kind other_if true c i fs now ca c1 objs s ->
      leaves_junk (s_world s) -> left_by c1 objs s fs' now' ->
      track_history canon fs' now'.
End Tracking.
