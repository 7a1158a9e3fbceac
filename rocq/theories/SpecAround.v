(** Vocabulary for statements about builds of C++ scripts while files elsewhere change: the
    commands look at files, in particular headers, that the script need not mention. *)
From Coq Require Import Permutation.
From Verif Require Import PyBase PyPath SolverModel SpecGraph InvokerModel SpecTrace CoreModel SpecCore MakeModel SpecMake RegModel CliModel SpecUtil SpecReg SpecProject SpecCrowd SpecElsewhere SpecTrack SpecCxxTrack.
Local Open Scope string_scope.
Local Open Scope list_scope.

(** With the contents [s], the rule for [p] looks at nothing but the declared inputs and the
    files [R]. *)
Definition looks_at (R : string -> Prop) (P : project) (p : string) (s : ctx) : Prop :=
  forall f ds b, P p = Some (DRule f ds b) -> forall s', (forall q, p_input P p q \/ R q -> s' q = s q) -> b s' = b s.
(** A worker has taken the target of that name, which needs an update. *)
Definition calls (c : core) (objs : list nat) (s : state world) (p : string) : Prop :=
  s_main s = MJoin /\ exists v t, nth_error (s_workers s) v = Some (WRun t) /\ let j := nth t objs (List.length (c_heap c)) in
    t_need (obj c j) = Some true /\ p = t_name (obj c j).

(** Others also keep what is in the files [R]; they may touch them. *)
Definition keeps_also (R : string -> Prop) kind c objs (fs fs' : fsys) : Prop :=
  keeps_off kind c objs fs fs' /\ forall q, R q -> contents fs' q = contents fs q.
(** cf. [amid]. *)
Inductive amid_also canon (R : string -> Prop) kind partial (sv : solver) (c : core) (objs : list nat) (w0 : world) : state world -> Prop :=
| aa_start : amid_also canon R kind partial sv c objs w0 (init_state sv w0)
| aa_moves s s' : amid_also canon R kind partial sv c objs w0 s ->
    step (inv_of (sv_inv sv)) (mk_task canon kind partial c objs) s s' -> amid_also canon R kind partial sv c objs w0 s'
| aa_others s fs' now' : amid_also canon R kind partial sv c objs w0 s -> keeps_also R kind c objs (w_fs (s_world s)) fs' ->
    amid_also canon R kind partial sv c objs w0 (at_now fs' now' s).
(** cf. [amid_building]. *)
Definition around_building cwd home exists_ glob_ (R : string -> Prop) partial (l : list stmt) (x : string) (th : Z) (fs : fsys) (now : nat)
           (kind : nat -> mkind) (c1 : core) (objs : list nat) (sv : solver) (s : state world) : Prop :=
  exists ca1, prepares cwd home exists_ glob_ l x th fs kind c1 objs sv ca1 /\
    amid_also (realpath cwd) R kind partial sv c1 objs (WD fs ca1 now now []) s.
(** The same but for the files of others and the clock, cf. [as_if]. *)
Definition as_if_also (R : string -> Prop) kind c objs (s a : state world) : Prop :=
  as_if kind c objs s a /\ forall q, R q -> contents (w_fs (s_world s)) q = contents (w_fs (s_world a)) q.

(** The headers that the sources include when the files have the contents [s]. *)
Definition included cwd (its : list item) (s : ctx) (q : string) : Prop :=
  exists u v h, In (IUnit u) its /\ u_list u s = Some v /\ In h (listed (Some v)) /\ q = realpath cwd h.

(** The first process does not change the files [R]. *)
Definition spares kind c objs (R : string -> Prop) : Prop := forall q, R q -> ~ may_change kind c objs q.
