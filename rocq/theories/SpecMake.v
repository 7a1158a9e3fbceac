(** Vocabulary for statements about builds.  A project says which files are sources, which
    have rules, and which names are file sets; it does not mention targets, caches or need
    flags. *)
From Coq Require Import Permutation.
From Verif Require Import PyBase PyPath SolverModel SpecGraph InvokerModel CoreModel SpecCore MakeModel.

Inductive decl :=
| DSource
| DRule (force : bool) (deps : list string) (build : buildfun)
| DSet (deps : list string).
Definition project := string -> option decl.

Definition is_rule (P : project) (p : string) : Prop := exists f ds b, P p = Some (DRule f ds b).
Definition is_file (P : project) (p : string) : Prop := P p = Some DSource \/ is_rule P p.
Definition p_dep (P : project) (p q : string) : Prop :=
  exists ds, In q ds /\ (P p = Some (DSet ds) \/ exists f b, P p = Some (DRule f ds b)).
Definition p_cone (P : project) : string -> string -> Prop := clos_refl_trans string (p_dep P).

(** File [q] is named as a dependency of [p], directly or through file sets. *)
Inductive p_input (P : project) : string -> string -> Prop :=
| pi_file p q : p_dep P p q -> is_file P q -> p_input P p q
| pi_set p s ds q : p_dep P p s -> P s = Some (DSet ds) -> p_input P s q -> p_input P p q.

(** Rules look only at their declared dependencies. *)
Definition reads_only (P : project) : Prop :=
  forall p f ds b, P p = Some (DRule f ds b) ->
  forall s s', (forall q, p_input P p q -> s q = s' q) -> b s = b s'.

(** [q] is dated later than [p]. *)
Definition newer (fs : fsys) (q p : string) : Prop :=
  exists mq nq mp np, fs q = Some (mq, nq) /\ fs p = Some (mp, np) /\ mp < mq.

(** File [p] itself is out of date. *)
Definition outdated (P : project) (fs : fsys) (p : string) : Prop :=
  (is_file P p /\ fs p = None) \/
  (exists ds b, P p = Some (DRule true ds b)) \/
  (is_rule P p /\ exists q, p_input P p q /\ newer fs q p).
(** Something at or below [p] is out of date. *)
Definition needs_update (P : project) (fs : fsys) (p : string) : Prop :=
  exists q, p_cone P p q /\ outdated P fs q.

(** The content that file [p] should have, given what is in the sources now; [None]: no
    such file (only for sources). *)
Inductive right_content (P : project) (src : string -> option string) : string -> option string -> Prop :=
| rc_source p : P p = Some DSource -> right_content P src p (src p)
| rc_rule p f ds b s v : P p = Some (DRule f ds b) ->
    (forall q, p_input P p q -> right_content P src q (s q)) -> b s = Some v ->
    right_content P src p (Some v).

(** ** Registries *)

(** [ds]: the names of the targets that [j] depends on, without the directories. *)
Definition file_deps canon (kind : nat -> mkind) (c : core) (j : nat) (ds : list string) : Prop :=
  exists js, Forall2 (resolves canon c) (t_deps (obj c j)) js /\
    ds = map (fun k => t_name (obj c k)) (filter (fun k => match kind k with MDir => false | _ => true end) js).

(** The targets in the cone of [i] are those of the project; directory targets may be
    added freely as long as no project file is where a directory should be. *)
Definition implements canon (kind : nat -> mkind) (P : project) (c : core) (i : nat) : Prop :=
  forall j, in_cone canon c i j -> t_class (obj c j) = Updatable /\
    match kind j with
    | MFile f b => exists ds, P (t_name (obj c j)) = Some (DRule f ds b) /\ file_deps canon kind c j ds
    | MSource => P (t_name (obj c j)) = Some DSource /\ file_deps canon kind c j []
    | MSet => exists ds, P (t_name (obj c j)) = Some (DSet ds) /\ file_deps canon kind c j ds
    | MDir => (forall p, p = t_name (obj c j) \/ In p (ancestors (t_name (obj c j))) -> ~ is_file P p) /\
              file_deps canon kind c j []
    | MOther => False
    end.

(** The registry of a process: registrations, then any number of evaluations and of calls of
    depends_as_set (which [clean] makes). *)
Inductive process_core canon kind : core -> Prop :=
| pc_registered ops th : process_core canon kind (crun canon ops (new_core th))
| pc_evaluated c other_if ca fs fuel c' ca' : process_core canon kind c ->
    mevaluate canon kind other_if fs fuel (c, ca) = Ok (c', ca') -> process_core canon kind c'
| pc_asked c a incroot l c' : process_core canon kind c ->
    depends_as_set canon c a incroot = Ok (l, c') -> process_core canon kind c'.

(** What the cache knows about the files and directories in the cone of [i] is true of the
    file system. *)
Definition on_disk (k : mkind) : Prop :=
  match k with MFile _ _ | MSource | MDir => True | MSet | MOther => False end.
Definition cache_current canon (kind : nat -> mkind) (c : core) (i : nat) (fs : fsys) (ca : cache) : Prop :=
  forall j x, in_cone canon c i j -> on_disk (kind j) -> sget ca (t_name (obj c j)) = Some x -> x = stat fs (t_name (obj c j)).

(** A call of [invoke("makefile")] or [invoke("recurse_update")] on target [i]: evaluation
    (giving [c1]) and then execution, up to state [s], finished or not, starting with file
    system [fs] at time [now].  [objs] are the targets that take part. *)
Definition build_of canon kind other_if partial (c : core) (i : nat) (fs : fsys) (now : nat) (ca : cache)
           (c1 : core) (objs : list nat) (s : state world) : Prop :=
  process_core canon kind c /\ coherent canon c /\ (exists nm, In (nm, i) (c_targets c)) /\
  cache_current canon kind c i fs ca /\
  exists fuel ca1 order so threads th sv,
    mevaluate canon kind other_if fs fuel (c, ca) = Ok (c1, ca1) /\
    (forall l, Permutation l (order l)) /\ fair_order so /\
    ru_threads c1 threads = Some th /\
    recurse_update canon c1 order so i threads = RuExec objs sv /\
    exec_reaches sv (mk_task canon kind partial c1 objs) (WD fs ca1 now now []) s.

(** recurse_update has returned True. *)
Definition succeeded (objs : list nat) (s : state world) : Prop :=
  s_main s = MReturned /\ exec_result (List.length objs) s = Ok true.

(** No file is dated in the future. *)
Definition dated (fs : fsys) (now : nat) : Prop := forall p m n, fs p = Some (m, n) -> m <= now.

(** ** Histories *)

(** What may happen between builds: sources are written (with a later date), anything is
    deleted, files that do not belong to the project change at will. *)
Definition outside_step (P : project) (fs : fsys) (now : nat) (fs' : fsys) (now' : nat) : Prop :=
  now <= now' /\
  forall p, fs' p = fs p \/ fs' p = None \/
    (P p = Some DSource /\ exists m v, fs' p = Some (m, Reg v) /\ now < m <= now') \/
    (~ is_file P p /\ exists m n, fs' p = Some (m, n) /\ m <= now').

(** Builds may be complete, failed or killed at any point ([s] is any reachable state). *)
Inductive history canon (P : project) : fsys -> nat -> Prop :=
| h_start fs now : dated fs now ->
    (forall p, is_rule P p -> fs p = None) ->
    (forall p m, is_file P p -> fs p <> Some (m, Dir)) -> history canon P fs now
| h_outside fs now fs' now' : history canon P fs now -> outside_step P fs now fs' now' ->
    history canon P fs' now'
| h_build fs now kind other_if c i ca c1 objs s : history canon P fs now ->
    implements canon kind P c i ->
    build_of canon kind other_if false c i fs now ca c1 objs s ->
    history canon P (w_fs (s_world s)) (w_now (s_world s)).
