(** Vocabulary for statements about builds that are not alone: files are edited and other
    processes build in the same tree while a build is going on.  Here the calls of targets
    still happen at one moment each (FineModel has calls that take time).
    Each process has its own registry, its own cache of file dates and its own threads;
    they share the file system and the clock. *)
From Coq Require Import Permutation.
From Verif Require Import PyBase PyPath SolverModel SpecGraph InvokerModel SpecTrace CoreModel SpecCore MakeModel SpecMake RegModel CliModel SpecUtil SpecReg SpecProject FineModel.
Local Open Scope string_scope.
Local Open Scope list_scope.

(** A process that has evaluated its registry and executes its targets. *)
Record proc := PR {
  pr_kind : nat -> mkind;
  pr_core : core;
  pr_objs : list nat;
  pr_solver : solver;
  pr_state : state world }.

(** A process begins to execute, cf. [build_of].  The evaluation before (make.py:143-177,
    core.py:46-54) looked at each file at a moment of its own and so has seen some file
    system [fs'] that need never have existed. *)
Definition begins canon (P : project) (fs : fsys) (now : nat) (p : proc) : Prop :=
  exists c i other_if fs' fuel ca ca1 order so threads th,
    implements canon (pr_kind p) P c i /\
    process_core canon (pr_kind p) c /\ coherent canon c /\ (exists nm, In (nm, i) (c_targets c)) /\
    mevaluate canon (pr_kind p) other_if fs' fuel (c, ca) = Ok (pr_core p, ca1) /\
    (forall l, Permutation l (order l)) /\ fair_order so /\
    ru_threads (pr_core p) threads = Some th /\
    recurse_update canon (pr_core p) order so i threads = RuExec (pr_objs p) (pr_solver p) /\
    pr_state p = init_state (pr_solver p) (WD fs ca1 now now []).

(** What changes gets a date later than all that was there before. *)
Definition ticking (run : nat -> world -> tres -> world -> Prop) : nat -> world -> tres -> world -> Prop :=
  fun k w r w' => run k w r w' /\
    forall q m n, w_fs w' q = Some (m, n) -> w_fs w' q = w_fs w q \/ w_now w < m.

(** The process as it finds the file system and the clock. *)
Definition at_now (fs : fsys) (now : nat) (s : state world) : state world :=
  set_world (WD fs (w_cache (s_world s)) (w_base (s_world s)) now (w_ran (s_world s))) s.
(** One step of the process. *)
Inductive acts canon (fs : fsys) (now : nat) : proc -> proc -> Prop :=
| acts_step k c objs sv s s' :
    step (inv_of (sv_inv sv)) (ticking (mk_task canon k false c objs)) (at_now fs now s) s' ->
    acts canon fs now (PR k c objs sv s) (PR k c objs sv s').

(** Everything that happens: cf. [history].  [begun]: which processes may begin; [alone]:
    the states that a process with nobody else around may reach. *)
Section Crowd.
  Variable canon : string -> string.
  Variable P : project.
  Variable begun : fsys -> nat -> proc -> Prop.
  Variable alone : fsys -> nat -> state world -> Prop.
  Inductive crowd : fsys -> nat -> list proc -> Prop :=
  | cr_start fs now : dated fs now ->
      (forall p, is_rule P p -> fs p = None) ->
      (forall p m, is_file P p -> fs p <> Some (m, Dir)) -> crowd fs now []
  | cr_outside fs now ps fs' now' : crowd fs now ps -> outside_step P fs now fs' now' -> crowd fs' now' ps
  | cr_begins fs now ps p : crowd fs now ps -> begun fs now p -> crowd fs now (p :: ps)
  | cr_acts fs now a p p' b : crowd fs now (a ++ p :: b) -> acts canon fs now p p' ->
      crowd (w_fs (s_world (pr_state p'))) (w_now (s_world (pr_state p'))) (a ++ p' :: b)
  | cr_gone fs now a p b : crowd fs now (a ++ p :: b) -> crowd fs now (a ++ b)
  | cr_alone fs now ps s : crowd fs now ps -> alone fs now s ->
      crowd (w_fs (s_world s)) (w_now (s_world s)) ps.
End Crowd.

(** Processes of any kind that implement the project. *)
Definition builds canon (P : project) (fs : fsys) (now : nat) (s : state world) : Prop :=
  exists kind other_if c i ca c1 objs, implements canon kind P c i /\
    build_of canon kind other_if false c i fs now ca c1 objs s.
Definition project_crowd canon (P : project) : fsys -> nat -> list proc -> Prop :=
  crowd canon P (begins canon P) (builds canon P).

(** Processes that read the script [l] and make one of its targets, cf. [building] and
    [script_history].  [fs1]: what the script has found on the disk, [fs2]: what the
    evaluation has seen. *)
Definition script_begins (cwd home : string) (glob_ : string -> list string) (l : list stmt) (fs : fsys) (now : nat) (p : proc) : Prop :=
  let canon := realpath cwd in
  exists fs1 fs2 exists_ x th fuel st i other_if fuel' ca1 order so,
    disk_ok cwd (present fs1) exists_ /\ in_order cwd home glob_ exists_ l /\ In x (flat_map (makes cwd home glob_) l) /\
    mrun canon exists_ glob_ home fuel 0 (map op_of l) [empty_reg] = Ok st /\
    pr_kind p = kind_of (reg st 0) /\
    core_get canon (fst (reg st 0)) x = Ok i /\
    mevaluate canon (pr_kind p) other_if fs2 fuel' (set_threads (fst (reg st 0)) th, []) = Ok (pr_core p, ca1) /\
    (forall k, Permutation k (order k)) /\ fair_order so /\
    recurse_update canon (pr_core p) order so i None = RuExec (pr_objs p) (pr_solver p) /\
    pr_state p = init_state (pr_solver p) (WD fs ca1 now now []).
Definition script_builds (cwd home : string) (glob_ : string -> list string) (l : list stmt) (fs : fsys) (now : nat) (s : state world) : Prop :=
  exists exists_ x th kind c1 objs sv,
    disk_ok cwd (present fs) exists_ /\ in_order cwd home glob_ exists_ l /\ In x (flat_map (makes cwd home glob_) l) /\
    building cwd home exists_ glob_ false l x th fs now kind c1 objs sv s.
Definition script_crowd (cwd home : string) (glob_ : string -> list string) (l : list stmt) : fsys -> nat -> list proc -> Prop :=
  crowd (realpath cwd) (project_of cwd home glob_ l) (script_begins cwd home glob_ l) (script_builds cwd home glob_ l).

(** ** Edits while calls take time, cf. [interleaved]. *)
Inductive disturbed canon kind partial (P : project) (sv : solver) (c : core) (objs : list nat) (w0 : world) : list (state world) -> Prop :=
| di_start : disturbed canon kind partial P sv c objs w0 [init_state sv w0]
| di_moves s h s' : disturbed canon kind partial P sv c objs w0 (s :: h) -> fine_move canon kind partial sv c objs h s s' ->
    disturbed canon kind partial P sv c objs w0 (s' :: s :: h)
| di_outside s h fs' now' : disturbed canon kind partial P sv c objs w0 (s :: h) ->
    outside_step P (w_fs (s_world s)) (w_now (s_world s)) fs' now' ->
    disturbed canon kind partial P sv c objs w0
      (set_world (WD fs' (w_cache (s_world s)) (w_base (s_world s)) now' (w_ran (s_world s))) s :: s :: h).
(** cf. [building]. *)
Definition disturbed_building cwd home exists_ glob_ partial (l : list stmt) (x : string) (th : Z) (fs : fsys) (now : nat)
           (kind : nat -> mkind) (c1 : core) (objs : list nat) (sv : solver) (h : list (state world)) : Prop :=
  let canon := realpath cwd in
  exists fuel st i other_if fuel' ca1 order so,
    mrun canon exists_ glob_ home fuel 0 (map op_of l) [empty_reg] = Ok st /\
    kind = kind_of (reg st 0) /\
    core_get canon (fst (reg st 0)) x = Ok i /\
    mevaluate canon kind other_if fs fuel' (set_threads (fst (reg st 0)) th, []) = Ok (c1, ca1) /\
    (forall k, Permutation k (order k)) /\ fair_order so /\
    recurse_update canon c1 order so i None = RuExec objs sv /\
    disturbed canon kind partial (project_of cwd home glob_ l) sv c1 objs (WD fs ca1 now now []) h.
