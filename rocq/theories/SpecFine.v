(** Vocabulary for statements about builds whose calls take time (FineModel.v): the same as
    in SpecMake and SpecProject, for executions given by the list of their states, the last
    one first. *)
From Coq Require Import Permutation.
From Verif Require Import PyBase PyPath SolverModel InvokerModel SpecTrace CoreModel SpecCore MakeModel SpecMake RegModel CliModel SpecUtil SpecReg SpecProject FineModel.
Local Open Scope string_scope.
Local Open Scope list_scope.

(** cf. [build_of]; [n]: the number of moves of the scheduler. *)
Definition fine_build_of canon kind other_if partial (c : core) (i : nat) (fs : fsys) (now : nat) (ca : cache)
           (c1 : core) (objs : list nat) (n : nat) (h : list (state world)) : Prop :=
  process_core canon kind c /\ coherent canon c /\ (exists nm, In (nm, i) (c_targets c)) /\
  cache_current canon kind c i fs ca /\
  exists fuel ca1 order so threads th sv,
    mevaluate canon kind other_if fs fuel (c, ca) = Ok (c1, ca1) /\
    (forall l, Permutation l (order l)) /\ fair_order so /\
    ru_threads c1 threads = Some th /\
    recurse_update canon c1 order so i threads = RuExec objs sv /\
    interleaved canon kind partial sv c1 objs (WD fs ca1 now now []) n h.

(** cf. [building]. *)
Definition fine_building cwd home exists_ glob_ partial (l : list stmt) (x : string) (th : Z) (fs : fsys) (now : nat)
           (kind : nat -> mkind) (c1 : core) (objs : list nat) (sv : solver) (n : nat) (h : list (state world)) : Prop :=
  let canon := realpath cwd in
  exists fuel st i other_if fuel' ca1 order so,
    mrun canon exists_ glob_ home fuel 0 (map op_of l) [empty_reg] = Ok st /\
    kind = kind_of (reg st 0) /\
    core_get canon (fst (reg st 0)) x = Ok i /\
    mevaluate canon kind other_if fs fuel' (set_threads (fst (reg st 0)) th, []) = Ok (c1, ca1) /\
    (forall k, Permutation k (order k)) /\ fair_order so /\
    recurse_update canon c1 order so i None = RuExec objs sv /\
    interleaved canon kind partial sv c1 objs (WD fs ca1 now now []) n h.

(** What a rule makes depends on its inputs and on files that no rule makes.  Weaker than
    [reads_only]: headers that are not declared may be read. *)
Definition reads_settled (P : project) : Prop :=
  forall p f ds b, P p = Some (DRule f ds b) ->
  forall s s', (forall q, p_input P p q \/ ~ is_rule P q -> s q = s' q) -> b s = b s'.

(** The rule for file [q] is running. *)
Definition being_made (kind : nat -> mkind) (c1 : core) (objs : list nat) (s : state world) (q : string) : Prop :=
  exists t f b, let i := nth t objs (List.length (c_heap c1)) in
    busy (s_log s) t /\ kind i = MFile f b /\ t_need (obj c1 i) = Some true /\ q = t_name (obj c1 i).

(** [a] and [s] differ at most in the files that are being made. *)
Definition same_but_made kind c1 objs (s a : state world) : Prop :=
  a = set_world (s_world a) s /\
  (w_cache (s_world s) = w_cache (s_world a) /\ w_base (s_world s) = w_base (s_world a) /\
   w_now (s_world s) = w_now (s_world a) /\ w_ran (s_world s) = w_ran (s_world a)) /\
  forall q, w_fs (s_world s) q = w_fs (s_world a) q \/ being_made kind c1 objs s q.

(** cf. [script_history]; processes end, or are killed while no rule is running. *)
Inductive fine_history (cwd home : string) (glob_ : string -> list string) (l : list stmt) : fsys -> nat -> Prop :=
| fh_start fs now : dated fs now ->
    (forall p, is_rule (project_of cwd home glob_ l) p -> fs p = None) ->
    (forall p m, is_file (project_of cwd home glob_ l) p -> fs p <> Some (m, Dir)) -> fine_history cwd home glob_ l fs now
| fh_outside fs now fs' now' : fine_history cwd home glob_ l fs now ->
    outside_step (project_of cwd home glob_ l) fs now fs' now' -> fine_history cwd home glob_ l fs' now'
| fh_process fs now exists_ x th kind c1 objs sv n s h : fine_history cwd home glob_ l fs now ->
    disk_ok cwd (present fs) exists_ -> in_order cwd home glob_ exists_ l -> In x (flat_map (makes cwd home glob_) l) ->
    fine_building cwd home exists_ glob_ false l x th fs now kind c1 objs sv n (s :: h) ->
    (forall q, ~ being_made kind c1 objs s q) ->
    fine_history cwd home glob_ l (w_fs (s_world s)) (w_now (s_world s)).
