(** Vocabulary for statements about builds that run routines: functions of the script that
    are run as targets, with files as dependencies. *)
From Coq Require Import Permutation.
From Verif Require Import PyBase PyPath SolverModel SpecGraph InvokerModel SpecTrace InvokerPath CoreModel SpecCore MakeModel RegModel CliModel SpecUtil SpecMake SpecReg SpecProject.
Local Open Scope string_scope.
Local Open Scope list_scope.

(** [y] is a routine of the script (or any other target of core.py that can be updated). *)
Definition is_routine (l : list stmt) (y : string) : Prop := exists ds, In (STarget true y ds) l.

(** Target [k] of a build, by its name. *)
Definition name_at (c1 : core) (objs : list nat) (k : nat) : string := t_name (obj c1 (nth k objs (List.length (c_heap c1)))).
(** The build has turned to target [y]. *)
Definition begun (c1 : core) (objs : list nat) (s : state world) (y : string) : Prop :=
  exists k, In (EStart k) (s_log s) /\ name_at c1 objs k = y.
(** The build is through with target [y], with result [r]. *)
Definition over (c1 : core) (objs : list nat) (s : state world) (y : string) (r : tres) : Prop :=
  exists k, In (k, r) (ended (s_log s)) /\ name_at c1 objs k = y.
(** Up to now no function of a routine has come to its end (one may be running). *)
Definition none_over (l : list stmt) (c1 : core) (objs : list nat) (s : state world) : Prop :=
  forall y r, is_routine l y -> ~ over c1 objs s y r.

(** What one may ask for: files with rules, file sets, routines. *)
Definition wanted (cwd home : string) (glob_ : string -> list string) (l : list stmt) (x : string) : Prop :=
  In x (flat_map (makes cwd home glob_) l) \/ is_routine l x.

(** Everything that happens around a script with routines.  Processes make files or run
    routines.  A process is followed up to any state in which its routines have not ended;
    what their functions do to the files afterwards is an outside step like any other. *)
Inductive routine_history (cwd home : string) (glob_ : string -> list string) (l : list stmt) : fsys -> nat -> Prop :=
| rh_start fs now : dated fs now ->
    (forall p, is_rule (project_of cwd home glob_ l) p -> fs p = None) ->
    (forall p m, is_file (project_of cwd home glob_ l) p -> fs p <> Some (m, Dir)) -> routine_history cwd home glob_ l fs now
| rh_outside fs now fs' now' : routine_history cwd home glob_ l fs now ->
    outside_step (project_of cwd home glob_ l) fs now fs' now' -> routine_history cwd home glob_ l fs' now'
| rh_process fs now exists_ x th kind c1 objs sv s : routine_history cwd home glob_ l fs now ->
    disk_ok cwd (present fs) exists_ -> in_order cwd home glob_ exists_ l -> wanted cwd home glob_ l x ->
    building cwd home exists_ glob_ false l x th fs now kind c1 objs sv s -> none_over l c1 objs s ->
    routine_history cwd home glob_ l (w_fs (s_world s)) (w_now (s_world s)).
