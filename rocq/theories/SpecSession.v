(** Vocabulary for processes that make and clean several targets, one after the other. *)
From Coq Require Import Permutation.
From Verif Require Import PyBase PyPath SolverModel SpecGraph InvokerModel SpecTrace InvokerPath CoreModel SpecCore MakeModel RegModel CliModel SpecUtil SpecMake SpecReg SpecProject.
Local Open Scope string_scope.
Local Open Scope list_scope.

(** The process, whose registry is [c] and whose file cache is [ca], was told to make [x]
    (core.py:126-139, 262-300: a new evaluation, then recurse_update) and is in state [s].
    [c1] is the registry after the evaluation. *)
Definition making cwd partial (kind : nat -> mkind) (c : core) (ca : cache) (x : string) (fs : fsys) (now : nat)
           (c1 : core) (objs : list nat) (sv : solver) (s : state world) : Prop :=
  let canon := realpath cwd in
  exists i other_if fuel ca1 order so,
    core_get canon c x = Ok i /\
    mevaluate canon kind other_if fs fuel (c, ca) = Ok (c1, ca1) /\
    (forall k, Permutation k (order k)) /\ fair_order so /\
    recurse_update canon c1 order so i None = RuExec objs sv /\
    exec_reaches sv (mk_task canon kind partial c1 objs) (WD fs ca1 now now []) s.

(** The same process has been told to clean [x] (core.py:126-139, 262-300; make.py:91-97): a
    new evaluation, a call of depends_as_set, which leaves the registry [c2], and the removal
    of files. *)
Definition cleaning cwd (kind : nat -> mkind) (c : core) (ca : cache) (x : string) (fs : fsys) (c2 : core) (ca2 : cache) (fs2 : fsys) : Prop :=
  let canon := realpath cwd in
  exists i other_if fuel c1 ca1 names,
    core_get canon c x = Ok i /\
    mevaluate canon kind other_if fs fuel (c, ca) = Ok (c1, ca1) /\
    depends_as_set canon c1 (ByName (t_name (obj c1 i))) true = Ok (names, c2) /\
    clean canon kind c1 i (fs, ca1) = Ok (fs2, ca2).

(** What core.do did to a target: it made it, and recurse_update returned [b]; or it cleaned it. *)
Inductive deed := Made (b : bool) | Cleaned.

(** The script has been read ([c0] is its registry) and then targets have been made and
    cleaned in turn, as in [done].  The result False of one does not keep the process from
    making the next (core.do returns nothing).  In the meantime nobody else writes the files. *)
Inductive in_turn cwd home glob_ (l : list stmt) (kind : nat -> mkind) (c0 : core) (fs0 : fsys) (now0 : nat) :
  core -> cache -> fsys -> nat -> list (string * deed) -> Prop :=
| it_read : in_turn cwd home glob_ l kind c0 fs0 now0 c0 [] fs0 now0 []
| it_made c ca fs now done x now' c1 objs sv s b : in_turn cwd home glob_ l kind c0 fs0 now0 c ca fs now done ->
    In x (flat_map (makes cwd home glob_) l) -> now <= now' ->
    making cwd false kind c ca x fs now' c1 objs sv s ->
    s_main s = MReturned -> exec_result (List.length objs) s = Ok b ->
    in_turn cwd home glob_ l kind c0 fs0 now0 c1 (w_cache (s_world s)) (w_fs (s_world s)) (w_now (s_world s)) (done ++ [(x, Made b)])
| it_cleaned c ca fs now done x c2 ca2 fs2 : in_turn cwd home glob_ l kind c0 fs0 now0 c ca fs now done ->
    In x (flat_map (makes cwd home glob_) l) ->
    cleaning cwd kind c ca x fs c2 ca2 fs2 ->
    in_turn cwd home glob_ l kind c0 fs0 now0 c2 ca2 fs2 now (done ++ [(x, Cleaned)]).

(** [x] has been made with success, and no later cleaning was about a file made for it. *)
Definition stands (P : project) (x : string) (done : list (string * deed)) : Prop :=
  exists d1 d2, done = d1 ++ (x, Made true) :: d2 /\
    forall y, In (y, Cleaned) d2 -> forall p, is_rule P p -> p_cone P x p -> ~ p_cone P y p.

(** Everything that happens around a script: edits, and processes that make and clean any
    number of targets and may be killed in the last build. *)
Inductive turn_history (cwd home : string) (glob_ : string -> list string) (l : list stmt) : fsys -> nat -> Prop :=
| tu_start fs now : dated fs now ->
    (forall p, is_rule (project_of cwd home glob_ l) p -> fs p = None) ->
    (forall p m, is_file (project_of cwd home glob_ l) p -> fs p <> Some (m, Dir)) -> turn_history cwd home glob_ l fs now
| tu_outside fs now fs' now' : turn_history cwd home glob_ l fs now ->
    outside_step (project_of cwd home glob_ l) fs now fs' now' -> turn_history cwd home glob_ l fs' now'
| tu_ended fs0 now0 exists_ fuel st th c ca fs now done : turn_history cwd home glob_ l fs0 now0 ->
    disk_ok cwd (present fs0) exists_ -> in_order cwd home glob_ exists_ l ->
    mrun (realpath cwd) exists_ glob_ home fuel 0 (map op_of l) [empty_reg] = Ok st ->
    in_turn cwd home glob_ l (kind_of (reg st 0)) (set_threads (fst (reg st 0)) th) fs0 now0 c ca fs now done ->
    turn_history cwd home glob_ l fs now
| tu_process fs0 now0 exists_ fuel st th c ca fs now done x now' c1 objs sv s : turn_history cwd home glob_ l fs0 now0 ->
    disk_ok cwd (present fs0) exists_ -> in_order cwd home glob_ exists_ l ->
    mrun (realpath cwd) exists_ glob_ home fuel 0 (map op_of l) [empty_reg] = Ok st ->
    in_turn cwd home glob_ l (kind_of (reg st 0)) (set_threads (fst (reg st 0)) th) fs0 now0 c ca fs now done ->
    In x (flat_map (makes cwd home glob_) l) -> now <= now' ->
    making cwd false (kind_of (reg st 0)) c ca x fs now' c1 objs sv s ->
    turn_history cwd home glob_ l (w_fs (s_world s)) (w_now (s_world s)).

(** Nothing below [x] is to be made whenever asked for, and its sources are there. *)
Definition steady (P : project) (fs : fsys) (x : string) : Prop :=
  (forall p ds b, p_cone P x p -> P p <> Some (DRule true ds b)) /\
  (forall p, p_cone P x p -> P p = Some DSource -> fs p <> None).
