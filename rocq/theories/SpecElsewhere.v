(** Vocabulary for statements about builds while files elsewhere change: other programs, or
    other processes of licant, work in the same tree on other files. *)
From Coq Require Import Permutation.
From Verif Require Import PyBase PyPath SolverModel SpecGraph InvokerModel SpecTrace CoreModel SpecCore MakeModel SpecMake RegModel CliModel SpecUtil SpecReg SpecProject SpecCrowd.
Local Open Scope string_scope.
Local Open Scope list_scope.

(** The files and directories of the targets that take part. *)
Definition own_name (kind : nat -> mkind) (c : core) (objs : list nat) (q : string) : Prop :=
  exists j, In j objs /\ on_disk (kind j) /\ q = t_name (obj c j).
(** What lies on the way to the directories among them. *)
Definition road (kind : nat -> mkind) (c : core) (objs : list nat) (q : string) : Prop :=
  exists j, In j objs /\ kind j = MDir /\ In q (ancestors (t_name (obj c j))).

(** Others leave these alone.  On the roads they may make and remove directories. *)
Definition keeps_off kind c objs (fs fs' : fsys) : Prop :=
  (forall q, own_name kind c objs q -> fs' q = fs q) /\
  (forall q, road kind c objs q -> is_reg fs' q = is_reg fs q).

(** An execution while others change files, cf. [exec_reaches]. *)
Inductive amid canon kind partial (sv : solver) (c : core) (objs : list nat) (w0 : world) : state world -> Prop :=
| am_start : amid canon kind partial sv c objs w0 (init_state sv w0)
| am_moves s s' : amid canon kind partial sv c objs w0 s ->
    step (inv_of (sv_inv sv)) (mk_task canon kind partial c objs) s s' -> amid canon kind partial sv c objs w0 s'
| am_others s fs' now' : amid canon kind partial sv c objs w0 s -> keeps_off kind c objs (w_fs (s_world s)) fs' ->
    amid canon kind partial sv c objs w0 (at_now fs' now' s).

(** A process that reads the script [l] and makes [x] has got as far as executing, cf. [building]. *)
Definition prepares cwd home exists_ glob_ (l : list stmt) (x : string) (th : Z) (fs : fsys)
           (kind : nat -> mkind) (c1 : core) (objs : list nat) (sv : solver) (ca1 : cache) : Prop :=
  let canon := realpath cwd in
  exists fuel st i other_if fuel' order so,
    mrun canon exists_ glob_ home fuel 0 (map op_of l) [empty_reg] = Ok st /\
    kind = kind_of (reg st 0) /\
    core_get canon (fst (reg st 0)) x = Ok i /\
    mevaluate canon kind other_if fs fuel' (set_threads (fst (reg st 0)) th, []) = Ok (c1, ca1) /\
    (forall k, Permutation k (order k)) /\ fair_order so /\
    recurse_update canon c1 order so i None = RuExec objs sv.
Definition amid_building cwd home exists_ glob_ partial (l : list stmt) (x : string) (th : Z) (fs : fsys) (now : nat)
           (kind : nat -> mkind) (c1 : core) (objs : list nat) (sv : solver) (s : state world) : Prop :=
  exists ca1, prepares cwd home exists_ glob_ l x th fs kind c1 objs sv ca1 /\
    amid (realpath cwd) kind partial sv c1 objs (WD fs ca1 now now []) s.

(** The same but for the files of others and the clock. *)
Definition as_if kind c objs (s a : state world) : Prop :=
  a = set_world (s_world a) s /\
  w_cache (s_world s) = w_cache (s_world a) /\ w_base (s_world s) = w_base (s_world a) /\ w_ran (s_world s) = w_ran (s_world a) /\
  keeps_off kind c objs (w_fs (s_world a)) (w_fs (s_world s)).

(** ** Two processes side by side *)
(** What the calls of a process may change. *)
Definition may_change (kind : nat -> mkind) (c : core) (objs : list nat) (q : string) : Prop :=
  exists j, In j objs /\
    ((exists f b, kind j = MFile f b) /\ q = t_name (obj c j) \/
     kind j = MDir /\ (q = t_name (obj c j) \/ In q (ancestors (t_name (obj c j))))).
(** The first process changes nothing that the second one has to do with. *)
Definition apart (kind : nat -> mkind) (c : core) (objs : list nat) (kind' : nat -> mkind) (c' : core) (objs' : list nat) : Prop :=
  (forall q, own_name kind' c' objs' q -> ~ may_change kind c objs q) /\
  (forall q, road kind' c' objs' q -> forall j f b, In j objs -> kind j = MFile f b -> q <> t_name (obj c j)).

(** Both execute, each at its own pace, on the same file system. *)
Inductive beside canon partial (p1 p2 : proc) : state world -> state world -> Prop :=
| be_start : beside canon partial p1 p2 (pr_state p1) (pr_state p2)
| be_left s1 s2 s1' : beside canon partial p1 p2 s1 s2 ->
    step (inv_of (sv_inv (pr_solver p1))) (mk_task canon (pr_kind p1) partial (pr_core p1) (pr_objs p1)) s1 s1' ->
    beside canon partial p1 p2 s1' (at_now (w_fs (s_world s1')) (w_now (s_world s1')) s2)
| be_right s1 s2 s2' : beside canon partial p1 p2 s1 s2 ->
    step (inv_of (sv_inv (pr_solver p2))) (mk_task canon (pr_kind p2) partial (pr_core p2) (pr_objs p2)) s2 s2' ->
    beside canon partial p1 p2 (at_now (w_fs (s_world s2')) (w_now (s_world s2')) s1) s2'.
Definition begins_alone cwd home exists_ glob_ (l : list stmt) (x : string) (th : Z) (fs : fsys) (now : nat) (p : proc) : Prop :=
  exists ca1, prepares cwd home exists_ glob_ l x th fs (pr_kind p) (pr_core p) (pr_objs p) (pr_solver p) ca1 /\
    pr_state p = init_state (pr_solver p) (WD fs ca1 now now []).
