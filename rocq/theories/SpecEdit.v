(** Vocabulary for scripts that are edited between processes.  Nothing here mentions targets. *)
From Verif Require Import PyBase PyPath SolverModel SpecGraph InvokerModel SpecTrace CoreModel SpecCore MakeModel SpecMake RegModel CliModel SpecUtil SpecReg SpecProject.

(** What an edit that replaces the project [P] by [P'] has to take care of, for each file [p]
    with a rule [b'] in [P']: *)
Inductive survives (P P' : project) (fs : fsys) (p : string) (b' : buildfun) : Prop :=
(** [p] does not exist, *)
| sv_absent : fs p = None -> survives P P' fs p b'
(** or is seen to be out of date, *)
| sv_noticed q : p_input P' p q -> fs q = None \/ newer fs q p -> survives P P' fs p b'
(** or has the same rule as before, and what it depended on it still depends on, *)
| sv_same f ds b : P p = Some (DRule f ds b) -> (forall s, b s = b' s) -> (forall q, p_input P p q -> p_input P' p q) -> survives P P' fs p b'
(** or has the same rule as before, and was up to date. *)
| sv_fresh f ds b : P p = Some (DRule f ds b) -> (forall s, b s = b' s) -> (forall q, p_input P p q -> fs q <> None /\ ~ newer fs q p) ->
    survives P P' fs p b'.

Section Edit.
  Variables (cwd home : string).
  Notation script := (prod (string -> list string) (list stmt)).
  Definition version (v : script) : project := project_of cwd home (fst v) (snd v).

  (** Everything that happens around a script that is edited, if the edits take care.  A version
      is a list of statements, and what the patterns in it stand for. *)
  Inductive edit_history : script -> fsys -> nat -> Prop :=
  | eh_start v fs now : reads_only (version v) -> dated fs now ->
      (forall p, is_rule (version v) p -> fs p = None) ->
      (forall p m, is_file (version v) p -> fs p <> Some (m, Dir)) -> edit_history v fs now
  | eh_outside v fs now fs' now' : edit_history v fs now -> outside_step (version v) fs now fs' now' -> edit_history v fs' now'
  | eh_process v fs now exists_ x th kind c1 objs sv s : edit_history v fs now ->
      disk_ok cwd (present fs) exists_ -> in_order cwd home (fst v) exists_ (snd v) -> In x (flat_map (makes cwd home (fst v)) (snd v)) ->
      building cwd home exists_ (fst v) false (snd v) x th fs now kind c1 objs sv s ->
      edit_history v (w_fs (s_world s)) (w_now (s_world s))
  | eh_edit v v' fs now : edit_history v fs now -> reads_only (version v') ->
      (forall p m, is_file (version v') p -> fs p <> Some (m, Dir)) ->
      (forall p f ds b, version v' p = Some (DRule f ds b) -> survives (version v) (version v') fs p b) ->
      edit_history v' fs now.
  (** The same, but the edits take no care. *)
  Inductive careless_history : script -> fsys -> nat -> Prop :=
  | ch_start v fs now : reads_only (version v) -> dated fs now ->
      (forall p, is_rule (version v) p -> fs p = None) ->
      (forall p m, is_file (version v) p -> fs p <> Some (m, Dir)) -> careless_history v fs now
  | ch_process v fs now exists_ x th kind c1 objs sv s : careless_history v fs now ->
      disk_ok cwd (present fs) exists_ -> in_order cwd home (fst v) exists_ (snd v) -> In x (flat_map (makes cwd home (fst v)) (snd v)) ->
      building cwd home exists_ (fst v) false (snd v) x th fs now kind c1 objs sv s ->
      careless_history v (w_fs (s_world s)) (w_now (s_world s))
  | ch_edit v v' fs now : careless_history v fs now -> reads_only (version v') ->
      (forall p m, is_file (version v') p -> fs p <> Some (m, Dir)) -> careless_history v' fs now.
End Edit.
