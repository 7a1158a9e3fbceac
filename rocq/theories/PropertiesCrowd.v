(** C100: builds that are not alone.  While a process is building, files are edited and deleted
    and other processes, started at any time, make the same or other targets of the same tree;
    any of them may be killed.  The steps of all of them are mixed in any order (SpecCrowd.v).
    What is on the disk may be out of date when they are done; a build that then runs
    undisturbed puts all of it right. *)
From Coq Require Import Permutation.
From Verif Require Import PyBase PyPath SolverModel SpecGraph InvokerModel SpecTrace InvokerPath InvokerThms CoreModel SpecCore CoreProofs MakeModel MakeEval SpecMake
  RegModel CliModel SpecUtil SpecReg RegExamples SpecProject ProjectProofs ProjectBuild ProjectExamples FineModel SpecFine
  SpecCrowd CrowdProofs CrowdBuild CrowdExamples.
Local Open Scope string_scope.
Local Open Scope list_scope.

(** Whatever has happened before: after a build that nobody disturbs and that succeeds, each
    file of the target's cone is what the sources ask for. *)
Theorem C100_next_build_is_right :
  forall canon P kind other_if c i fs now ps ca c1 objs s,
  reads_only P -> project_crowd canon P fs now ps -> implements canon kind P c i ->
  build_of canon kind other_if false c i fs now ca c1 objs s -> succeeded objs s -> kind i <> MDir ->
  forall p, is_file P p -> p_cone P (t_name (obj c i)) p ->
  right_content P (contents (w_fs (s_world s))) p (contents (w_fs (s_world s)) p).
Proof. intros. eapply crowd_right; eauto. Qed.
Print Assumptions C100_next_build_is_right.
(** The same for processes that read a script. *)
Theorem C100_scripts_next_build_is_right :
  forall cwd home fs exists_ glob_ l, disk_ok cwd (present fs) exists_ -> in_order cwd home glob_ exists_ l ->
  forall x th now ps kind c1 objs sv s, In x (flat_map (makes cwd home glob_) l) -> reads_only (project_of cwd home glob_ l) ->
  script_crowd cwd home glob_ l fs now ps ->
  building cwd home exists_ glob_ false l x th fs now kind c1 objs sv s -> succeeded objs s ->
  forall p, is_file (project_of cwd home glob_ l) p -> p_cone (project_of cwd home glob_ l) x p ->
  right_content (project_of cwd home glob_ l) (contents (w_fs (s_world s))) p (contents (w_fs (s_world s)) p).
Proof. exact script_crowd_right. Qed.
Print Assumptions C100_scripts_next_build_is_right.
(** At every moment: a rule's file that is not older than the files it is made of and that
    lies there complete is what they ask for, even while others are at work. *)
Theorem C100_what_is_not_older_is_right :
  forall canon P fs now ps, reads_only P -> project_crowd canon P fs now ps ->
  forall p f ds b m v, P p = Some (DRule f ds b) -> fs p = Some (m, Reg v) ->
  (forall q, p_input P p q -> exists mq nq, fs q = Some (mq, nq) /\ mq <= m) ->
  b (contents fs) = Some v.
Proof.
  intros canon P fs now ps Hro H p f ds b m v HP E Hq. destruct (crowd_ok canon P Hro fs now ps H) as ((_ & Hf & _) & _).
  exact (Hf p f ds b m v HP E Hq).
Qed.
Print Assumptions C100_what_is_not_older_is_right.
(** Each process calls its targets in an order that it could also have had alone: everything
    that holds of all executions (C03 to C08: dependencies first, nothing twice, ...) holds
    here, too. *)
Theorem C100_order_as_if_alone :
  forall canon P fs now ps p, reads_only P -> project_crowd canon P fs now ps -> In p ps ->
  exists w0 w, exec_reaches (pr_solver p) (fun _ _ _ _ => True) w0 (set_world w (pr_state p)).
Proof.
  intros canon P fs now ps p Hro H Hp. destruct (crowd_ok canon P Hro fs now ps H) as (_ & Hps).
  destruct (Hps p Hp) as (i & [_ _ _ _ _ _ _ Hs]). exact Hs.
Qed.
Print Assumptions C100_order_as_if_alone.
(** A process is done or can go on unless something was raised in one of its workers. *)
Theorem C100_goes_on :
  forall canon P fs now ps p, reads_only P -> project_crowd canon P fs now ps -> In p ps ->
  (1 <= sv_threads (pr_solver p))%Z -> raised (s_log (pr_state p)) = [] ->
  s_main (pr_state p) = MReturned \/ exists p', acts canon fs now p p'.
Proof.
  intros canon P fs now ps p Hro H Hp. destruct (crowd_ok canon P Hro fs now ps H) as ((Hd & _) & Hps).
  destruct (Hps p Hp) as (i & Hi). eapply goes_on; eauto.
Qed.
Print Assumptions C100_goes_on.

(** Two processes at once may hang though all rules succeed: both have seen that a directory
    is missing, os.makedirs raises in the second one (make.py:76-80) and its worker is gone. *)
Theorem C100_two_at_once_refuted :
  exists cwd home glob_ l fs now p q, script_crowd cwd home glob_ l fs now [p; q] /\
  no_rule_failed (project_of cwd home glob_ l) (s_world (pr_state p)) /\ no_rule_failed (project_of cwd home glob_ l) (s_world (pr_state q)) /\
  s_main (pr_state q) = MJoin /\ forall fs' now' q', ~ acts (realpath cwd) fs' now' q q'.
Proof.
  exists "/w", "/h", no_glob, pscript. destruct at_once_stuck as (fs & now & p & q & H). exists fs, now, p, q. exact H.
Qed.
Print Assumptions C100_two_at_once_refuted.
(** If calls take time, edits during a build are dangerous: a source that is changed after a
    rule has read it and before the rule is done is older than the rule's file, and no later
    build looks at it again. *)
Theorem C100_edit_during_a_call_refuted :
  exists cwd home glob_ l fs exists_ x th now kind c1 objs sv s h exists' kind' c1' objs' sv' s' p,
  reads_only (project_of cwd home glob_ l) /\ script_crowd cwd home glob_ l fs now [] /\
  disk_ok cwd (present fs) exists_ /\ in_order cwd home glob_ exists_ l /\ In x (flat_map (makes cwd home glob_) l) /\
  disturbed_building cwd home exists_ glob_ false l x th fs now kind c1 objs sv (s :: h) /\
  succeeded objs s /\ no_rule_failed (project_of cwd home glob_ l) (s_world s) /\
  disk_ok cwd (present (w_fs (s_world s))) exists' /\ in_order cwd home glob_ exists' l /\
  building cwd home exists' glob_ false l x th (w_fs (s_world s)) (w_now (s_world s)) kind' c1' objs' sv' s' /\ succeeded objs' s' /\
  w_ran (s_world s') = [] /\
  is_file (project_of cwd home glob_ l) p /\ p_cone (project_of cwd home glob_ l) x p /\
  ~ right_content (project_of cwd home glob_ l) (contents (w_fs (s_world s'))) p (contents (w_fs (s_world s')) p).
Proof.
  destruct edited_late as (kind & c1 & objs & sv & s & h & exists' & kind' & c1' & objs' & sv' & s' & B & Hs & Hn & D & K & B' & Hs' & Hr & Ho & Hc).
  exists "/w", "/h", no_glob, pscript, pfs, (on_path pdisk), "/w/out/app", 1%Z, 1, kind, c1, objs, sv, s, h, exists', kind', c1', objs', sv', s', "/w/out/lib/a.o".
  split; [exact pproj_reads_only|]. split; [exact crowd_start|]. split; [exact pfs_ok|]. split; [exact pscript_ok|]. split; [exact papp_made|].
  split; [exact B|]. split; [exact Hs|]. split; [exact Hn|]. split; [exact D|]. split; [exact K|]. split; [exact B'|]. split; [exact Hs'|]. split; [exact Hr|].
  split; [right; exists false, ["/w/src.c"], (read1 "o:" "/w/src.c"); rewrite pproj_eq; reflexivity|]. split.
  - eapply rt_trans; [apply rt_step; exists ["libs"; "/w/main.c"]; split; [now left|right; exists false, link_app; rewrite pproj_eq; reflexivity]|].
    apply rt_step. exists ["/w/out/lib/a.o"; "/w/out/a.h"]. split; [now left|left; rewrite pproj_eq; reflexivity].
  - rewrite Ho. now apply wrong_object.
Qed.
Print Assumptions C100_edit_during_a_call_refuted.

(** Two processes and an edit in between; out/app is out of date when they are done and right
    after the next build. *)
Example C100_example : exists fs now p q exists_ kind c1 objs sv s,
  script_crowd "/w" "/h" no_glob pscript fs now [p; q] /\ succeeded (pr_objs p) (pr_state p) /\ succeeded (pr_objs q) (pr_state q) /\
  contents fs "/w/out/app" = Some "o:src+main" /\ contents fs "/w/src.c" = Some "new" /\
  disk_ok "/w" (present fs) exists_ /\ in_order "/w" "/h" no_glob exists_ pscript /\
  building "/w" "/h" exists_ no_glob false pscript "/w/out/app" 1 fs now kind c1 objs sv s /\ succeeded objs s /\
  contents (w_fs (s_world s)) "/w/out/app" = Some "o:new+main".
Proof. exact both_done. Qed.
Example C100_right_example : exists fs now p q kind c1 objs sv s exists_,
  script_crowd "/w" "/h" no_glob pscript fs now [p; q] /\ building "/w" "/h" exists_ no_glob false pscript "/w/out/app" 1 fs now kind c1 objs sv s /\
  right_content pproj (contents (w_fs (s_world s))) "/w/out/app" (contents (w_fs (s_world s)) "/w/out/app").
Proof.
  destruct both_done as (fs & now & p & q & exists_ & kind & c1 & objs & sv & s & C & _ & _ & _ & _ & D & K & B & Hs & _).
  exists fs, now, p, q, kind, c1, objs, sv, s, exists_. split; [exact C|]. split; [exact B|].
  refine (C100_scripts_next_build_is_right "/w" "/h" fs exists_ no_glob pscript D K "/w/out/app" 1%Z now [p; q] kind c1 objs sv s papp_made pproj_reads_only C B Hs "/w/out/app" _ (rt_refl _ _ _)).
  right. exists false, ["libs"; "/w/main.c"], link_app. rewrite pproj_eq. reflexivity.
Qed.
