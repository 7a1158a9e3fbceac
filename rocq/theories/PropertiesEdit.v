(** C85: scripts that are edited between processes.  [version cwd home v]: the project that the
    version [v] describes; [edit_history]: processes, changes by the user and edits of the script,
    such that each file that the new version makes does not exist, is seen to be out of date, or
    has the rule that it had ([survives]); [right_content P src p v]: [v] is what making [p] from
    scratch gives. *)
From Verif Require Import PyBase PyPath SolverModel SpecGraph InvokerModel SpecTrace CoreModel SpecCore MakeModel UtilModel SpecMake
  RegModel CliModel SpecUtil SpecReg SpecProject RegExamples ProjectExamples IdleExamples SpecEdit EditProofs EditExamples.
Local Open Scope string_scope.
Local Open Scope list_scope.

Theorem C85_edited_script :
  forall cwd home fs exists_ v, disk_ok cwd (present fs) exists_ -> in_order cwd home (fst v) exists_ (snd v) ->
  forall x th now kind c1 objs sv s, In x (flat_map (makes cwd home (fst v)) (snd v)) ->
  building cwd home exists_ (fst v) false (snd v) x th fs now kind c1 objs sv s -> succeeded objs s ->
  edit_history cwd home v fs now ->
  forall p, is_file (version cwd home v) p -> p_cone (version cwd home v) x p ->
  right_content (version cwd home v) (contents (w_fs (s_world s))) p (contents (w_fs (s_world s)) p).
Proof. exact edited_right. Qed.
Print Assumptions C85_edited_script.
(** Two ways to take care.  Either everything that the new version makes is removed, *)
Theorem C85_cleaned :
  forall cwd home v v' fs now, edit_history cwd home v fs now -> reads_only (version cwd home v') ->
  (forall p m, is_file (version cwd home v') p -> fs p <> Some (m, Dir)) ->
  (forall p, is_rule (version cwd home v') p -> fs p = None) ->
  forall exists_ x th kind c1 objs sv s, disk_ok cwd (present fs) exists_ -> in_order cwd home (fst v') exists_ (snd v') ->
  In x (flat_map (makes cwd home (fst v')) (snd v')) ->
  building cwd home exists_ (fst v') false (snd v') x th fs now kind c1 objs sv s -> succeeded objs s ->
  forall p, is_file (version cwd home v') p -> p_cone (version cwd home v') x p ->
  right_content (version cwd home v') (contents (w_fs (s_world s))) p (contents (w_fs (s_world s)) p).
Proof. intros cwd home v v' fs now Hh Hr Hd Hn. intros. eapply edited_right; eauto. now apply (edit_absent cwd home v). Qed.
Print Assumptions C85_cleaned.
(** or every rule names a file [q], such as the script, that is newer than what there is. *)
Theorem C85_script_named :
  forall cwd home v v' fs now q, edit_history cwd home v fs now -> reads_only (version cwd home v') ->
  (forall p m, is_file (version cwd home v') p -> fs p <> Some (m, Dir)) ->
  (forall p, is_rule (version cwd home v') p -> p_input (version cwd home v') p q) ->
  (forall p, is_rule (version cwd home v') p -> fs p = None \/ newer fs q p) ->
  forall exists_ x th kind c1 objs sv s, disk_ok cwd (present fs) exists_ -> in_order cwd home (fst v') exists_ (snd v') ->
  In x (flat_map (makes cwd home (fst v')) (snd v')) ->
  building cwd home exists_ (fst v') false (snd v') x th fs now kind c1 objs sv s -> succeeded objs s ->
  forall p, is_file (version cwd home v') p -> p_cone (version cwd home v') x p ->
  right_content (version cwd home v') (contents (w_fs (s_world s))) p (contents (w_fs (s_world s)) p).
Proof. intros cwd home v v' fs now q Hh Hr Hd Hi Hn. intros. eapply edited_right; eauto. now apply (script_named cwd home v v' fs now q). Qed.
Print Assumptions C85_script_named.
(** A third source and object are added to a program that has been built: it is linked again,
    and the other objects are not compiled again. *)
Example C85_case :
  edit_history "/w" "/h" (ProjectExamples.no_glob, dscript) dfs1 dlast /\
  edit_history "/w" "/h" (ProjectExamples.no_glob, escript) efs dlast /\
  disk_ok "/w" (present efs) (on_path edisk) /\ in_order "/w" "/h" ProjectExamples.no_glob (on_path edisk) escript /\
  In "/w/app" (flat_map (makes "/w" "/h" ProjectExamples.no_glob) escript) /\
  exists kind c1 objs sv s, building "/w" "/h" (on_path edisk) ProjectExamples.no_glob false escript "/w/app" 1 efs dlast kind c1 objs sv s /\ succeeded objs s /\
    contents (w_fs (s_world s)) "/w/app" = Some "o:a+o:b+o:c" /\ ~ In "/w/a.o" (map fst (w_ran (s_world s))).
Proof.
  split; [exact dhistory1|]. split; [exact ehistory|]. split; [exact edisk_ok|]. split; [exact eorder|].
  split; [apply mem_In; vm_compute; reflexivity|exact ebuilt].
Qed.
(** The cases of the other two: object files removed; and an object left out, by a version all
    of whose rules name the script. *)
Example C85_cleaned_case :
  edit_history "/w" "/h" (ProjectExamples.no_glob, dscript) cfs dlast /\ reads_only (version "/w" "/h" (ProjectExamples.no_glob, chgv)) /\
  (forall p m, is_file (version "/w" "/h" (ProjectExamples.no_glob, chgv)) p -> cfs p <> Some (m, Dir)) /\
  (forall p, is_rule (version "/w" "/h" (ProjectExamples.no_glob, chgv)) p -> cfs p = None).
Proof. split; [exact cremoved|]. split; [exact chg_reads|]. split; [exact cdir|exact cabsent]. Qed.
Example C85_script_named_case :
  edit_history "/w" "/h" (ProjectExamples.no_glob, dscript) nfs dnow1 /\ reads_only (version "/w" "/h" (ProjectExamples.no_glob, named)) /\
  (forall p m, is_file (version "/w" "/h" (ProjectExamples.no_glob, named)) p -> nfs p <> Some (m, Dir)) /\
  (forall p, is_rule (version "/w" "/h" (ProjectExamples.no_glob, named)) p -> p_input (version "/w" "/h" (ProjectExamples.no_glob, named)) p "/w/make.py") /\
  (forall p, is_rule (version "/w" "/h" (ProjectExamples.no_glob, named)) p -> nfs p = None \/ newer nfs "/w/make.py" p) /\
  disk_ok "/w" (present nfs) (on_path ndisk) /\ in_order "/w" "/h" ProjectExamples.no_glob (on_path ndisk) named /\
  In "/w/app" (flat_map (makes "/w" "/h" ProjectExamples.no_glob) named) /\
  exists kind c1 objs sv s, building "/w" "/h" (on_path ndisk) ProjectExamples.no_glob false named "/w/app" 1 nfs dnow1 kind c1 objs sv s /\ succeeded objs s /\
    contents (w_fs (s_world s)) "/w/app" = Some "o:a".
Proof.
  split; [exact nwritten|]. split; [exact nreads|]. split; [exact ndir|]. split; [exact nnamed|]. split; [exact nnewer|]. split; [exact ndisk_ok|].
  split; [apply in_orderb_ok; vm_compute; reflexivity|]. split; [apply mem_In; vm_compute; reflexivity|exact nbuilt].
Qed.

(** Otherwise the edit is not noticed: the process succeeds, and the program is still the one
    made by the old version.  An object is left out: *)
Theorem C85_object_left_out_refuted :
  exists cwd home exists_ glob_ l fs now x th kind c1 objs sv s,
    careless_history cwd home (glob_, l) fs now /\ disk_ok cwd (present fs) exists_ /\ in_order cwd home glob_ exists_ l /\
    In x (flat_map (makes cwd home glob_) l) /\ building cwd home exists_ glob_ false l x th fs now kind c1 objs sv s /\ succeeded objs s /\
    is_file (version cwd home (glob_, l)) x /\
    ~ right_content (version cwd home (glob_, l)) (contents (w_fs (s_world s))) x (contents (w_fs (s_world s)) x).
Proof.
  destruct (stale outv ocs out_ok) as (kind & c1 & objs & sv & s & B & Su & E & Ea).
  exists "/w", "/h", (on_path ddisk1), ProjectExamples.no_glob, outv, dfs1, dlast, "/w/app", 1%Z, kind, c1, objs, sv, s.
  split; [exact out_careless|]. split; [exact ddisk1_ok|]. split; [apply in_orderb_ok; vm_compute; reflexivity|].
  split; [apply mem_In; vm_compute; reflexivity|]. split; [exact B|]. split; [exact Su|].
  split; [right; eexists _, _, _; vm_compute; reflexivity|]. rewrite E. now apply out_wrong.
Qed.
Print Assumptions C85_object_left_out_refuted.
(** The command is changed, and everything else is as before: *)
Theorem C85_changed_command_refuted :
  exists cwd home exists_ glob_ l l' fs now x th kind c1 objs sv s,
    careless_history cwd home (glob_, l) fs now /\ careless_history cwd home (glob_, l') fs now /\
    Forall2 (fun a b => makes cwd home glob_ a = makes cwd home glob_ b /\ mentions home glob_ a = mentions home glob_ b) l l' /\
    disk_ok cwd (present fs) exists_ /\ in_order cwd home glob_ exists_ l' /\
    In x (flat_map (makes cwd home glob_) l') /\ building cwd home exists_ glob_ false l' x th fs now kind c1 objs sv s /\ succeeded objs s /\
    is_file (version cwd home (glob_, l')) x /\
    ~ right_content (version cwd home (glob_, l')) (contents (w_fs (s_world s))) x (contents (w_fs (s_world s)) x).
Proof.
  destruct (stale chgv dcs chg_ok) as (kind & c1 & objs & sv & s & B & Su & E & Ea).
  exists "/w", "/h", (on_path ddisk1), ProjectExamples.no_glob, dscript, chgv, dfs1, dlast, "/w/app", 1%Z, kind, c1, objs, sv, s.
  split; [exact dcareless|]. split; [exact chg_careless|]. split; [repeat constructor|].
  split; [exact ddisk1_ok|]. split; [apply in_orderb_ok; vm_compute; reflexivity|].
  split; [apply mem_In; vm_compute; reflexivity|]. split; [exact B|]. split; [exact Su|].
  split; [right; eexists _, _, _; vm_compute; reflexivity|]. rewrite E. now apply chg_wrong.
Qed.
Print Assumptions C85_changed_command_refuted.
