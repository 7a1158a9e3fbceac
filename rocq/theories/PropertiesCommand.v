(** C90: from the command line to the files. *)
From Coq Require Import Permutation.
From Verif Require Import PyBase PyPath SolverModel SpecGraph InvokerModel SpecTrace CoreModel SpecCore CoreThms
  MakeModel MakeExec SpecMake RegModel CliModel SpecCli SpecReg RegExamples SpecProject ProjectExamples CommandModel SpecCommand CommandProofs CommandExamples.
Local Open Scope string_scope.
Local Open Scope list_scope.

(** On a registry of files, too, what is called is what the words ask for (the vocabulary of C54). *)
Theorem C90_only_what_is_asked : forall canon kind other_if fs fuel other c default ws q, wf_core c ->
  mcli canon kind other_if fs fuel other c default ws = Ok q ->
  exists args, asks canon c (info_of kind other) default ws (q_obj q) (q_act q) args /\ (args = [] -> q_args q = []).
Proof. exact mcli_asks. Qed.
Print Assumptions C90_only_what_is_asked.

(** The set-up of a command for a declared file or file set succeeds ... *)
Theorem C90_command_starts :
  forall cwd home fs exists_ glob_ l, disk_ok cwd (present fs) exists_ -> in_order cwd home glob_ exists_ l ->
  forall other partial default ws x th now order so other_if, (forall i, exists b, other_if i = Ok b) ->
  calls_for cwd home glob_ l default ws x "makefile" -> In (meaning cwd l x) (flat_map (makes cwd home glob_) l) ->
  (forall k, Permutation k (order k)) -> fair_order so ->
  exists f0, forall fuel, f0 <= fuel -> exists st, mrun (realpath cwd) exists_ glob_ home fuel 0 (map op_of l) [empty_reg] = Ok st /\
    exists f1, forall fuel', f1 <= fuel' -> exists i c1 ca1 objs sv,
    mcli (realpath cwd) (kind_of (reg st 0)) other_if fs fuel' other (set_threads (fst (reg st 0)) th) default ws = Ok (MC i "makefile" [] c1 ca1) /\
    recurse_update (realpath cwd) c1 order so i None = RuExec objs sv /\
    commanded cwd home exists_ glob_ partial other l default ws th fs now (kind_of (reg st 0)) c1 objs sv (init_state sv (WD fs ca1 now now [])).
Proof. exact command_starts. Qed.
Print Assumptions C90_command_starts.
(** ... the command is a build, of the script or of the script followed by a mention of the word;
    the project is the same ... *)
Theorem C90_command_is_a_build :
  forall cwd home fs exists_ glob_ l, disk_ok cwd (present fs) exists_ -> in_order cwd home glob_ exists_ l ->
  forall other partial default ws x th now kind c1 objs sv s,
  calls_for cwd home glob_ l default ws x "makefile" -> In (meaning cwd l x) (flat_map (makes cwd home glob_) l) ->
  commanded cwd home exists_ glob_ partial other l default ws th fs now kind c1 objs sv s ->
  exists l', (l' = l \/ is_name l x = false /\ l' = l ++ [SSource x]) /\ in_order cwd home glob_ exists_ l' /\
    (forall p, project_of cwd home glob_ l' p = project_of cwd home glob_ l p) /\
    flat_map (makes cwd home glob_) l' = flat_map (makes cwd home glob_) l /\
    building cwd home exists_ glob_ partial l' (meaning cwd l x) th fs now kind c1 objs sv s.
Proof. exact command_building. Qed.
Print Assumptions C90_command_is_a_build.
Theorem C90_build_is_a_command :
  forall cwd home fs exists_ glob_ l, disk_ok cwd (present fs) exists_ -> in_order cwd home glob_ exists_ l ->
  forall other partial default x th now kind c1 objs sv s, In (meaning cwd l x) (flat_map (makes cwd home glob_) l) ->
  building cwd home exists_ glob_ partial (l ++ [SSource x]) (meaning cwd l x) th fs now kind c1 objs sv s ->
  commanded cwd home exists_ glob_ partial other l default [x] th fs now kind c1 objs sv s.
Proof. exact building_command. Qed.
Print Assumptions C90_build_is_a_command.

(** ... after any history of edits and commands (also killed ones, also clean), a command that
    succeeds leaves the right content in every file that the target needs ... *)
Theorem C90_files_are_right :
  forall cwd home fs exists_ glob_ l, disk_ok cwd (present fs) exists_ -> in_order cwd home glob_ exists_ l ->
  forall other default ws x th now kind c1 objs sv s,
  calls_for cwd home glob_ l default ws x "makefile" -> In (meaning cwd l x) (flat_map (makes cwd home glob_) l) ->
  commanded cwd home exists_ glob_ false other l default ws th fs now kind c1 objs sv s -> succeeded objs s ->
  reads_only (project_of cwd home glob_ l) -> command_history cwd home glob_ l fs now ->
  forall p, is_file (project_of cwd home glob_ l) p -> p_cone (project_of cwd home glob_ l) (meaning cwd l x) p ->
  right_content (project_of cwd home glob_ l) (contents (w_fs (s_world s))) p (contents (w_fs (s_world s)) p).
Proof. exact commands_right. Qed.
Print Assumptions C90_files_are_right.
(** ... and with at least one thread it goes on until it succeeds or a rule fails. *)
Theorem C90_goes_on :
  forall cwd home fs exists_ glob_ l, disk_ok cwd (present fs) exists_ -> in_order cwd home glob_ exists_ l ->
  forall other partial default ws x th now kind c1 objs sv s,
  calls_for cwd home glob_ l default ws x "makefile" -> In (meaning cwd l x) (flat_map (makes cwd home glob_) l) ->
  dirs_free cwd home l fs -> (1 <= th)%Z ->
  commanded cwd home exists_ glob_ partial other l default ws th fs now kind c1 objs sv s ->
  no_rule_failed (project_of cwd home glob_ l) (s_world s) ->
  succeeded objs s \/ s_main s = MJoin /\ exists s', step (inv_of (sv_inv sv)) (mk_task (realpath cwd) kind partial c1 objs) s s'.
Proof. exact command_goes_on. Qed.
Print Assumptions C90_goes_on.
(** With none ([-j0], or less) it hangs and has touched no file. *)
Theorem C90_no_threads_hangs :
  forall cwd home fs exists_ glob_ l, disk_ok cwd (present fs) exists_ -> in_order cwd home glob_ exists_ l ->
  forall other partial default ws x th now kind c1 objs sv s,
  calls_for cwd home glob_ l default ws x "makefile" -> In (meaning cwd l x) (flat_map (makes cwd home glob_) l) ->
  (th <= 0)%Z -> commanded cwd home exists_ glob_ partial other l default ws th fs now kind c1 objs sv s ->
  w_fs (s_world s) = fs /\ hangs sv (mk_task (realpath cwd) kind partial c1 objs) s.
Proof. exact command_no_threads. Qed.
Print Assumptions C90_no_threads_hangs.
Example C90_case :
  disk_ok "/w" (present pfs) (on_path pdisk) /\ in_order "/w" "/h" no_glob (on_path pdisk) pscript /\ dirs_free "/w" "/h" pscript pfs /\
  calls_for "/w" "/h" no_glob pscript (Some "libs") ["./out/app"] "./out/app" "makefile" /\
  In (meaning "/w" pscript "./out/app") (flat_map (makes "/w" "/h" no_glob) pscript) /\
  reads_only pproj /\ command_history "/w" "/h" no_glob pscript pfs 1 /\
  (exists kind c1 objs sv s,
    commanded "/w" "/h" (on_path pdisk) no_glob false no_info pscript (Some "libs") ["./out/app"] 2 pfs 1 kind c1 objs sv s /\
    succeeded objs s /\ contents (w_fs (s_world s)) "/w/out/app" = Some "o:src+main" /\ contents (w_fs (s_world s)) "/w/out/a.h" = Some "hdr") /\
  (exists kind c1 objs sv s,
    commanded "/w" "/h" (on_path pdisk) no_glob false no_info pscript (Some "libs") ["./out/app"] 2 pfs 1 kind c1 objs sv s /\
    s_main s = MJoin /\ no_rule_failed pproj (s_world s) /\ contents (w_fs (s_world s)) "/w/out/a.h" = Some "hdr").
Proof.
  destruct pcalls as (A & _ & B & _). split; [exact pfs_ok|]. split; [exact pscript_ok|]. split; [exact pscript_free|]. split; [exact A|]. split; [exact B|].
  split; [exact pproj_reads_only|]. split; [exact pcommands|]. split; [exact word_run|exact word_middle].
Qed.

(** The action clean removes the files that rules of the target and its dependencies make, if
    they are regular files, and nothing else ... *)
Theorem C90_clean :
  forall cwd home fs exists_ glob_ l, disk_ok cwd (present fs) exists_ -> in_order cwd home glob_ exists_ l ->
  forall other default ws x th fs', calls_for cwd home glob_ l default ws x "clean" -> In (meaning cwd l x) (flat_map (makes cwd home glob_) l) ->
  cleaned cwd home exists_ glob_ other l default ws th fs fs' ->
  (forall p, is_rule (project_of cwd home glob_ l) p -> p_cone (project_of cwd home glob_ l) (meaning cwd l x) p -> is_reg fs p = true -> fs' p = None) /\
  (forall p, fs' p <> fs p -> is_reg fs p = true /\ fs' p = None /\ is_rule (project_of cwd home glob_ l) p /\ p_cone (project_of cwd home glob_ l) (meaning cwd l x) p).
Proof. exact clean_removes. Qed.
Print Assumptions C90_clean.
(** ... and it always succeeds. *)
Theorem C90_clean_runs :
  forall cwd home fs exists_ glob_ l, disk_ok cwd (present fs) exists_ -> in_order cwd home glob_ exists_ l ->
  forall other default ws x th (other_if : nat -> res bool), (forall i, exists b, other_if i = Ok b) ->
  calls_for cwd home glob_ l default ws x "clean" -> In (meaning cwd l x) (flat_map (makes cwd home glob_) l) ->
  exists f0, forall fuel, f0 <= fuel -> exists st, mrun (realpath cwd) exists_ glob_ home fuel 0 (map op_of l) [empty_reg] = Ok st /\
    exists f1, forall fuel', f1 <= fuel' -> exists i c1 ca1 fs' ca',
    mcli (realpath cwd) (kind_of (reg st 0)) other_if fs fuel' other (set_threads (fst (reg st 0)) th) default ws = Ok (MC i "clean" [] c1 ca1) /\
    clean (realpath cwd) (kind_of (reg st 0)) c1 i (fs, ca1) = Ok (fs', ca') /\
    cleaned cwd home exists_ glob_ other l default ws th fs fs'.
Proof. exact clean_runs. Qed.
Print Assumptions C90_clean_runs.
Example C90_clean_case :
  disk_ok "/w" (present cfs) (on_path cdisk) /\ in_order "/w" "/h" no_glob (on_path cdisk) pscript /\
  calls_for "/w" "/h" no_glob pscript (Some "libs") ["clean"] "libs" "clean" /\ In (meaning "/w" pscript "libs") (flat_map (makes "/w" "/h" no_glob) pscript) /\
  exists fs', cleaned "/w" "/h" (on_path cdisk) no_glob no_info pscript (Some "libs") ["clean"] 2 cfs fs' /\
    fs' "/w/out/lib/a.o" = None /\ fs' "/w/out/a.h" = None /\ fs' "/w/out/app" = cfs "/w/out/app" /\ fs' "/w/src.c" = cfs "/w/src.c" /\ cfs "/w/out/a.h" <> None.
Proof. destruct pcalls as (_ & A & _ & B). split; [exact cfs_ok|]. split; [exact cscript_ok|]. split; [exact A|]. split; [exact B|exact clean_run]. Qed.

(** What a word means may depend on the disk: [build] is an action of the default target if the
    directory of this name exists, else it is that directory. *)
Theorem C90_word_depends_on_disk_refuted :
  exists cwd home glob_ l default w fs fs' exists_ exists_', let canon := realpath cwd in
  disk_ok cwd (present fs) exists_ /\ in_order cwd home glob_ exists_ l /\ disk_ok cwd (present fs') exists_' /\ in_order cwd home glob_ exists_' l /\
  (forall p, is_file (project_of cwd home glob_ l) p -> fs p = fs' p) /\ In (meaning cwd l default) (flat_map (makes cwd home glob_) l) /\
  exists fuel st st' q q',
    mrun canon exists_ glob_ home fuel 0 (map op_of l) [empty_reg] = Ok st /\ mrun canon exists_' glob_ home fuel 0 (map op_of l) [empty_reg] = Ok st' /\
    mcli canon (kind_of (reg st 0)) no_other fs fuel no_info (set_threads (fst (reg st 0)) 2) (Some default) [w] = Ok q /\
    mcli canon (kind_of (reg st' 0)) no_other fs' fuel no_info (set_threads (fst (reg st' 0)) 2) (Some default) [w] = Ok q' /\
    t_name (obj (q_core q) (q_obj q)) = canon w /\ q_act q = "makefile" /\
    t_name (obj (q_core q') (q_obj q')) = canon default /\ q_act q' = w.
Proof. exact word_depends_on_disk. Qed.
Print Assumptions C90_word_depends_on_disk_refuted.

Lemma bind_done {A B} (r : res A) (k : A -> res B) b : bind r k = Ok b -> exists a, r = Ok a /\ k a = Ok b.
Proof. destruct r; cbn; try discriminate; eauto. Qed.
(** The action clr removes one file.  No command line calls it for a source or a file set ... *)
Theorem C90_clr_spares_sources : forall canon kind other_if fs fuel other c default ws q,
  mcli canon kind other_if fs fuel other c default ws = Ok q -> q_act q = "clr" -> kind (q_obj q) <> MSource /\ kind (q_obj q) <> MSet.
Proof.
  intros canon kind other_if fs fuel other c default ws q H Ha. unfold mcli in H.
  apply bind_done in H as ([[[c1 i] act] a] & _ & H). apply bind_done in H as ([c2 ca] & _ & H). apply bind_done in H as (u & Hc & H).
  injection H as <-. cbn [q_obj q_act] in *. subst act.
  split; intros Hk; unfold info_of in Hc; rewrite Hk in Hc; cbn in Hc; discriminate.
Qed.
Print Assumptions C90_clr_spares_sources.
(** ... and the word after the name of a file made by a rule calls it. *)
Theorem C90_clr_of_a_file : forall canon kind other_if fs fuel other c default x i c1 c2 ca f b,
  core_has canon c x = (true, c1) -> core_get canon c1 x = Ok i -> kind i = MFile f b ->
  mevaluate canon kind other_if fs fuel (c1, []) = Ok (c2, ca) ->
  mcli canon kind other_if fs fuel other c default [x; "clr"] = Ok (MC i "clr" [] c2 ca).
Proof.
  intros canon kind other_if fs fuel other c default x i c1 c2 ca f b Hh Hg Hk He. unfold mcli, dispatch. rewrite Hh, Hg. cbn [bind].
  assert (Ei : info_of kind other i = file_info) by (unfold info_of; now rewrite Hk). rewrite Ei.
  change (i_routine file_info) with false. change (hasaction (i_actions file_info) "clr") with true. cbv iota.
  cbn [bind_star bind]. rewrite He. cbn [bind]. rewrite Ei. reflexivity.
Qed.
Print Assumptions C90_clr_of_a_file.
Example C90_clr_case :
  exists st, mrun (realpath "/w") (on_path pdisk) no_glob "/h" 40 0 (map op_of pscript) [empty_reg] = Ok st /\
  (exists q, mcli (realpath "/w") (kind_of (reg st 0)) no_other pfs 40 no_info (set_threads (fst (reg st 0)) 2) (Some "libs") ["./out/app"; "clr"] = Ok q /\
     t_name (obj (q_core q) (q_obj q)) = "/w/out/app") /\
  mcli (realpath "/w") (kind_of (reg st 0)) no_other pfs 40 no_info (set_threads (fst (reg st 0)) 2) (Some "libs") ["src.c"; "clr"] = Raise (TypeError "not callable").
Proof.
  eexists. split; [vm_compute; reflexivity|]. split; [eexists; split; vm_compute; reflexivity|]. vm_compute. reflexivity.
Qed.
