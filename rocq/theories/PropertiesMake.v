(** Theorems about builds of files: C27 - C32, C34, C37, C38, C40. *)
From Coq Require Import Permutation.
From Verif Require Import PyBase PyPath SolverModel SpecGraph InvokerModel SpecTrace CoreModel SpecCore CoreExamples
  MakeModel MakeEval SpecMake MakeProofs MakeFacts MakeTimes MakeClean MakeClaims MakeExec MakeExamples.
Local Open Scope string_scope.
Local Open Scope list_scope.

(** C27: update_if of one target, with a cache that tells the truth ... *)
Theorem C27_file_out_of_date :
  forall canon kind other_if fs c (ca : cache) i f b r s', process_core canon kind c ->
  (forall p x, sget ca p = Some x -> x = stat fs p) -> kind i = MFile f b ->
  mk_update_if canon kind other_if fs (c, ca) i = Ok (r, s') ->
  (r = true <-> f = true \/ fs (t_name (obj c i)) = None \/
     exists k, input canon kind c i k /\ newer fs (t_name (obj c k)) (t_name (obj c i))).
Proof.
  exact (fun canon kind other_if fs c ca i f b r s' Hp =>
    file_out_of_date canon kind other_if fs c ca i f b r s' (proj1 (proj2 (process_ready canon kind c Hp)))).
Qed.
Print Assumptions C27_file_out_of_date.
Theorem C27_directory_out_of_date :
  forall canon kind other_if fs c (ca : cache) i r s',
  (forall p x, sget ca p = Some x -> x = stat fs p) -> kind i = MDir ->
  mk_update_if canon kind other_if fs (c, ca) i = Ok (r, s') ->
  (r = true <-> fs (t_name (obj c i)) = None).
Proof. exact dir_out_of_date. Qed.
Print Assumptions C27_directory_out_of_date.
Theorem C27_update_if_returns :
  forall canon kind other_if fs c (ca : cache) i, process_core canon kind c ->
  (forall p x, sget ca p = Some x -> x = stat fs p) ->
  (forall j, in_cone canon c i j -> kind j <> MOther) -> cone_registered canon c i -> acyclic_cone canon c i ->
  exists r s', mk_update_if canon kind other_if fs (c, ca) i = Ok (r, s').
Proof.
  exact (fun canon kind other_if fs c ca i Hp =>
    file_update_if_total canon kind other_if fs c ca i (proj1 (process_ready canon kind c Hp))
      (proj1 (proj2 (process_ready canon kind c Hp)))).
Qed.
Print Assumptions C27_update_if_returns.
(** ... and the flags of a whole build, in terms of the project. *)
Theorem C27_need_update_of_a_build :
  forall canon P kind other_if c i fs now ca c1 objs s, implements canon kind P c i ->
  forall partial, build_of canon kind other_if partial c i fs now ca c1 objs s ->
  forall j, in_cone canon c i j -> exists b, t_need (obj c1 j) = Some b /\
    (b = true <-> (kind j <> MDir /\ needs_update P fs (t_name (obj c j))) \/
                  exists k, in_cone canon c j k /\ kind k = MDir /\ fs (t_name (obj c k)) = None).
Proof. exact need_flag. Qed.
Print Assumptions C27_need_update_of_a_build.
Example C27_case :
  implements root_canon mkinds mproj mc 4 /\
  build_of root_canon mkinds no_other false mc 4 fs_edit 5 [] (bu_core b3) (bu_objs b3) (bu_state b3) /\
  map (fun j => t_need (obj (bu_core b3) j)) [0; 1; 2; 3; 4] =
    [Some false; Some false; Some true; Some true; Some true].
Proof. split; [exact mc_implements|]. split; [exact b3_build|]. vm_compute. reflexivity. Qed.

(** C28, in the same process ... *)
Theorem C28_second_build_in_the_same_process :
  forall canon P kind other_if c i fs now ca c1 objs s,
  implements canon kind P c i -> build_of canon kind other_if false c i fs now ca c1 objs s -> succeeded objs s ->
  (forall j f b, in_cone canon c i j -> kind j = MFile f b -> f = false) ->
  (forall j, in_cone canon c i j -> kind j = MSource -> fs (t_name (obj c j)) <> None) ->
  cache_current canon kind c1 i (w_fs (s_world s)) (w_cache (s_world s)) /\
  forall now' c2 objs' s',
    build_of canon kind other_if false c1 i (w_fs (s_world s)) now' (w_cache (s_world s)) c2 objs' s' ->
    (forall j, in_cone canon c i j -> t_need (obj c2 j) = Some false) /\
    w_fs (s_world s') = w_fs (s_world s) /\ w_ran (s_world s') = [].
Proof. exact second_build_same_process. Qed.
Print Assumptions C28_second_build_in_the_same_process.
(** ... and in another process, with any registry for the same project. *)
Theorem C28_second_build_in_a_new_process :
  forall canon P kind other_if c i fs now ca c1 objs s kind' other_if' c' i',
  implements canon kind P c i -> build_of canon kind other_if false c i fs now ca c1 objs s -> succeeded objs s ->
  (forall j f b, in_cone canon c i j -> kind j = MFile f b -> f = false) ->
  (forall j, in_cone canon c i j -> kind j = MSource -> fs (t_name (obj c j)) <> None) ->
  implements canon kind' P c' i' ->
  t_name (obj c' i') = t_name (obj c i) -> kind i <> MDir -> kind' i' <> MDir ->
  (forall j, in_cone canon c' i' j -> kind' j = MDir -> w_fs (s_world s) (t_name (obj c' j)) <> None) ->
  forall now' ca' c2 objs' s',
    build_of canon kind' other_if' false c' i' (w_fs (s_world s)) now' ca' c2 objs' s' ->
    (forall j, in_cone canon c' i' j -> t_need (obj c2 j) = Some false) /\
    w_fs (s_world s') = w_fs (s_world s) /\ w_ran (s_world s') = [].
Proof. exact second_build_new_process. Qed.
Print Assumptions C28_second_build_in_a_new_process.
Example C28_case :
  implements root_canon mkinds mproj mc 4 /\
  build_of root_canon mkinds no_other false mc 4 fs0 1 [] (bu_core b1) (bu_objs b1) (bu_state b1) /\
  succeeded (bu_objs b1) (bu_state b1) /\
  (forall j f b, in_cone root_canon mc 4 j -> mkinds j = MFile f b -> f = false) /\
  (forall j, in_cone root_canon mc 4 j -> mkinds j = MSource -> fs0 (t_name (obj mc j)) <> None) /\
  bran b1 = [("/d", true); ("/d/o", true); ("/app", true)] /\ is_some again = true /\ bran b2 = [].
Proof.
  split; [exact mc_implements|]. split; [exact b1_build|]. split; [exact b1_success|]. split; [|split].
  - intros j f b _ H. destruct j as [|[|[|[|[|j]]]]]; simpl in H; congruence.
  - intros j _ H. destruct j as [|[|[|[|[|j]]]]]; simpl in H; try discriminate.
  - vm_compute. auto.
Qed.

(** C29, for any registry of files, file sets and directories (a project is not needed), also
    when failing rules leave something behind. *)
Theorem C29_only_what_was_needed_changes :
  forall canon kind other_if partial c i fs now ca c1 objs s,
  build_of canon kind other_if partial c i fs now ca c1 objs s ->
  (forall j, in_cone canon c i j -> kind j <> MOther) ->
  forall p, w_fs (s_world s) p <> fs p ->
    exists j, in_cone canon c i j /\
      ((p = t_name (obj c j) /\ (exists f b, kind j = MFile f b) /\ t_need (obj c1 j) = Some true) \/
       (kind j = MDir /\ fs p = None /\ (p = t_name (obj c j) \/ In p (ancestors (t_name (obj c j)))))).
Proof. exact build_frame. Qed.
Print Assumptions C29_only_what_was_needed_changes.
Example C29_case :
  build_of root_canon mkinds no_other false mc 4 fs_edit 5 [] (bu_core b3) (bu_objs b3) (bu_state b3) /\
  (forall j, in_cone root_canon mc 4 j -> mkinds j <> MOther) /\
  bfs b3 "/app" <> fs_edit "/app" /\ bfs b3 "/s" = fs_edit "/s".
Proof.
  split; [exact b3_build|]. split; [|split; [vm_compute; discriminate|vm_compute; reflexivity]].
  intros j Hj. apply mc_cone in Hj. destruct j as [|[|[|[|[|j]]]]]; try discriminate. lia.
Qed.

(** C30 *)
Theorem C30_incremental_builds_are_right :
  forall canon P kind other_if c i fs now ca c1 objs s,
  implements canon kind P c i -> build_of canon kind other_if false c i fs now ca c1 objs s -> succeeded objs s ->
  reads_only P -> history canon P fs now -> kind i <> MDir ->
  forall p, is_file P p -> p_cone P (t_name (obj c i)) p ->
    right_content P (contents (w_fs (s_world s))) p (contents (w_fs (s_world s)) p).
Proof. exact success_right. Qed.
Print Assumptions C30_incremental_builds_are_right.
(** In particular the result is that of a clean build ([fs']: only the sources). *)
Theorem C30_as_a_clean_build :
  forall canon P kind other_if c i fs now ca c1 objs s kind' other_if' c' i' fs' now' ca' c1' objs' s',
  reads_only P -> history canon P fs now -> history canon P fs' now' ->
  implements canon kind P c i -> build_of canon kind other_if false c i fs now ca c1 objs s -> succeeded objs s ->
  implements canon kind' P c' i' -> build_of canon kind' other_if' false c' i' fs' now' ca' c1' objs' s' -> succeeded objs' s' ->
  t_name (obj c' i') = t_name (obj c i) -> kind i <> MDir -> kind' i' <> MDir ->
  (forall p, P p = Some DSource -> contents fs p = contents fs' p) ->
  forall p, is_file P p -> p_cone P (t_name (obj c i)) p ->
    contents (w_fs (s_world s)) p = contents (w_fs (s_world s')) p.
Proof. exact same_sources_same_files. Qed.
Print Assumptions C30_as_a_clean_build.
(** Not if a failing rule may leave an output behind (as compilers killed halfway do). *)
Theorem C30_partial_outputs_refuted :
  exists canon P kind other_if c i fs now c1 objs s c2 objs' s' p,
  reads_only P /\ history canon P fs now /\ implements canon kind P c i /\
  build_of canon kind other_if true c i fs now [] c1 objs s /\
  build_of canon kind other_if true c i (w_fs (s_world s)) (w_now (s_world s)) [] c2 objs' s' /\
  succeeded objs' s' /\ is_file P p /\ p_cone P (t_name (obj c i)) p /\
  ~ right_content P (contents (w_fs (s_world s'))) p (contents (w_fs (s_world s')) p).
Proof. exact torn_output_kept. Qed.
Print Assumptions C30_partial_outputs_refuted.
Example C30_case :
  reads_only mproj /\ history root_canon mproj fs_edit 5 /\ implements root_canon mkinds mproj mc 4 /\
  build_of root_canon mkinds no_other false mc 4 fs_edit 5 [] (bu_core b3) (bu_objs b3) (bu_state b3) /\
  succeeded (bu_objs b3) (bu_state b3) /\ contents (bfs b3) "/app" = Some "app:o:bye+bye".
Proof.
  split; [exact mproj_reads_only|]. split; [exact edit_history|]. split; [exact mc_implements|].
  split; [exact b3_build|]. split; [exact b3_success|]. vm_compute. reflexivity.
Qed.

(** C31.  [s] is any reachable state: the process may die there. *)
Theorem C31_unfinished_files_still_need_an_update :
  forall canon P kind other_if c i fs now ca c1 objs s,
  implements canon kind P c i -> build_of canon kind other_if false c i fs now ca c1 objs s -> dated fs now ->
  forall p, is_file P p -> (exists j, in_cone canon c i j /\ t_name (obj c j) = p) -> needs_update P fs p ->
  ~ In (p, true) (w_ran (s_world s)) -> needs_update P (w_fs (s_world s)) p.
Proof. exact still_outdated. Qed.
Print Assumptions C31_unfinished_files_still_need_an_update.
Theorem C31_the_next_process_sees_them :
  forall canon P kind other_if c i fs now ca c1 objs s kind' other_if' c' i' now' ca' c2 objs' s',
  implements canon kind P c i -> build_of canon kind other_if false c i fs now ca c1 objs s -> dated fs now ->
  implements canon kind' P c' i' -> build_of canon kind' other_if' false c' i' (w_fs (s_world s)) now' ca' c2 objs' s' ->
  forall p j j', is_file P p -> in_cone canon c i j -> t_name (obj c j) = p ->
  in_cone canon c' i' j' -> t_name (obj c' j') = p ->
  needs_update P fs p -> ~ In (p, true) (w_ran (s_world s)) ->
  t_need (obj c2 j') = Some true.
Proof. exact next_process_sees. Qed.
Print Assumptions C31_the_next_process_sees_them.
Example C31_case :
  implements root_canon mkinds mproj mc 4 /\
  build_of root_canon mkinds no_other false mc 4 fs_edit 5 [] (bu_core b4) (bu_objs b4) (bu_state b4) /\
  dated fs_edit 5 /\ needs_update mproj fs_edit "/app" /\ bran b4 = [("/d/o", true)].
Proof.
  split; [exact mc_implements|]. split; [exact b4_build|]. split; [exact edit_dated|]. split; [exact edit_needs|].
  vm_compute. reflexivity.
Qed.

(** C32: the rule of a target that was out of date failed. *)
Theorem C32_failed_rule_is_run_again_partial :
  forall canon P kind other_if c i fs now ca c1 objs s kind' other_if' c' i' now' ca' c2 objs' s',
  implements canon kind P c i -> build_of canon kind other_if false c i fs now ca c1 objs s -> dated fs now ->
  implements canon kind' P c' i' -> build_of canon kind' other_if' false c' i' (w_fs (s_world s)) now' ca' c2 objs' s' ->
  forall p j j', is_file P p -> in_cone canon c i j -> t_name (obj c j) = p ->
  in_cone canon c' i' j' -> t_name (obj c' j') = p ->
  needs_update P fs p -> In (p, false) (w_ran (s_world s)) ->
  t_need (obj c2 j') = Some true.
Proof. exact failed_needs_again. Qed.
Print Assumptions C32_failed_rule_is_run_again_partial.
(** False if it may leave an output behind: the next build succeeds without running it ... *)
Theorem C32_partial_output_refuted :
  exists canon P kind other_if c i fs now c1 objs s c2 objs' s' p,
  implements canon kind P c i /\ build_of canon kind other_if true c i fs now [] c1 objs s /\
  build_of canon kind other_if true c i (w_fs (s_world s)) (w_now (s_world s)) [] c2 objs' s' /\
  is_rule P p /\ In (p, false) (w_ran (s_world s)) /\ succeeded objs' s' /\
  (forall b, ~ In (p, b) (w_ran (s_world s'))).
Proof. exact torn_output_not_rerun. Qed.
Print Assumptions C32_partial_output_refuted.
(** ... and, even if it leaves nothing behind, if it ran only because a directory was missing. *)
Theorem C32_missing_directory_refuted :
  exists canon P kind other_if c i fs now c1 objs s c2 objs' s' p,
  implements canon kind P c i /\ build_of canon kind other_if false c i fs now [] c1 objs s /\
  build_of canon kind other_if false c i (w_fs (s_world s)) (w_now (s_world s)) [] c2 objs' s' /\
  is_rule P p /\ In (p, false) (w_ran (s_world s)) /\ succeeded objs' s' /\ w_ran (s_world s') = [].
Proof. exact directory_rule_not_rerun. Qed.
Print Assumptions C32_missing_directory_refuted.
Example C32_case :
  build_of root_canon mkinds no_other false mc 4 fs_bad 1 [] (bu_core f1) (bu_objs f1) (bu_state f1) /\
  needs_update mproj fs_bad "/d/o" /\ In ("/d/o", false) (bran f1).
Proof.
  split; [exact f1_build|]. split; [|vm_compute; tauto].
  exists "/d/o". split; [apply rt_refl|]. left. split; [|reflexivity]. right. exists false, ["/s"], compile. reflexivity.
Qed.

(** C34.  The cache must tell the truth about the files of the cone, as in a new process. *)
Theorem C34_clean_removes_the_generated_files :
  forall canon kind c i fs (ca : cache), process_core canon kind c -> coherent canon c ->
  (exists nm, In (nm, i) (c_targets c)) -> cone_registered canon c i -> cache_current canon kind c i fs ca ->
  exists fs' ca', clean canon kind c i (fs, ca) = Ok (fs', ca') /\ cache_current canon kind c i fs' ca' /\
    (forall j f b, in_cone canon c i j -> kind j = MFile f b ->
       is_reg fs (t_name (obj c j)) = true -> fs' (t_name (obj c j)) = None) /\
    (forall p, fs' p <> fs p -> is_reg fs p = true /\
       exists j f b, in_cone canon c i j /\ kind j = MFile f b /\ t_name (obj c j) = p).
Proof. exact clean_spec. Qed.
Print Assumptions C34_clean_removes_the_generated_files.
(** Otherwise files stay behind. *)
Theorem C34_stale_cache_refuted :
  exists canon kind c i fs ca fs' ca' j f b,
  clean canon kind c i (fs, ca) = Ok (fs', ca') /\ in_cone canon c i j /\ kind j = MFile f b /\
  is_reg fs (t_name (obj c j)) = true /\ fs' (t_name (obj c j)) <> None.
Proof. exact clean_stale. Qed.
Print Assumptions C34_stale_cache_refuted.
Example C34_case :
  cone_registered root_canon mc 4 /\ cache_current root_canon mkinds mc 4 (bfs b1) [] /\
  match clean root_canon mkinds mc 4 (bfs b1, []) with
  | Ok (fs', _) => map fs' ["/s"; "/d"; "/d/o"; "/app"] = [Some (1, Reg "hello"); Some (2, Dir); None; None]
  | _ => False
  end.
Proof.
  split; [exact mc_registered|]. split; [apply empty_current|]. vm_compute. reflexivity.
Qed.

(** C37: what the cache tells. *)
Theorem C37_last_look :
  forall fs p h1 e h2, looks p h1 e -> ~ In (ERefresh p) h2 ->
  let s := cev_run (h1 ++ e :: h2) (fs, []) in
  fst (get_info (fst s) (snd s) p) = stat (world_after fs h1) p.
Proof. exact cache_tells. Qed.
Print Assumptions C37_last_look.
Theorem C37_never_looked :
  forall fs p h, Forall (fun x => ~ about p x) h ->
  let s := cev_run h (fs, []) in
  fst (get_info (fst s) (snd s) p) = stat (world_after fs h) p.
Proof. exact cache_first. Qed.
Print Assumptions C37_never_looked.
(** An edit between two builds of one process is not noticed. *)
Theorem C37_second_build_refuted :
  exists canon P kind other_if c i fs now c1 objs s fs' now' c2 ca2 fuel,
  implements canon kind P c i /\ build_of canon kind other_if false c i fs now [] c1 objs s /\ succeeded objs s /\
  outside_step P (w_fs (s_world s)) (w_now (s_world s)) fs' now' /\
  needs_update P fs' (t_name (obj c i)) /\
  mevaluate canon kind other_if fs' fuel (c1, w_cache (s_world s)) = Ok (c2, ca2) /\
  t_need (obj c2 i) = Some false.
Proof. exact edit_unnoticed. Qed.
Print Assumptions C37_second_build_refuted.
Example C37_case :
  looks "/s" [EAsk "/t"; EWorld fs_bad] (EAsk "/s") /\ ~ In (ERefresh "/s") [EWorld fs_edit; EAsk "/s"; ERefresh "/t"] /\
  stat fs_bad "/s" <> stat fs_edit "/s".
Proof.
  split; [|split].
  - right. split; [reflexivity|]. constructor; [intros [A|A]; discriminate A|].
    constructor; [intros [A|A]; discriminate A|constructor].
  - intros [A|[A|[A|[]]]]; discriminate A.
  - vm_compute. discriminate.
Qed.

(** C38 *)
Theorem C38_mtime_of_a_file_set :
  forall canon kind fs fuel c (ca : cache) i m ca', (forall p x, sget ca p = Some x -> x = stat fs p) ->
  kind i = MSet -> mtime canon kind fs fuel c ca i = Ok (m, ca') ->
  (forall k, input canon kind c i k -> fi_mtime (stat fs (t_name (obj c k))) <= m) /\
  (m = 0 \/ exists k, input canon kind c i k /\ fi_mtime (stat fs (t_name (obj c k))) = m).
Proof. exact set_mtime. Qed.
Print Assumptions C38_mtime_of_a_file_set.
Theorem C38_mtime_returns :
  forall canon kind fs c (ca : cache) i, process_core canon kind c ->
  (forall j, in_cone canon c i j -> kind j <> MOther) -> cone_registered canon c i -> acyclic_cone canon c i ->
  i < List.length (c_heap c) -> exists m ca', mtime canon kind fs (mt_fuel c) c ca i = Ok (m, ca').
Proof.
  exact (fun canon kind fs c ca i Hp =>
    mtime_total canon kind fs c ca i (proj1 (process_ready canon kind c Hp))).
Qed.
Print Assumptions C38_mtime_returns.
Example C38_case :
  match mtime root_canon mkinds (bfs b1) 5 mc [] 3 with Ok (m, _) => m = 3 | _ => False end.
Proof. vm_compute. reflexivity. Qed.

(** C40: false ... *)
Theorem C40_refuted :
  exists canon kind other_if c i fs now ca c1 objs s j,
  build_of canon kind other_if false c i fs now ca c1 objs s /\
  in_cone canon c i j /\ kind j = MSource /\ fs (t_name (obj c j)) = None /\ succeeded objs s.
Proof. exact missing_source_succeeds. Qed.
Print Assumptions C40_refuted.
(** ... but true if some rule cannot do without the source. *)
Theorem C40_missing_source_partial :
  forall canon P kind other_if c i fs now ca c1 objs s j f b q, reads_only P ->
  implements canon kind P c i -> build_of canon kind other_if false c i fs now ca c1 objs s ->
  in_cone canon c i j -> kind j = MFile f b -> p_input P (t_name (obj c j)) q -> P q = Some DSource ->
  (forall st, st q = None -> b st = None) -> fs q = None -> ~ succeeded objs s.
Proof. exact missing_source_fails. Qed.
Print Assumptions C40_missing_source_partial.
Example C40_case :
  implements root_canon mkinds mproj mc 4 /\
  build_of root_canon mkinds no_other false mc 4 (fun _ => None) 1 [] (bu_core m1) (bu_objs m1) (bu_state m1) /\
  p_input mproj (t_name (obj mc 4)) "/s" /\ (forall st, st "/s" = None -> link st = None) /\
  s_main (bu_state m1) = MReturned /\ bran m1 = [("/d", true); ("/s", true); ("/d/o", false)].
Proof.
  split; [exact mc_implements|]. split; [exact m1_build|]. split; [exact mproj_input_s|]. split.
  - intros st H. unfold link. rewrite H. now destruct (st "/d/o").
  - vm_compute. split; reflexivity.
Qed.
