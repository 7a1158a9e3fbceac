(** The project of InstalledExamples, where the header [inc/d/b.h] is new, and where it is
    removed (C94). *)
From Coq Require Import Permutation Relations.
From Verif Require Import PyBase PyPath SolverModel SpecGraph InvokerModel SpecTrace CoreModel SpecCore MakeModel UtilModel SpecMake
  RegModel CliModel SpecUtil SpecReg SpecProject RegExamples MakeExamples ProjectExamples TrackExamples EditExamples IdleExamples InvokerExec
  ProgramsExamples SpecEdit InstallModel WalkModel SpecWalk SpecInstalled InstalledExamples.
Local Open Scope string_scope.
Local Open Scope list_scope.

(** Without it. *)
Definition jtree : entry := EDir [("a.h", EFile); ("notes", EFile); ("d", EDir [])].
Definition jdisk (p : string) : option entry := if String.eqb p "/w/inc" then Some jtree else None.
Definition jlib_ops := install_library "/w" "/h" ipl (walk jdisk) glob_match "install" "p" "inc" ["*.h"] None (OneLib "lib.so").
Definition jscript : list stmt :=
  [SRule false "lib.so" ["a.c"] (read1 "lib:" "/w/a.c");
   icopy "/u/lib/lib.so" "lib.so" []; SSource "/w/inc/a.h";
   icopy "/u/include/p/a.h" "/w/inc/a.h" ["lib.so"];
   SSet "headers:///w/inc" ["/u/include/p/a.h"]; SSet "install" ["headers:///w/inc"; "/u/lib/lib.so"];
   icopy "/u/bin/app" "app.py" []; SSet "tools" ["/u/bin/app"]].
Definition jon_disk : list string := ["/"; "/w"; "/w/a.c"; "/w/app.py"; "/w/inc"; "/w/inc/a.h"; "/w/inc/notes"; "/w/inc/d"; "/u"].
Definition jfs : fsys := fun p => if String.eqb p "/w/inc/d/b.h" then None else ifs p.
Lemma ipresent p : present ifs p = on on_disk p.
Proof.
  unfold present, ifs, on, on_disk, mem. cbn [existsb].
  destruct (String.eqb_spec p "/"), (String.eqb_spec p "/w"), (String.eqb_spec p "/w/a.c"), (String.eqb_spec p "/w/app.py"), (String.eqb_spec p "/w/inc"),
    (String.eqb_spec p "/w/inc/a.h"), (String.eqb_spec p "/w/inc/notes"), (String.eqb_spec p "/w/inc/d"), (String.eqb_spec p "/w/inc/d/b.h"), (String.eqb_spec p "/u"); reflexivity.
Qed.
Lemma jpresent p : present jfs p = on jon_disk p.
Proof.
  unfold present, jfs. destruct (String.eqb_spec p "/w/inc/d/b.h") as [->|N]; [reflexivity|]. change (present ifs p = on jon_disk p). rewrite ipresent.
  unfold on, on_disk, jon_disk. cbn [existsb]. destruct (String.eqb_spec p "/w/inc/d/b.h"); [contradiction|]. reflexivity.
Qed.
Lemma jfs_ok : disk_ok "/w" (present jfs) (on_path jon_disk).
Proof. apply present_ok; [exact jpresent|reflexivity..]. Qed.
Lemma jscript_ok disk : in_orderb "/w" "/h" no_glob (on_path disk) jscript = true -> in_order "/w" "/h" no_glob (on_path disk) jscript.
Proof. apply in_orderb_ok. Qed.
Lemma jreads : reads_only (ver jscript).
Proof.
  intros p f ds b HP s s' Hs. rules_of jscript HP; pose proof HP as H; vm_compute in HP; try discriminate HP; injection HP as <- <- <-.
  - looks "/w/a.c" H Hs. reflexivity.
  - looks "/w/lib.so" H Hs. reflexivity.
  - looks "/w/inc/a.h" H Hs. reflexivity.
  - looks "/w/app.py" H Hs. reflexivity.
Qed.
Lemma idated p m n : ifs p = Some (m, n) -> m <= 1.
Proof. unfold ifs. destruct (mem p _); [intros [= <- _]; lia|]. destruct (mem p _); intros [= <- _]; lia. Qed.
Lemma jstart : edit_history "/w" "/h" (no_glob, jscript) jfs 1.
Proof.
  apply eh_start.
  - exact jreads.
  - intros p m n. unfold jfs. destruct (String.eqb _ _); [discriminate|]. apply idated.
  - intros p H. apply (drules jscript) in H. vm_compute in H. in_cases H; vm_compute; reflexivity.
  - apply (no_dir jscript). vm_compute. reflexivity.
Qed.
Lemma istart : edit_history "/w" "/h" (no_glob, iscript) ifs 1.
Proof.
  apply eh_start.
  - exact ireads.
  - intros p m n. apply idated.
  - intros p H. apply (drules iscript) in H. vm_compute in H. in_cases H; vm_compute; reflexivity.
  - apply (no_dir iscript). vm_compute. reflexivity.
Qed.

(** A process for [install] in a world where [disk] exists, after which [new] exists too. *)
Notation jrun l disk fs now n := (do_process "/w" "/h" (on_path disk) no_glob no_fail l "install" 1 fs now (ichoices n)).
Definition left_files (disk new : list string) (r : ran) : bool :=
  fine r && coherentb (realpath "/w") (rn_core r) && no_others r &&
  forallb (fun p => Bool.eqb (present (w_fs (s_world (rn_state r))) p) (on (disk ++ new) p)) (ProgramsExamples.places r) && forallb (fun p => mem p (ProgramsExamples.places r)) new.
Lemma run_left l disk new fs now n test : (forall p, present fs p = on disk p) ->
  on_ran (jrun l disk fs now n) (fun r => left_files disk new r && test r) = true ->
  exists kind c1 objs sv s, building "/w" "/h" (on_path disk) no_glob false l "install" 1 fs now kind c1 objs sv s /\ succeeded objs s /\
    w_fs (s_world s) = out_fs (jrun l disk fs now n) fs /\ w_now (s_world s) = out_now (jrun l disk fs now n) /\
    (forall p, present (out_fs (jrun l disk fs now n) fs) p = on (disk ++ new) p) /\ exists r, s = rn_state r /\ test r = true.
Proof.
  intros Hp T. destruct (on_ran_ok _ _ T) as (r & Er & H). clear T. unfold left_files in H.
  apply andb_prop in H. destruct H as [H Ht]. apply andb_prop in H. destruct H as [H H5]. apply andb_prop in H. destruct H as [H H4].
  apply andb_prop in H. destruct H as [H H3]. apply andb_prop in H. destruct H as [H1 H2].
  exists (rn_kind r), (rn_core r), (rn_objs r), (rn_solver r), (rn_state r).
  pose proof (ran_present' _ _ _ new _ _ _ _ _ _ _ _ _ Er H2 H3 Hp H4 H5) as Q. rewrite Er. cbn [out_fs out_now].
  split; [exact (do_process_ok _ _ _ _ _ _ _ _ _ _ _ _ Er)|]. clear Er. split; [now apply fine_ok|]. do 2 (split; [reflexivity|]). split; [exact Q|]. now exists r.
Qed.

(** [b.h] is new. *)
Definition jmade : list string := ["/u/lib"; "/u/include"; "/u/include/p"; "/w/lib.so"; "/u/lib/lib.so"; "/u/include/p/a.h"].
Notation jr := (jrun jscript jon_disk jfs 1 10).
Definition jfs1 : fsys := out_fs jr jfs.
Definition jnow1 : nat := out_now jr.
Lemma jr_ok : on_ran jr (fun r => left_files jon_disk jmade r && true) = true.
Proof. vm_compute. reflexivity. Qed.
Lemma jbuilt : edit_history "/w" "/h" (no_glob, jscript) jfs1 jnow1 /\ (forall p, present jfs1 p = on (jon_disk ++ jmade) p).
Proof.
  destruct (run_left _ _ _ _ _ _ _ jpresent jr_ok) as (kind & c1 & objs & sv & s & B & _ & E1 & E2 & Q & _).
  unfold jfs1, jnow1. rewrite <- E1, <- E2. split; [|rewrite E1; exact Q].
  apply (eh_process "/w" "/h" (no_glob, jscript) jfs 1 (on_path jon_disk) "install" 1 kind c1 objs sv s); [exact jstart|exact jfs_ok|apply jscript_ok; vm_compute; reflexivity| |exact B].
  apply mem_In. vm_compute. reflexivity.
Qed.
(** It may be older than everything. *)
Definition hfs : fsys := fs_set jfs1 "/w/inc/d/b.h" (Some (0, Reg "new")).
Definition hdisk : list string := jon_disk ++ jmade ++ ["/w/inc/d/b.h"].
Lemma hpresent p : present hfs p = on hdisk p.
Proof.
  unfold present, hfs, fs_set, hdisk, on. rewrite app_assoc, existsb_app. cbn [existsb]. rewrite orb_false_r.
  destruct (String.eqb_spec p "/w/inc/d/b.h") as [->|]; [now rewrite orb_true_r|]. rewrite orb_false_r. exact (proj2 jbuilt p).
Qed.
Lemma hfs_ok : disk_ok "/w" (present hfs) (on_path hdisk).
Proof. apply present_ok; [exact hpresent|vm_compute; reflexivity..]. Qed.
Lemma hwritten : edit_history "/w" "/h" (no_glob, jscript) hfs jnow1.
Proof.
  apply (eh_outside _ _ _ jfs1 jnow1); [exact (proj1 jbuilt)|]. split; [lia|]. intros p. unfold hfs, fs_set.
  destruct (String.eqb_spec p "/w/inc/d/b.h") as [->|]; [|now left]. right. right. right. split; [|exists 0, (Reg "new"); split; [reflexivity|lia]].
  intros [H|(f & ds & b & H)]; vm_compute in H; discriminate.
Qed.
(** The rules that both versions have are the same. *)
Lemma kept_inputs l l' p ds f b q : version "/w" "/h" (no_glob, l) p = Some (DRule f ds b) -> ver l' p = Some (DRule f ds b) ->
  forallb (fun d => match ver l d with Some (DSet _) => false | Some _ => match ver l' d with Some (DSet _) => false | Some _ => true | None => false end | None => false end) ds = true ->
  p_input (ver l) p q -> p_input (ver l') p q.
Proof.
  intros H H' T Hq. rewrite forallb_forall in T. apply (input_rule _ _ _ f ds b) in Hq; [|exact H|].
  - apply (rule_input _ _ _ f ds b H' Hq). specialize (T q Hq). destruct (ver l q) as [[|? ? ?|?]|]; destruct (ver l' q) as [[|? ? ?|?]|] eqn:E; try discriminate T;
      solve [now left|right; unfold is_rule; eauto].
  - intros d s Hd E. specialize (T d Hd). rewrite E in T. discriminate T.
Qed.
Ltac kept := eapply sv_same; [vm_compute; reflexivity|reflexivity|]; intros q; eapply kept_inputs; vm_compute; reflexivity.
Lemma hhistory : edit_history "/w" "/h" (no_glob, iscript) hfs jnow1.
Proof.
  apply (eh_edit _ _ (no_glob, jscript)); [exact hwritten|exact ireads|apply (no_dir iscript); vm_compute; reflexivity|].
  intros p f ds b HP. rules_of iscript HP; vm_compute in HP; try discriminate HP; injection HP as <- <- <-; try (apply sv_absent; vm_compute; reflexivity); kept.
Qed.
Lemma hrun : exists kind c1 objs sv s, building "/w" "/h" (on_path hdisk) no_glob false iscript "install" 1 hfs jnow1 kind c1 objs sv s /\ succeeded objs s /\
  contents (w_fs (s_world s)) "/u/include/p/d/b.h" = Some "new".
Proof.
  assert (T : on_ran (jrun iscript hdisk hfs jnow1 10) (fun r => left_files hdisk ["/u/include/p/d"; "/u/include/p/d/b.h"] r && String.eqb (text r "/u/include/p/d/b.h") "new") = true)
    by (vm_compute; reflexivity).
  destruct (run_left _ _ _ _ _ _ _ hpresent T) as (kind & c1 & objs & sv & s & B & Su & _ & _ & _ & r & -> & Q).
  exists kind, c1, objs, sv, (rn_state r). split; [exact B|]. split; [exact Su|]. apply text_eq; [discriminate|exact Q].
Qed.

(** [b.h] is removed. *)
Definition imade : list string := jmade ++ ["/u/include/p/d"; "/u/include/p/d/b.h"].
Notation ir := (jrun iscript on_disk ifs 1 13).
Definition ifs1 : fsys := out_fs ir ifs.
Definition inow1 : nat := out_now ir.
Lemma ir_ok : on_ran ir (fun r => left_files on_disk imade r && true) = true.
Proof. vm_compute. reflexivity. Qed.
Lemma ibuilt : (exists kind c1 objs sv s, building "/w" "/h" (on_path on_disk) no_glob false iscript "install" 1 ifs 1 kind c1 objs sv s /\ succeeded objs s /\
    w_fs (s_world s) = ifs1 /\ w_now (s_world s) = inow1) /\
  edit_history "/w" "/h" (no_glob, iscript) ifs1 inow1 /\ (forall p, present ifs1 p = on (on_disk ++ imade) p).
Proof.
  destruct (run_left _ _ _ _ _ _ _ ipresent ir_ok) as (kind & c1 & objs & sv & s & B & Su & E1 & E2 & Q & _).
  unfold ifs1, inow1. rewrite <- E1, <- E2. split; [exists kind, c1, objs, sv, s; exact (conj B (conj Su (conj eq_refl eq_refl)))|]. split; [|rewrite E1; exact Q].
  apply (eh_process "/w" "/h" (no_glob, iscript) ifs 1 (on_path on_disk) "install" 1 kind c1 objs sv s); [exact istart|exact ifs_ok|exact iscript_ok| |exact B].
  apply mem_In. vm_compute. reflexivity.
Qed.
Definition rfs : fsys := fs_set ifs1 "/w/inc/d/b.h" None.
Definition rdisk : list string := jon_disk ++ imade.
Lemma rpresent p : present rfs p = on rdisk p.
Proof.
  unfold present, rfs, fs_set. destruct (String.eqb_spec p "/w/inc/d/b.h") as [->|N]; [reflexivity|].
  pose proof (proj2 (proj2 ibuilt) p) as H. unfold present in H. rewrite H. unfold rdisk, on. rewrite !existsb_app. f_equal.
  unfold on_disk, jon_disk. cbn [existsb]. destruct (String.eqb_spec p "/w/inc/d/b.h"); [contradiction|]. reflexivity.
Qed.
Lemma rfs_ok : disk_ok "/w" (present rfs) (on_path rdisk).
Proof. apply present_ok; [exact rpresent|vm_compute; reflexivity..]. Qed.
Lemma rhistory : edit_history "/w" "/h" (no_glob, jscript) rfs inow1.
Proof.
  apply (eh_edit _ _ (no_glob, iscript)); [|exact jreads|apply (no_dir jscript); vm_compute; reflexivity|].
  - apply (eh_outside _ _ _ ifs1 inow1); [exact (proj1 (proj2 ibuilt))|]. split; [lia|]. intros p. unfold rfs, fs_set. destruct (String.eqb _ _); auto.
  - intros p f ds b HP. rules_of jscript HP; vm_compute in HP; try discriminate HP; injection HP as <- <- <-; try (apply sv_absent; vm_compute; reflexivity); kept.
Qed.
Lemma rrun : exists kind c1 objs sv s, building "/w" "/h" (on_path rdisk) no_glob false jscript "install" 1 rfs inow1 kind c1 objs sv s /\ succeeded objs s /\
  contents (w_fs (s_world s)) "/u/include/p/d/b.h" = Some "at /w/inc/d/b.h".
Proof.
  assert (T : on_ran (jrun jscript rdisk rfs inow1 7) (fun r => left_files rdisk [] r && String.eqb (text r "/u/include/p/d/b.h") "at /w/inc/d/b.h") = true)
    by (vm_compute; reflexivity).
  destruct (run_left _ _ _ _ _ _ _ rpresent T) as (kind & c1 & objs & sv & s & B & Su & _ & _ & _ & r & -> & Q).
  exists kind, c1, objs, sv, (rn_state r). split; [exact B|]. split; [exact Su|]. apply text_eq; [discriminate|exact Q].
Qed.
Lemma jtree_proper : proper_tree jtree.
Proof.
  assert (N : forall s, In s ["a.h"; "notes"; "d"] -> file_name s).
  { intros s Hs. cbn in Hs. unfold file_name. repeat destruct Hs as [<-|Hs]; try destruct Hs; repeat split; try discriminate; cbn; intuition discriminate. }
  unfold jtree. apply pt_dir.
  - cbn. repeat (apply NoDup_cons; [cbn; intuition discriminate|]). apply NoDup_nil.
  - intros n e [H|[H|[H|[]]]]; injection H as <- <-; (split; [apply N; cbn; tauto|]); [apply pt_file|apply pt_file|].
    apply pt_dir; [apply NoDup_nil|]. intros n e [].
Qed.
