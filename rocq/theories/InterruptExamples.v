(** Witnesses and non-vacuity examples for C91. *)
From Coq Require Import Permutation Relations.
From Verif Require Import PyBase PyPath PathProofs SolverModel SpecGraph InvokerModel SpecTrace CoreModel SpecCore
  MakeModel MakeEval SpecMake MakeProofs MakeExec MakeExamples RegModel CliModel SpecUtil SpecReg RegExamples SpecProject ProjectExamples ProjectBuild CommandModel SpecCommand CommandProofs CommandExamples
  InterruptModel InterruptProofs InterruptBuild InvokerExamples InvokerExec.
Local Open Scope string_scope.
Local Open Scope list_scope.

Lemma some_ran o (Q : ran -> Prop) : match o with Some r => Q r | None => False end -> exists r, o = Some r /\ Q r.
Proof. destruct o as [r|]; [eauto|contradiction]. Qed.
Definition rule_at (r : ran) (t : nat) (p : string) : Prop :=
  let j := nth t (rn_objs r) (List.length (c_heap (rn_core r))) in
  t_name (obj (rn_core r) j) = p /\ t_need (obj (rn_core r) j) = Some true /\ match rn_kind r j with MFile _ _ => True | _ => False end.
Lemma rule_killed r t p w fs' now' ca' partial : rule_at r t p ->
  (fs' = w_fs w /\ now' = w_now w \/ fs' = fs_set (w_fs w) p None /\ now' = w_now w \/
   partial = true /\ (exists m v, (w_base w < m)%nat /\ fs' = fs_set (w_fs w) p (Some (m, Reg v)) /\ now' = Nat.max (w_now w) m)) ->
  mk_killed (rn_kind r) partial (rn_core r) (rn_objs r) t w (WD fs' ca' (w_base w) now' (w_ran w ++ [(p, false)])).
Proof.
  intros (<- & Hn & Hk) H. destruct (rn_kind r _) as [f b| | | |] eqn:E; try contradiction. now apply (killed_rule _ _ _ _ _ _ f b).
Qed.

(** Ctrl-C while out/lib/a.o and out/a.h are being made: the copy is finished, the compiler is killed. *)
Definition jfs : fsys := fs_set (makedirs (makedirs pfs "/w/out" 2) "/w/out/lib" 3) "/w/out/a.h" (Some (4, Reg "hdr")).
Definition ifs : fsys := fs_set jfs "/w/out/lib/a.o" None.
Definition hfs : fsys := fs_set jfs "/w/out/lib/a.o" (Some (5, Reg "ha")).
Definition idisk : list string := pdisk ++ ["/w/out"; "/w/out/lib"; "/w/out/a.h"].
Definition hdisk : list string := idisk ++ ["/w/out/lib/a.o"].
Definition copied (r : ran) : option (tres * world) := fmake (rn_kind r) false no_fail (rn_core r) (rn_objs r) 6 (s_world (rn_state r)).
Definition copied_fs (o : option ran) : fsys :=
  match o with Some r => match copied r with Some (_, w) => w_fs w | None => fun _ => None end | None => fun _ => None end.
Definition at_work (r : ran) : Prop :=
  s_main (rn_state r) = MJoin /\ in_threads (rn_state r) = [7; 6] /\ rule_at r 7 "/w/out/lib/a.o" /\
  w_fs (s_world (rn_state r)) "/w/out/a.h" = None /\
  match copied r with Some (RNotFalse, w) => w_base w = 1 /\ w_now w = 4 | _ => False end.
Notation srun := (do_process "/w" "/h" (on_path pdisk) no_glob no_fail pscript "/w/out/app" 2 pfs 1).
Lemma word_at_work : match wrun (firstn 7 pchoices) with Some r => at_work r | None => False end.
Proof. vm_compute. repeat split; reflexivity. Qed.
Lemma word_copied : copied_fs (wrun (firstn 7 pchoices)) = jfs.
Proof. reflexivity. Qed.
Lemma script_at_work : match srun (firstn 7 pchoices) with Some r => at_work r | None => False end.
Proof. vm_compute. repeat split; reflexivity. Qed.
Lemma script_copied : copied_fs (srun (firstn 7 pchoices)) = jfs.
Proof. reflexivity. Qed.

Lemma at_work_interrupted r partial fs' now' : at_work r -> copied_fs (Some r) = jfs ->
  (fs' = ifs /\ now' = 4 \/ partial = true /\ fs' = hfs /\ now' = 5) ->
  exists w', interrupted (mk_task (realpath "/w") (rn_kind r) false (rn_core r) (rn_objs r)) (mk_killed (rn_kind r) partial (rn_core r) (rn_objs r)) (rn_state r) w' /\
  w_fs w' = fs' /\ w_now w' = now'.
Proof.
  intros (Hm & Ht & R7 & _ & H) Hf. unfold copied_fs in Hf. destruct (copied r) as [[[| |] w1]|] eqn:E; try contradiction. destruct H as [Hb Hn].
  assert (Hr : mk_task (realpath "/w") (rn_kind r) false (rn_core r) (rn_objs r) 6 (s_world (rn_state r)) RNotFalse w1).
  { exact (fmake_sound (realpath "/w") (rn_kind r) false no_fail (rn_core r) (rn_objs r) 6 _ _ _ E). }
  intros H. exists (WD fs' [] (w_base w1) now' (w_ran w1 ++ [("/w/out/lib/a.o", false)])). split; [|split; reflexivity].
  split; [exact Hm|]. exists [6; 7]. rewrite Ht. split; [apply perm_swap|].
  eapply settles_finishes; [exact Hr|]. eapply settles_killed; [|apply settles_done].
  apply (rule_killed r 7 _ w1 fs' _ [] partial R7). rewrite Hf, Hn, Hb. destruct H as [[-> ->]|(-> & -> & ->)].
  - right. left. split; reflexivity.
  - right. right. split; [reflexivity|]. exists 5, "ha". split; [lia|]. split; reflexivity.
Qed.
Lemma word_cut : exists kind c1 objs sv s w',
  commanded "/w" "/h" (on_path pdisk) no_glob false no_info pscript (Some "libs") ["./out/app"] 2 pfs 1 kind c1 objs sv s /\
  interrupted (mk_task (realpath "/w") kind false c1 objs) (mk_killed kind false c1 objs) s w' /\
  List.length (in_threads s) = 2 /\ w_fs w' = ifs /\ w_now w' = 4.
Proof.
  destruct (some_ran (wrun (firstn 7 pchoices)) at_work word_at_work) as (r & E & H). pose proof word_copied as F. rewrite E in F. pose proof (do_process_ok _ _ _ _ _ _ _ _ _ _ _ _ E) as B. clear E.
  destruct (at_work_interrupted r false ifs 4 H F (or_introl (conj eq_refl eq_refl))) as (w' & I1 & I2). destruct H as (_ & Ht & _).
  exists (rn_kind r), (rn_core r), (rn_objs r), (rn_solver r), (rn_state r), w'.
  split; [eapply (building_command "/w" "/h" pfs (on_path pdisk) no_glob pscript pfs_ok pscript_ok); [apply word_made; vm_compute; reflexivity|exact B]|].
  split; [exact I1|]. rewrite Ht. auto.
Qed.
Lemma script_cut partial fs' now' : (fs' = ifs /\ now' = 4 \/ partial = true /\ fs' = hfs /\ now' = 5) -> exists kind c1 objs sv s w',
  building "/w" "/h" (on_path pdisk) no_glob false pscript "/w/out/app" 2 pfs 1 kind c1 objs sv s /\
  interrupted (mk_task (realpath "/w") kind false c1 objs) (mk_killed kind partial c1 objs) s w' /\
  List.length (in_threads s) = 2 /\ w_fs w' = fs' /\ w_now w' = now' /\ w_fs (s_world s) "/w/out/a.h" = None.
Proof.
  intros Hc. destruct (some_ran (srun (firstn 7 pchoices)) at_work script_at_work) as (r & E & H). pose proof script_copied as F. rewrite E in F. pose proof (do_process_ok _ _ _ _ _ _ _ _ _ _ _ _ E) as B. clear E.
  destruct (at_work_interrupted r partial fs' now' H F Hc) as (w' & I1 & I2 & I3). destruct H as (_ & Ht & _ & H0 & _).
  exists (rn_kind r), (rn_core r), (rn_objs r), (rn_solver r), (rn_state r), w'.
  split; [exact B|]. split; [exact I1|]. split; [now rewrite Ht|]. auto.
Qed.

(** The next command finds the directories and the header, compiles and links. *)
Lemma jfs_present p : p <> "/w/out/lib/a.o" -> present jfs p = on idisk p.
Proof.
  intros N. unfold present, jfs, makedirs, fs_set, pfs, on, idisk, pdisk, mem. cbn [existsb app].
  destruct (String.eqb_spec p "/w/out/a.h") as [->|N1]; [reflexivity|].
  destruct (String.eqb_spec p "/w/out/lib") as [->|N2]; [reflexivity|].
  destruct (String.eqb_spec p "/w/out") as [->|N3]; [reflexivity|].
  destruct (String.eqb_spec p "/") as [->|N4]; [reflexivity|].
  destruct (String.eqb_spec p "/w") as [->|N5]; [reflexivity|].
  assert (X : smem String.eqb p (ancestors "/w/out/lib") = false /\ smem String.eqb p (ancestors "/w/out") = false).
  { replace (ancestors "/w/out/lib") with ["/w/out"; "/w"; "/"] by (vm_compute; reflexivity). replace (ancestors "/w/out") with ["/w"; "/"] by (vm_compute; reflexivity).
    cbn [smem existsb]. split; repeat match goal with |- context [String.eqb p ?a] => destruct (String.eqb_spec p a); [contradiction|] end; reflexivity. }
  destruct X as [-> ->]. cbn [orb].
  destruct (String.eqb_spec p "/w/src.c"), (String.eqb_spec p "/w/a.h"), (String.eqb_spec p "/w/main.c"), (String.eqb_spec p "/w/make.py"); reflexivity.
Qed.
Lemma ifs_ok : disk_ok "/w" (present ifs) (on_path idisk).
Proof.
  apply present_ok; [|reflexivity..]. intros p. unfold ifs, present, fs_set. destruct (String.eqb_spec p "/w/out/lib/a.o") as [->|N]; [reflexivity|]. exact (jfs_present p N).
Qed.
Lemma hfs_ok : disk_ok "/w" (present hfs) (on_path hdisk).
Proof.
  apply present_ok; [|reflexivity..]. intros p. unfold hfs, present, fs_set. destruct (String.eqb_spec p "/w/out/lib/a.o") as [->|N]; [reflexivity|].
  pose proof (jfs_present p N) as E. unfold present in E. rewrite E. unfold on, hdisk, mem. rewrite existsb_app. cbn [existsb]. destruct (String.eqb_spec p "/w/out/lib/a.o"); [contradiction|]. now rewrite !orb_false_r.
Qed.
Lemma iscript_ok : in_order "/w" "/h" no_glob (on_path idisk) pscript.
Proof. apply in_orderb_ok. vm_compute. reflexivity. Qed.
Lemma hscript_ok : in_order "/w" "/h" no_glob (on_path hdisk) pscript.
Proof. apply in_orderb_ok. vm_compute. reflexivity. Qed.
Definition ichoices : list choice := CGet 0 :: repeat (CFin 0) 7 ++ [CJoin].
Notation irun := (do_process "/w" "/h" (on_path idisk) no_glob no_fail (pscript ++ [SSource "./out/app"]) "/w/out/app" 1 ifs 4).
Lemma word_next : exists kind c1 objs sv s,
  commanded "/w" "/h" (on_path idisk) no_glob false no_info pscript (Some "libs") ["./out/app"] 1 ifs 4 kind c1 objs sv s /\
  succeeded objs s /\ contents (w_fs (s_world s)) "/w/out/app" = Some "o:src+main".
Proof.
  assert (T : on_ran (irun ichoices) done_test = true) by (vm_compute; reflexivity).
  destruct (on_ran_ok _ _ T) as (r & E & H). clear T. pose proof (do_process_ok _ _ _ _ _ _ _ _ _ _ _ _ E) as B. clear E. unfold done_test in H.
  apply andb_prop in H. destruct H as [H H2]. apply andb_prop in H. destruct H as [H H1]. apply andb_prop in H2. destruct H2 as [H2 H3].
  exists (rn_kind r), (rn_core r), (rn_objs r), (rn_solver r), (rn_state r).
  split; [eapply (building_command "/w" "/h" ifs (on_path idisk) no_glob pscript ifs_ok iscript_ok); [apply word_made; vm_compute; reflexivity|exact B]|].
  split; [now apply fine_ok|]. now apply text_eq.
Qed.

(** If the compiler leaves half of its output, the next build links it. *)
Notation hrun := (do_process "/w" "/h" (on_path hdisk) no_glob no_fail pscript "/w/out/app" 1 hfs 5).
Lemma half_linked : exists kind c1 objs sv s,
  building "/w" "/h" (on_path hdisk) no_glob false pscript "/w/out/app" 1 hfs 5 kind c1 objs sv s /\
  succeeded objs s /\ contents (w_fs (s_world s)) "/w/out/app" = Some "ha+main" /\ contents (w_fs (s_world s)) "/w/out/lib/a.o" = Some "ha" /\
  contents (w_fs (s_world s)) "/w/src.c" = Some "src".
Proof.
  assert (T : on_ran (hrun ichoices) (fun r => fine r && (String.eqb (text r "/w/out/app") "ha+main" && (String.eqb (text r "/w/out/lib/a.o") "ha" && String.eqb (text r "/w/src.c") "src"))) = true) by (vm_compute; reflexivity).
  destruct (on_ran_ok _ _ T) as (r & E & H). clear T. pose proof (do_process_ok _ _ _ _ _ _ _ _ _ _ _ _ E) as B. clear E. cbv beta in H.
  apply andb_prop in H. destruct H as [H H1]. apply andb_prop in H1. destruct H1 as [H1 H2]. apply andb_prop in H2. destruct H2 as [H2 H3].
  exists (rn_kind r), (rn_core r), (rn_objs r), (rn_solver r), (rn_state r). split; [exact B|]. split; [now apply fine_ok|].
  split; [now apply text_eq|]. split; now apply text_eq.
Qed.
Lemma half_written_linked :
  exists cwd home glob_ l x th fs now exists_ exists_' kind c1 objs sv s w' th' kind' c1' objs' sv' s' p,
  disk_ok cwd (present fs) exists_ /\ in_order cwd home glob_ exists_ l /\ In x (flat_map (makes cwd home glob_) l) /\
  reads_only (project_of cwd home glob_ l) /\ script_history cwd home glob_ l fs now /\
  building cwd home exists_ glob_ false l x th fs now kind c1 objs sv s /\
  interrupted (mk_task (realpath cwd) kind false c1 objs) (mk_killed kind true c1 objs) s w' /\
  disk_ok cwd (present (w_fs w')) exists_' /\ in_order cwd home glob_ exists_' l /\
  building cwd home exists_' glob_ false l x th' (w_fs w') (w_now w') kind' c1' objs' sv' s' /\ succeeded objs' s' /\
  is_file (project_of cwd home glob_ l) p /\ p_cone (project_of cwd home glob_ l) x p /\
  ~ right_content (project_of cwd home glob_ l) (contents (w_fs (s_world s'))) p (contents (w_fs (s_world s')) p).
Proof.
  destruct (script_cut true hfs 5 (or_intror (conj eq_refl (conj eq_refl eq_refl)))) as (kind & c1 & objs & sv & s & w' & B & I & _ & Ef & En & _).
  destruct half_linked as (kind' & c1' & objs' & sv' & s' & B' & S' & _ & C1 & C2).
  exists "/w", "/h", no_glob, pscript, "/w/out/app", 2%Z, pfs, 1, (on_path pdisk), (on_path hdisk), kind, c1, objs, sv, s, w', 1%Z, kind', c1', objs', sv', s', "/w/out/lib/a.o".
  rewrite Ef, En. split; [exact pfs_ok|]. split; [exact pscript_ok|]. split; [exact papp_made|]. split; [exact pproj_reads_only|]. split; [exact pstart|]. split; [exact B|].
  split; [exact I|]. split; [exact hfs_ok|]. split; [exact hscript_ok|]. split; [exact B'|]. split; [exact S'|].
  assert (O : pproj "/w/out/lib/a.o" = Some (DRule false ["/w/src.c"] (read1 "o:" "/w/src.c"))) by (rewrite pproj_eq; reflexivity).
  split; [right; eexists _, _, _; exact O|]. split.
  - eapply rt_trans; apply rt_step.
    + exists ["libs"; "/w/main.c"]. split; [now left|]. right. exists false, link_app. rewrite pproj_eq. reflexivity.
    + exists ["/w/out/lib/a.o"; "/w/out/a.h"]. split; [now left|]. left. rewrite pproj_eq. reflexivity.
  - rewrite C1. intros R. inversion R as [p Hp Ep|p f ds b src v Hp Hin Hb Ep Ev]; subst; [rewrite O in Hp; discriminate|].
    rewrite O in Hp. injection Hp as <- <- <-.
    assert (Q : p_input pproj "/w/out/lib/a.o" "/w/src.c").
    { apply pi_file; [|apply psource; cbn; tauto]. exists ["/w/src.c"]. split; [now left|]. right. eauto. }
    specialize (Hin _ Q). unfold read1 in Hb.
    assert (Hs : pproj "/w/src.c" = Some DSource) by (rewrite pproj_eq; reflexivity).
    inversion Hin as [p Hp' Ep Es|p f ds b src' v' Hp' Hin' Hb' Ep Ev]; subst; [|rewrite Hs in Hp'; discriminate].
    rewrite <- Es, C2 in Hb. discriminate.
Qed.

(** A diamond: Ctrl-C while two tasks are running; one of them is not begun, the other comes to its end. *)
Definition dstate (cs : list choice) : state (list nat) :=
  match sched (inv_of (sv_inv (diamond_solver 2))) app_task cs (init_state (diamond_solver 2) []) with Some s => s | None => init_state (diamond_solver 2) [] end.
Lemma dstate_reached cs : sched (inv_of (sv_inv (diamond_solver 2))) app_task cs (init_state (diamond_solver 2) []) <> None ->
  exec_reaches (diamond_solver 2) (frun app_task) [] (dstate cs).
Proof. unfold dstate. intros H. destruct (sched _ _ _ _) as [s|] eqn:E; [|contradiction]. eapply sched_steps; [constructor|exact E]. Qed.
Lemma diamond_cut : exists s, exec_reaches (diamond_solver 2) (frun app_task) [] s /\ in_threads s = [1; 2] /\
  interrupted (frun app_task) (fun _ _ _ => False) s [0; 2].
Proof.
  exists (dstate [CGet 0; CFin 0; CGet 1]). split; [apply dstate_reached; vm_compute; discriminate|]. split; [reflexivity|].
  split; [reflexivity|]. exists [1; 2]. split; [apply Permutation_refl|]. apply settles_cancelled. eapply settles_finishes; [reflexivity|]. apply settles_done.
Qed.
(** Ctrl-C just after a worker has taken its first task; or when task 0 has ended and one of the two tasks that wait for it has been told. *)
Lemma diamond_taken : exists s s1, exec_reaches (diamond_solver 2) (frun app_task) [] s /\ caught (frun app_task) (inv_of (sv_inv (diamond_solver 2))) s s1.
Proof.
  exists (init_state (diamond_solver 2) []). eexists. split; [constructor|]. apply (caught_taken _ _ 0 0 []); reflexivity.
Qed.
Lemma diamond_told : exists s s1, exec_reaches (diamond_solver 2) (frun app_task) [] s /\ caught (frun app_task) (inv_of (sv_inv (diamond_solver 2))) s s1 /\
  started (s_log s) = [0].
Proof.
  assert (T : match decrease_all [1] (add_log (EFinish 0 RNotFalse) (set_done 0 (set_world [0] (dstate [CGet 0])))) with inl _ => true | inr _ => false end = true) by (vm_compute; reflexivity).
  destruct (decrease_all _ _) as [s1|] eqn:E; [|discriminate]. clear T. exists (dstate [CGet 0]), (release_queue 0 (set_error s1)).
  split; [apply dstate_reached; vm_compute; discriminate|]. split; [|vm_compute; reflexivity].
  apply (caught_returned _ _ 0 0 RNotFalse [0] [1] [2]); [vm_compute; reflexivity|vm_compute; reflexivity|vm_compute; reflexivity|discriminate| |exact E].
  replace (inv_of _ 0) with [1; 2] by (vm_compute; reflexivity). apply Permutation_refl.
Qed.
