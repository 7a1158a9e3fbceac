(** Concrete builds: witnesses of refutations and non-vacuity examples. *)
From Coq Require Import Permutation.
From Verif Require Import PyBase PyPath SolverModel SpecGraph InvokerModel SpecTrace InvokerExec CoreModel SpecCore
  CoreProofs NeedProofs CoreExamples MakeModel MakeEval SpecMake MakeProofs MakeFacts MakeBuild MakeThms MakeClean MakeExec.
Local Open Scope string_scope.
Local Open Scope list_scope.

(** A source, a directory for the object file, a file set and a program. *)
Definition ex_reg : list cop :=
  [OpNew Updatable "/s" []; OpNew Updatable "/d" []; OpNew Updatable "/d/o" ["/s"; "/d"];
   OpNew Updatable "objs" ["/d/o"]; OpNew Updatable "/app" ["objs"; "/s"]].
Definition mc : core := crun root_canon ex_reg (new_core None).
(** The rules; "bad" as a source cannot be compiled. *)
Definition compile : buildfun := fun s =>
  match s "/s" with Some v => if String.eqb v "bad" then None else Some (String.append "o:" v) | None => None end.
Definition link : buildfun := fun s =>
  match s "/d/o", s "/s" with Some o, Some v => Some (String.append "app:" (String.append o (String.append "+" v))) | _, _ => None end.
Definition mkinds (i : nat) : mkind :=
  match i with
  | 0 => MSource | 1 => MDir | 2 => MFile false compile | 3 => MSet | 4 => MFile false link | _ => MOther
  end.
Definition mproj : project := fun p =>
  if String.eqb p "/s" then Some DSource
  else if String.eqb p "/d/o" then Some (DRule false ["/s"] compile)
  else if String.eqb p "objs" then Some (DSet ["/d/o"])
  else if String.eqb p "/app" then Some (DRule false ["objs"; "/s"] link)
  else None.

Lemma mc_process : process_core root_canon mkinds mc.
Proof. apply pc_registered. Qed.
Lemma mc_wf : wf_core mc.
Proof. exact (proj1 (process_ready _ _ _ mc_process)). Qed.
Lemma mc_root : exists nm, In (nm, 4) (c_targets mc).
Proof. exists "/app". vm_compute. tauto. Qed.
Lemma mc_coherent : coherent root_canon mc.
Proof.
  intros nm i H. left. vm_compute in H |- *.
  repeat (destruct H as [[= <- <-]|H]; [tauto|]). destruct H.
Qed.
Lemma mc_cone j : in_cone root_canon mc 4 j -> j < 5.
Proof. apply (cone_bound root_canon mc 4 j mc_wf mc_root). Qed.

Lemma mc_resolves nm j : In (nm, j) (c_targets mc) -> resolves root_canon mc nm j.
Proof. intros H. now left. Qed.
Lemma mc_dep i j d : In d (t_deps (obj mc i)) -> In (d, j) (c_targets mc) -> obj_dep root_canon mc i j.
Proof. intros H1 H2. exists d. split; [exact H1|]. now left. Qed.
Lemma mc_in_cone j : j < 5 -> in_cone root_canon mc 4 j.
Proof.
  assert (D43 : obj_dep root_canon mc 4 3) by (apply (mc_dep _ _ "objs"); vm_compute; tauto).
  assert (D40 : obj_dep root_canon mc 4 0) by (apply (mc_dep _ _ "/s"); vm_compute; tauto).
  assert (D32 : obj_dep root_canon mc 3 2) by (apply (mc_dep _ _ "/d/o"); vm_compute; tauto).
  assert (D21 : obj_dep root_canon mc 2 1) by (apply (mc_dep _ _ "/d"); vm_compute; tauto).
  assert (C2 : in_cone root_canon mc 4 2) by (eapply rt_trans; [apply rt_step; exact D43|apply rt_step; exact D32]).
  intros H. destruct j as [|[|[|[|[|j]]]]]; [now apply rt_step| |exact C2|now apply rt_step|apply rt_refl|lia].
  eapply rt_trans; [exact C2|now apply rt_step].
Qed.

Lemma mc_implements : implements root_canon mkinds mproj mc 4.
Proof.
  intros j Hj. apply mc_cone in Hj.
  assert (R : forall nm k, In (nm, k) (c_targets mc) -> resolves root_canon mc nm k) by (intros; now left).
  destruct j as [|[|[|[|[|j]]]]]; [| | | | |lia]; (split; [reflexivity|]); cbn [mkinds].
  - split; [reflexivity|]. exists []. split; [constructor|reflexivity].
  - split; [|exists []; split; [constructor|reflexivity]].
    intros p Hp [A|(f & ds & b & A)]; (destruct Hp as [->|Hp]; [vm_compute in A; discriminate|]);
      vm_compute in Hp; (destruct Hp as [<-|[]]); vm_compute in A; discriminate.
  - exists ["/s"]. split; [reflexivity|]. exists [0; 1]. split; [|reflexivity].
    constructor; [apply R; vm_compute; tauto|]. constructor; [apply R; vm_compute; tauto|constructor].
  - exists ["/d/o"]. split; [reflexivity|]. exists [2]. split; [|reflexivity].
    constructor; [apply R; vm_compute; tauto|constructor].
  - exists ["objs"; "/s"]. split; [reflexivity|]. exists [3; 0]. split; [|reflexivity].
    constructor; [apply R; vm_compute; tauto|]. constructor; [apply R; vm_compute; tauto|constructor].
Qed.

Lemma mproj_cases p x : mproj p = Some x ->
  (p = "/s" /\ x = DSource) \/ (p = "/d/o" /\ x = DRule false ["/s"] compile) \/
  (p = "objs" /\ x = DSet ["/d/o"]) \/ (p = "/app" /\ x = DRule false ["objs"; "/s"] link).
Proof.
  unfold mproj. destruct (String.eqb_spec p "/s") as [->|_]; [intros [= <-]; auto|].
  destruct (String.eqb_spec p "/d/o") as [->|_]; [intros [= <-]; auto|].
  destruct (String.eqb_spec p "objs") as [->|_]; [intros [= <-]; auto|].
  destruct (String.eqb_spec p "/app") as [->|_]; [intros [= <-]; auto 6|discriminate].
Qed.
Lemma mproj_reads_only : reads_only mproj.
Proof.
  assert (F1 : is_file mproj "/s") by (left; reflexivity).
  assert (F2 : is_file mproj "/d/o") by (right; exists false, ["/s"], compile; reflexivity).
  assert (I1 : p_input mproj "/d/o" "/s").
  { apply pi_file; [|exact F1]. exists ["/s"]. split; [now left|]. right. exists false, compile. reflexivity. }
  assert (I2 : p_input mproj "/app" "/s").
  { apply pi_file; [|exact F1]. exists ["objs"; "/s"]. split; [right; now left|]. right. exists false, link. reflexivity. }
  assert (I3 : p_input mproj "/app" "/d/o").
  { apply (pi_set _ _ "objs" ["/d/o"]); [|reflexivity|].
    - exists ["objs"; "/s"]. split; [now left|]. right. exists false, link. reflexivity.
    - apply pi_file; [|exact F2]. exists ["/d/o"]. split; [now left|]. left. reflexivity. }
  intros p f ds b HP s s' Hs. apply mproj_cases in HP.
  destruct HP as [[_ E]|[[-> E]|[[_ E]|[-> E]]]]; try discriminate; injection E as -> -> ->.
  - unfold compile. now rewrite (Hs _ I1).
  - unfold link. now rewrite (Hs _ I2), (Hs _ I3).
Qed.

(** Any target of the example may be registered with a stale or missing object. *)
Definition one_worker : list choice := [CGet 0; CFin 0; CFin 0; CFin 0; CFin 0; CFin 0; CJoin].
Definition two_workers : list choice := [CGet 0; CGet 1; CFin 1; CFin 0; CFin 0; CFin 0; CFin 0; CJoin].
Definition fs0 : fsys := fun p =>
  if String.eqb p "/s" then Some (1, Reg "hello") else if String.eqb p "/" then Some (0, Dir) else None.
Definition no_fail (_ : string) : leftover * bool := (LKeep, false).

Definition dummy_built : built := BU empty_core [] (ST (fun _ => 0%Z) (fun _ => false) [] 0%Z false [] [] false MJoin [] (WD (fun _ => None) [] 0 0 [])).
Definition the_built (o : option built) : built := match o with Some b => b | None => dummy_built end.
Definition bfs (b : built) : fsys := w_fs (s_world (bu_state b)).
Definition bran (b : built) := w_ran (s_world (bu_state b)).
Definition bnow (b : built) := w_now (s_world (bu_state b)).
Definition is_some {A} (o : option A) : bool := match o with Some _ => true | None => false end.
Lemma the_built_eq o : is_some o = true -> o = Some (BU (bu_core (the_built o)) (bu_objs (the_built o)) (bu_state (the_built o))).
Proof. destruct o as [[c l s]|]; [reflexivity|discriminate]. Qed.

(** A first build, with two workers. *)
Notation run1 := (do_build root_canon mkinds false no_fail mc 4 fs0 1 [] 2 two_workers).
Notation b1 := (the_built run1).
Lemma run1_ok : is_some run1 = true.
Proof. vm_compute. reflexivity. Qed.
Lemma b1_facts :
  (bfs b1 "/app", bfs b1 "/d/o", bfs b1 "/d", bfs b1 "/s", bran b1) =
  (Some (4, Reg "app:o:hello+hello"), Some (3, Reg "o:hello"), Some (2, Dir), Some (1, Reg "hello"),
   [("/d", true); ("/d/o", true); ("/app", true)]).
Proof. vm_compute. reflexivity. Qed.
Lemma empty_current kind c i fs : cache_current root_canon kind c i fs [].
Proof. intros j x _ _ [=]. Qed.
Lemma b1_build : build_of root_canon mkinds no_other false mc 4 fs0 1 [] (bu_core b1) (bu_objs b1) (bu_state b1).
Proof.
  eapply do_build_of; [apply mc_process|apply mc_coherent|apply mc_root|apply empty_current|].
  exact (the_built_eq _ run1_ok).
Qed.
Lemma b1_success : succeeded (bu_objs b1) (bu_state b1).
Proof. vm_compute. split; reflexivity. Qed.
Lemma b1_now : bnow b1 = 4.
Proof. vm_compute. reflexivity. Qed.

(** The second build. *)
Notation again := (do_build root_canon mkinds false no_fail (bu_core b1) 4 (bfs b1) 4 (w_cache (s_world (bu_state b1))) 1 one_worker).
Notation b2 := (the_built again).
Lemma again_facts : (is_some again, bran b2, exec_result 5 (bu_state b2)) = (true, [], Ok true).
Proof. vm_compute. reflexivity. Qed.

(** The source is edited, then built. *)
Definition fs_edit : fsys := fs_set (bfs b1) "/s" (Some (5, Reg "bye")).
Notation edited := (do_build root_canon mkinds false no_fail mc 4 fs_edit 5 [] 1 one_worker).
Notation b3 := (the_built edited).
Lemma edited_ok : is_some edited = true.
Proof. vm_compute. reflexivity. Qed.
Lemma edited_facts : (bfs b3 "/app", bran b3) = (Some (7, Reg "app:o:bye+bye"), [("/d/o", true); ("/app", true)]).
Proof. vm_compute. reflexivity. Qed.
Lemma b3_build : build_of root_canon mkinds no_other false mc 4 fs_edit 5 [] (bu_core b3) (bu_objs b3) (bu_state b3).
Proof.
  eapply do_build_of; [apply mc_process|apply mc_coherent|apply mc_root|apply empty_current|].
  exact (the_built_eq _ edited_ok).
Qed.
Lemma b3_success : succeeded (bu_objs b3) (bu_state b3).
Proof. vm_compute. split; reflexivity. Qed.

Lemma fs0_dated : dated fs0 1.
Proof.
  intros p m n. unfold fs0. destruct (String.eqb p "/s"); [intros [= <- _]; lia|].
  destruct (String.eqb p "/"); [intros [= <- _]; lia|discriminate].
Qed.
Lemma is_rule_cases p : is_rule mproj p -> p = "/d/o" \/ p = "/app".
Proof.
  intros (f & ds & b & H). apply mproj_cases in H. destruct H as [[_ H]|[[-> _]|[[_ H]|[-> _]]]]; try discriminate; auto.
Qed.
Lemma fs0_history : history root_canon mproj fs0 1.
Proof.
  apply h_start; [apply fs0_dated| |].
  - intros p H. apply is_rule_cases in H. destruct H as [-> | ->]; reflexivity.
  - intros p m [H|H].
    + apply mproj_cases in H. destruct H as [[-> _]|[[_ H]|[[_ H]|[_ H]]]]; discriminate.
    + apply is_rule_cases in H. destruct H as [-> | ->]; discriminate.
Qed.
Lemma edit_step : outside_step mproj (bfs b1) (bnow b1) fs_edit 5.
Proof.
  split; [rewrite b1_now; lia|]. intros p. unfold fs_edit, fs_set.
  destruct (String.eqb_spec p "/s") as [->|_]; [|now left]. right. right. left. split; [reflexivity|].
  exists 5, "bye". split; [reflexivity|]. rewrite b1_now. lia.
Qed.
Lemma edit_history : history root_canon mproj fs_edit 5.
Proof.
  eapply h_outside; [|apply edit_step].
  exact (h_build _ _ _ _ _ _ _ _ _ _ _ _ fs0_history mc_implements b1_build).
Qed.

(** ... but not noticed by a second build in the same process. *)
Notation unnoticed := (mevaluate root_canon mkinds no_other fs_edit 20 (bu_core b1, w_cache (s_world (bu_state b1)))).
Definition the_mstate (r : res mstate) : mstate := match r with Ok s => s | _ => (empty_core, []) end.
Lemma unnoticed_facts :
  match unnoticed with Ok (c2, _) => t_need (obj c2 4) = Some false | _ => False end.
Proof. vm_compute. reflexivity. Qed.
Lemma mproj_input_s : p_input mproj "/app" "/s".
Proof.
  apply pi_file; [|left; reflexivity]. exists ["objs"; "/s"]. split; [right; now left|]. right. exists false, link. reflexivity.
Qed.
Lemma edit_needs : needs_update mproj fs_edit "/app".
Proof.
  exists "/app". split; [apply rt_refl|]. right. right. split; [exists false, ["objs"; "/s"], link; reflexivity|].
  exists "/s". split; [apply mproj_input_s|]. exists 5, (Reg "bye"), 4, (Reg "app:o:hello+hello").
  split; [reflexivity|]. split; [|lia]. vm_compute. reflexivity.
Qed.

(** A rule that fails and leaves something behind: taken for up to date by the next build. *)
Definition fs_bad : fsys := fun p =>
  if String.eqb p "/s" then Some (1, Reg "bad") else if String.eqb p "/" then Some (0, Dir) else None.
Definition torn (_ : string) : leftover * bool := (LPartial "torn", false).
Notation tearing := (do_build root_canon mkinds true torn mc 4 fs_bad 1 [] 1 [CGet 0; CFin 0; CFin 0; CFin 0; CJoin]).
Notation t1 := (the_built tearing).
Notation after_tear := (do_build root_canon mkinds true torn mc 4 (bfs t1) (bnow t1) [] 1 one_worker).
Notation t2 := (the_built after_tear).
Lemma tear_ok : (is_some tearing, is_some after_tear) = (true, true).
Proof. vm_compute. reflexivity. Qed.
Lemma tear_facts :
  (exec_result 5 (bu_state t1), bran t1, exec_result 5 (bu_state t2), bran t2, contents (bfs t2) "/app") =
  (Ok false, [("/d", true); ("/d/o", false)], Ok true, [("/app", true)], Some "app:torn+bad").
Proof. vm_compute. reflexivity. Qed.
Lemma t1_build : build_of root_canon mkinds no_other true mc 4 fs_bad 1 [] (bu_core t1) (bu_objs t1) (bu_state t1).
Proof.
  eapply do_build_of; [apply mc_process|apply mc_coherent|apply mc_root|apply empty_current|].
  exact (the_built_eq _ (f_equal fst tear_ok)).
Qed.
Lemma t2_build : build_of root_canon mkinds no_other true mc 4 (bfs t1) (bnow t1) [] (bu_core t2) (bu_objs t2) (bu_state t2).
Proof.
  eapply do_build_of; [apply mc_process|apply mc_coherent|apply mc_root|apply empty_current|].
  exact (the_built_eq _ (f_equal snd tear_ok)).
Qed.
Lemma t2_success : succeeded (bu_objs t2) (bu_state t2).
Proof. vm_compute. split; reflexivity. Qed.
(** The content is not one that the rules give. *)
Lemma torn_wrong : ~ right_content mproj (contents (bfs t2)) "/d/o" (contents (bfs t2) "/d/o").
Proof.
  assert (E : contents (bfs t2) "/d/o" = Some "torn") by (vm_compute; reflexivity).
  assert (Es : contents (bfs t2) "/s" = Some "bad") by (vm_compute; reflexivity).
  rewrite E. generalize dependent (contents (bfs t2)). intros src _ Es H.
  remember (Some "torn") as x eqn:Ex. remember "/d/o" as q eqn:Eq.
  destruct H as [p HP|p f ds b s v HP Hin Hb]; subst p; [discriminate HP|].
  injection HP as <- <- <-. unfold compile in Hb.
  assert (Hs : right_content mproj src "/s" (s "/s")).
  { apply Hin. apply pi_file; [|left; reflexivity]. exists ["/s"]. split; [now left|]. right. exists false, compile. reflexivity. }
  remember (s "/s") as y eqn:Ey. remember "/s" as r eqn:Er.
  destruct Hs as [p HP'|p f ds b s' v' HP']; subst p; [|discriminate HP'].
  rewrite Es in Hb. discriminate.
Qed.

(** A rule that runs only because a directory is missing, and fails: not run again. *)
Definition dc : core := crun root_canon
  [OpNew Updatable "/s" []; OpNew Updatable "/x" []; OpNew Updatable "/o" ["/s"; "/x"]] (new_core None).
Definition dkinds (i : nat) : mkind :=
  match i with 0 => MSource | 1 => MDir | 2 => MFile false compile | _ => MOther end.
Definition dproj : project := fun p =>
  if String.eqb p "/s" then Some DSource
  else if String.eqb p "/o" then Some (DRule false ["/s"] compile) else None.
Lemma dc_process : process_core root_canon dkinds dc.
Proof. apply pc_registered. Qed.
Lemma dc_root : exists nm, In (nm, 2) (c_targets dc).
Proof. exists "/o". vm_compute. tauto. Qed.
Lemma dc_coherent : coherent root_canon dc.
Proof.
  intros nm i H. left. vm_compute in H |- *.
  repeat (destruct H as [[= <- <-]|H]; [tauto|]). destruct H.
Qed.
Lemma dc_implements : implements root_canon dkinds dproj dc 2.
Proof.
  intros j Hj. apply (cone_bound root_canon dc 2 j (proj1 (process_ready _ _ _ dc_process)) dc_root) in Hj.
  assert (R : forall nm k, In (nm, k) (c_targets dc) -> resolves root_canon dc nm k) by (intros; now left).
  change (List.length (c_heap dc)) with 3 in Hj.
  destruct j as [|[|[|j]]]; [| | |lia]; (split; [reflexivity|]); cbn [dkinds].
  - split; [reflexivity|]. exists []. split; [constructor|reflexivity].
  - split; [|exists []; split; [constructor|reflexivity]].
    intros p Hp [A|(f & ds & b & A)]; (destruct Hp as [->|Hp]; [vm_compute in A; discriminate|]);
      vm_compute in Hp; (destruct Hp as [<-|[]]); vm_compute in A; discriminate.
  - exists ["/s"]. split; [reflexivity|]. exists [0; 1]. split; [|reflexivity].
    constructor; [apply R; vm_compute; tauto|]. constructor; [apply R; vm_compute; tauto|constructor].
Qed.
Definition fs_old : fsys := fun p =>
  if String.eqb p "/s" then Some (1, Reg "bad") else if String.eqb p "/o" then Some (2, Reg "old") else None.
Notation dfail := (do_build root_canon dkinds false no_fail dc 2 fs_old 2 [] 1 [CGet 0; CFin 0; CFin 0; CFin 0; CJoin]).
Notation d1 := (the_built dfail).
Notation dnext := (do_build root_canon dkinds false no_fail dc 2 (bfs d1) (bnow d1) [] 1 [CGet 0; CFin 0; CFin 0; CFin 0; CJoin]).
Notation d2 := (the_built dnext).
Lemma d_ok : (is_some dfail, is_some dnext) = (true, true).
Proof. vm_compute. reflexivity. Qed.
Lemma d_facts :
  (exec_result 3 (bu_state d1), bran d1, exec_result 3 (bu_state d2), bran d2) =
  (Ok false, [("/x", true); ("/o", false)], Ok true, []).
Proof. vm_compute. reflexivity. Qed.
Lemma d1_build : build_of root_canon dkinds no_other false dc 2 fs_old 2 [] (bu_core d1) (bu_objs d1) (bu_state d1).
Proof.
  eapply do_build_of; [apply dc_process|apply dc_coherent|apply dc_root|apply empty_current|].
  exact (the_built_eq _ (f_equal fst d_ok)).
Qed.
Lemma d2_build : build_of root_canon dkinds no_other false dc 2 (bfs d1) (bnow d1) [] (bu_core d2) (bu_objs d2) (bu_state d2).
Proof.
  eapply do_build_of; [apply dc_process|apply dc_coherent|apply dc_root|apply empty_current|].
  exact (the_built_eq _ (f_equal snd d_ok)).
Qed.
Lemma d2_success : succeeded (bu_objs d2) (bu_state d2).
Proof. vm_compute. split; reflexivity. Qed.

(** A missing source: the rule does not look at it. *)
Definition sc : core := crun root_canon [OpNew Updatable "/s" []; OpNew Updatable "/t" ["/s"]] (new_core None).
Definition skinds (i : nat) : mkind :=
  match i with 0 => MSource | 1 => MFile false (fun _ => Some "") | _ => MOther end.
Notation stouch := (do_build root_canon skinds false no_fail sc 1 (fun _ => None) 1 [] 1 [CGet 0; CFin 0; CFin 0; CJoin]).
Notation s1 := (the_built stouch).
Lemma s_ok : is_some stouch = true.
Proof. vm_compute. reflexivity. Qed.
Lemma s1_build : build_of root_canon skinds no_other false sc 1 (fun _ => None) 1 [] (bu_core s1) (bu_objs s1) (bu_state s1).
Proof.
  eapply do_build_of; [apply pc_registered| |exists "/t"; vm_compute; tauto|apply empty_current|exact (the_built_eq _ s_ok)].
  intros nm i H. left. vm_compute in H |- *. repeat (destruct H as [[= <- <-]|H]; [tauto|]). destruct H.
Qed.
Lemma s1_success : succeeded (bu_objs s1) (bu_state s1).
Proof. vm_compute. split; reflexivity. Qed.

(** A build killed between two rules. *)
Notation killed := (do_build root_canon mkinds false no_fail mc 4 fs_edit 5 [] 1 [CGet 0; CFin 0; CFin 0; CFin 0]).
Notation b4 := (the_built killed).
Lemma killed_ok : is_some killed = true.
Proof. vm_compute. reflexivity. Qed.
Lemma b4_build : build_of root_canon mkinds no_other false mc 4 fs_edit 5 [] (bu_core b4) (bu_objs b4) (bu_state b4).
Proof.
  eapply do_build_of; [apply mc_process|apply mc_coherent|apply mc_root|apply empty_current|].
  exact (the_built_eq _ killed_ok).
Qed.
Lemma edit_dated : dated fs_edit 5.
Proof. exact (proj1 (history_ok root_canon mproj mproj_reads_only _ _ edit_history)). Qed.

(** A rule that fails and leaves nothing behind. *)
Notation failing := (do_build root_canon mkinds false no_fail mc 4 fs_bad 1 [] 1 [CGet 0; CFin 0; CFin 0; CFin 0; CJoin]).
Notation f1 := (the_built failing).
Lemma failing_ok : is_some failing = true.
Proof. vm_compute. reflexivity. Qed.
Lemma f1_build : build_of root_canon mkinds no_other false mc 4 fs_bad 1 [] (bu_core f1) (bu_objs f1) (bu_state f1).
Proof.
  eapply do_build_of; [apply mc_process|apply mc_coherent|apply mc_root|apply empty_current|].
  exact (the_built_eq _ failing_ok).
Qed.

(** A missing source that the rules read. *)
Notation mfail := (do_build root_canon mkinds false no_fail mc 4 (fun _ => None) 1 [] 1 [CGet 0; CFin 0; CFin 0; CFin 0; CJoin]).
Notation m1 := (the_built mfail).
Lemma mfail_ok : is_some mfail = true.
Proof. vm_compute. reflexivity. Qed.
Lemma m1_build : build_of root_canon mkinds no_other false mc 4 (fun _ => None) 1 [] (bu_core m1) (bu_objs m1) (bu_state m1).
Proof.
  eapply do_build_of; [apply mc_process|apply mc_coherent|apply mc_root|apply empty_current|].
  exact (the_built_eq _ mfail_ok).
Qed.

Lemma mc_registered : cone_registered root_canon mc 4.
Proof.
  intros j d Hj Hd. apply mc_cone in Hj.
  assert (R : forall nm k, In (nm, k) (c_targets mc) -> registered root_canon mc nm) by (intros nm k H; exists k; now left).
  destruct j as [|[|[|[|[|j]]]]]; [| | | | |lia]; vm_compute in Hd;
    repeat match goal with H : _ \/ _ |- _ => destruct H as [<-|H] end; try contradiction; (eapply R; vm_compute; tauto).
Qed.

(** The witnesses. *)
Lemma fs_bad_history : history root_canon mproj fs_bad 1.
Proof.
  apply h_start.
  - intros p m n. unfold fs_bad. destruct (String.eqb p "/s"); [intros [= <- _]; lia|].
    destruct (String.eqb p "/"); [intros [= <- _]; lia|discriminate].
  - intros p H. apply is_rule_cases in H. destruct H as [-> | ->]; reflexivity.
  - intros p m [H|H].
    + apply mproj_cases in H. destruct H as [[-> _]|[[_ H]|[[_ H]|[_ H]]]]; discriminate.
    + apply is_rule_cases in H. destruct H as [-> | ->]; discriminate.
Qed.
Lemma app_o_cone : p_cone mproj "/app" "/d/o".
Proof.
  apply rt_trans with "objs"; apply rt_step.
  - exists ["objs"; "/s"]. split; [now left|]. right. exists false, link. reflexivity.
  - exists ["/d/o"]. split; [now left|]. left. reflexivity.
Qed.
Lemma torn_output_kept :
  exists canon P kind other_if c i fs now c1 objs s c2 objs' s' p,
  reads_only P /\ history canon P fs now /\ implements canon kind P c i /\
  build_of canon kind other_if true c i fs now [] c1 objs s /\
  build_of canon kind other_if true c i (w_fs (s_world s)) (w_now (s_world s)) [] c2 objs' s' /\
  succeeded objs' s' /\ is_file P p /\ p_cone P (t_name (obj c i)) p /\
  ~ right_content P (contents (w_fs (s_world s'))) p (contents (w_fs (s_world s')) p).
Proof.
  exists root_canon, mproj, mkinds, no_other, mc, 4, fs_bad, 1, (bu_core t1), (bu_objs t1), (bu_state t1),
    (bu_core t2), (bu_objs t2), (bu_state t2), "/d/o".
  split; [exact mproj_reads_only|]. split; [exact fs_bad_history|]. split; [exact mc_implements|].
  split; [exact t1_build|]. split; [exact t2_build|]. split; [exact t2_success|].
  split; [right; exists false, ["/s"], compile; reflexivity|]. split; [exact app_o_cone|exact torn_wrong].
Qed.
Lemma torn_output_not_rerun :
  exists canon P kind other_if c i fs now c1 objs s c2 objs' s' p,
  implements canon kind P c i /\ build_of canon kind other_if true c i fs now [] c1 objs s /\
  build_of canon kind other_if true c i (w_fs (s_world s)) (w_now (s_world s)) [] c2 objs' s' /\
  is_rule P p /\ In (p, false) (w_ran (s_world s)) /\ succeeded objs' s' /\
  (forall b, ~ In (p, b) (w_ran (s_world s'))).
Proof.
  exists root_canon, mproj, mkinds, no_other, mc, 4, fs_bad, 1, (bu_core t1), (bu_objs t1), (bu_state t1),
    (bu_core t2), (bu_objs t2), (bu_state t2), "/d/o".
  assert (E : w_ran (s_world (bu_state t2)) = [("/app", true)]) by (vm_compute; reflexivity).
  assert (E1 : w_ran (s_world (bu_state t1)) = [("/d", true); ("/d/o", false)]) by (vm_compute; reflexivity).
  split; [exact mc_implements|]. split; [exact t1_build|]. split; [exact t2_build|].
  split; [exists false, ["/s"], compile; reflexivity|]. split; [rewrite E1; right; now left|].
  split; [exact t2_success|]. intros b. rewrite E. intros [A|[]]. discriminate A.
Qed.
Lemma directory_rule_not_rerun :
  exists canon P kind other_if c i fs now c1 objs s c2 objs' s' p,
  implements canon kind P c i /\ build_of canon kind other_if false c i fs now [] c1 objs s /\
  build_of canon kind other_if false c i (w_fs (s_world s)) (w_now (s_world s)) [] c2 objs' s' /\
  is_rule P p /\ In (p, false) (w_ran (s_world s)) /\ succeeded objs' s' /\ w_ran (s_world s') = [].
Proof.
  exists root_canon, dproj, dkinds, no_other, dc, 2, fs_old, 2, (bu_core d1), (bu_objs d1), (bu_state d1),
    (bu_core d2), (bu_objs d2), (bu_state d2), "/o".
  assert (E1 : w_ran (s_world (bu_state d1)) = [("/x", true); ("/o", false)]) by (vm_compute; reflexivity).
  split; [exact dc_implements|]. split; [exact d1_build|]. split; [exact d2_build|].
  split; [exists false, ["/s"], compile; reflexivity|]. split; [rewrite E1; right; now left|].
  split; [exact d2_success|]. vm_compute. reflexivity.
Qed.
Lemma edit_unnoticed :
  exists canon P kind other_if c i fs now c1 objs s fs' now' c2 ca2 fuel,
  implements canon kind P c i /\ build_of canon kind other_if false c i fs now [] c1 objs s /\ succeeded objs s /\
  outside_step P (w_fs (s_world s)) (w_now (s_world s)) fs' now' /\
  needs_update P fs' (t_name (obj c i)) /\
  mevaluate canon kind other_if fs' fuel (c1, w_cache (s_world s)) = Ok (c2, ca2) /\
  t_need (obj c2 i) = Some false.
Proof.
  pose proof unnoticed_facts as U. destruct unnoticed as [[c2 ca2]| |] eqn:E; try contradiction.
  exists root_canon, mproj, mkinds, no_other, mc, 4, fs0, 1, (bu_core b1), (bu_objs b1), (bu_state b1), fs_edit, 5, c2, ca2, 20.
  split; [exact mc_implements|]. split; [exact b1_build|]. split; [exact b1_success|]. split; [exact edit_step|].
  split; [exact edit_needs|]. split; [exact E|exact U].
Qed.
Lemma clean_stale :
  exists canon kind c i fs ca fs' ca' j f b,
  clean canon kind c i (fs, ca) = Ok (fs', ca') /\ in_cone canon c i j /\ kind j = MFile f b /\
  is_reg fs (t_name (obj c j)) = true /\ fs' (t_name (obj c j)) <> None.
Proof.
  exists root_canon, skinds, sc, 1, (fun _ => Some (1, Reg "x")), [("/t", FI false 0)].
  eexists. eexists. exists 1, false, (fun _ => Some "").
  split; [vm_compute; reflexivity|]. split; [apply rt_refl|]. split; [reflexivity|]. split; [reflexivity|]. discriminate.
Qed.
Lemma missing_source_succeeds :
  exists canon kind other_if c i fs now ca c1 objs s j,
  build_of canon kind other_if false c i fs now ca c1 objs s /\
  in_cone canon c i j /\ kind j = MSource /\ fs (t_name (obj c j)) = None /\ succeeded objs s.
Proof.
  exists root_canon, skinds, no_other, sc, 1, (fun _ => None), 1, [], (bu_core s1), (bu_objs s1), (bu_state s1), 0.
  split; [exact s1_build|]. split; [|split; [reflexivity|split; [reflexivity|exact s1_success]]].
  apply rt_step. exists "/s". split; [vm_compute; tauto|]. left. vm_compute. tauto.
Qed.
