(** A scheduler for processes that are not alone, and concrete ones: non-vacuity examples and
    witnesses for C100. *)
From Coq Require Import Permutation.
From Verif Require Import PyBase PyPath PathProofs SolverModel SpecGraph InvokerModel SpecTrace InvokerPath InvokerExec CoreModel SpecCore CoreProofs NeedProofs
  MakeModel MakeEval SpecMake MakeProofs MakeExec MakeExamples RegModel CliModel SpecUtil SpecReg RegExamples SpecProject ProjectExamples FineModel SpecFine FineProofs FineBuild FineExamples
  SpecCrowd.
Local Open Scope string_scope.
Local Open Scope list_scope.

(** What is made at the next tick is dated later than all before. *)
Lemma fmake_ticking canon kind c objs k w r w' : fmake kind false no_fail c objs k w = Some (r, w') ->
  ticking (mk_task canon kind false c objs) k w r w'.
Proof.
  intros H. split; [now apply (fmake_sound canon kind false no_fail)|]. revert H. unfold fmake.
  destruct (nth_error objs k) as [j|]; [|discriminate].
  assert (D : fdir c j w = Some (r, w') -> forall q m n, w_fs w' q = Some (m, n) -> w_fs w' q = w_fs w q \/ w_now w < m).
  { unfold fdir. destruct (get_info _ _ _) as [x ca']. destruct (fi_exist x); [intros [= <- <-]; cbn; auto|].
    destruct (w_fs w (t_name (obj c j))) eqn:Ef; [intros [= <- <-]; cbn; auto|].
    destruct (existsb _ _); [intros [= <- <-]; cbn; auto|]. intros [= <- <-] q m n. cbn [w_fs]. unfold makedirs.
    destruct (String.eqb_spec q (t_name (obj c j))) as [->|]; [intros [= <- <-]; right; lia|].
    destruct (w_fs w q); [auto|]. destruct (smem _ _ _); [intros [= <- <-]; right; lia|auto]. }
  assert (U : fupdate kind false no_fail c j w = Some (r, w') -> forall q m n, w_fs w' q = Some (m, n) -> w_fs w' q = w_fs w q \/ w_now w < m).
  { unfold fupdate, no_fail. cbn [fst snd]. destruct (kind j) as [f b| | | |]; try discriminate.
    - destruct (b _) as [v|].
      + destruct (forallb _ _); [|discriminate]. intros [= <- <-] q m n. cbn [w_fs]. unfold fs_set.
        destruct (String.eqb q _); [intros [= <- <-]; right; lia|auto].
      + intros [= <- <-]; cbn; auto.
    - intros [= <- <-]; cbn; auto.
    - intros [= <- <-]; cbn; auto. }
  destruct (kind j); auto; (destruct (t_class (obj c j)); [|destruct (t_need (obj c j)) as [[|]|]]); auto; intros [= <- <-]; auto.
Qed.

Inductive happening := EEdit (p v : string) | EBegin (x : string) (th : Z) | EAct (k : nat) (c : choice) | EGone (k : nat).
Record scene := SC { sc_fs : fsys; sc_now : nat; sc_procs : list proc }.

Section Script.
  Variables (cwd home : string) (glob_ : string -> list string) (exists_ : string -> bool) (fs1 : fsys) (l : list stmt).
  Hypothesis disk : disk_ok cwd (present fs1) exists_.
  Hypothesis ok : in_order cwd home glob_ exists_ l.
  Definition do_begin (fs : fsys) (now : nat) (x : string) (th : Z) : option proc :=
    if mem x (flat_map (makes cwd home glob_) l) then
    match mrun (realpath cwd) exists_ glob_ home 20 0 (map op_of l) [empty_reg] with
    | Ok st =>
        match core_get (realpath cwd) (fst (reg st 0)) x with
        | Ok i =>
            match mevaluate (realpath cwd) (kind_of (reg st 0)) no_other fs 20 (set_threads (fst (reg st 0)) th, []) with
            | Ok (c1, ca1) =>
                match recurse_update (realpath cwd) c1 (fun l => l) id_order i None with
                | RuExec objs sv => Some (PR (kind_of (reg st 0)) c1 objs sv (init_state sv (WD fs ca1 now now [])))
                | _ => None
                end
            | _ => None
            end
        | _ => None
        end
    | _ => None
    end else None.
  Lemma do_begin_ok fs now x th p : do_begin fs now x th = Some p -> script_begins cwd home glob_ l fs now p.
  Proof.
    unfold do_begin. destruct (mem _ _) eqn:Em; [|discriminate]. intros H.
    destruct (mrun _ _ _ _ _ _ _ _) as [st| |] eqn:Er; try discriminate.
    destruct (core_get _ _ _) as [i| |] eqn:Ei; try discriminate.
    destruct (mevaluate _ _ _ _ _ _) as [[c1 ca1]| |] eqn:Ee; try discriminate.
    destruct (recurse_update _ _ _ _ _ _) as [| |objs sv|] eqn:Eu; try discriminate. injection H as <-.
    exists fs1, fs, exists_, x, th, 20, st, i, no_other, 20, ca1, (fun l => l), id_order. cbn [pr_kind pr_core pr_objs pr_solver pr_state].
    split; [exact disk|]. split; [exact ok|]. split; [now apply mem_In|]. split; [exact Er|]. split; [reflexivity|]. split; [exact Ei|]. split; [exact Ee|].
    split; [intros; apply Permutation_refl|]. split; [split; intros; apply Permutation_refl|]. split; [exact Eu|reflexivity].
  Qed.

  Definition do_act (fs : fsys) (now : nat) (c : choice) (p : proc) : option proc :=
    match osched1 (inv_of (sv_inv (pr_solver p))) (fmake (pr_kind p) false no_fail (pr_core p) (pr_objs p)) c (at_now fs now (pr_state p)) with
    | Some s' => Some (PR (pr_kind p) (pr_core p) (pr_objs p) (pr_solver p) s')
    | None => None
    end.
  Lemma do_act_ok fs now c p p' : do_act fs now c p = Some p' -> acts (realpath cwd) fs now p p'.
  Proof.
    unfold do_act. destruct (osched1 _ _ _ _) as [s'|] eqn:E; [|discriminate]. intros [= <-]. destruct p as [kind co objs sv s]. cbn in *.
    constructor. eapply osched1_step; [|exact E]. intros t w r w'. apply fmake_ticking.
  Qed.
  Fixpoint set_nth (k : nat) (p : proc) (ps : list proc) : list proc :=
    match k, ps with 0, _ :: ps => p :: ps | Datatypes.S k, x :: ps => x :: set_nth k p ps | _, [] => [] end.
  Fixpoint del_nth (k : nat) (ps : list proc) : list proc :=
    match k, ps with 0, _ :: ps => ps | Datatypes.S k, x :: ps => x :: del_nth k ps | _, [] => [] end.
  Lemma nth_parts k p ps : nth_error ps k = Some p -> exists a b, ps = a ++ p :: b /\ (forall p', set_nth k p' ps = a ++ p' :: b) /\ del_nth k ps = a ++ b.
  Proof.
    revert ps. induction k as [|k IH]; intros [|x ps] E; try discriminate.
    - injection E as ->. exists [], ps. auto.
    - destruct (IH ps E) as (a & b & -> & H1 & H2). exists (x :: a), b. cbn. split; [reflexivity|]. rewrite H2. split; [|reflexivity]. intros p'. now rewrite H1.
  Qed.

  Definition happen (e : happening) (z : scene) : option scene :=
    match e with
    | EEdit p v =>
        match project_of cwd home glob_ l p with
        | Some DSource => Some (SC (fs_set (sc_fs z) p (Some (Datatypes.S (sc_now z), Reg v))) (Datatypes.S (sc_now z)) (sc_procs z))
        | _ => None
        end
    | EBegin x th => match do_begin (sc_fs z) (sc_now z) x th with Some p => Some (SC (sc_fs z) (sc_now z) (p :: sc_procs z)) | None => None end
    | EAct k c =>
        match nth_error (sc_procs z) k with
        | Some p => match do_act (sc_fs z) (sc_now z) c p with
                    | Some p' => Some (SC (w_fs (s_world (pr_state p'))) (w_now (s_world (pr_state p'))) (set_nth k p' (sc_procs z)))
                    | None => None
                    end
        | None => None
        end
    | EGone k => match nth_error (sc_procs z) k with Some _ => Some (SC (sc_fs z) (sc_now z) (del_nth k (sc_procs z))) | None => None end
    end.
  Fixpoint all_happen (es : list happening) (z : scene) : option scene :=
    match es with [] => Some z | e :: es => match happen e z with Some z' => all_happen es z' | None => None end end.

  Local Notation here z := (script_crowd cwd home glob_ l (sc_fs z) (sc_now z) (sc_procs z)).
  Lemma happen_ok e z z' : here z -> happen e z = Some z' -> here z'.
  Proof.
    intros H. destruct e as [p v|x th|k c|k]; cbn [happen].
    - destruct (project_of cwd home glob_ l p) as [[| |]|] eqn:EP; try discriminate. intros [= <-]. cbn [sc_fs sc_now sc_procs].
      eapply cr_outside; [exact H|]. split; [lia|]. intros q. unfold fs_set. destruct (String.eqb_spec q p) as [->|]; [|now left].
      right. right. left. split; [exact EP|]. exists (Datatypes.S (sc_now z)), v. split; [reflexivity|lia].
    - destruct (do_begin _ _ _ _) as [p|] eqn:E; [|discriminate]. intros [= <-]. cbn [sc_fs sc_now sc_procs]. apply cr_begins; [exact H|]. eapply do_begin_ok; eauto.
    - destruct (nth_error (sc_procs z) k) as [p|] eqn:E; [|discriminate]. destruct (do_act _ _ _ _) as [p'|] eqn:Ea; [|discriminate].
      intros [= <-]. cbn [sc_fs sc_now sc_procs]. destruct (nth_parts _ _ _ E) as (a & b & Eps & Hs & _). rewrite Hs. unfold script_crowd in *. rewrite Eps in H.
      eapply cr_acts; [exact H|]. eapply do_act_ok; eauto.
    - destruct (nth_error (sc_procs z) k) as [p|] eqn:E; [|discriminate]. intros [= <-]. cbn [sc_fs sc_now sc_procs].
      destruct (nth_parts _ _ _ E) as (a & b & Eps & _ & Hs). rewrite Hs. unfold script_crowd in *. rewrite Eps in H. eapply cr_gone; exact H.
  Qed.
  Lemma all_happen_ok es : forall z z', here z -> all_happen es z = Some z' -> here z'.
  Proof.
    induction es as [|e es IH]; intros z z' H E; cbn [all_happen] in E; [injection E as <-; exact H|].
    destruct (happen e z) as [z1|] eqn:E1; [|discriminate]. eapply IH; [|exact E]. eapply happen_ok; eauto.
  Qed.
End Script.

(** ** pscript, twice at a time *)
Lemma crowd_start : script_crowd "/w" "/h" no_glob pscript pfs 1 [].
Proof.
  pose proof fine_start as F. remember pfs as fs0 eqn:E0. remember 1 as n0 eqn:E1.
  apply cr_start.
  - intros p m n. rewrite E0, E1. unfold pfs. destruct (mem p _); [intros [= <- <-]; auto|].
    destruct (String.eqb p "/w/src.c"); [intros [= <- <-]; auto|]. destruct (String.eqb p "/w/a.h"); [intros [= <- <-]; auto|].
    destruct (String.eqb p "/w/main.c"); [intros [= <- <-]; auto|]. destruct (String.eqb p "/w/make.py"); [intros [= <- <-]; auto|discriminate].
  - intros p (f & ds & b & H). rewrite E0. apply pproj_cases in H.
    destruct H as [[-> E]|[[-> E]|[[-> E]|[[-> E]|[_ E]]]]]; try discriminate; reflexivity.
  - rewrite E0. intros p m [H|(f & ds & b & H)]; apply pproj_cases in H; destruct H as [[-> E]|[[-> E]|[[-> E]|[[-> E]|[Hp E]]]]]; try discriminate.
    destruct Hp as [<-|[<-|[<-|[<-|[]]]]]; discriminate.
Qed.
Definition pscene (es : list happening) : option scene := all_happen "/w" "/h" no_glob (on_path pdisk) pscript es (SC pfs 1 []).
Lemma pscene_ok es z : pscene es = Some z -> script_crowd "/w" "/h" no_glob pscript (sc_fs z) (sc_now z) (sc_procs z).
Proof. apply (all_happen_ok _ _ _ _ pfs pscript pfs_ok pscript_ok). exact crowd_start. Qed.

(** Which names can change. *)
Definition names (c : core) : list string := flat_map (fun o => t_name o :: ancestors (t_name o)) (dummy_obj :: c_heap c).
Lemma names_obj c j q : q = t_name (obj c j) \/ In q (ancestors (t_name (obj c j))) -> In q (names c).
Proof.
  intros H. unfold names. apply in_flat_map. exists (obj c j). split; [|destruct H as [->|H]; [now left|now right]].
  unfold obj. destruct (nth_in_or_default j (c_heap c) dummy_obj) as [H1|H1]; [now right|]. rewrite H1. now left.
Qed.
Lemma fmake_only kind c objs k w r w' q : fmake kind false no_fail c objs k w = Some (r, w') -> ~ In q (names c) -> w_fs w' q = w_fs w q.
Proof.
  intros H N. revert H. unfold fmake. destruct (nth_error objs k) as [j|]; [|discriminate].
  assert (Nj : q <> t_name (obj c j) /\ ~ In q (ancestors (t_name (obj c j)))).
  { split; intros H; apply N; apply (names_obj c j); auto. }
  destruct Nj as [N1 N2]. apply String.eqb_neq in N1.
  assert (D : fdir c j w = Some (r, w') -> w_fs w' q = w_fs w q).
  { unfold fdir. destruct (get_info _ _ _) as [x ca']. destruct (fi_exist x); [intros [= <- <-]; auto|].
    destruct (w_fs w (t_name (obj c j))) eqn:Ef; [intros [= <- <-]; auto|].
    destruct (existsb _ _); [intros [= <- <-]; auto|]. intros [= <- <-]. cbn [w_fs]. unfold makedirs. rewrite N1.
    destruct (w_fs w q); [auto|]. destruct (smem _ q) eqn:Es; [|auto]. apply existsb_exists in Es. destruct Es as (y & Hy & E). apply String.eqb_eq in E. subst. contradiction. }
  assert (U : fupdate kind false no_fail c j w = Some (r, w') -> w_fs w' q = w_fs w q).
  { unfold fupdate, no_fail. cbn [fst snd]. destruct (kind j) as [f b| | | |]; try discriminate.
    - destruct (b _) as [v|].
      + destruct (forallb _ _); [|discriminate]. intros [= <- <-]. cbn [w_fs]. unfold fs_set. now rewrite N1.
      + intros [= <- <-]; cbn; auto.
    - intros [= <- <-]; cbn; auto.
    - intros [= <- <-]; cbn; auto. }
  destruct (kind j); auto; (destruct (t_class (obj c j)); [|destruct (t_need (obj c j)) as [[|]|]]); auto; intros [= <- <-]; auto.
Qed.
Lemma step_only inv (run : nat -> world -> tres -> world -> Prop) s s' q : step inv run s s' ->
  (forall t r w', run t (s_world s) r w' -> w_fs w' q = w_fs (s_world s) q) -> w_fs (s_world s') q = w_fs (s_world s) q.
Proof.
  intros H Hr. destruct H as [w s Hm Hw Hq|w s Hm Hw Hq|w t r world' order s Hm Hw Ht Ho|s Hm Hre].
  - rewrite <- (set_world_same s) at 1. now rewrite loop_world.
  - rewrite <- (set_world_same s) at 1. now rewrite release_world.
  - rewrite after_world. exact (Hr _ _ _ Ht).
  - reflexivity.
Qed.
Lemma sched_only inv f c s s' q : osched1 inv f c s = Some s' ->
  (forall t w r w', f t w = Some (r, w') -> w_fs w' q = w_fs w q) -> w_fs (s_world s') q = w_fs (s_world s) q.
Proof.
  intros E H. apply (step_only inv (fun t w r w' => f t w = Some (r, w')) s s' q); [|intros; eapply H; eauto].
  eapply osched1_step; [|exact E]. auto.
Qed.

(** What is on the disk if no name but those of [l] has changed. *)
Definition same_outside (l : list string) (fs : fsys) : Prop := forall q, ~ In q l -> fs q = pfs q.
Definition on_disk (l disk : list string) (fs : fsys) : bool :=
  forallb (fun q => Bool.eqb (present fs q) (on disk q)) l && forallb (fun q => mem q (l ++ disk)) pdisk && forallb (fun q => mem q (l ++ pdisk)) disk &&
  forallb (fun p => on disk (dirname p)) disk && on disk "/w" && in_orderb "/w" "/h" no_glob (on_path disk) pscript.
Lemma on_disk_ok l disk fs : same_outside l fs -> on_disk l disk fs = true ->
  disk_ok "/w" (present fs) (on_path disk) /\ in_order "/w" "/h" no_glob (on_path disk) pscript.
Proof.
  intros H. unfold on_disk. rewrite !andb_true_iff. intros (((((H1 & H2) & H3) & H4) & H5) & H6). split; [|now apply in_orderb_ok].
  apply present_ok; [|exact H4|exact H5]. intros p. rewrite forallb_forall in H1, H2, H3.
  destruct (in_dec String.string_dec p l) as [Hp|Hp]; [now apply Bool.eqb_prop, H1|].
  unfold present. rewrite (H p Hp). change (present pfs p = on disk p).
  assert (E : forall a, on a p = true <-> In p a).
  { intros a. unfold on. rewrite existsb_exists. split; [intros (y & Hy & E); apply String.eqb_eq in E; now subst|intros K; exists p; split; [exact K|apply String.eqb_refl]]. }
  assert (Ep : present pfs p = on pdisk p).
  { unfold present, pfs, on, pdisk, mem. cbn [existsb].
    destruct (String.eqb_spec p "/"), (String.eqb_spec p "/w"), (String.eqb_spec p "/w/src.c"), (String.eqb_spec p "/w/a.h"), (String.eqb_spec p "/w/main.c"), (String.eqb_spec p "/w/make.py"); reflexivity. }
  rewrite Ep. apply Bool.eq_iff_eq_true. rewrite !E. split; intros K.
  - specialize (H2 _ K). apply mem_In in H2. apply in_app_iff in H2. tauto.
  - specialize (H3 _ K). apply mem_In in H3. apply in_app_iff in H3. tauto.
Qed.

Section Inside.
  Variable l : list string.
  Definition may_change (e : happening) (z : scene) : list string :=
    match e with
    | EEdit p _ => [p]
    | EAct k _ => match nth_error (sc_procs z) k with Some p => names (pr_core p) | None => [] end
    | _ => []
    end.
  Fixpoint inside (es : list happening) (z : scene) : option scene :=
    match es with
    | [] => Some z
    | e :: es => if forallb (fun q => mem q l) (may_change e z) then
                 match happen "/w" "/h" no_glob (on_path pdisk) pscript e z with Some z' => inside es z' | None => None end else None
    end.
  Lemma happen_inside e z z' : forallb (fun q => mem q l) (may_change e z) = true ->
    happen "/w" "/h" no_glob (on_path pdisk) pscript e z = Some z' -> same_outside l (sc_fs z) -> same_outside l (sc_fs z').
  Proof.
    intros Hl E H q Hq. rewrite forallb_forall in Hl.
    assert (Nq : ~ In q (may_change e z)) by (intros K; apply Hl in K; apply mem_In in K; contradiction).
    rewrite <- (H q Hq). destruct e as [p v|x th|k c|k]; cbn [happen may_change] in *.
    - destruct (project_of "/w" "/h" no_glob pscript p) as [[| |]|]; try discriminate. injection E as <-. cbn [sc_fs]. unfold fs_set.
      destruct (String.eqb_spec q p) as [->|]; [exfalso; apply Nq; now left|reflexivity].
    - destruct (do_begin _ _ _ _ _ _ _ _ _); [|discriminate]. injection E as <-. reflexivity.
    - destruct (nth_error (sc_procs z) k) as [p|]; [|discriminate]. destruct (do_act _ _ _ _) as [p'|] eqn:Ea; [|discriminate]. injection E as <-. cbn [sc_fs].
      unfold do_act in Ea. destruct (osched1 _ _ _ _) as [s'|] eqn:Es; [|discriminate]. injection Ea as <-. cbn [pr_state].
      rewrite (sched_only _ _ _ _ _ q Es); [reflexivity|]. intros t w r w' F. exact (fmake_only _ _ _ _ _ _ _ q F Nq).
    - destruct (nth_error (sc_procs z) k); [|discriminate]. injection E as <-. reflexivity.
  Qed.
  Lemma inside_ok es : forall z z', inside es z = Some z' -> same_outside l (sc_fs z) ->
    all_happen "/w" "/h" no_glob (on_path pdisk) pscript es z = Some z' /\ same_outside l (sc_fs z').
  Proof.
    induction es as [|e es IH]; intros z z' E H; cbn [inside all_happen] in *; [injection E as <-; auto|].
    destruct (forallb _ _) eqn:El; [|discriminate]. destruct (happen _ _ _ _ _ e z) as [z1|] eqn:E1; [|discriminate].
    apply IH; [exact E|]. exact (happen_inside e z z1 El E1 H).
  Qed.
End Inside.

Definition on_scene (o : option scene) (test : scene -> bool) : bool := match o with Some z => test z | None => false end.
Definition pnames : list string :=
  ["/"; "/w"; "/w/out"; "/w/out/app"; "/w/out/lib"; "/w/out/lib/a.o"; "/w/out/a.h"; "/w/a.h"; "libs"; "/w/main.c"; "/w/src.c"; "/w/make.py"; ""; "test"; "binutils"; "m"; "cxxm"; "l"].
Definition after_disk : list string := pdisk ++ ["/w/out"; "/w/out/lib"; "/w/out/lib/a.o"; "/w/out/a.h"; "/w/out/app"].
Lemma scene_ok es test : on_scene (inside pnames es (SC pfs 1 [])) test = true -> exists z, test z = true /\ same_outside pnames (sc_fs z) /\
  script_crowd "/w" "/h" no_glob pscript (sc_fs z) (sc_now z) (sc_procs z).
Proof.
  unfold on_scene. destruct (inside _ _ _) as [z|] eqn:E; [|discriminate]. intros H.
  destruct (inside_ok pnames es (SC pfs 1 []) z E (fun q _ => eq_refl)) as [Ea Ho]. exists z. split; [exact H|]. split; [exact Ho|]. exact (pscene_ok es z Ea).
Qed.
(** A process that has nobody else around. *)
Definition then_alone (fs : fsys) (now : nat) (cs : list choice) (test : ran -> bool) : bool :=
  on_ran (do_process "/w" "/h" (on_path after_disk) no_glob no_fail pscript "/w/out/app" 1 fs now cs) test.
Lemma then_alone_ok fs now cs test : then_alone fs now cs test = true -> exists r, test r = true /\
  building "/w" "/h" (on_path after_disk) no_glob false pscript "/w/out/app" 1 fs now (rn_kind r) (rn_core r) (rn_objs r) (rn_solver r) (rn_state r).
Proof.
  unfold then_alone. intros H. destruct (on_ran_ok _ test H) as (r & E & T). exists r. split; [exact T|exact (do_process_ok _ _ _ _ _ _ _ _ _ _ _ _ E)].
Qed.
Definition one_worker : list choice := CGet 0 :: repeat (CFin 0) 7 ++ [CJoin].
Definition ftext (fs : fsys) (p : string) : string := match fs p with Some (_, Reg v) => v | _ => "" end.
Lemma ftext_eq fs p v : v <> "" -> String.eqb (ftext fs p) v = true -> contents fs p = Some v.
Proof. unfold ftext, contents. intros Hv H. apply String.eqb_eq in H. destruct (fs p) as [[m [u|]]|]; congruence. Qed.
(** A process makes out/lib/a.o, another one begins; src.c is edited, then both go on in
    turns until they are done.  out/app is out of date afterwards; the next process makes it
    anew. *)
Definition both : list happening :=
  [EBegin "/w/out/app" 1; EAct 0 (CGet 0)] ++ repeat (EAct 0 (CFin 0)) 7 ++
  [EBegin "/w/out/app" 1; EAct 0 (CGet 0); EEdit "/w/src.c" "new"] ++
  map (fun k => EAct k (CFin 0)) [0; 1; 0; 0; 0; 1] ++ [EAct 1 CJoin] ++ repeat (EAct 0 (CFin 0)) 5 ++ [EAct 0 CJoin].
Definition proc_fine (p : proc) : bool :=
  match s_main (pr_state p) with MReturned => true | MJoin => false end &&
  match exec_result (List.length (pr_objs p)) (pr_state p) with Ok b => b | _ => false end.
Lemma proc_fine_ok p : proc_fine p = true -> succeeded (pr_objs p) (pr_state p).
Proof.
  unfold proc_fine, succeeded. destruct (s_main (pr_state p)); [discriminate|]. cbn [andb].
  destruct (exec_result (List.length (pr_objs p)) (pr_state p)); try discriminate. intros ->. auto.
Qed.
Definition two (ps : list proc) (test : proc -> proc -> bool) : bool := match ps with [p; q] => test p q | _ => false end.
Lemma two_procs ps test : two ps test = true -> exists p q, ps = [p; q] /\ test p q = true.
Proof. destruct ps as [|p [|q [|r ps]]]; intros H; try discriminate H. eauto. Qed.
Definition both_test (z : scene) : bool :=
  two (sc_procs z) (fun p q => proc_fine p && proc_fine q) &&
  (String.eqb (ftext (sc_fs z) "/w/out/app") "o:src+main" && String.eqb (ftext (sc_fs z) "/w/src.c") "new") &&
  on_disk pnames after_disk (sc_fs z) &&
  then_alone (sc_fs z) (sc_now z) one_worker (fun r => fine r && String.eqb (text r "/w/out/app") "o:new+main").
Lemma both_ok : on_scene (inside pnames both (SC pfs 1 [])) both_test = true.
Proof. vm_compute. reflexivity. Qed.
Lemma both_done : exists fs now p q exists_ kind c1 objs sv s,
  script_crowd "/w" "/h" no_glob pscript fs now [p; q] /\ succeeded (pr_objs p) (pr_state p) /\ succeeded (pr_objs q) (pr_state q) /\
  contents fs "/w/out/app" = Some "o:src+main" /\ contents fs "/w/src.c" = Some "new" /\
  disk_ok "/w" (present fs) exists_ /\ in_order "/w" "/h" no_glob exists_ pscript /\
  building "/w" "/h" exists_ no_glob false pscript "/w/out/app" 1 fs now kind c1 objs sv s /\ succeeded objs s /\
  contents (w_fs (s_world s)) "/w/out/app" = Some "o:new+main".
Proof.
  destruct (scene_ok _ _ both_ok) as (z & H & Ho & C). unfold both_test in H.
  apply andb_prop in H. destruct H as [H H4]. apply andb_prop in H. destruct H as [H H3]. apply andb_prop in H. destruct H as [H1 H2].
  apply andb_prop in H2. destruct H2 as [H2 H2'].
  destruct (on_disk_ok _ _ _ Ho H3) as [D K]. destruct (then_alone_ok _ _ _ _ H4) as (r & T & B). apply andb_prop in T. destruct T as [T1 T2].
  destruct (two_procs _ _ H1) as (p & q & Ep & H1'). rewrite Ep in C. apply andb_prop in H1'. destruct H1' as [Hp Hq].
  exists (sc_fs z), (sc_now z), p, q, (on_path after_disk), (rn_kind r), (rn_core r), (rn_objs r), (rn_solver r), (rn_state r).
  split; [exact C|]. split; [exact (proc_fine_ok _ Hp)|]. split; [exact (proc_fine_ok _ Hq)|]. split; [apply ftext_eq; [intros E; discriminate E|exact H2]|]. split; [apply ftext_eq; [intros E; discriminate E|exact H2']|].
  split; [exact D|]. split; [exact K|]. split; [exact B|]. split; [exact (fine_ok _ T1)|apply text_eq; [intros E; discriminate E|exact T2]].
Qed.

(** Two processes that begin at the same time: os.makedirs of the second one raises. *)
Definition at_once : list happening :=
  [EBegin "/w/out/app" 1; EBegin "/w/out/app" 1; EAct 0 (CGet 0); EAct 1 (CGet 0)] ++ repeat (EAct 0 (CFin 0)) 5 ++ [EAct 1 (CFin 0)].
Definition stuck (p : proc) : bool :=
  match s_main (pr_state p) with MJoin => true | MReturned => false end && negb (s_released (pr_state p)) &&
  forallb (fun w => match w with WDead => true | _ => false end) (s_workers (pr_state p)).
Lemma stuck_ok canon p : stuck p = true -> s_main (pr_state p) = MJoin /\ forall fs now p', ~ acts canon fs now p p'.
Proof.
  unfold stuck. rewrite !andb_true_iff, negb_true_iff. intros ((H1 & H2) & H3). split; [now destruct (s_main (pr_state p))|].
  intros fs now p' H. destruct H as [k c objs sv s s' H]. cbn [pr_state] in *.
  assert (W : forall w x, nth_error (s_workers (at_now fs now s)) w = Some x -> x = WDead).
  { intros w x Hw. apply nth_error_In in Hw. rewrite forallb_forall in H3. specialize (H3 _ Hw). now destruct x. }
  remember (at_now fs now s) as a eqn:Ea. destruct H as [w a Hm Hw Hq|w a Hm Hw Hq|w t r world' order a Hm Hw Ht Ho|a Hm Hre].
  - discriminate (W _ _ Hw).
  - discriminate (W _ _ Hw).
  - discriminate (W _ _ Hw).
  - subst a. cbn in Hre. congruence.
Qed.
Definition rules_ran_well (p : proc) : bool := forallb (fun x => snd x || String.eqb (fst x) "/w/out" || String.eqb (fst x) "/w/out/lib") (w_ran (s_world (pr_state p))).
Lemma rules_ran_well_ok p : rules_ran_well p = true -> no_rule_failed pproj (s_world (pr_state p)).
Proof.
  unfold rules_ran_well. rewrite forallb_forall. intros H q (f & ds & b & Hr) Hp. specialize (H _ Hp). cbn [fst snd orb] in H.
  apply orb_true_iff in H. destruct H as [H|H]; apply String.eqb_eq in H; subst q; rewrite pproj_eq in Hr; discriminate.
Qed.
Definition at_once_test (z : scene) : bool :=
  two (sc_procs z) (fun p q => stuck q && rules_ran_well p && rules_ran_well q).
Lemma at_once_ok : on_scene (inside pnames at_once (SC pfs 1 [])) at_once_test = true.
Proof. vm_compute. reflexivity. Qed.
Lemma at_once_stuck : exists fs now p q, script_crowd "/w" "/h" no_glob pscript fs now [p; q] /\
  no_rule_failed pproj (s_world (pr_state p)) /\ no_rule_failed pproj (s_world (pr_state q)) /\
  s_main (pr_state q) = MJoin /\ forall fs' now' q', ~ acts (realpath "/w") fs' now' q q'.
Proof.
  destruct (scene_ok _ _ at_once_ok) as (z & H & _ & C). unfold at_once_test in H.
  destruct (two_procs _ _ H) as (p & q & Ep & H'). rewrite Ep in C. clear H. rename H' into H. apply andb_prop in H. destruct H as [H H3]. apply andb_prop in H. destruct H as [H1 H2].
  exists (sc_fs z), (sc_now z), p, q. split; [exact C|]. split; [now apply rules_ran_well_ok|]. split; [now apply rules_ran_well_ok|]. now apply stuck_ok.
Qed.

(** ** An edit during a call *)
Inductive dmove := DMove (c : choice) | DEdit (p v : string) | DLate (w k : nat).
Section DExec.
  Variables (canon : string -> string) (kind : nat -> mkind) (P : project) (sv : solver) (c1 : core) (objs : list nat) (w0 : world).
  Local Notation o t := (nth t objs (List.length (c_heap c1))).
  (** [DLate w k]: the rule of worker [w] ends; it has read its inputs [k] states ago. *)
  Definition dstep (m : dmove) (s : state world) (h : list (state world)) : option (state world) :=
    match m with
    | DMove c => match imove kind sv c1 objs (Move c) s with Some (_, s') => Some s' | None => None end
    | DEdit p v =>
        match P p with
        | Some DSource =>
            Some (set_world (WD (fs_set (w_fs (s_world s)) p (Some (Datatypes.S (w_now (s_world s)), Reg v))) (w_cache (s_world s)) (w_base (s_world s))
                                (Datatypes.S (w_now (s_world s))) (w_ran (s_world s))) s)
        | _ => None
        end
    | DLate w k =>
        match s_main s, nth_error (s_workers s) w, nth_error (s :: h) k with
        | MJoin, Some (WRun t), Some s0 =>
            match kind (o t), t_class (obj c1 (o t)), t_need (obj c1 (o t)) with
            | MFile _ b, Updatable, Some true =>
                let x := s_world s in
                let m := Datatypes.S (Nat.max (w_base x) (w_now x)) in
                match b (contents (w_fs (s_world s0))) with
                | Some v =>
                    if busyb (s_log s0) t && forallb (date_le (w_fs x) m) (dummy_obj :: c_heap c1) then
                      let fs' := fs_set (w_fs x) (t_name (obj c1 (o t))) (Some (m, Reg v)) in
                      Some (after_task w t RNotFalse (inv_of (sv_inv sv) t)
                             (set_world (WD fs' (update_info fs' (w_cache x) (t_name (obj c1 (o t)))) (w_base x) (Nat.max (w_now x) m)
                                            (w_ran x ++ [(t_name (obj c1 (o t)), true)])) s))
                    else None
                | None => None
                end
            | _, _, _ => None
            end
        | _, _, _ => None
        end
    end.
  Local Notation dist h := (disturbed canon kind false P sv c1 objs w0 h).
  Lemma dstep_ok m s h s' : dist (s :: h) -> dstep m s h = Some s' -> dist (s' :: s :: h).
  Proof.
    intros H E. destruct m as [c|p v|w k]; cbn [dstep] in E.
    - destruct (imove _ _ _ _ _ _) as [[n s1]|] eqn:E1; [|discriminate]. injection E as <-. apply di_moves; [exact H|].
      assert (Pl : forall c, match osched1 (inv_of (sv_inv sv)) (fun _ _ => None) c s with Some s' => Some (1, s') | None => None end = Some (n, s1) ->
              fine_move canon kind false sv c1 objs h s s1).
      { intros c'. destruct (osched1 _ _ c' s) as [s2|] eqn:E2; [|discriminate]. intros [= <- <-]. apply fm_plain.
        eapply osched1_step; [|exact E2]. intros; discriminate. }
      destruct c as [w|w|w|]; try (eapply Pl; exact E1); cbn [imove] in E1.
      destruct (s_main s) eqn:Em; [|discriminate]. destruct (nth_error (s_workers s) w) as [[| t | | ]|] eqn:Ew; try discriminate.
      destruct (fmake _ _ _ _ _ t (s_world s)) as [[[| |] w']|] eqn:Ef; try discriminate. destruct (busyb (s_log s) t) eqn:Eb; [|discriminate].
      assert (s1 = after_task w t RNotFalse (inv_of (sv_inv sv) t) (set_world w' s)) as -> by congruence.
      apply fm_ends; [exact Em|exact Ew| |apply Permutation_refl].
      apply good_call; [|reflexivity|now apply busyb_ok]. now apply (fmake_sound canon kind false no_fail).
    - destruct (P p) as [[| |]|] eqn:EP; try discriminate. injection E as <-. apply di_outside; [exact H|]. split; [lia|].
      intros q. unfold fs_set. destruct (String.eqb_spec q p) as [->|]; [|now left].
      right. right. left. split; [exact EP|]. exists (Datatypes.S (w_now (s_world s))), v. split; [reflexivity|lia].
    - destruct (s_main s) eqn:Em; [|discriminate]. destruct (nth_error (s_workers s) w) as [[| t | | ]|] eqn:Ew; try discriminate.
      destruct (nth_error (s :: h) k) as [s0|] eqn:Ek; [|discriminate].
      destruct (kind (o t)) as [f b| | | |] eqn:Eko; try discriminate. destruct (t_class (obj c1 (o t))) eqn:Et; [discriminate|].
      destruct (t_need (obj c1 (o t))) as [[|]|] eqn:En; try discriminate. cbv zeta in E. destruct (b (contents (w_fs (s_world s0)))) as [v|] eqn:Eb; [|discriminate].
      destruct (busyb (s_log s0) t && _) eqn:Ec; [|discriminate]. apply andb_prop in Ec. destruct Ec as [Ec Ed].
      assert (Es : s' = after_task w t RNotFalse (inv_of (sv_inv sv) t)
        (set_world (let x := s_world s in let m := Datatypes.S (Nat.max (w_base x) (w_now x)) in let fs' := fs_set (w_fs x) (t_name (obj c1 (o t))) (Some (m, Reg v)) in
          WD fs' (update_info fs' (w_cache x) (t_name (obj c1 (o t)))) (w_base x) (Nat.max (w_now x) m) (w_ran x ++ [(t_name (obj c1 (o t)), true)])) s)) by congruence.
      rewrite Es. apply di_moves; [exact H|]. apply fm_ends; [exact Em|exact Ew| |apply Permutation_refl].
      unfold fine_task, task_behaviour. rewrite Eko, Et, En.
      apply (fu_rule canon kind false c1 t (s :: h) (o t) (s_world s) f b (contents (w_fs (s_world s0))) v); [exact Eko| |exact Eb|lia|].
      + intros q. exists s0. split; [eapply nth_error_In; exact Ek|]. split; [now apply busyb_ok|reflexivity].
      + intros j mj nj _ Ej. eapply date_le_obj; eauto.
  Qed.
  Fixpoint dsched (ms : list dmove) (s : state world) (h : list (state world)) : option (state world * list (state world)) :=
    match ms with [] => Some (s, h) | m :: ms => match dstep m s h with Some s' => dsched ms s' (s :: h) | None => None end end.
  Lemma dsched_ok : forall ms s h s' h', dist (s :: h) -> dsched ms s h = Some (s', h') -> dist (s' :: h').
  Proof.
    induction ms as [|m ms IH]; intros s h s' h' H E; cbn [dsched] in E; [injection E as <- <-; exact H|].
    destruct (dstep m s h) as [s1|] eqn:E1; [|discriminate]. eapply IH; [|exact E]. eapply dstep_ok; eauto.
  Qed.
  Lemma dstep_only m s h s' q : dstep m s h = Some s' -> ~ In q (names c1) -> (forall p v, m = DEdit p v -> q <> p) ->
    w_fs (s_world s') q = w_fs (s_world s) q.
  Proof.
    intros E N Ne. destruct m as [c|p v|w k]; cbn [dstep] in E.
    - destruct (imove _ _ _ _ _ _) as [[n s1]|] eqn:E1; [|discriminate]. injection E as <-.
      assert (Pl : forall c, match osched1 (inv_of (sv_inv sv)) (fun _ _ => None) c s with Some s' => Some (1, s') | None => None end = Some (n, s1) ->
              w_fs (s_world s1) q = w_fs (s_world s) q).
      { intros c'. destruct (osched1 _ _ c' s) as [s2|] eqn:E2; [|discriminate]. intros [= <- <-]. apply (sched_only _ _ _ _ _ q E2). intros; discriminate. }
      destruct c as [w|w|w|]; try (eapply Pl; exact E1); cbn [imove] in E1.
      destruct (s_main s) eqn:Em; [|discriminate]. destruct (nth_error (s_workers s) w) as [[| t | | ]|] eqn:Ew; try discriminate.
      destruct (fmake _ _ _ _ _ t (s_world s)) as [[[| |] w']|] eqn:Ef; try discriminate. destruct (busyb (s_log s) t) eqn:Eb; [|discriminate].
      assert (s1 = after_task w t RNotFalse (inv_of (sv_inv sv) t) (set_world w' s)) as -> by congruence.
      rewrite after_world. exact (fmake_only _ _ _ _ _ _ _ q Ef N).
    - destruct (P p) as [[| |]|]; try discriminate. injection E as <-. cbn. unfold fs_set. specialize (Ne p v eq_refl). apply String.eqb_neq in Ne. now rewrite Ne.
    - destruct (s_main s) eqn:Em; [|discriminate]. destruct (nth_error (s_workers s) w) as [[| t | | ]|] eqn:Ew; try discriminate.
      destruct (nth_error (s :: h) k) as [s0|] eqn:Ek; [|discriminate].
      destruct (kind (o t)) as [f b| | | |] eqn:Eko; try discriminate. destruct (t_class (obj c1 (o t))) eqn:Et; [discriminate|].
      destruct (t_need (obj c1 (o t))) as [[|]|] eqn:En; try discriminate. cbv zeta in E. destruct (b (contents (w_fs (s_world s0)))) as [v|] eqn:Eb; [|discriminate].
      destruct (busyb (s_log s0) t && _) eqn:Ec; [|discriminate].
      assert (Es : s' = after_task w t RNotFalse (inv_of (sv_inv sv) t)
        (set_world (let x := s_world s in let m := Datatypes.S (Nat.max (w_base x) (w_now x)) in let fs' := fs_set (w_fs x) (t_name (obj c1 (o t))) (Some (m, Reg v)) in
          WD fs' (update_info fs' (w_cache x) (t_name (obj c1 (o t)))) (w_base x) (Nat.max (w_now x) m) (w_ran x ++ [(t_name (obj c1 (o t)), true)])) s)) by congruence.
      rewrite Es, after_world. cbn [s_world set_world w_fs]. unfold fs_set.
      destruct (String.eqb_spec q (t_name (obj c1 (o t)))) as [->|]; [|reflexivity]. exfalso. apply N. apply (names_obj c1 (o t)). now left.
  Qed.
End DExec.
Definition dprocess (ms : list dmove) : option (ran * list (state world)) :=
  match mrun (realpath "/w") (on_path pdisk) no_glob "/h" 20 0 (map op_of pscript) [empty_reg] with
  | Ok st =>
      match core_get (realpath "/w") (fst (reg st 0)) "/w/out/app" with
      | Ok i =>
          match mevaluate (realpath "/w") (kind_of (reg st 0)) no_other pfs 20 (set_threads (fst (reg st 0)) 1, []) with
          | Ok (c1, ca1) =>
              match recurse_update (realpath "/w") c1 (fun l => l) id_order i None with
              | RuExec objs sv =>
                  if forallb (fun q => mem q pnames) (names c1) && forallb (fun m => match m with DEdit p _ => mem p pnames | _ => true end) ms then
                  match dsched (kind_of (reg st 0)) pproj sv c1 objs ms (init_state sv (WD pfs ca1 1 1 [])) [] with
                  | Some (s, h) => Some (RAN (kind_of (reg st 0)) c1 objs sv s, h)
                  | None => None
                  end else None
              | _ => None
              end
          | _ => None
          end
      | _ => None
      end
  | _ => None
  end.
Lemma dprocess_ok ms r h : dprocess ms = Some (r, h) ->
  disturbed_building "/w" "/h" (on_path pdisk) no_glob false pscript "/w/out/app" 1 pfs 1 (rn_kind r) (rn_core r) (rn_objs r) (rn_solver r) (rn_state r :: h) /\
  same_outside pnames (w_fs (s_world (rn_state r))).
Proof.
  unfold dprocess. intros H. destruct (mrun _ _ _ _ _ _ _ _) as [st| |] eqn:Er; try discriminate H.
  destruct (core_get _ _ _) as [i| |] eqn:Ei; try discriminate H.
  destruct (mevaluate _ _ _ _ _ _) as [[c1 ca1]| |] eqn:Ee; try discriminate H.
  destruct (recurse_update _ _ _ _ _ _) as [| |objs sv|] eqn:Eu; try discriminate H.
  destruct (_ && _) eqn:En; [|discriminate H]. apply andb_prop in En. destruct En as [En Em].
  destruct (dsched _ _ _ _ _ _ _ _) as [[s h1]|] eqn:Es; [|discriminate H]. injection H as <- <-. cbn [rn_kind rn_core rn_objs rn_solver rn_state].
  split.
  - exists 20, st, i, no_other, 20, ca1, (fun l => l), id_order.
    split; [exact Er|]. split; [reflexivity|]. split; [exact Ei|]. split; [exact Ee|].
    split; [intros; apply Permutation_refl|]. split; [split; intros; apply Permutation_refl|]. split; [exact Eu|].
    eapply dsched_ok; [|exact Es]. constructor.
  - clear Er Ei Ee Eu. rewrite forallb_forall in En. intros q Hq.
    assert (Nq : ~ In q (names c1)) by (intros K; apply En in K; apply mem_In in K; contradiction).
    change (pfs q) with (w_fs (s_world (init_state sv (WD pfs ca1 1 1 []))) q).
    revert Em Es. generalize (init_state sv (WD pfs ca1 1 1 [])) ([] : list (state world)). clear - Nq Hq.
    induction ms as [|m ms IH]; intros s0 h0 Em Es; cbn [dsched forallb] in *; [injection Es as <- <-; reflexivity|].
    apply andb_prop in Em. destruct Em as [Em1 Em2].
    destruct (dstep _ _ _ _ _ m s0 h0) as [s2|] eqn:E1; [|discriminate Es]. rewrite (IH _ _ Em2 Es).
    apply (dstep_only _ _ _ _ _ _ _ _ _ _ E1 Nq). intros p v -> ->. apply mem_In in Em1. contradiction.
Qed.
(** src.c is edited after the rule for out/lib/a.o has read it and before it is done. *)
Definition dmoves : list dmove :=
  [DMove (CGet 0)] ++ repeat (DMove (CFin 0)) 6 ++ [DEdit "/w/src.c" "new"; DLate 0 1] ++ repeat (DMove (CFin 0)) 2 ++ [DMove CJoin].
Definition dtest (r : ran) : bool :=
  fine r && all_ran_well r && (String.eqb (text r "/w/out/lib/a.o") "o:src" && String.eqb (text r "/w/src.c") "new") &&
  on_disk pnames after_disk (w_fs (s_world (rn_state r))) &&
  then_alone (w_fs (s_world (rn_state r))) (w_now (s_world (rn_state r))) one_worker (fun r2 =>
    fine r2 && match w_ran (s_world (rn_state r2)) with [] => true | _ => false end &&
    (String.eqb (text r2 "/w/out/lib/a.o") "o:src" && String.eqb (text r2 "/w/src.c") "new")).
Definition on_late (o : option (ran * list (state world))) (test : ran -> bool) : bool := match o with Some (r, _) => test r | None => false end.
Lemma on_late_ok o test : on_late o test = true -> exists r h, o = Some (r, h) /\ test r = true.
Proof. destruct o as [[r h]|]; [eauto|discriminate]. Qed.
Lemma dtest_ok : on_late (dprocess dmoves) dtest = true.
Proof. vm_compute. reflexivity. Qed.
Lemma edited_late : exists kind c1 objs sv s h exists_ kind' c1' objs' sv' s',
  disturbed_building "/w" "/h" (on_path pdisk) no_glob false pscript "/w/out/app" 1 pfs 1 kind c1 objs sv (s :: h) /\
  succeeded objs s /\ no_rule_failed pproj (s_world s) /\
  disk_ok "/w" (present (w_fs (s_world s))) exists_ /\ in_order "/w" "/h" no_glob exists_ pscript /\
  building "/w" "/h" exists_ no_glob false pscript "/w/out/app" 1 (w_fs (s_world s)) (w_now (s_world s)) kind' c1' objs' sv' s' /\ succeeded objs' s' /\
  w_ran (s_world s') = [] /\
  contents (w_fs (s_world s')) "/w/out/lib/a.o" = Some "o:src" /\ contents (w_fs (s_world s')) "/w/src.c" = Some "new".
Proof.
  destruct (on_late_ok _ _ dtest_ok) as (r & h & E & H). destruct (dprocess_ok _ _ _ E) as [B Ho]. clear E. unfold dtest in H.
  apply andb_prop in H. destruct H as [H H5]. apply andb_prop in H. destruct H as [H H4]. apply andb_prop in H. destruct H as [H H3]. apply andb_prop in H. destruct H as [H1 H2].
  destruct (on_disk_ok _ _ _ Ho H4) as [D K]. destruct (then_alone_ok _ _ _ _ H5) as (r2 & T & B2).
  apply andb_prop in T. destruct T as [T T3]. apply andb_prop in T. destruct T as [T1 T2]. apply andb_prop in T3. destruct T3 as [T3 T4].
  exists (rn_kind r), (rn_core r), (rn_objs r), (rn_solver r), (rn_state r), h, (on_path after_disk), (rn_kind r2), (rn_core r2), (rn_objs r2), (rn_solver r2), (rn_state r2).
  split; [exact B|]. split; [exact (fine_ok _ H1)|]. split; [exact (all_ran_well_ok _ _ H2)|]. split; [exact D|]. split; [exact K|]. split; [exact B2|].
  split; [exact (fine_ok _ T1)|]. split; [|split; [apply text_eq; [intros E; discriminate E|exact T3]|apply text_eq; [intros E; discriminate E|exact T4]]].
  revert T2. destruct (w_ran (s_world (rn_state r2))); [reflexivity|intros T2; discriminate T2].
Qed.
Lemma wrong_object src : src "/w/src.c" = Some "new" -> ~ right_content pproj src "/w/out/lib/a.o" (Some "o:src").
Proof.
  intros Hs H. remember "/w/out/lib/a.o" as p eqn:Ep. remember (Some "o:src") as v eqn:Ev. destruct H as [p Hp|p f ds b s v Hp Hin Hb].
  - subst p. rewrite pproj_eq in Hp. discriminate Hp.
  - subst p. injection Ev as ->. pose proof Hp as Hp'. rewrite pproj_eq in Hp'. cbn in Hp'. injection Hp' as <- <- <-.
    assert (I : p_input pproj "/w/out/lib/a.o" "/w/src.c").
    { apply pi_file; [exists ["/w/src.c"]; split; [now left|right; eauto]|]. left. rewrite pproj_eq. reflexivity. }
    specialize (Hin _ I). unfold read1 in Hb. remember (s "/w/src.c") as u eqn:Eu. remember "/w/src.c" as q eqn:Eq. destruct Hin as [q Hq|q f' ds' b' s' v' Hq _ _].
    + subst q. rewrite Hs in Hb. discriminate Hb.
    + subst q. rewrite pproj_eq in Hq. discriminate Hq.
Qed.
