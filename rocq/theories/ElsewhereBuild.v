(** Lemmas: processes of scripts while files elsewhere change (C101). *)
From Coq Require Import Permutation.
From Verif Require Import PyBase PyPath PathProofs SolverModel SpecGraph InvokerModel SpecTrace InvokerProofs InvokerInv InvokerThms InvokerPath
  CoreModel SpecCore CoreProofs NeedProofs RuProofs CoreThms MakeModel MakeEval SpecMake MakeProofs MakeFacts MakeTimes MakeBuild MakeThms MakeClaims BuildSafe
  RegModel CliModel SpecUtil SpecReg SpecProject ProjectProofs ProjectBuild FineModel SpecFine FineProofs FineBuild SpecCrowd CrowdProofs SpecElsewhere ElsewhereProofs.
Local Open Scope string_scope.
Local Open Scope list_scope.

(** The right content depends on the sources below only. *)
Lemma right_below P src src' p v : right_content P src p v ->
  (forall q, p_cone P p q -> P q = Some DSource -> src q = src' q) -> right_content P src' p v.
Proof.
  induction 1 as [p HP|p f ds b s v HP Hin IH Hb]; intros E.
  - rewrite (E p); [now constructor|apply rt_refl|exact HP].
  - econstructor; [exact HP| |exact Hb]. intros q Hq. apply IH; [exact Hq|].
    intros x Hx. apply E. eapply rt_trans; [apply p_input_below; exact Hq|exact Hx].
Qed.

Section Script.
  Variables (cwd home : string) (fs : fsys) (exists_ : string -> bool) (glob_ : string -> list string) (l : list stmt).
  Hypothesis disk : disk_ok cwd (present fs) exists_.
  Hypothesis ok : in_order cwd home glob_ exists_ l.
  Local Notation P := (project_of cwd home glob_ l).
  Local Notation canon := (realpath cwd).

  Lemma prepared x th kind c1 objs sv ca1 : In x (flat_map (makes cwd home glob_) l) ->
    prepares cwd home exists_ glob_ l x th fs kind c1 objs sv ca1 ->
    exists i so dts, wf_core c1 /\ implements canon kind P c1 i /\ (forall j, In j objs <-> in_cone canon c1 i j) /\
      fair_order so /\ solver_init so dts (Some th) = inr sv /\ List.length dts = List.length objs /\ t_name (obj c1 i) = x /\ kind i <> MDir.
  Proof.
    intros Hx (fuel & st & i & other_if & fuel' & order & so & Hr & -> & Hg & He & Ho & Hso & Hru).
    destruct (made_get cwd home fs exists_ glob_ l disk ok fuel st Hr x Hx) as (i' & Hg' & Hn & Hk & Hko & nm & Hi). rewrite Hg in Hg'. injection Hg' as <-.
    pose proof (threads_inv cwd home fs exists_ glob_ l _ th (script_inv cwd home fs exists_ glob_ l disk ok fuel st Hr)) as I.
    set (r := (set_threads (fst (reg st 0)) th, snd (reg st 0))) in *.
    destruct (evaluated cwd home fs exists_ glob_ l disk ok fuel st Hr th other_if fuel' c1 ca1 He) as (Hr1 & S & Hco1 & Hth).
    assert (Him : implements canon (kind_of (reg st 0)) P (fst r) i)
      by (eapply (whole_implements cwd home (present fs) exists_ glob_ disk l ok r I); [exists nm; exact Hi|exact Hko]).
    assert (Hx1 : In (nm, i) (c_targets c1)) by (destruct S as (<- & _); exact Hi).
    assert (Hi1 : resolves canon c1 (t_name (obj c1 i)) i) by (now apply (Hco1 nm)).
    destruct (ru_exec_facts canon c1 (proj1 Hr1) Hco1 ltac:(apply Hr1) i Hi1 order Ho so Hso None th Hth objs sv Hru) as (dts & _ & Hc & _ & Hs & Hl & _).
    exists i, so, dts. split; [apply Hr1|]. split; [eapply static_implements; eauto|]. split; [exact Hc|]. split; [exact Hso|]. split; [exact Hs|]. split; [exact Hl|].
    split; [|exact Hk]. rewrite <- (static_name _ c1 i S). exact Hn.
  Qed.
  Lemma prepared_building partial x th kind c1 objs sv ca1 now a :
    prepares cwd home exists_ glob_ l x th fs kind c1 objs sv ca1 ->
    exec_reaches sv (mk_task canon kind partial c1 objs) (WD fs ca1 now now []) a ->
    building cwd home exists_ glob_ partial l x th fs now kind c1 objs sv a.
  Proof.
    intros (fuel & st & i & other_if & fuel' & order & so & H) Ha. exists fuel, st, i, other_if, fuel', ca1, order, so.
    destruct H as (? & ? & ? & ? & ? & ? & ?). auto 10.
  Qed.

  Hypothesis Hro : reads_only P.
  Lemma script_alone partial x th now kind c1 objs sv s : In x (flat_map (makes cwd home glob_) l) ->
    amid_building cwd home exists_ glob_ partial l x th fs now kind c1 objs sv s ->
    exists a, building cwd home exists_ glob_ partial l x th fs now kind c1 objs sv a /\ as_if kind c1 objs s a.
  Proof.
    intros Hx (ca1 & Hp & Ha). destruct (prepared x th kind c1 objs sv ca1 Hx Hp) as (i & so & dts & Hw & Him & Hc & Hso & Hs & Hl & _).
    destruct (amid_alone canon kind partial P Hro c1 i objs sv Hw Him Hc so dts th Hso Hs Hl _ s Ha) as (a & R & A).
    exists a. split; [|exact A]. eapply prepared_building; eauto.
  Qed.
  Lemma as_if_result kind c1 objs s a : as_if kind c1 objs s a -> succeeded objs s <-> succeeded objs a.
  Proof. intros (-> & _). reflexivity. Qed.

  Lemma script_amid_right x th now kind c1 objs sv s : In x (flat_map (makes cwd home glob_) l) ->
    amid_building cwd home exists_ glob_ false l x th fs now kind c1 objs sv s -> succeeded objs s ->
    script_history cwd home glob_ l fs now ->
    forall p, is_file P p -> p_cone P x p ->
    right_content P (contents (w_fs (s_world s))) p (contents (w_fs (s_world s)) p).
  Proof.
    intros Hx Ha Hsu Hh p Hf Hp. destruct (script_alone false x th now kind c1 objs sv s Hx Ha) as (a & Hb & A).
    pose proof (script_right cwd home fs exists_ glob_ l disk ok x th now kind c1 objs sv a Hx Hb
      (proj1 (as_if_result kind c1 objs s a A) Hsu) Hro Hh p Hf Hp) as R.
    destruct Ha as (ca1 & Hpr & _). destruct (prepared x th kind c1 objs sv ca1 Hx Hpr) as (i & so & dts & Hw & Him & Hc & _ & _ & _ & Hn & Hk).
    assert (Own : forall q, p_cone P x q -> is_file P q -> contents (w_fs (s_world a)) q = contents (w_fs (s_world s)) q).
    { intros q Hq Fq. rewrite <- Hn in Hq. destruct (p_cone_obj canon kind P c1 i Hw Him i q (rt_refl _ _ _) Hk Hq) as (j & Hj & Hkj & <-).
      destruct A as (_ & _ & _ & _ & K & _). unfold contents. rewrite K; [reflexivity|]. exists j. split; [now apply Hc|]. split; [|reflexivity].
      destruct (p_file_kind canon kind P c1 i Him j Hj Hkj Fq) as [E|(f & b & E)]; rewrite E; exact Logic.I. }
    rewrite <- (Own p Hp Hf). eapply right_below; [exact R|]. intros q Hq HP. apply Own; [|now left].
    eapply rt_trans; [exact Hp|exact Hq].
  Qed.

  Lemma script_amid_goes_on partial x th now kind c1 objs sv s : In x (flat_map (makes cwd home glob_) l) ->
    dirs_free cwd home l fs -> (1 <= th)%Z ->
    amid_building cwd home exists_ glob_ partial l x th fs now kind c1 objs sv s ->
    no_rule_failed P (s_world s) ->
    succeeded objs s \/ s_main s = MJoin /\ exists s', step (inv_of (sv_inv sv)) (mk_task canon kind partial c1 objs) s s'.
  Proof.
    intros Hx Hd Hth Ha Hn. destruct (script_alone partial x th now kind c1 objs sv s Hx Ha) as (a & Hb & A).
    assert (Hn' : no_rule_failed P (s_world a)).
    { destruct A as (_ & _ & _ & E & _). unfold no_rule_failed in *. rewrite <- E. exact Hn. }
    destruct (building_goes_on cwd home fs exists_ glob_ l disk ok partial x th now kind c1 objs sv a Hx Hd Hth Hb Hn') as [Sa|[M St]].
    - left. now apply (as_if_result kind c1 objs s a A).
    - right. destruct Ha as (ca1 & Hpr & _). destruct (prepared x th kind c1 objs sv ca1 Hx Hpr) as (i & so & dts & Hw & _).
      split; [|exact (amid_goes_on canon kind partial c1 objs sv Hw s a A St)]. destruct A as [Ea _]. rewrite Ea in M. exact M.
  Qed.
End Script.

(** Two processes that are apart. *)
Section Two.
  Variables (cwd home : string) (fs : fsys) (now : nat).
  Variables (there1 there2 : string -> bool) (glob1 glob2 : string -> list string) (l1 l2 : list stmt).
  Hypothesis disk1 : disk_ok cwd (present fs) there1.
  Hypothesis disk2 : disk_ok cwd (present fs) there2.
  Hypothesis ok1 : in_order cwd home glob1 there1 l1.
  Hypothesis ok2 : in_order cwd home glob2 there2 l2.
  Local Notation canon := (realpath cwd).
  Lemma beside_amid partial x1 th1 x2 th2 p1 p2 s1 s2 :
    In x1 (flat_map (makes cwd home glob1) l1) -> In x2 (flat_map (makes cwd home glob2) l2) ->
    begins_alone cwd home there1 glob1 l1 x1 th1 fs now p1 -> begins_alone cwd home there2 glob2 l2 x2 th2 fs now p2 ->
    apart (pr_kind p1) (pr_core p1) (pr_objs p1) (pr_kind p2) (pr_core p2) (pr_objs p2) ->
    apart (pr_kind p2) (pr_core p2) (pr_objs p2) (pr_kind p1) (pr_core p1) (pr_objs p1) ->
    beside canon partial p1 p2 s1 s2 ->
    amid_building cwd home there1 glob1 partial l1 x1 th1 fs now (pr_kind p1) (pr_core p1) (pr_objs p1) (pr_solver p1) s1 /\
    amid_building cwd home there2 glob2 partial l2 x2 th2 fs now (pr_kind p2) (pr_core p2) (pr_objs p2) (pr_solver p2) s2.
  Proof.
    intros Hx1 Hx2 (ca1 & Hp1 & E1) (ca2 & Hp2 & E2) A12 A21 H.
    destruct (prepared cwd home fs there1 glob1 l1 disk1 ok1 x1 th1 _ _ _ _ ca1 Hx1 Hp1) as (i1 & so1 & dts1 & Hw1 & Him1 & Hc1 & Hso1 & Hs1 & Hl1 & _).
    destruct (prepared cwd home fs there2 glob2 l2 disk2 ok2 x2 th2 _ _ _ _ ca2 Hx2 Hp2) as (i2 & so2 & dts2 & Hw2 & Him2 & Hc2 & Hso2 & Hs2 & Hl2 & _).
    assert (G : w_fs (s_world s1) = w_fs (s_world s2) /\
      amid canon (pr_kind p1) partial (pr_solver p1) (pr_core p1) (pr_objs p1) (WD fs ca1 now now []) s1 /\
      amid canon (pr_kind p2) partial (pr_solver p2) (pr_core p2) (pr_objs p2) (WD fs ca2 now now []) s2).
    { induction H as [|s1 s2 s1' _ (E & IH1 & IH2) St|s1 s2 s2' _ (E & IH1 & IH2) St].
      - rewrite E1, E2. split; [reflexivity|]. split; constructor.
      - split; [reflexivity|]. split; [eapply am_moves; eauto|]. apply am_others; [exact IH2|]. rewrite <- E.
        eapply (step_apart canon (pr_kind p1) partial (project_of cwd home glob1 l1) (pr_core p1) i1 (pr_objs p1) (pr_solver p1) Him1 Hc1 so1 dts1 th1); eauto.
      - split; [reflexivity|]. split; [|eapply am_moves; eauto]. apply am_others; [exact IH1|]. rewrite E.
        eapply (step_apart canon (pr_kind p2) partial (project_of cwd home glob2 l2) (pr_core p2) i2 (pr_objs p2) (pr_solver p2) Him2 Hc2 so2 dts2 th2); eauto. }
    destruct G as (_ & G1 & G2). split; [exists ca1|exists ca2]; auto.
  Qed.
End Two.
