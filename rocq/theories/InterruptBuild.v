(** Lemmas: Ctrl-C during the build of a script (C91). *)
From Coq Require Import Permutation Relations.
From Verif Require Import PyBase PyPath PathProofs SolverModel SpecGraph InvokerModel SpecTrace InvokerProofs InvokerInv InvokerThms InvokerPath
  CoreModel SpecCore CoreProofs NeedProofs RuProofs CoreThms MakeModel MakeEval SpecMake MakeProofs MakeFacts MakeTimes MakeBuild MakeThms MakeClaims
  RegModel CliModel SpecUtil UtilProofs SpecReg RegProofs RegScript RegBuild RegTotal BuildSafe SpecProject ProjectProofs CliProofs ProjectBuild
  CommandModel SpecCommand CommandProofs InterruptModel InterruptProofs.
Local Open Scope string_scope.
Local Open Scope list_scope.

Lemma building_on cwd home exists_ glob_ partial l x th fs now kind c1 objs sv s z :
  building cwd home exists_ glob_ partial l x th fs now kind c1 objs sv s ->
  steps (inv_of (sv_inv sv)) (mk_task (realpath cwd) kind partial c1 objs) s z ->
  building cwd home exists_ glob_ partial l x th fs now kind c1 objs sv z.
Proof.
  intros (fuel & st & i & other_if & fuel' & ca1 & order & so & Hr & Hk & Hg & He & Ho & Hso & Hru & Hex) Hs.
  exists fuel, st, i, other_if, fuel', ca1, order, so. do 7 (split; [assumption|]). eapply steps_trans; [exact Hex|exact Hs].
Qed.
Lemma commanded_on cwd home exists_ glob_ partial other l default ws th fs now kind c1 objs sv s z :
  commanded cwd home exists_ glob_ partial other l default ws th fs now kind c1 objs sv s ->
  steps (inv_of (sv_inv sv)) (mk_task (realpath cwd) kind partial c1 objs) s z ->
  commanded cwd home exists_ glob_ partial other l default ws th fs now kind c1 objs sv z.
Proof.
  intros (fuel & st & i & other_if & fuel' & ca1 & order & so & Hr & Hk & Hm & Ho & Hso & Hru & Hex) Hs.
  exists fuel, st, i, other_if, fuel', ca1, order, so. do 6 (split; [assumption|]). eapply steps_trans; [exact Hex|exact Hs].
Qed.

Section Script.
  Variables (cwd home : string) (fs : fsys) (exists_ : string -> bool) (glob_ : string -> list string) (l : list stmt).
  Hypothesis disk : disk_ok cwd (present fs) exists_.
  Hypothesis ok : in_order cwd home glob_ exists_ l.
  Notation canon := (realpath cwd).
  Notation P := (project_of cwd home glob_ l).
  Notation makes := (makes cwd home glob_).

  Lemma building_solver partial x th now kind c1 objs sv s : In x (flat_map makes l) ->
    building cwd home exists_ glob_ partial l x th fs now kind c1 objs sv s ->
    exists so dts ca1 c i other_if, fair_order so /\ solver_init so dts (Some th) = inr sv /\
      exec_reaches sv (mk_task canon kind partial c1 objs) (WD fs ca1 now now []) s /\
      implements canon kind P c i /\
      forall z, exec_reaches sv (mk_task canon kind partial c1 objs) (WD fs ca1 now now []) z ->
        build_of canon kind other_if partial c i fs now [] c1 objs z.
  Proof.
    intros Hx (fuel & st & i & other_if & fuel' & ca1 & order & so & Hr & -> & Hg & He & Ho & Hso & Hru & Hex).
    destruct (made_get cwd home fs exists_ glob_ l disk ok fuel st Hr x Hx) as (i' & Hg' & Hn & Hk & Hko & nm & Hi). rewrite Hg in Hg'. injection Hg' as <-.
    pose proof (threads_inv cwd home fs exists_ glob_ l _ th (script_inv cwd home fs exists_ glob_ l disk ok fuel st Hr)) as Iv.
    set (r := (set_threads (fst (reg st 0)) th, snd (reg st 0))) in *.
    destruct (evaluated cwd home fs exists_ glob_ l disk ok fuel st Hr th other_if fuel' c1 ca1 He) as ((Hw & _ & _ & _ & Hnp) & St & Hco & Hth).
    assert (Hi1 : resolves canon c1 (t_name (obj c1 i)) i).
    { apply (Hco nm). destruct St as (<- & _). exact Hi. }
    destruct (ru_exec_facts canon c1 Hw Hco Hnp i Hi1 order Ho so Hso None th Hth objs sv Hru) as (dts & _ & _ & _ & Hs & _).
    destruct (script_process cwd home exists_ glob_ l fuel st Hr th) as (cops & _ & Pc).
    exists so, dts, ca1, (fst r), i, other_if. split; [exact Hso|]. split; [exact Hs|]. split; [exact Hex|]. split.
    - eapply (whole_implements cwd home (present fs) exists_ glob_ disk l ok r Iv); [exists nm; exact Hi|exact Hko].
    - intros z Hz. split; [exact Pc|]. split; [exact (whole_coherent cwd home (present fs) exists_ glob_ l r Iv)|]. split; [exists nm; exact Hi|].
      split; [intros j y _ _ H; discriminate H|]. exists fuel', ca1, order, so, None, th, sv. auto 10.
  Qed.

  (** After Ctrl-C the files are as if the process had been killed a bit later and somebody
      had then deleted some files. *)
  Lemma building_interrupt x th now kind c1 objs sv s w' : In x (flat_map makes l) ->
    building cwd home exists_ glob_ false l x th fs now kind c1 objs sv s ->
    interrupted (mk_task canon kind false c1 objs) (mk_killed kind false c1 objs) s w' -> reads_only P -> dated fs now ->
    exists z, steps (inv_of (sv_inv sv)) (mk_task canon kind false c1 objs) s z /\
      outside_step P (w_fs (s_world z)) (w_now (s_world z)) (w_fs w') (w_now w').
  Proof.
    intros Hx Hb Hi Hro Hd. destruct (building_solver false x th now kind c1 objs sv s Hx Hb) as (so & dts & ca1 & c & i & other_if & Hso & Hs & Hex & Him & Hbo).
    exact (interrupt_sim canon kind other_if P c i fs now [] c1 objs ca1 so dts th sv Hso Hs Him Hbo Hro Hd s w' Hex Hi).
  Qed.
  Lemma building_touches partial x th now kind c1 objs sv s w' : In x (flat_map makes l) ->
    building cwd home exists_ glob_ partial l x th fs now kind c1 objs sv s ->
    interrupted (mk_task canon kind partial c1 objs) (mk_killed kind partial c1 objs) s w' ->
    List.length (in_threads s) <= Z.to_nat th /\
    forall p, is_file P p -> w_fs w' p <> w_fs (s_world s) p ->
    is_rule P p /\ exists t, In t (in_threads s) /\ p = t_name (obj c1 (nth t objs (List.length (c_heap c1)))).
  Proof.
    intros Hx Hb Hi. destruct (building_solver partial x th now kind c1 objs sv s Hx Hb) as (so & dts & ca1 & c & i & other_if & Hso & Hs & Hex & Him & Hbo).
    split; [exact (interrupt_width (mk_task canon kind partial c1 objs) so dts th sv Hso Hs _ s Hex)|].
    exact (interrupt_touches canon kind other_if partial P c i fs now [] c1 objs s w' Him (Hbo s Hex) Hi).
  Qed.
End Script.

Lemma history_dated canon P fs now : history canon P fs now -> reads_only P -> dated fs now.
Proof. intros H R. eapply history_ok; eauto. Qed.

Lemma script_interrupt cwd home fs exists_ glob_ l : disk_ok cwd (present fs) exists_ -> in_order cwd home glob_ exists_ l ->
  forall x th now kind c1 objs sv s w', In x (flat_map (makes cwd home glob_) l) ->
  building cwd home exists_ glob_ false l x th fs now kind c1 objs sv s ->
  interrupted (mk_task (realpath cwd) kind false c1 objs) (mk_killed kind false c1 objs) s w' ->
  reads_only (project_of cwd home glob_ l) -> script_history cwd home glob_ l fs now ->
  script_history cwd home glob_ l (w_fs w') (w_now w').
Proof.
  intros D K x th now kind c1 objs sv s w' X B Hi R H.
  assert (Hd : dated fs now) by (eapply history_dated; [apply script_history_ok; exact H|exact R]).
  destruct (building_interrupt cwd home fs exists_ glob_ l D K x th now kind c1 objs sv s w' X B Hi R Hd) as (z & Hz & Ho).
  eapply sh_outside; [|exact Ho]. eapply sh_process with (1 := H) (2 := D) (3 := K) (4 := X). eapply building_on; eauto.
Qed.

Lemma reads_agree (P P' : project) : (forall p, P' p = P p) -> reads_only P -> reads_only P'.
Proof.
  intros E R p f ds b HP s s' H. rewrite E in HP. apply (R p f ds b HP). intros q Hq. apply H. clear HP H.
  induction Hq as [p q (ds0 & Hin & Hd) Hf|p x ds0 q (ds1 & Hin & Hd) Hx _ IH].
  - apply pi_file; [exists ds0; rewrite E; auto|]. destruct Hf as [Hf|(f0 & d0 & b0 & Hf)]; [left; now rewrite E|right; exists f0, d0, b0; now rewrite E].
  - eapply pi_set; [exists ds1; rewrite E; eauto|rewrite E; exact Hx|exact IH].
Qed.
Lemma outside_agree (P P' : project) fs now fs' now' : (forall p, P' p = P p) -> outside_step P' fs now fs' now' -> outside_step P fs now fs' now'.
Proof.
  intros E [A B]. split; [exact A|]. intros p. destruct (B p) as [H|[H|[(H & H')|(H & H')]]]; [auto|auto| |].
  - right. right. left. split; [now rewrite <- E|exact H'].
  - right. right. right. split; [|exact H']. intros F. apply H. destruct F as [F|(f & ds & b & F)]; [left; now rewrite E|right; exists f, ds, b; now rewrite E].
Qed.
Lemma command_interrupt cwd home fs exists_ glob_ l : disk_ok cwd (present fs) exists_ -> in_order cwd home glob_ exists_ l ->
  forall other default ws x th now kind c1 objs sv s w',
  calls_for cwd home glob_ l default ws x "makefile" -> In (meaning cwd l x) (flat_map (makes cwd home glob_) l) ->
  commanded cwd home exists_ glob_ false other l default ws th fs now kind c1 objs sv s ->
  interrupted (mk_task (realpath cwd) kind false c1 objs) (mk_killed kind false c1 objs) s w' ->
  reads_only (project_of cwd home glob_ l) -> command_history cwd home glob_ l fs now ->
  command_history cwd home glob_ l (w_fs w') (w_now w').
Proof.
  intros D K other default ws x th now kind c1 objs sv s w' C X B Hi R H.
  assert (Hd : dated fs now) by (eapply history_dated; [apply command_history_ok; exact H|exact R]).
  destruct (command_building cwd home fs exists_ glob_ l D K other false default ws x th now kind c1 objs sv s C X B) as (l' & _ & Hio & Hp & Hm & Hb).
  pose proof X as X'. rewrite <- Hm in X'.
  destruct (building_interrupt cwd home fs exists_ glob_ l' D Hio _ th now kind c1 objs sv s w' X' Hb Hi (reads_agree _ _ Hp R) Hd) as (z & Hz & Ho).
  eapply ch_outside; [|eapply outside_agree; [exact Hp|exact Ho]]. eapply ch_makefile with (1 := H) (2 := D) (3 := K) (4 := C) (5 := X). eapply commanded_on; eauto.
Qed.
