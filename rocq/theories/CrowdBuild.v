(** Lemmas: processes of a script that are not alone (C100). *)
From Coq Require Import Permutation.
From Verif Require Import PyBase PyPath SolverModel SpecGraph InvokerModel SpecTrace InvokerProofs InvokerInv InvokerThms InvokerPath
  CoreModel SpecCore CoreProofs NeedProofs RuProofs CoreThms MakeModel MakeEval SpecMake MakeProofs MakeFacts MakeTimes MakeBuild MakeThms MakeClaims RegBuild BuildSafe
  RegModel CliModel SpecUtil SpecReg SpecProject ProjectProofs ProjectBuild FineModel SpecFine FineProofs FineBuild SpecCrowd CrowdProofs.
Local Open Scope string_scope.
Local Open Scope list_scope.

Lemma script_begins_begins cwd home glob_ l fs now p : script_begins cwd home glob_ l fs now p ->
  begins (realpath cwd) (project_of cwd home glob_ l) fs now p.
Proof.
  intros (fs1 & fs2 & exists_ & x & th & fuel & st & i & other_if & fuel' & ca1 & order & so & disk & ok & Hx & Hr & Ek & Hg & He & Ho & Hso & Hru & Es).
  rewrite Ek in He.
  destruct (made_get cwd home fs1 exists_ glob_ l disk ok fuel st Hr x Hx) as (i' & Hg' & Hn & Hk & Hko & nm & Hi). rewrite Hg in Hg'. injection Hg' as <-.
  pose proof (threads_inv cwd home fs1 exists_ glob_ l _ th (script_inv cwd home fs1 exists_ glob_ l disk ok fuel st Hr)) as I.
  set (r := (set_threads (fst (reg st 0)) th, snd (reg st 0))) in *.
  destruct (script_process cwd home exists_ glob_ l fuel st Hr th) as (cops & _ & Pc).
  destruct (mevaluate_right _ _ other_if fs2 fuel' _ [] (pr_core p) ca1 (process_ready _ _ _ Pc) He) as (R1 & S & _).
  exists (fst r), i, other_if, fs2, fuel', [], ca1, order, so, None, th. rewrite Ek. split; [|split; [|split; [|split; [|split]]]].
  - eapply (whole_implements cwd home (present fs1) exists_ glob_ disk l ok r I); [exists nm; exact Hi|exact Hko].
  - exact Pc.
  - exact (whole_coherent cwd home (present fs1) exists_ glob_ l r I).
  - exists nm. exact Hi.
  - exact He.
  - repeat (split; [assumption|]). split; [|auto]. unfold ru_threads. destruct S as (_ & <- & _). reflexivity.
Qed.
Lemma script_builds_builds cwd home glob_ l fs now s : script_builds cwd home glob_ l fs now s ->
  builds (realpath cwd) (project_of cwd home glob_ l) fs now s.
Proof.
  intros (exists_ & x & th & kind & c1 & objs & sv & disk & ok & Hx & (fuel & st & i & other_if & fuel' & ca1 & order & so & Hr & -> & Hg & He & Ho & Hso & Hru & Hex)).
  destruct (made_get cwd home fs exists_ glob_ l disk ok fuel st Hr x Hx) as (i' & Hg' & Hn & Hk & Hko & nm & Hi). rewrite Hg in Hg'. injection Hg' as <-.
  pose proof (threads_inv cwd home fs exists_ glob_ l _ th (script_inv cwd home fs exists_ glob_ l disk ok fuel st Hr)) as I.
  set (r := (set_threads (fst (reg st 0)) th, snd (reg st 0))) in *.
  destruct (evaluated cwd home fs exists_ glob_ l disk ok fuel st Hr th other_if fuel' c1 ca1 He) as (Hr1 & _ & _ & Hth).
  destruct (script_process cwd home exists_ glob_ l fuel st Hr th) as (cops & _ & Pc).
  exists (kind_of (reg st 0)), other_if, (fst r), i, [], c1, objs. split.
  - eapply (whole_implements cwd home (present fs) exists_ glob_ disk l ok r I); [exists nm; exact Hi|exact Hko].
  - split; [exact Pc|]. split; [exact (whole_coherent cwd home (present fs) exists_ glob_ l r I)|]. split; [exists nm; exact Hi|].
    split; [intros j y _ _ H; discriminate H|]. exists fuel', ca1, order, so, None, th, sv. repeat (split; [assumption|]). exact Hex.
Qed.
Lemma script_project_crowd cwd home glob_ l fs now ps : script_crowd cwd home glob_ l fs now ps ->
  project_crowd (realpath cwd) (project_of cwd home glob_ l) fs now ps.
Proof. apply crowd_mono; [apply script_begins_begins|apply script_builds_builds]. Qed.

Lemma script_crowd_right cwd home fs exists_ glob_ l : disk_ok cwd (present fs) exists_ -> in_order cwd home glob_ exists_ l ->
  forall x th now ps kind c1 objs sv s, In x (flat_map (makes cwd home glob_) l) -> reads_only (project_of cwd home glob_ l) ->
  script_crowd cwd home glob_ l fs now ps ->
  building cwd home exists_ glob_ false l x th fs now kind c1 objs sv s -> succeeded objs s ->
  forall p, is_file (project_of cwd home glob_ l) p -> p_cone (project_of cwd home glob_ l) x p ->
  right_content (project_of cwd home glob_ l) (contents (w_fs (s_world s))) p (contents (w_fs (s_world s)) p).
Proof.
  intros D K x th now ps kind c1 objs sv s Hx Hro Hc Hb Hs p Hp Hcone.
  destruct (building_of cwd home fs exists_ glob_ l D K false x th now kind c1 objs sv s Hx Hb) as (c & i & other_if & Him & Hbo & Hn & Hk).
  rewrite <- Hn in Hcone. exact (crowd_right _ _ Hro kind other_if c i fs now ps [] c1 objs s (script_project_crowd _ _ _ _ _ _ _ Hc) Him Hbo Hs Hk p Hp Hcone).
Qed.
