(** Lemmas: scripts that are edited between processes (C85). *)
From Coq Require Import Permutation.
From Verif Require Import PyBase PyPath PathProofs SolverModel SpecGraph InvokerModel SpecTrace InvokerProofs InvokerInv InvokerThms
  CoreModel SpecCore CoreProofs NeedProofs RuProofs CoreThms MakeModel MakeEval SpecMake MakeProofs MakeFacts MakeTimes MakeStatus MakeBuild MakeThms MakeClaims
  RegModel CliModel SpecUtil SpecReg RegBuild SpecProject ProjectProofs ProjectBuild SpecEdit.
Local Open Scope string_scope.
Local Open Scope list_scope.

(** Each file made by a rule is what the rule made of earlier contents, of which those that it
    looked at are still the same, or gone, or later than it; or it is seen to be out of date. *)
Definition kept (P : project) (fs : fsys) : Prop :=
  forall p f ds b m v, P p = Some (DRule f ds b) -> fs p = Some (m, Reg v) ->
    (exists (s0 : string -> option string) (D : string -> Prop), b s0 = Some v /\ (forall s, (forall q, D q -> s q = s0 q) -> b s = b s0) /\
      forall q, D q -> p_input P p q /\ (contents fs q = s0 q \/ fs q = None \/ exists mq nq, fs q = Some (mq, nq) /\ m < mq)) \/
    (exists q, p_input P p q /\ (fs q = None \/ exists mq nq, fs q = Some (mq, nq) /\ m < mq)).
Lemma kept_faithful P fs : kept P fs -> faithful P fs.
Proof.
  intros K p f ds b m v HP E Hin. destruct (K p f ds b m v HP E) as [(s0 & D & Eb & HD & H)|(q & Hq & H)].
  - rewrite <- Eb. apply HD. intros q Hq. destruct (H q Hq) as [Hi G]. destruct (Hin q Hi) as (mq & nq & Eq & L).
    destruct G as [G|[G|(m' & n' & G & L')]]; [exact G|congruence|]. rewrite Eq in G. injection G as <- _. lia.
  - exfalso. destruct (Hin q Hq) as (mq & nq & Eq & L). destruct H as [H|(m' & n' & G & L')]; [congruence|].
    rewrite Eq in G. injection G as <- _. lia.
Qed.
(** Files of the project that change get a later date. *)
Lemma kept_change P fs now fs' : reads_only P -> dated fs now -> kept P fs ->
  (forall q, is_file P q -> fs' q = fs q \/ fs' q = None \/ exists m n, fs' q = Some (m, n) /\ now < m) ->
  (forall p f ds b m v, P p = Some (DRule f ds b) -> fs' p = Some (m, Reg v) -> now < m -> b (contents fs') = Some v) ->
  kept P fs'.
Proof.
  intros Hro Hd K Hc Hn p f ds b m v HP E.
  destruct (Nat.le_gt_cases m now) as [L|L].
  2: { left. exists (contents fs'), (p_input P p). split; [now apply (Hn p f ds b m v)|]. split; [|now auto].
       intros s Hs. now apply (Hro p f ds b HP). }
  assert (Ep : fs p = Some (m, Reg v)).
  { destruct (Hc p) as [G|[G|(m' & n' & G & L')]]; [right; now exists f, ds, b|congruence|congruence|]. rewrite E in G. injection G as <- _. lia. }
  assert (Late : forall q, p_input P p q -> fs q = None \/ (exists mq nq, fs q = Some (mq, nq) /\ m < mq) ->
    fs' q = None \/ exists mq nq, fs' q = Some (mq, nq) /\ m < mq).
  { intros q Hq H. destruct (Hc q (p_input_file P _ _ Hq)) as [G|[G|(m' & n' & G & L')]].
    - rewrite G. exact H.
    - now left.
    - right. exists m', n'. split; [exact G|lia]. }
  destruct (K p f ds b m v HP Ep) as [(s0 & D & Eb & HD & H)|(q & Hq & H)]; [left|right; exists q; auto].
  exists s0, D. split; [exact Eb|]. split; [exact HD|]. intros q Hq. destruct (H q Hq) as [Hi G]. split; [exact Hi|].
  destruct G as [G|G]; [|right; now apply Late].
  destruct (Hc q (p_input_file P _ _ Hi)) as [G'|[G'|(m' & n' & G' & L')]].
  - left. unfold contents in *. now rewrite G'.
  - right. now left.
  - right. right. exists m', n'. split; [exact G'|lia].
Qed.

Section Run.
  Variable canon : string -> string.
  Variable P : project.
  Hypothesis Hro : reads_only P.
  Lemma run_kept kind c i fs now l w0 w : dated fs now -> kept P fs -> run_of canon kind false P c i fs now l w0 w -> kept P (w_fs w).
  Proof.
    intros Hda K R. pose proof (ro_imp _ _ _ _ _ _ _ _ _ _ _ R) as Him.
    assert (Frame : forall q, is_file P q -> w_fs w q = fs q \/ w_fs w q = None \/
      exists j f b m v, in_cone canon c i j /\ t_name (obj c j) = q /\ kind j = MFile f b /\ w_fs w q = Some (m, Reg v) /\ now < m /\ b (contents (w_fs w)) = Some v).
    { intros q Hq. destruct (run_frame canon kind false P c i fs now w0 l w R q) as
        [E|[(j & _ & Hj & -> & (f' & b' & Ek) & _)|(_ & (j & _ & Hj & Hk & Ej) & _)]]; [now left| |].
      - destruct (run_status canon kind P c i fs now w0 l w R j f' b' Hj Ek) as [_ A _|_ _ A _|m' v' A B E L _ _|r _ _ _ A _ _]; auto.
        + destruct (run_contents canon kind P c i fs now w0 l w R j f' b' Hj Ek A B) as (m2 & v2 & E2 & L2 & Hb & _).
          right. right. exists j, f', b', m2, v2. auto 10.
        + destruct A as [A|A]; auto.
      - exfalso. destruct (Him j Hj) as [_ HI]. rewrite Hk in HI. now apply (proj1 HI q). }
    apply (kept_change P fs now); [exact Hro|exact Hda|exact K| |].
    - intros q Hq. destruct (Frame q Hq) as [E|[E|(j & f & b & m & v & _ & _ & _ & E & L & _)]]; auto. right. right. eauto.
    - intros p f ds b m v HP E L.
      destruct (Frame p) as [G|[G|(j & f' & b' & m' & v' & Hj & Ej & Ek & G & _ & Eb)]]; [right; now exists f, ds, b| |congruence|].
      + rewrite G in E. specialize (Hda p m (Reg v) E). lia.
      + rewrite E in G. injection G as <- <-. destruct (Him j Hj) as [_ HI]. rewrite Ek in HI. destruct HI as (ds' & HI & _). rewrite Ej in HI. congruence.
  Qed.
End Run.

(** An edit that takes care. *)
Lemma kept_edit P P' fs : reads_only P -> reads_only P' -> kept P fs ->
  (forall p f ds b, P' p = Some (DRule f ds b) -> survives P P' fs p b) -> kept P' fs.
Proof.
  intros Hro Hro' K Hs p f' ds' b' m v HP E. destruct (Hs p f' ds' b' HP) as [H|q Hq H|f ds b H Hb Hi|f ds b H Hb Hi].
  - congruence.
  - right. exists q. split; [exact Hq|]. destruct H as [H|(mq & nq & mp & np & A & B & L)]; [now left|right].
    exists mq, nq. split; [exact A|]. rewrite E in B. injection B as -> _. exact L.
  - destruct (K p f ds b m v H E) as [(s0 & D & Eb & HD & HI)|(q & Hq & G)]; [left|right; exists q; auto].
    exists s0, D. split; [now rewrite <- Hb|]. split; [intros s Hs'; rewrite <- !Hb; now apply HD|].
    intros q Hq. destruct (HI q Hq) as [A B]. auto.
  - left. exists (contents fs), (p_input P' p). split; [|split; [intros s Hs'; now apply (Hro' p f' ds' b' HP)|now auto]].
    rewrite <- Hb. apply (kept_faithful P fs K p f ds b m v H E).
    intros q Hq. destruct (Hi q Hq) as [A B]. destruct (fs q) as [[mq nq]|] eqn:Eq; [|congruence].
    exists mq, nq. split; [reflexivity|]. destruct (Nat.le_gt_cases mq m) as [L|L]; [exact L|]. exfalso. apply B. exists mq, nq, m, (Reg v). auto.
Qed.

Lemma kept_outside P fs now fs' now' : reads_only P -> dated fs now -> kept P fs -> outside_step P fs now fs' now' -> kept P fs'.
Proof.
  intros Hro Hd K [Hle Hs]. apply (kept_change P fs now); [exact Hro|exact Hd|exact K| |].
  - intros q Hq. destruct (Hs q) as [G|[G|[(_ & m' & v & G & L)|(G & _)]]]; auto; [|contradiction].
    right. right. exists m', (Reg v). split; [exact G|lia].
  - intros p f ds b m v HP E L. exfalso. destruct (Hs p) as [G|[G|[(G & _)|(G & _)]]].
    + rewrite G in E. specialize (Hd p m (Reg v) E). lia.
    + congruence.
    + congruence.
    + apply G. right. now exists f, ds, b.
Qed.
Lemma edit_ok cwd home v fs now : edit_history cwd home v fs now ->
  reads_only (version cwd home v) /\ dated fs now /\ kept (version cwd home v) fs /\ no_dirs (version cwd home v) fs.
Proof.
  induction 1 as [v fs now Hro Hd Hr Hn|v fs now fs' now' _ (Hro & Hd & K & Hn) Ho
    |v fs now exists_ x th kind c1 objs sv s _ (Hro & Hd & K & Hn) Hdk Hio Hx Hb|v v' fs now _ (Hro & Hd & K & Hn) Hro' Hn' Hs].
  - split; [exact Hro|]. split; [exact Hd|]. split; [|exact Hn]. intros p f ds b m w HP E. rewrite Hr in E; [discriminate|now exists f, ds, b].
  - split; [exact Hro|]. split; [|split; [now apply (kept_outside _ fs now fs' now')|]]; destruct Ho as [Hle Hs].
    + intros p m n E. destruct (Hs p) as [G|[G|[(_ & m' & w & G & L)|(_ & m' & n' & G & L)]]]; rewrite G in E.
      * specialize (Hd p m n E). lia.
      * discriminate.
      * injection E as -> _. lia.
      * injection E as -> _. lia.
    + intros p m Hp E. destruct (Hs p) as [G|[G|[(_ & m' & w & G & L)|(G & _)]]]; [|congruence|congruence|contradiction].
      apply (Hn p m Hp). congruence.
  - destruct v as [glob_ l]. cbn [fst snd] in *.
    destruct (building_of cwd home fs exists_ glob_ l Hdk Hio false x th now kind c1 objs sv s Hx Hb) as (c & i & other_if & Him & Hbo & _ & _).
    destruct (build_run (realpath cwd) kind other_if false _ c i fs now [] c1 objs s Him Hbo) as (_ & w0 & cl & R & _).
    split; [exact Hro|]. split; [now apply (run_times _ kind false _ c1 i fs now w0 cl (s_world s) R)|]. split.
    + eapply run_kept; eauto.
    + eapply run_no_dirs; eauto.
  - split; [exact Hro'|]. split; [exact Hd|]. split; [|exact Hn']. now apply (kept_edit (version cwd home v)).
Qed.

Lemma edited_right cwd home fs exists_ v : disk_ok cwd (present fs) exists_ -> in_order cwd home (fst v) exists_ (snd v) ->
  forall x th now kind c1 objs sv s, In x (flat_map (makes cwd home (fst v)) (snd v)) ->
  building cwd home exists_ (fst v) false (snd v) x th fs now kind c1 objs sv s -> succeeded objs s ->
  edit_history cwd home v fs now ->
  forall p, is_file (version cwd home v) p -> p_cone (version cwd home v) x p ->
  right_content (version cwd home v) (contents (w_fs (s_world s))) p (contents (w_fs (s_world s)) p).
Proof.
  intros Hdk Hio x th now kind c1 objs sv s Hx Hb Hok Hh p Hp Hc. destruct (edit_ok cwd home v fs now Hh) as (Hro & Hd & K & Hn).
  destruct v as [glob_ l]. cbn [fst snd] in *.
  destruct (building_of cwd home fs exists_ glob_ l Hdk Hio false x th now kind c1 objs sv s Hx Hb) as (c & i & other_if & Him & Hbo & Ex & Hki).
  destruct (build_run (realpath cwd) kind other_if false _ c i fs now [] c1 objs s Him Hbo) as (S & w0 & cl & R & Hs).
  pose proof (ro_imp _ _ _ _ _ _ _ _ _ _ _ R) as Him1. pose proof (ro_wf _ _ _ _ _ _ _ _ _ _ _ R) as Hw.
  rewrite <- Ex, (static_name c c1 i S) in Hc.
  destruct (p_cone_obj (realpath cwd) kind _ c1 i Hw Him1 i p (rt_refl _ _ _) Hki Hc) as (j & Hj & Hkj & <-).
  apply (success_contents (realpath cwd) _ Hro kind c1 i fs now cl w0 _ Hd (kept_faithful _ _ K) Hn R (Hs Hok) j Hj).
  exact (p_file_kind (realpath cwd) kind _ c1 i Him1 j Hj Hkj Hp).
Qed.

(** Edits are seen, if every rule names the script, and the script is newer than what there is. *)
Lemma script_named cwd home v v' fs now q : edit_history cwd home v fs now -> reads_only (version cwd home v') ->
  (forall p m, is_file (version cwd home v') p -> fs p <> Some (m, Dir)) ->
  (forall p, is_rule (version cwd home v') p -> p_input (version cwd home v') p q) ->
  (forall p, is_rule (version cwd home v') p -> fs p = None \/ newer fs q p) -> edit_history cwd home v' fs now.
Proof.
  intros Hh Hro Hn Hi Hnew. apply (eh_edit cwd home v v' fs now Hh Hro Hn). intros p f ds b HP.
  assert (R : is_rule (version cwd home v') p) by now exists f, ds, b.
  destruct (Hnew p R) as [H|H]; [now apply sv_absent|]. apply (sv_noticed _ _ _ _ _ q); auto.
Qed.
(** Or everything that the new version makes is removed first. *)
Lemma edit_absent cwd home v v' fs now : edit_history cwd home v fs now -> reads_only (version cwd home v') ->
  (forall p m, is_file (version cwd home v') p -> fs p <> Some (m, Dir)) ->
  (forall p, is_rule (version cwd home v') p -> fs p = None) -> edit_history cwd home v' fs now.
Proof.
  intros Hh Hro Hn Hi. apply (eh_edit cwd home v v' fs now Hh Hro Hn). intros p f ds b HP. apply sv_absent, Hi. now exists f, ds, b.
Qed.
(** The old kind of history is one without edits. *)
Lemma unedited cwd home glob_ l fs now : reads_only (project_of cwd home glob_ l) -> script_history cwd home glob_ l fs now -> edit_history cwd home (glob_, l) fs now.
Proof.
  intros Hro H. induction H.
  - now apply eh_start.
  - eapply eh_outside; eauto.
  - eapply (eh_process cwd home (glob_, l)); eauto.
Qed.
