(** Lemmas: builds of scripts whose calls take time (C99). *)
From Coq Require Import Permutation.
From Verif Require Import PyBase PyPath SolverModel SpecGraph InvokerModel SpecTrace InvokerProofs InvokerInv InvokerThms InvokerPath
  CoreModel SpecCore CoreProofs NeedProofs RuProofs CoreThms MakeModel MakeEval SpecMake MakeProofs MakeFacts MakeTimes MakeBuild MakeThms MakeClaims RegBuild BuildSafe
  RegModel CliModel SpecUtil SpecReg SpecProject ProjectProofs ProjectBuild FineModel SpecFine FineProofs.
Local Open Scope string_scope.
Local Open Scope list_scope.

Lemma only_settled P : reads_only P -> reads_settled P.
Proof. intros H p f ds b HP s s' Hs. apply (H p f ds b HP). intros q Hq. apply Hs. now left. Qed.

Lemma fine_build_atom canon kind other_if partial P c i fs now ca c1 objs n s h :
  implements canon kind P c i -> reads_settled P -> fine_build_of canon kind other_if partial c i fs now ca c1 objs n (s :: h) ->
  exists a, build_of canon kind other_if partial c i fs now ca c1 objs a /\ same_but_made kind c1 objs s a /\
    (s_main s = MReturned -> forall q, ~ being_made kind c1 objs s q) /\
    (forall t f b q s1, busy (s_log s) t -> kind (nth t objs (List.length (c_heap c1))) = MFile f b ->
       In s1 (s :: h) -> busy (s_log s1) t -> p_input P (t_name (obj c1 (nth t objs (List.length (c_heap c1))))) q ->
       w_fs (s_world s1) q = w_fs (s_world a) q).
Proof.
  intros Him Hro (Hpc & Hco & Hreg & Hcur & fuel & ca1 & order & so & threads & th & sv & He & Hord & Hso & Hth & Hru & Hex).
  destruct (fine_atom canon kind other_if partial P c i fs now ca c1 objs fuel ca1 order so threads th sv
              Him Hro Hpc Hco Hreg Hcur He Hord Hso Hth Hru n (s :: h) Hex s h eq_refl) as (a & [Hn Es Er Ef Ed Eb Eo Ep]).
  pose proof (natom_atom canon kind partial fs now c1 objs ca1 sv n a Hn) as Ha.
  exists a. split; [|split; [|split]].
  - eapply atom_build; eauto.
  - split; [exact Es|]. split; [exact Er|]. intros q. destruct (Ef q) as [E|(k & (f & b & Hk) & Nk & Bk & Eq)]; [now left|right].
    exists k, f, b. auto.
  - intros Hm q (t & f & b & Bt & _). pose proof (same_log _ _ Es) as La. rewrite <- La in Bt.
    eapply (atom_returned canon kind other_if partial c i fs now ca c1 objs fuel ca1 order so threads th sv
              Hpc Hco Hreg He Hord Hso Hth Hru a Ha); [|exact Bt]. rewrite Es. exact Hm.
  - intros t f b q s1 Bt Hk Hs1 Bs1 Hq. eapply Ed; eauto. exists f, b. exact Hk.
Qed.

(** Every call can end. *)
Lemma fine_tasks_end canon kind partial c1 objs s h t : wf_core c1 -> busy (s_log s) t ->
  exists r w', fine_task canon kind partial c1 objs (s :: h) t (s_world s) r w'.
Proof.
  intros Hw Bt. destruct (mk_tasks_end canon kind partial c1 objs Hw t (s_world s)) as (r & w' & T).
  revert T. unfold mk_task, fine_task, task_behaviour. set (j := nth t objs (List.length (c_heap c1))).
  assert (Hself : seen (s :: h) t (contents (w_fs (s_world s)))) by (intros q; exists s; split; [now left|auto]).
  assert (G : mk_update canon kind partial c1 j (s_world s) r w' -> exists r w', fine_update canon kind partial c1 t (s :: h) j (s_world s) r w').
  { intros U. destruct U as [force b v m Hk Hb Hlt Hin p fs'|force b fs' now' r ca' Hk Hb p Hf' Hr|Hk p|Hk|r w' Hk].
    - do 2 eexists. eapply fu_rule; eauto.
    - do 2 eexists. eapply (fu_rule_fails canon kind partial c1 t (s :: h) j (s_world s) force b _ (fs_set (w_fs (s_world s)) p None)); [exact Hk|exact Hself|exact Hb| | |left; split; reflexivity].
      + intros q n. unfold fs_set. destruct (String.eqb_spec q p) as [E|_]; [now elim n|reflexivity].
      + right. left. split; [|reflexivity]. unfold fs_set, p. now rewrite String.eqb_refl.
    - do 2 eexists. apply fu_plain; [congruence|now apply up_source].
    - do 2 eexists. apply fu_plain; [congruence|now apply up_set].
    - exists RNotFalse, (s_world s). apply fu_plain; [congruence|now apply up_other]. }
  intros T. destruct (kind j) eqn:Ek; try (exists r, w'; exact T); destruct (t_class (obj c1 j)); try (exists r, w'; exact T);
    destruct (t_need (obj c1 j)) as [[|]|]; try (exists r, w'; exact T); exact (G T).
Qed.
Lemma fine_goes_on canon kind partial c1 objs sv s h a : wf_core c1 -> a = set_world (s_world a) s ->
  (forall w t, nth_error (s_workers s) w = Some (WRun t) -> busy (s_log s) t) ->
  (exists a', step (inv_of (sv_inv sv)) (mk_task canon kind partial c1 objs) a a') ->
  exists s', fine_move canon kind partial sv c1 objs h s s'.
Proof.
  intros Hw Es Hb (a' & St).
  destruct St as [w a Hm Hwk Hq|w a Hm Hwk Hq|w t r world' order a Hm Hwk T HP|a Hm Hrel]; rewrite Es in *; cbn in *.
  - eexists. apply fm_plain. now apply (step_get _ _ w).
  - eexists. apply fm_plain. now apply (step_drain _ _ w).
  - destruct (fine_tasks_end canon kind partial c1 objs s h t Hw (Hb w t Hwk)) as (r' & w' & T').
    eexists. eapply fm_ends; eauto.
  - eexists. apply fm_plain. now apply step_join.
Qed.

Lemma right_ext P src src' p v : (forall q, src q = src' q) -> right_content P src p v -> right_content P src' p v.
Proof.
  intros E H. induction H as [p Hp|p f ds b s v Hp Hin IH Hb].
  - rewrite E. now constructor.
  - econstructor; eauto.
Qed.

Section Script.
  Variables (cwd home : string) (fs : fsys) (exists_ : string -> bool) (glob_ : string -> list string) (l : list stmt).
  Hypothesis disk : disk_ok cwd (present fs) exists_.
  Hypothesis ok : in_order cwd home glob_ exists_ l.
  Local Notation P := (project_of cwd home glob_ l).
  Local Notation canon := (realpath cwd).
  Hypothesis Hro : reads_settled P.

  Lemma script_atom partial x th now kind c1 objs sv n s h : In x (flat_map (makes cwd home glob_) l) ->
    fine_building cwd home exists_ glob_ partial l x th fs now kind c1 objs sv n (s :: h) ->
    exists a, building cwd home exists_ glob_ partial l x th fs now kind c1 objs sv a /\ same_but_made kind c1 objs s a /\
      (s_main s = MReturned -> forall q, ~ being_made kind c1 objs s q) /\ wf_core c1 /\
      (forall w t, nth_error (s_workers s) w = Some (WRun t) -> busy (s_log s) t) /\
      (exists w0, nsteps (inv_of (sv_inv sv)) (mk_task canon kind partial c1 objs) n (init_state sv w0) a) /\
      forall t f b, let q := t_name (obj c1 (nth t objs (List.length (c_heap c1)))) in
        busy (s_log s) t -> kind (nth t objs (List.length (c_heap c1))) = MFile f b ->
        is_rule P q /\ (forall r, ~ In (q, r) (w_ran (s_world s))) /\
        (forall k, In k (finished (s_log s)) \/ In k (raised (s_log s)) -> t_name (obj c1 (nth k objs (List.length (c_heap c1)))) <> q) /\
        forall s0, began (s :: h) t s0 -> w_fs (s_world s0) q = w_fs (s_world a) q.
  Proof.
    intros Hx (fuel & st & i & other_if & fuel' & ca1 & order & so & Hr & -> & Hg & He & Ho & Hso & Hru & Hex).
    destruct (made_get cwd home fs exists_ glob_ l disk ok fuel st Hr x Hx) as (i' & Hg' & Hn & Hk & Hko & nm & Hi). rewrite Hg in Hg'. injection Hg' as <-.
    pose proof (threads_inv cwd home fs exists_ glob_ l _ th (script_inv cwd home fs exists_ glob_ l disk ok fuel st Hr)) as I.
    set (r := (set_threads (fst (reg st 0)) th, snd (reg st 0))) in *.
    destruct (evaluated cwd home fs exists_ glob_ l disk ok fuel st Hr th other_if fuel' c1 ca1 He) as (Hr1 & _ & _ & Hth).
    destruct (script_process cwd home exists_ glob_ l fuel st Hr th) as (cops & _ & Pc).
    assert (Him : implements canon (kind_of (reg st 0)) P (fst r) i)
      by (eapply (whole_implements cwd home (present fs) exists_ glob_ disk l ok r I); [exists nm; exact Hi|exact Hko]).
    pose proof (whole_coherent cwd home (present fs) exists_ glob_ l r I) as Hco.
    assert (Hcur : cache_current canon (kind_of (reg st 0)) (fst r) i fs []) by (intros j y _ _ H; discriminate H).
    assert (Hreg : exists nm, In (nm, i) (c_targets (fst r))) by (exists nm; exact Hi).
    destruct (fine_atom canon _ other_if partial P (fst r) i fs now [] c1 objs fuel' ca1 order so None th sv
                Him Hro Pc Hco Hreg Hcur He Ho Hso Hth Hru n (s :: h) Hex s h eq_refl) as (a & [Hna Es Er Ef Ed Eb Eo Ep]).
    pose proof (natom_atom canon _ partial fs now c1 objs ca1 sv n a Hna) as Ha. pose proof (same_log _ _ Es) as La.
    exists a. split; [|split; [|split; [|split; [|split; [|split]]]]].
    - exists fuel, st, i, other_if, fuel', ca1, order, so. auto 10.
    - split; [exact Es|]. split; [exact Er|]. intros q. destruct (Ef q) as [E|(k & (f & b & Hk') & Nk & Bk & Eq)]; [now left|right].
      exists k, f, b. auto.
    - intros Hm q (t & f & b & Bt & _). rewrite <- La in Bt.
      eapply (atom_returned canon _ other_if partial (fst r) i fs now [] c1 objs fuel' ca1 order so None th sv
                Pc Hco Hreg He Ho Hso Hth Hru a Ha); [|exact Bt]. rewrite Es. exact Hm.
    - apply Hr1.
    - intros w t Hw. rewrite <- La.
      eapply (busy_run canon _ other_if partial (fst r) i fs now [] c1 objs fuel' ca1 order so None th sv Pc Hco Hreg He Ho Hso Hth Hru a w t Ha).
      rewrite Es. exact Hw.
    - eexists. exact Hna.
    - intros t f b q Bt Hkt. assert (Ba : busy (s_log a) t) by (rewrite La; exact Bt).
      split; [|split; [|split]].
      + destruct (task_file canon _ other_if partial P (fst r) i fs now [] c1 objs fuel' ca1 order so None th sv Him Pc Hco Hreg Hcur He Ho Hso Hth Hru
                    t a Ha (proj1 Ba)) as (f' & b' & ds & _ & HP & _); [exists f, b; exact Hkt|]. exists f', ds, b'. exact HP.
      + intros v. destruct Er as (_ & _ & _ & Er). rewrite Er. eapply (busy_ran canon _ other_if partial P (fst r) i fs now [] c1 objs fuel' ca1 order so None th sv); eauto.
      + intros k Hk'. rewrite <- La in Hk'. eapply (busy_ended canon _ other_if partial P (fst r) i fs now [] c1 objs fuel' ca1 order so None th sv); eauto.
      + intros s0 B0. apply Eb; [exists f, b; exact Hkt|exact Bt|exact B0].
  Qed.
  (** Such a process is a build in the general sense. *)
  Lemma script_fine_build partial x th now kind c1 objs sv n h : In x (flat_map (makes cwd home glob_) l) ->
    fine_building cwd home exists_ glob_ partial l x th fs now kind c1 objs sv n h ->
    exists other_if c i, implements canon kind P c i /\ fine_build_of canon kind other_if partial c i fs now [] c1 objs n h.
  Proof.
    intros Hx (fuel & st & i & other_if & fuel' & ca1 & order & so & Hr & -> & Hg & He & Ho & Hso & Hru & Hex).
    destruct (made_get cwd home fs exists_ glob_ l disk ok fuel st Hr x Hx) as (i' & Hg' & Hn & Hk & Hko & nm & Hi). rewrite Hg in Hg'. injection Hg' as <-.
    pose proof (threads_inv cwd home fs exists_ glob_ l _ th (script_inv cwd home fs exists_ glob_ l disk ok fuel st Hr)) as I.
    set (r := (set_threads (fst (reg st 0)) th, snd (reg st 0))) in *.
    destruct (evaluated cwd home fs exists_ glob_ l disk ok fuel st Hr th other_if fuel' c1 ca1 He) as (Hr1 & _ & _ & Hth).
    destruct (script_process cwd home exists_ glob_ l fuel st Hr th) as (cops & _ & Pc).
    exists other_if, (fst r), i. split.
    - eapply (whole_implements cwd home (present fs) exists_ glob_ disk l ok r I); [exists nm; exact Hi|exact Hko].
    - split; [exact Pc|]. split; [exact (whole_coherent cwd home (present fs) exists_ glob_ l r I)|]. split; [exists nm; exact Hi|].
      split; [intros j y _ _ H; discriminate H|]. exists fuel', ca1, order, so, None, th, sv. repeat (split; [assumption|]). exact Hex.
  Qed.
  Lemma same_result objs s a : a = set_world (s_world a) s -> succeeded objs s <-> succeeded objs a.
  Proof. intros ->. reflexivity. Qed.

  Lemma script_fine_goes_on partial x th now kind c1 objs sv n s h : In x (flat_map (makes cwd home glob_) l) -> dirs_free cwd home l fs -> (1 <= th)%Z ->
    fine_building cwd home exists_ glob_ partial l x th fs now kind c1 objs sv n (s :: h) -> no_rule_failed P (s_world s) ->
    succeeded objs s \/ s_main s = MJoin /\ exists s', fine_move canon kind partial sv c1 objs h s s'.
  Proof.
    intros Hx Hfree Ht Hb Hnf. destruct (script_atom partial x th now kind c1 objs sv n s h Hx Hb) as (a & Ba & (Es & Er & Ef) & _ & Hw & Hbusy & _).
    assert (Hnfa : no_rule_failed P (s_world a)).
    { intros p Hp Hin. apply (Hnf p Hp). destruct Er as (_ & _ & _ & ->). exact Hin. }
    destruct (building_goes_on cwd home fs exists_ glob_ l disk ok partial x th now kind c1 objs sv a Hx Hfree Ht Ba Hnfa) as [H|[Hm H]].
    - left. now apply (same_result objs s a Es).
    - right. split; [rewrite Es in Hm; exact Hm|]. eapply fine_goes_on; eauto.
  Qed.
  Lemma script_fine_bounded partial x th now kind c1 objs sv n s h : In x (flat_map (makes cwd home glob_) l) ->
    fine_building cwd home exists_ glob_ partial l x th fs now kind c1 objs sv n (s :: h) -> n <= 2 * List.length objs + 1.
  Proof.
    intros Hx Hb. destruct (script_atom partial x th now kind c1 objs sv n s h Hx Hb) as (a & Ba & _ & _ & _ & _ & (w0 & Hn) & _).
    eapply (building_bounded cwd home fs exists_ glob_ l disk ok); eauto.
  Qed.
  Lemma script_fine_right x th now kind c1 objs sv n s h : In x (flat_map (makes cwd home glob_) l) ->
    fine_building cwd home exists_ glob_ false l x th fs now kind c1 objs sv n (s :: h) -> succeeded objs s ->
    reads_only P -> script_history cwd home glob_ l fs now ->
    forall p, is_file P p -> p_cone P x p -> right_content P (contents (w_fs (s_world s))) p (contents (w_fs (s_world s)) p).
  Proof.
    intros Hx Hb Hs Hr Hh p Hp Hc. destruct (script_atom false x th now kind c1 objs sv n s h Hx Hb) as (a & Ba & (Es & _ & Ef) & Hq & _).
    assert (E : forall q, contents (w_fs (s_world a)) q = contents (w_fs (s_world s)) q).
    { intros q. unfold contents. destruct (Ef q) as [->|H]; [reflexivity|]. exfalso. exact (Hq (proj1 Hs) q H). }
    rewrite <- E. apply (right_ext P _ _ p _ E). eapply script_right; eauto. now apply (same_result objs s a Es).
  Qed.
End Script.

Lemma fine_histories cwd home glob_ l fs now : reads_settled (project_of cwd home glob_ l) -> fine_history cwd home glob_ l fs now ->
  script_history cwd home glob_ l fs now.
Proof.
  intros Hro H. induction H as [fs now Hd Hr Hf|fs now fs' now' H IH Ho|fs now exists_ x th kind c1 objs sv n s h H IH Hd Hok Hx Hb Hq].
  - now apply sh_start.
  - eapply sh_outside; eauto.
  - destruct (script_atom cwd home fs exists_ glob_ l Hd Hok Hro false x th now kind c1 objs sv n s h Hx Hb) as (a & Ba & (_ & (_ & _ & En & _) & Ef) & _).
    eapply (sh_outside cwd home glob_ l (w_fs (s_world a)) (w_now (s_world a))); [eapply sh_process; eauto|].
    split; [rewrite En; apply le_n|]. intros p. left. destruct (Ef p) as [E|E]; [exact E|]. now destruct (Hq p).
Qed.
Lemma building_fine cwd home fs exists_ glob_ l : disk_ok cwd (present fs) exists_ -> in_order cwd home glob_ exists_ l ->
  forall partial x th now kind c1 objs sv s, In x (flat_map (makes cwd home glob_) l) ->
  building cwd home exists_ glob_ partial l x th fs now kind c1 objs sv s ->
  exists n h, fine_building cwd home exists_ glob_ partial l x th fs now kind c1 objs sv n (s :: h).
Proof.
  intros disk ok partial x th now kind c1 objs sv s Hx
    (fuel & st & i & other_if & fuel' & ca1 & order & so & Hr & -> & Hg & He & Ho & Hso & Hru & Hex).
  destruct (made_get cwd home fs exists_ glob_ l disk ok fuel st Hr x Hx) as (i' & Hg' & Hn & Hk & Hko & nm & Hi). rewrite Hg in Hg'. injection Hg' as <-.
  pose proof (threads_inv cwd home fs exists_ glob_ l _ th (script_inv cwd home fs exists_ glob_ l disk ok fuel st Hr)) as I.
  set (r := (set_threads (fst (reg st 0)) th, snd (reg st 0))) in *.
  destruct (evaluated cwd home fs exists_ glob_ l disk ok fuel st Hr th other_if fuel' c1 ca1 He) as (Hr1 & _ & _ & Hth).
  destruct (script_process cwd home exists_ glob_ l fuel st Hr th) as (cops & _ & Pc).
  assert (Him : implements (realpath cwd) (kind_of (reg st 0)) (project_of cwd home glob_ l) (fst r) i)
    by (eapply (whole_implements cwd home (present fs) exists_ glob_ disk l ok r I); [exists nm; exact Hi|exact Hko]).
  pose proof (whole_coherent cwd home (present fs) exists_ glob_ l r I) as Hco.
  assert (Hcur : cache_current (realpath cwd) (kind_of (reg st 0)) (fst r) i fs []) by (intros j y _ _ H; discriminate H).
  assert (Hreg : exists nm, In (nm, i) (c_targets (fst r))) by (exists nm; exact Hi).
  destruct (atom_natom (realpath cwd) _ partial fs now c1 objs ca1 sv s Hex) as (n & Hna).
  destruct (atom_fine (realpath cwd) _ other_if partial _ (fst r) i fs now [] c1 objs fuel' ca1 order so None th sv
              Him Pc Hco Hreg Hcur He Ho Hso Hth Hru n s Hna) as (h & Hf & _).
  exists n, h. exists fuel, st, i, other_if, fuel', ca1, order, so. auto 10.
Qed.
