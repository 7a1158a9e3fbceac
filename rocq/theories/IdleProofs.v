(** Lemmas: builds of scripts that find nothing to do, and builds after which the next one
    finds nothing to do (C84). *)
From Coq Require Import Permutation Operators_Properties.
From Verif Require Import PyBase PyPath PathProofs SolverModel SpecGraph InvokerModel SpecTrace InvokerProofs InvokerInv InvokerThms InvokerPath
  CoreModel SpecCore CoreProofs NeedProofs RuProofs CoreThms MakeModel MakeEval SpecMake MakeProofs MakeFacts MakeTimes MakeBuild MakeThms MakeClaims
  RegModel CliModel SpecUtil UtilProofs SpecReg RegProofs RegScript RegBuild RegTotal BuildSafe SpecProject ProjectProofs CliProofs ProjectBuild
  SpecTrack TrackProofs.
Local Open Scope string_scope.
Local Open Scope list_scope.

Section Run.
  Variable canon : string -> string.
  Variable kind : nat -> mkind.
  Variable partial : bool.
  Variable P : project.
  Variables (c : core) (i : nat) (fs : fsys) (now : nat) (w0 : world).
  Local Notation nm j := (t_name (obj c j)).
  Local Notation cone := (in_cone canon c i).
  Local Notation run := (run_of canon kind partial P c i fs now).

  (** Nothing is out of date and no directory takes part: no call does anything. *)
  Lemma run_idle l w : run l w0 w -> ~ needs_update P fs (nm i) -> (forall j, cone j -> kind j <> MDir) ->
    w_fs w = fs /\ w_ran w = [] /\ forall j r, In (j, r) l -> r = RNotFalse.
  Proof.
    intros R N D. pattern l, w. revert l w R. apply run_ind; cbv beta.
    - intros R. destruct (ro_start _ _ _ _ _ _ _ _ _ _ _ R) as (-> & _ & _ & ->). split; [reflexivity|]. split; [reflexivity|]. intros j r [].
    - intros l w1 j r w R (IH1 & IH2 & IH3) _ T Hj _ _.
      destruct (ro_imp _ _ _ _ _ _ _ _ _ _ _ R j Hj) as [Hc _].
      assert (Hn : t_need (obj c j) = Some false).
      { destruct (ro_need _ _ _ _ _ _ _ _ _ _ _ R j Hj) as ([|] & Eb & E); [|exact Eb]. exfalso.
        destruct (proj1 E eq_refl) as [[_ (q & Hq & Ho)]|(k & Hk & Ek & _)].
        - apply N. exists q. split; [|exact Ho]. eapply rt_trans; [|exact Hq].
          apply (cone_p canon kind P c i (ro_wf _ _ _ _ _ _ _ _ _ _ _ R) (ro_imp _ _ _ _ _ _ _ _ _ _ _ R) i j (rt_refl _ _ _) Hj). now apply D.
        - apply (D k); [eapply rt_trans; eauto|exact Ek]. }
      assert (E : r = RNotFalse /\ w = w1).
      { unfold obj_task in T. rewrite Hc, Hn in T. destruct (kind j) eqn:Ek; try exact T. now destruct (D j Hj). }
      destruct E as [-> ->]. split; [exact IH1|]. split; [exact IH2|]. intros k r Hk. apply in_app_iff in Hk.
      destruct Hk as [Hk|[Hk|[]]]; [eauto|congruence].
  Qed.

  (** Nothing is run without need. *)
  Lemma run_ran_need l w : run l w0 w -> forall p b, In (p, b) (w_ran w) ->
    exists j, In j (map fst l) /\ cone j /\ nm j = p /\ (kind j = MDir \/ t_need (obj c j) = Some true).
  Proof.
    intros R. pattern l, w. revert l w R. apply run_ind; cbv beta.
    - intros R p b Hp. destruct (ro_start _ _ _ _ _ _ _ _ _ _ _ R) as (_ & _ & _ & E). rewrite E in Hp. destruct Hp.
    - intros l w1 j r w R IH _ T Hj _ _ p b Hp.
      assert (G : In (p, b) (w_ran w1) \/ (nm j = p /\ (kind j = MDir \/ t_need (obj c j) = Some true))).
      { destruct (ro_imp _ _ _ _ _ _ _ _ _ _ _ R j Hj) as [Hc HI].
        destruct (ro_need _ _ _ _ _ _ _ _ _ _ _ R j Hj) as (need & Hn & _).
        assert (Ho : kind j <> MOther) by (intros E; rewrite E in HI; exact HI).
        assert (U : kind j <> MDir -> match t_need (obj c j) with
               | None => r = RExn /\ w = w1
               | Some true => mk_update canon kind partial c j w1 r w
               | Some false => r = RNotFalse /\ w = w1
               end -> In (p, b) (w_ran w1) \/ (nm j = p /\ (kind j = MDir \/ t_need (obj c j) = Some true))).
        { intros Hd U. rewrite Hn in *. destruct need; [|destruct U as [_ ->]; now left].
          destruct U as [force b0 v m Ek E Hm Hi p0 fs'|force b0 fs' now' r ca' Ek E p0 Hf Hr|Ek p0|Ek|r w' Ek]; cbn [w_ran] in Hp; try (now elim Ho); try (now left);
            apply in_app_iff in Hp; destruct Hp as [Hp|[Hp|[]]]; auto; injection Hp as <- <-; auto. }
        unfold obj_task in T. rewrite Hc in T. destruct (kind j) eqn:Ek; try (apply U; [discriminate|exact T]).
        destruct T; cbn [w_ran] in Hp; rewrite ?in_app_iff in Hp; auto; destruct Hp as [Hp|[Hp|[]]]; auto; injection Hp as <- <-; auto. }
      destruct G as [G|[G1 G2]].
      + destruct (IH p b G) as (k & K1 & K2). exists k. split; [rewrite map_app, in_app_iff; now left|exact K2].
      + exists j. split; [rewrite map_app, in_app_iff; right; now left|auto].
  Qed.

  (** What needs it is run. *)
  Lemma run_need_ran l w : run l w0 w -> forall j f b, In (j, RNotFalse) l -> kind j = MFile f b -> t_need (obj c j) = Some true ->
    In (nm j, true) (w_ran w).
  Proof.
    intros R. pattern l, w. revert l w R. apply run_ind; cbv beta.
    - intros R j f b [].
    - intros l w j r w' R IH R' T Hj Hnew Hdeps k f b Hk Ek Hn.
      pose proof (ro_imp _ _ _ _ _ _ _ _ _ _ _ R) as Him.
      apply in_app_iff in Hk. destruct Hk as [Hk|[Hk|[]]].
      + specialize (IH k f b Hk Ek Hn). destruct (Him j Hj) as [Hc HI].
        destruct (ro_need _ _ _ _ _ _ _ _ _ _ _ R j Hj) as (need & Hnj & _).
        assert (Ho : kind j <> MOther) by (intros E; rewrite E in HI; exact HI). unfold obj_task in T. rewrite Hc, Hnj in T.
        assert (U : (if need then mk_update canon kind partial c j w r w' else r = RNotFalse /\ w' = w) -> In (nm k, true) (w_ran w')).
        { destruct need; [|intros [_ ->]; exact IH]. intros U. destruct U; try contradiction; cbn [w_ran]; rewrite ?in_app_iff; auto. }
        destruct (kind j); try (apply U; destruct need; exact T).
        destruct T; cbn [w_ran]; rewrite ?in_app_iff; auto.
      + injection Hk as -> ->.
        unfold obj_task in T. destruct (Him k Hj) as [Hc _]. rewrite Ek, Hc, Hn in T.
        inversion T as [force b0 v m Ek' Eb Hm Hi p fs' E1 E2|force b0 fs' now' r ca' Ek' Eb p Hf Hr E1 E2|Ek' p E1 E2|Ek' E1|r w'' Ek' E1 E2];
          try congruence.
        * cbn [w_ran]. apply in_app_iff. right. now left.
        * exfalso. destruct Hr as [[Hr _]|[Hr _]]; discriminate.
  Qed.

  (** A file that was made in this build is not older than its inputs. *)
  Lemma run_fresh l w : run l w0 w -> forall j f b, In (j, RNotFalse) l -> kind j = MFile f b -> t_need (obj c j) = Some true ->
    exists m v, w_fs w (nm j) = Some (m, Reg v) /\ now < m /\
      forall k mk nk, input canon kind c j k -> w_fs w (nm k) = Some (mk, nk) -> mk <= m.
  Proof.
    intros R. pattern l, w. revert l w R. apply run_ind; cbv beta.
    - intros R j f b [].
    - intros l w j r w' R IH R' T Hj Hnew Hdeps.
      pose proof (ro_wf _ _ _ _ _ _ _ _ _ _ _ R) as Hw. pose proof (ro_imp _ _ _ _ _ _ _ _ _ _ _ R) as Him.
      assert (Cone : forall k r0, In (k, r0) l -> cone k) by (intros k r0; apply (ro_cone _ _ _ _ _ _ _ _ _ _ _ R)).
      assert (Diff : forall k r0, In (k, r0) l -> nm k <> nm j).
      { intros k r0 Hk E. apply Hnew. apply in_map_iff. exists (k, r0). split; [|exact Hk].
        apply (cone_inj canon c i Hw (ro_co _ _ _ _ _ _ _ _ _ _ _ R) (ro_reg _ _ _ _ _ _ _ _ _ _ _ R)); eauto. }
      assert (Same : forall k r0, In (k, r0) l -> is_file P (nm k) -> w_fs w' (nm k) = w_fs w (nm k)).
      { intros k r0 Hk Hf. eapply run_own; [exact R|exact Hj|exact T|exact Hf|]. now apply (Diff k r0). }
      assert (File : forall a k, cone a -> kind a <> MDir -> input canon kind c a k -> is_file P (nm k)).
      { intros a k Ha Hka Hi. eapply p_input_file. eapply input_p; eauto. }
      intros k f b Hk Ek Hn. apply in_app_iff in Hk. destruct Hk as [Hk|[Hk|[]]].
      + destruct (IH k f b Hk Ek Hn) as (m & v & E & L & Hin). exists m, v.
        assert (Hck := Cone k _ Hk). assert (Nd : kind k <> MDir) by congruence.
        rewrite (Same k _ Hk) by (eapply file_kind_p; [exact Him|exact Hck|right; eauto]). split; [exact E|]. split; [exact L|].
        intros x mx nx Hx Ex.
        destruct (in_split _ _ Hk) as (l1 & l2 & El).
        pose proof (done_inputs canon kind partial P c i fs now w0 l w R k x Hx l1 l2 RNotFalse El) as Hd.
        assert (Hxl : In (x, RNotFalse) l) by (rewrite El; apply in_app_iff; now left).
        rewrite (Same x _ Hxl (File k x Hck Nd Hx)) in Ex. eauto.
      + injection Hk as -> ->. assert (Nd : kind k <> MDir) by congruence.
        unfold obj_task in T. destruct (Him k Hj) as [Hc _]. rewrite Ek, Hc, Hn in T.
        inversion T as [force b0 v m Ek' Eb Hm Hi p fs' E1 E2|force b0 fs' now' r ca' Ek' Eb p Hf Hr E1 E2|Ek' p E1 E2|Ek' E1|r w'' Ek' E1 E2];
          try congruence.
        * destruct (run_times canon kind partial P c i fs now w0 l w R) as (Hb & _).
          exists m, v. cbn [w_fs]. unfold fs'. unfold fs_set at 1. unfold p. rewrite String.eqb_refl. split; [reflexivity|]. split; [lia|].
          intros x mx nx Hx Ex. unfold fs_set in Ex. destruct (String.eqb_spec (nm x) (nm k)) as [En|En].
          -- injection Ex as <- _. lia.
          -- eauto.
        * exfalso. destruct Hr as [[Hr _]|[Hr _]]; discriminate.
  Qed.

  (** After a build in which all calls have succeeded nothing is out of date. *)
  Lemma run_up_to_date l w : run l w0 w -> kind i <> MDir -> (forall j, cone j -> In (j, RNotFalse) l) ->
    (forall p ds b, p_cone P (nm i) p -> P p <> Some (DRule true ds b)) ->
    (forall p, p_cone P (nm i) p -> P p = Some DSource -> fs p <> None) -> ~ needs_update P (w_fs w) (nm i).
  Proof.
    intros R Hk Hall Hnf Hsrc (q & Hq & Ho).
    pose proof (ro_wf _ _ _ _ _ _ _ _ _ _ _ R) as Hw. pose proof (ro_imp _ _ _ _ _ _ _ _ _ _ _ R) as Him.
    destruct (p_cone_obj canon kind P c i Hw Him i q (rt_refl _ _ _) Hk Hq) as (j & Hj & Hkj & <-).
    assert (Rule : is_rule P (nm j) -> exists f b, kind j = MFile f b).
    { intros Hr. destruct (rule_kind canon kind P c i Him j Hj Hr) as (f & b & ds & E & _). eauto. }
    destruct (ro_need _ _ _ _ _ _ _ _ _ _ _ R j Hj) as (need & Hn & _).
    destruct Ho as [[Hf Hm]|[(ds & b & Hd)|[Hr (z & Hz & (mz & nz & mp & np & Ez & Ep & L))]]].
    - destruct Hf as [Hf|Hf].
      + rewrite (run_source canon kind partial P c i fs now w0 l w R _ Hf) in Hm. now apply (Hsrc (nm j)).
      + destruct (Rule Hf) as (f & b & Ek). destruct need.
        * destruct (run_fresh l w R j f b (Hall j Hj) Ek Hn) as (m & v & E & _). congruence.
        * destruct (idle_kept canon kind partial P c i fs now w0 l w R j Hj Hkj Hn) as [_ K].
          destruct (K (nm j) (rt_refl _ _ _) (or_intror Hf)) as [A B]. congruence.
    - now apply (Hnf (nm j) ds b).
    - destruct (Rule Hr) as (f & b & Ek).
      destruct (p_input_obj canon kind P c i Hw Him _ _ Hz j Hj Hkj eq_refl) as (k & Hin & <-). destruct need.
      + destruct (run_fresh l w R j f b (Hall j Hj) Ek Hn) as (m & v & E & _ & Hi).
        rewrite Ep in E. injection E as -> ->. specialize (Hi k mz nz Hin Ez). lia.
      + destruct (idle_kept canon kind partial P c i fs now w0 l w R j Hj Hkj Hn) as [N K].
        destruct (K (nm j) (rt_refl _ _ _) (or_intror Hr)) as [A _].
        destruct (K (nm k) (p_input_below P _ _ Hz) (p_input_file P _ _ Hz)) as [B _].
        apply N. exists (nm j). split; [apply rt_refl|]. right. right. split; [exact Hr|]. exists (nm k). split; [exact Hz|].
        exists mz, nz, mp, np. rewrite <- A, <- B. auto.
  Qed.
End Run.

Section Script.
  Variables (cwd home : string) (fs : fsys) (exists_ : string -> bool) (glob_ : string -> list string) (l : list stmt).
  Hypothesis disk : disk_ok cwd (present fs) exists_.
  Hypothesis ok : in_order cwd home glob_ exists_ l.
  Notation canon := (realpath cwd).
  Notation P := (project_of cwd home glob_ l).
  Notation makes := (makes cwd home glob_).
  Notation inv := (inv cwd home (present fs) exists_ glob_ l).

  (** A directory is needed only where a file is missing. *)
  Lemma dir_below_needed r i : inv l r -> (exists nm, In (nm, i) (c_targets (fst r))) -> kind_of r i <> MOther -> kind_of r i <> MDir ->
    forall j, in_cone canon (fst r) i j -> kind_of r j = MDir -> needs_update P fs (nm_of r i).
  Proof.
    intros I Hi Ho Hd. pose proof (whole_implements cwd home (present fs) exists_ glob_ disk l ok r I i Hi Ho) as Him.
    pose proof (whole_wf cwd home (present fs) exists_ glob_ l r I) as Hw.
    intros j Hj. apply clos_rt_rtn1 in Hj. induction Hj as [|j k Hjk Hj IH]; [intros Hk; now elim Hd|]. intros Hk.
    assert (Dec : kind_of r j = MDir \/ kind_of r j <> MDir) by (destruct (kind_of r j); (now left) || (right; discriminate)).
    destruct Dec as [Dec|Dec]; [now apply IH|]. clear IH. rename Dec into IH.
    apply clos_rtn1_rt in Hj. destruct (cone_registered_name canon (fst r) i j Hi Hj) as [nm Hn].
    destruct (cone_p canon (kind_of r) P (fst r) i Hw Him i j (rt_refl _ _ _) Hj IH) as [_ Hp].
    assert (Missing : is_file P (nm_of r j) -> present fs (dirname (nm_of r j)) = false -> needs_update P fs (nm_of r i)).
    { intros Hf Hx. exists (nm_of r j). split; [exact Hp|]. left. split; [exact Hf|].
      destruct (fs (nm_of r j)) eqn:E; [|reflexivity]. exfalso.
      assert (X : present fs (dirname (nm_of r j)) = true) by (apply (proj1 disk); unfold present; now rewrite E). congruence. }
    destruct Hjk as (d & Hdj & Hres).
    assert (Dd : forall s, In s l -> In d (deps_of home glob_ s) -> False).
    { intros s Hs Hd'. destruct (dep_means cwd home (present fs) exists_ glob_ l ok r I s d k Hs (deps_mentioned home glob_ s d Hd') Hres) as (X & _).
      exact (X Hk). }
    destruct (whole_desc cwd home (present fs) exists_ glob_ l r I nm j Hn) as (_ & _ & _ & C).
    assert (Hf : file_kind (kind_of r j) -> is_file P (nm_of r j)) by (apply (file_kind_p canon (kind_of r) P (fst r) i Him j Hj)).
    destruct (kind_of r j) as [f b| | | |] eqn:Ek.
    - destruct C as (_ & _ & s & ds & C2 & C3 & C4). destruct (declares_rule cwd home glob_ s _ _ _ C3) as [_ E2].
      destruct (dirs_facts cwd home (present fs) exists_ glob_ l ok r I nm j ds Hn) as (da & db & dd & _ & _ & E & Hdd); [now rewrite Ek|now rewrite Ek|exact C4|].
      apply E in Hdj. destruct Hdj as [Hdj|Hdj]; [exfalso; apply (Dd s C2); now rewrite E2|].
      destruct (Hdd d Hdj) as (Ed & HD & _). rewrite Ed in HD. apply Missing; [apply Hf; right; eauto|apply HD].
    - destruct C as (_ & _ & _ & C4).
      destruct (dirs_facts cwd home (present fs) exists_ glob_ l ok r I nm j [] Hn) as (da & db & dd & _ & _ & E & Hdd); [now rewrite Ek|now rewrite Ek|exact C4|].
      apply E in Hdj. destruct Hdj as [[]|Hdj]. destruct (Hdd d Hdj) as (Ed & HD & _). rewrite Ed in HD. apply Missing; [apply Hf; now left|apply HD].
    - now elim IH.
    - destruct C as (_ & s & ds & C2 & C3 & C4). destruct (declares_set cwd home glob_ s _ _ C3) as [_ E2]. exfalso. apply (Dd s C2). now rewrite E2, <- C4.
    - exfalso. exact (proj1 (whole_cone cwd home (present fs) exists_ glob_ disk l ok r I i Hi) Ho j Hj Ek).
  Qed.

  (** What is known about a process that makes [x]. *)
  Lemma building_run partial x th now kind c1 objs sv s : In x (flat_map makes l) ->
    building cwd home exists_ glob_ partial l x th fs now kind c1 objs sv s ->
    exists i w0 calls, t_name (obj c1 i) = x /\ kind i <> MDir /\
      run_of canon kind partial P c1 i fs now calls w0 (s_world s) /\
      (succeeded objs s -> forall j, in_cone canon c1 i j -> In (j, RNotFalse) calls) /\
      calls = map (fun x => (nth (fst x) objs (List.length (c_heap c1)), snd x)) (ended (s_log s)) /\
      forall j, in_cone canon c1 i j -> kind j <> MDir -> forall d, in_cone canon c1 j d -> kind d = MDir -> needs_update P fs (t_name (obj c1 j)).
  Proof.
    intros Hx (fuel & st & i & other_if & fuel' & ca1 & order & so & Hr & -> & Hg & He & Ho & Hso & Hru & Hex).
    destruct (made_get cwd home fs exists_ glob_ l disk ok fuel st Hr x Hx) as (i' & Hg' & Hn & Hk & Hko & nm & Hi). rewrite Hg in Hg'. injection Hg' as <-.
    pose proof (threads_inv cwd home fs exists_ glob_ l _ th (script_inv cwd home fs exists_ glob_ l disk ok fuel st Hr)) as I.
    set (r := (set_threads (fst (reg st 0)) th, snd (reg st 0))) in *.
    destruct (evaluated cwd home fs exists_ glob_ l disk ok fuel st Hr th other_if fuel' c1 ca1 He) as (_ & S & _ & Hth).
    destruct (script_process cwd home exists_ glob_ l fuel st Hr th) as (cops & _ & Pc).
    assert (Him : implements canon (kind_of (reg st 0)) P (fst r) i)
      by (eapply (whole_implements cwd home (present fs) exists_ glob_ disk l ok r I); [exists nm; exact Hi|exact Hko]).
    assert (Hbo : build_of canon (kind_of (reg st 0)) other_if partial (fst r) i fs now [] c1 objs s).
    { split; [exact Pc|]. split; [exact (whole_coherent cwd home (present fs) exists_ glob_ l r I)|]. split; [exists nm; exact Hi|].
      split; [intros j y _ _ H; discriminate H|]. exists fuel', ca1, order, so, None, th, sv. auto 10. }
    destruct (build_run_log canon (kind_of (reg st 0)) other_if partial P (fst r) i fs now [] c1 objs s Him Hbo) as (_ & w0 & calls & R & Hs & _ & El).
    exists i, w0, calls. split; [rewrite <- (static_name (fst r) c1 i S); exact Hn|]. split; [exact Hk|]. split; [exact R|]. split; [exact Hs|].
    split; [exact El|]. intros j Hj Hkj d Hd Hkd.
    apply (static_cone canon c1) with (c' := fst r) in Hj; [|now apply static_sym].
    apply (static_cone canon c1) with (c' := fst r) in Hd; [|now apply static_sym].
    rewrite <- (static_name (fst r) c1 j S).
    destruct (cone_registered_name canon (fst r) i j (ex_intro _ nm Hi) Hj) as [nm' Hn'].
    apply (dir_below_needed r j I (ex_intro _ nm' Hn')) with (j := d); [|exact Hkj|exact Hd|exact Hkd].
    exact (proj1 (whole_cone cwd home (present fs) exists_ glob_ disk l ok r I i (ex_intro _ nm Hi)) Hko j Hj).
  Qed.

  (** A process that finds nothing out of date does nothing. *)
  Lemma idle_building partial x th now kind c1 objs sv s : In x (flat_map makes l) ->
    building cwd home exists_ glob_ partial l x th fs now kind c1 objs sv s -> ~ needs_update P fs x ->
    w_fs (s_world s) = fs /\ w_ran (s_world s) = [] /\ (forall k r, In (EFinish k r) (s_log s) -> r = RNotFalse) /\ forall k, ~ In (ERaise k) (s_log s).
  Proof.
    intros Hx Hb N. destruct (building_run partial x th now kind c1 objs sv s Hx Hb) as (i & w0 & calls & Hn & Hk & R & _ & El & Hd).
    rewrite <- Hn in N.
    destruct (run_idle canon kind partial P c1 i fs now w0 calls (s_world s) R N) as (A & B & C).
    - intros j Hj Hkj. apply N. exact (Hd i (rt_refl _ _ _) Hk j Hj Hkj).
    - assert (G : forall k r0, In (k, r0) (ended (s_log s)) -> r0 = RNotFalse).
      { intros k r0 Hkr. apply (C (nth k objs (List.length (c_heap c1)))). rewrite El. apply in_map_iff. exists (k, r0). auto. }
      split; [exact A|]. split; [exact B|]. split.
      + intros k r0 Hkr. apply (G k). apply in_flat_map. exists (EFinish k r0). split; [exact Hkr|now left].
      + intros k Hkr. specialize (G k RExn). discriminate G. apply in_flat_map. exists (ERaise k). split; [exact Hkr|now left].
  Qed.
  (** Only files that need it are made. *)
  Lemma ran_needed partial x th now kind c1 objs sv s : In x (flat_map makes l) ->
    building cwd home exists_ glob_ partial l x th fs now kind c1 objs sv s ->
    forall p b, is_rule P p -> In (p, b) (w_ran (s_world s)) -> p_cone P x p /\ needs_update P fs p.
  Proof.
    intros Hx Hb p b Hp Hr. destruct (building_run partial x th now kind c1 objs sv s Hx Hb) as (i & w0 & calls & Hn & Hk & R & _ & _ & Hd).
    rewrite <- Hn.
    destruct (run_ran_need canon kind partial P c1 i fs now w0 calls (s_world s) R p b Hr) as (j & _ & Hj & Ej & Hneed).
    pose proof (ro_imp _ _ _ _ _ _ _ _ _ _ _ R) as Him.
    assert (Hkj : kind j <> MDir) by (apply (not_dir_file canon kind P c1 i Him j Hj); rewrite Ej; now right).
    destruct Hneed as [Hneed|Hneed]; [contradiction|]. rewrite <- Ej. split.
    - exact (proj2 (cone_p canon kind P c1 i (ro_wf _ _ _ _ _ _ _ _ _ _ _ R) Him i j (rt_refl _ _ _) Hj Hkj)).
    - destruct (ro_need _ _ _ _ _ _ _ _ _ _ _ R j Hj) as (need & En & E). rewrite Hneed in En. injection En as <-.
      destruct (proj1 E eq_refl) as [[_ N]|(d & Hcd & Hkd & _)]; [exact N|]. exact (Hd j Hj Hkj d Hcd Hkd).
  Qed.
  (** After success all that needed it was made. *)
  Lemma needed_ran partial x th now kind c1 objs sv s : In x (flat_map makes l) ->
    building cwd home exists_ glob_ partial l x th fs now kind c1 objs sv s -> succeeded objs s ->
    forall p, is_rule P p -> p_cone P x p -> needs_update P fs p -> In (p, true) (w_ran (s_world s)).
  Proof.
    intros Hx Hb Hs p Hp Hc Hn. destruct (building_run partial x th now kind c1 objs sv s Hx Hb) as (i & w0 & calls & <- & Hk & R & Hall & _).
    pose proof (ro_wf _ _ _ _ _ _ _ _ _ _ _ R) as Hw. pose proof (ro_imp _ _ _ _ _ _ _ _ _ _ _ R) as Him.
    destruct (p_cone_obj canon kind P c1 i Hw Him i p (rt_refl _ _ _) Hk Hc) as (j & Hj & Hkj & <-).
    destruct (rule_kind canon kind P c1 i Him j Hj Hp) as (f & b & ds & Ek & _).
    apply (run_need_ran canon kind partial P c1 i fs now w0 calls (s_world s) R j f b (Hall Hs j Hj) Ek).
    destruct (ro_need _ _ _ _ _ _ _ _ _ _ _ R j Hj) as (need & En & E). rewrite En. f_equal. apply E. left. split; [congruence|exact Hn].
  Qed.
  Lemma ran_exactly partial x th now kind c1 objs sv s : In x (flat_map makes l) ->
    building cwd home exists_ glob_ partial l x th fs now kind c1 objs sv s -> succeeded objs s ->
    forall p, is_rule P p -> In p (map fst (w_ran (s_world s))) <-> p_cone P x p /\ needs_update P fs p.
  Proof.
    intros Hx Hb Hs p Hp. split.
    - intros H. apply in_map_iff in H. destruct H as ([q b] & <- & H). cbn [fst] in *. now apply (ran_needed partial x th now kind c1 objs sv s Hx Hb q b).
    - intros [Hc Hn]. apply in_map_iff. exists (p, true). split; [reflexivity|]. now apply (needed_ran partial x th now kind c1 objs sv s Hx Hb Hs).
  Qed.
  Lemma always_run partial x th now kind c1 objs sv s : In x (flat_map makes l) ->
    building cwd home exists_ glob_ partial l x th fs now kind c1 objs sv s -> succeeded objs s ->
    forall p q, is_rule P p -> p_cone P x p -> p_cone P p q -> (exists ds b, P q = Some (DRule true ds b)) \/ (P q = Some DSource /\ fs q = None) ->
    In p (map fst (w_ran (s_world s))).
  Proof.
    intros Hx Hb Hs p q Hp Hc Hq H. apply (ran_exactly partial x th now kind c1 objs sv s Hx Hb Hs p Hp). split; [exact Hc|]. exists q. split; [exact Hq|].
    destruct H as [H|[H1 H2]]; [right; now left|]. left. split; [now left|exact H2].
  Qed.
  (** After success there is nothing left to do. *)
  Lemma built_up_to_date partial x th now kind c1 objs sv s : In x (flat_map makes l) ->
    building cwd home exists_ glob_ partial l x th fs now kind c1 objs sv s -> succeeded objs s ->
    (forall p ds b, p_cone P x p -> P p <> Some (DRule true ds b)) ->
    (forall p, p_cone P x p -> P p = Some DSource -> fs p <> None) -> ~ needs_update P (w_fs (s_world s)) x.
  Proof.
    intros Hx Hb Hs Hnf Hsrc. destruct (building_run partial x th now kind c1 objs sv s Hx Hb) as (i & w0 & calls & <- & Hk & R & Hall & _).
    exact (run_up_to_date canon kind partial P c1 i fs now w0 calls (s_world s) R Hk (Hall Hs) Hnf Hsrc).
  Qed.
End Script.

(** ** Projects that depend on the contents *)
Section Track.
  Variable canon : string -> string.
  Variable rules : string -> option buildfun.
  Variable reads : string -> ctx -> string -> Prop.
  Variable junk : string -> string -> Prop.
  Variable proj : ctx -> project.
  Hypothesis tr : tracking rules reads junk proj.

  (** What may be different in the next process. *)
  Record steady : Prop := {
    st_sets : forall s s' p ds, proj s p = Some (DSet ds) -> proj s' p = Some (DSet ds);
    st_file : forall s s' p q, p_dep (proj s) p q -> is_file (proj s') q -> is_file (proj s) q;
    st_same : forall s s' p q, rules p <> None -> s' p = s p -> (forall x, p_input (proj s) p x -> s' x = s x) ->
      p_dep (proj s') p q -> p_dep (proj s) p q;
    st_new : forall s s' p q, rules p <> None -> right_now rules s' p -> (forall x, p_input (proj s) p x -> right_now rules s' x) ->
      p_dep (proj s') p q -> p_dep (proj s) p q \/ p_input (proj s) p q \/ proj s' q = Some DSource }.
  Hypothesis st : steady.

  Lemma set_input s s' t z : p_input (proj s') t z -> forall ds, proj s' t = Some (DSet ds) -> p_input (proj s) t z.
  Proof.
    assert (Dep : forall t y ds, proj s' t = Some (DSet ds) -> p_dep (proj s') t y -> p_dep (proj s) t y).
    { intros t0 y ds Et (ds' & Hy & [E|(f & b & E)]); [|congruence]. exists ds'. split; [exact Hy|]. left. now apply (st_sets st s'). }
    induction 1 as [t z Hd Hf|t y ds' z Hd Hy _ IH]; intros ds Et.
    - apply pi_file; [now apply (Dep t z ds)|]. eapply st_file; [exact st|now apply (Dep t z ds)|exact Hf].
    - eapply pi_set; [now apply (Dep t y ds)|now apply (st_sets st s'); exact Hy|now apply (IH ds')].
  Qed.
  Lemma same_input s s' p z : rules p <> None -> s' p = s p -> (forall x, p_input (proj s) p x -> s' x = s x) ->
    p_input (proj s') p z -> p_input (proj s) p z.
  Proof.
    intros Hp H1 H2 Hz. destruct Hz as [p z Hd Hf|p y ds z Hd Hy Hz].
    - apply (st_same st s s') in Hd; auto. apply pi_file; [exact Hd|]. eapply st_file; eauto.
    - apply (st_same st s s') in Hd; auto. eapply pi_set; [exact Hd|now apply (st_sets st s'); exact Hy|now apply (set_input s s' y z Hz ds)].
  Qed.
  Lemma new_input s s' p z : rules p <> None -> right_now rules s' p -> (forall x, p_input (proj s) p x -> right_now rules s' x) ->
    p_input (proj s') p z -> p_input (proj s) p z \/ proj s' z = Some DSource.
  Proof.
    intros Hp H1 H2 Hz. destruct Hz as [p z Hd Hf|p y ds z Hd Hy Hz].
    - destruct (st_new st s s' p z Hp H1 H2 Hd) as [Hd'|[Hi|Hs]]; [left|now left|now right].
      apply pi_file; [exact Hd'|]. eapply st_file; eauto.
    - left. destruct (st_new st s s' p y Hp H1 H2 Hd) as [Hd'|[Hi|Hs]]; [|exfalso|congruence].
      + eapply pi_set; [exact Hd'|now apply (st_sets st s'); exact Hy|now apply (set_input s s' y z Hz ds)].
      + pose proof (st_sets st s' s y ds Hy) as E. destruct (p_input_file _ _ _ Hi) as [F|(f & ds' & b & F)]; congruence.
  Qed.
  Lemma new_cone s s' x q : (forall p, p_cone (proj s) x p -> right_now rules s' p) ->
    p_cone (proj s') x q -> p_cone (proj s) x q \/ proj s' q = Some DSource.
  Proof.
    intros Hr Hq. apply clos_rt_rtn1 in Hq. induction Hq as [|q z Hd _ IH]; [left; apply rt_refl|].
    destruct IH as [IH|IH]; [|destruct Hd as (ds & _ & [E|(f & b & E)]); congruence].
    destruct (rules q) as [b|] eqn:Er.
    - destruct (st_new st s s' q z) as [Hd'|[Hi|Hs]]; [congruence|now apply Hr| |exact Hd|left|left|now right].
      + intros y Hy. apply Hr. eapply rt_trans; [exact IH|]. now apply p_input_below.
      + eapply rt_trans; [exact IH|now apply rt_step].
      + eapply rt_trans; [exact IH|now apply p_input_below].
    - left. eapply rt_trans; [exact IH|]. apply rt_step. destruct Hd as (ds & Hz & [E|(f & b & E)]).
      + exists ds. split; [exact Hz|]. left. now apply (st_sets st s').
      + exfalso. assert (X : rules q = Some b) by (apply (tr_rules _ _ _ _ tr s'); eauto). congruence.
  Qed.

  Lemma track_up_to_date fs now kind other_if c i ca c1 objs s : track_history rules junk proj canon fs now ->
    implements canon kind (proj (contents fs)) c i -> kind i <> MDir ->
    build_of canon kind other_if true c i fs now ca c1 objs s -> succeeded objs s ->
    let fs' := w_fs (s_world s) in let P' := proj (contents fs') in
    (forall p ds b, p_cone P' (t_name (obj c i)) p -> P' p <> Some (DRule true ds b)) ->
    (forall p, p_cone P' (t_name (obj c i)) p -> P' p = Some DSource -> contents fs' p <> None) ->
    ~ needs_update P' fs' (t_name (obj c i)).
  Proof.
    intros Hh Him Hk Hb Hs fs' P' Hnf Hsrc (q & Hq & Ho).
    pose proof (track_success canon rules reads junk proj tr fs now kind other_if c i ca c1 objs s Hh Him Hk Hb Hs) as Hr. fold fs' in Hr.
    destruct (track_history_ok canon rules reads junk proj tr fs now Hh) as (Hd & _ & _).
    destruct (build_run canon kind other_if true (proj (contents fs)) c i fs now ca c1 objs s Him Hb) as (S & w0 & l & R & Hall).
    specialize (Hall Hs). clear Him Hb Hs Hh.
    pose proof (ro_wf _ _ _ _ _ _ _ _ _ _ _ R) as Hw. pose proof (ro_imp _ _ _ _ _ _ _ _ _ _ _ R) as Him.
    pose proof (static_name c c1 i S) as En. rewrite En in Hr, Hnf, Hsrc, Hq. clear S En. set (P := proj (contents fs)) in *.
    destruct (new_cone (contents fs) (contents fs') _ q Hr Hq) as [Hc|Hc].
    2:{ fold P' in Hc. destruct Ho as [[_ Hm]|[(ds & b & E)|[(f & ds & b & E) _]]]; [|congruence|congruence].
        apply (Hsrc q Hq Hc). unfold contents. now rewrite Hm. }
    assert (Rule : is_rule P' q -> rules q <> None) by apply (is_rule_rules rules reads junk proj tr).
    assert (Made : is_rule P' q -> exists m v, fs' q = Some (m, Reg v)).
    { intros Hr'. destruct (rules q) as [b|] eqn:Er; [|now elim (Rule Hr')]. destruct (Hr q Hc b Er) as (v & _ & E).
      unfold contents in E. destruct (fs' q) as [[m [v'|]]|]; [eauto|discriminate|discriminate]. }
    destruct Ho as [[Hf Hm]|[(ds & b & E)|[Hr' (z & Hz & (mz & nz & mp & np & Ez & Ep & L))]]].
    - destruct Hf as [Hf|Hf].
      + apply (Hsrc q Hq Hf). unfold contents. now rewrite Hm.
      + destruct (Made Hf) as (m & v & E). congruence.
    - now apply (Hnf q ds b Hq).
    - specialize (Rule Hr').
      destruct (p_cone_obj canon kind P c1 i Hw Him i q (rt_refl _ _ _) Hk Hc) as (j & Hj & Hkj & <-).
      assert (HrP : is_rule P (t_name (obj c1 j))) by now apply (is_rule_rules rules reads junk proj tr).
      destruct (rule_kind canon kind P c1 i Him j Hj HrP) as (f & b & ds & Ek & _).
      destruct (ro_need _ _ _ _ _ _ _ _ _ _ _ R j Hj) as (need & Hn & _). destruct need.
      + destruct (run_fresh canon kind true P c1 i fs now w0 l (s_world s) R j f b (Hall j Hj) Ek Hn) as (m & v & E & Lm & Hi).
        fold fs' in E, Hi. rewrite Ep in E. injection E as -> ->.
        destruct (new_input (contents fs) (contents fs') _ z Rule (Hr _ Hc)) as [Hz'|Hz']; [|exact Hz|..].
        * intros y Hy. apply Hr. eapply rt_trans; [exact Hc|]. now apply p_input_below.
        * destruct (p_input_obj canon kind P c1 i Hw Him _ _ Hz' j Hj Hkj eq_refl) as (k & Hin & <-). specialize (Hi k mz nz Hin Ez). lia.
        * destruct (run_frame canon kind true P c1 i fs now w0 l (s_world s) R z) as [G|[(k & _ & Hck & Enk & (fk & bk & Hkk) & _)|(_ & _ & m' & G)]].
          -- fold fs' in G. rewrite G in Ez. apply Hd in Ez. lia.
          -- destruct (Him k Hck) as [_ HI]. rewrite Hkk in HI. destruct HI as (dk & HI & _).
             assert (X : rules z = Some bk) by (apply (tr_rules _ _ _ _ tr (contents fs)); rewrite Enk; eauto).
             apply (tr_rules _ _ _ _ tr (contents fs')) in X. destruct X as (f2 & d2 & X). congruence.
          -- fold fs' in G. apply (Hsrc z); [|exact Hz'|].
             ++ eapply rt_trans; [exact Hq|]. now apply p_input_below.
             ++ unfold contents. now rewrite G.
      + destruct (idle_kept canon kind true P c1 i fs now w0 l (s_world s) R j Hj Hkj Hn) as [N K]. fold fs' in K.
        destruct (K (t_name (obj c1 j)) (rt_refl _ _ _) (or_intror HrP)) as [A _].
        assert (Hz' : p_input P (t_name (obj c1 j)) z).
        { apply (same_input (contents fs) (contents fs')); [exact Rule|unfold contents; now rewrite A| |exact Hz].
          intros y Hy. unfold contents. destruct (K y (p_input_below P _ _ Hy) (p_input_file P _ _ Hy)) as [-> _]. reflexivity. }
        destruct (K z (p_input_below P _ _ Hz') (p_input_file P _ _ Hz')) as [B _].
        apply N. exists (t_name (obj c1 j)). split; [apply rt_refl|]. right. right. split; [exact HrP|]. exists z. split; [exact Hz'|].
        exists mz, nz, mp, np. rewrite <- A, <- B. auto.
  Qed.
End Track.

(** ** Changes *)
Lemma needs_changed P fs fs2 p : ~ needs_update P fs p -> needs_update P fs2 p -> exists q, p_cone P p q /\ is_file P q /\ fs2 q <> fs q.
Proof.
  assert (Dec : forall a b : option (nat * node), a = b \/ a <> b).
  { intros a b. assert (X : {a = b} + {a <> b}) by (repeat decide equality). destruct X; auto. }
  intros N (q & Hq & Ho).
  destruct (Dec (fs2 q) (fs q)) as [Eq|Nq].
  - destruct Ho as [[Hf Hm]|[(ds & b & Hd)|[Hr (z & Hz & (mz & nz & mp & np & Ez & Ep & L))]]].
    + exfalso. apply N. exists q. split; [exact Hq|]. left. split; [exact Hf|congruence].
    + exfalso. apply N. exists q. split; [exact Hq|]. right. left. eauto.
    + destruct (Dec (fs2 z) (fs z)) as [E|E].
      * exfalso. apply N. exists q. split; [exact Hq|]. right. right. split; [exact Hr|]. exists z. split; [exact Hz|].
        exists mz, nz, mp, np. rewrite <- Eq, <- E. auto.
      * exists z. split; [eapply rt_trans; [exact Hq|now apply p_input_below]|]. split; [now apply (p_input_file P q)|exact E].
  - assert (Hf : is_file P q \/ ~ is_file P q).
    { unfold is_file, is_rule. destruct (P q) as [[|f ds b|ds]|].
      - left. now left.
      - left. right. now exists f, ds, b.
      - right. intros [H|(f & dd & b & H)]; discriminate.
      - right. intros [H|(f & dd & b & H)]; discriminate. }
    destruct Hf as [Hf|Hf]; [eauto|]. exfalso.
    destruct Ho as [[Hf' _]|[(ds & b & Hd)|[Hr _]]]; apply Hf; [exact Hf'|right; now exists true, ds, b|now right].
Qed.

Section Second.
  Variables (cwd home : string) (fs : fsys) (exists_ : string -> bool) (glob_ : string -> list string) (l : list stmt).
  Hypothesis disk : disk_ok cwd (present fs) exists_.
  Hypothesis ok : in_order cwd home glob_ exists_ l.
  Notation P := (project_of cwd home glob_ l).
  Notation makes := (makes cwd home glob_).
  (** The process after a successful one, when some files may have changed in between. *)
  Lemma second_process partial x th now kind c1 objs sv s : In x (flat_map makes l) ->
    building cwd home exists_ glob_ partial l x th fs now kind c1 objs sv s -> succeeded objs s ->
    (forall p ds b, p_cone P x p -> P p <> Some (DRule true ds b)) ->
    (forall p, p_cone P x p -> P p = Some DSource -> fs p <> None) ->
    forall fs2 exists_2, disk_ok cwd (present fs2) exists_2 -> in_order cwd home glob_ exists_2 l ->
    forall partial2 y th2 now2 kind2 c2 objs2 sv2 s2, In y (flat_map makes l) -> p_cone P x y ->
    building cwd home exists_2 glob_ partial2 l y th2 fs2 now2 kind2 c2 objs2 sv2 s2 ->
    forall p b, is_rule P p -> In (p, b) (w_ran (s_world s2)) ->
    exists q, p_cone P p q /\ is_file P q /\ fs2 q <> w_fs (s_world s) q.
  Proof.
    intros Hx Hb Hs Hnf Hsrc fs2 exists_2 disk2 ok2 partial2 y th2 now2 kind2 c2 objs2 sv2 s2 Hy Hxy Hb2 p b Hp Hr.
    pose proof (built_up_to_date cwd home fs exists_ glob_ l disk ok partial x th now kind c1 objs sv s Hx Hb Hs Hnf Hsrc) as N.
    destruct (ran_needed cwd home fs2 exists_2 glob_ l disk2 ok2 partial2 y th2 now2 kind2 c2 objs2 sv2 s2 Hy Hb2 p b Hp Hr) as [Hc Hn].
    apply needs_changed; [|exact Hn]. intros (q & Hq & Ho). apply N. exists q. split; [|exact Ho].
    eapply rt_trans; [exact Hxy|]. eapply rt_trans; eauto.
  Qed.
  Lemma second_process_idle partial x th now kind c1 objs sv s : In x (flat_map makes l) ->
    building cwd home exists_ glob_ partial l x th fs now kind c1 objs sv s -> succeeded objs s ->
    (forall p ds b, p_cone P x p -> P p <> Some (DRule true ds b)) ->
    (forall p, p_cone P x p -> P p = Some DSource -> fs p <> None) ->
    forall exists_2, disk_ok cwd (present (w_fs (s_world s))) exists_2 -> in_order cwd home glob_ exists_2 l ->
    forall partial2 th2 now2 kind2 c2 objs2 sv2 s2,
    building cwd home exists_2 glob_ partial2 l x th2 (w_fs (s_world s)) now2 kind2 c2 objs2 sv2 s2 ->
    w_fs (s_world s2) = w_fs (s_world s) /\ w_ran (s_world s2) = [].
  Proof.
    intros Hx Hb Hs Hnf Hsrc exists_2 disk2 ok2 partial2 th2 now2 kind2 c2 objs2 sv2 s2 Hb2.
    pose proof (built_up_to_date cwd home fs exists_ glob_ l disk ok partial x th now kind c1 objs sv s Hx Hb Hs Hnf Hsrc) as N.
    destruct (idle_building cwd home _ exists_2 glob_ l disk2 ok2 partial2 x th2 now2 kind2 c2 objs2 sv2 s2 Hx Hb2 N) as (A & B & _). auto.
  Qed.
End Second.
