(** The claims about builds, assembled from the lemmas. *)
From Coq Require Import Permutation.
From Verif Require Import PyBase PyPath SolverModel SpecGraph InvokerModel SpecTrace InvokerPath CoreModel SpecCore
  CoreProofs NeedProofs RuProofs CoreThms MakeModel MakeEval SpecMake MakeProofs MakeFacts MakeBuild MakeStatus
  MakeThms MakeTimes MakeClean.

Section Claims.
  Variable canon : string -> string.
  Variable P : project.

  Section One.
    Variable kind : nat -> mkind.
    Variable other_if : nat -> res bool.
    Variables (c : core) (i : nat) (fs : fsys) (now : nat) (ca : cache) (c1 : core) (objs : list nat) (s : state world).
    Hypothesis Him : implements canon kind P c i.
    Local Notation nm j := (t_name (obj c j)).
    Local Notation cone := (in_cone canon c i).

    Lemma need_flag partial : build_of canon kind other_if partial c i fs now ca c1 objs s ->
      forall j, cone j -> exists b, t_need (obj c1 j) = Some b /\
        (b = true <-> (kind j <> MDir /\ needs_update P fs (nm j)) \/
                      exists k, in_cone canon c j k /\ kind k = MDir /\ fs (nm k) = None).
    Proof.
      intros Hb j Hj. destruct (build_run canon kind other_if partial P c i fs now ca c1 objs s Him Hb) as (S & w0 & l & R & _).
      assert (Hj1 : in_cone canon c1 i j) by (eapply static_cone; eauto).
      destruct (ro_need _ _ _ _ _ _ _ _ _ _ _ R j Hj1) as (b & Eb & E). exists b. split; [exact Eb|].
      rewrite E, (static_name c c1 j S). unfold dir_missing.
      split; (intros [A|(k & Hk & B)]; [now left|right; exists k]).
      - rewrite (static_name c c1 k S). split; [|exact B]. apply (static_cone canon c1 c); [now apply static_sym|exact Hk].
      - rewrite <- (static_name c c1 k S). split; [|exact B]. now apply (static_cone canon c c1).
    Qed.

    (** The target of a file: its flag. *)
    Lemma need_file partial : build_of canon kind other_if partial c i fs now ca c1 objs s ->
      forall j, cone j -> is_file P (nm j) -> needs_update P fs (nm j) -> t_need (obj c1 j) = Some true.
    Proof.
      intros Hb j Hj Hf Hn. destruct (need_flag partial Hb j Hj) as (b & Eb & E). rewrite Eb. f_equal. apply E.
      left. split; [|exact Hn]. exact (not_dir_file canon kind P c i Him j Hj Hf).
    Qed.

    Hypothesis Hb : build_of canon kind other_if false c i fs now ca c1 objs s.

    Lemma still_outdated : dated fs now ->
      forall p, is_file P p -> (exists j, cone j /\ nm j = p) -> needs_update P fs p ->
      ~ In (p, true) (w_ran (s_world s)) -> needs_update P (w_fs (s_world s)) p.
    Proof.
      intros Hd p Hp (j & Hj & Ej).
      destruct (build_run canon kind other_if false P c i fs now ca c1 objs s Him Hb) as (S & w0 & l & R & _).
      apply (unfinished_still_outdated canon kind P c1 i fs now w0 l (s_world s) Hd R p Hp).
      exists j. split; [eapply static_cone; eauto|]. now rewrite <- (static_name c c1 j S).
    Qed.

    (** Nobody is recorded both as a success and as a failure. *)
    Lemma ran_once_result : forall p, In (p, false) (w_ran (s_world s)) -> ~ In (p, true) (w_ran (s_world s)).
    Proof.
      destruct (build_run canon kind other_if false P c i fs now ca c1 objs s Him Hb) as (S & w0 & l & R & _).
      intros p. revert R. generalize (s_world s). intros w R. pattern l, w. revert l w R.
      apply run_ind; cbv beta.
      - intros R. destruct (ro_start _ _ _ _ _ _ _ _ _ _ _ R) as (_ & _ & _ & ->). intros [].
      - intros l w1 j r w R IH R' T Hj Hnj _.
        assert (N : forall b, In (t_name (obj c1 j), b) (w_ran w1) -> False).
        { intros b H. destruct (ran_names canon kind P c1 i fs now w0 l w1 R _ _ H) as (k & Hk & E).
          assert (Hkc : in_cone canon c1 i k).
          { apply in_map_iff in Hk. destruct Hk as ([k' r'] & <- & Hk). exact (ro_cone _ _ _ _ _ _ _ _ _ _ _ R k' r' Hk). }
          apply Hnj. rewrite (cone_inj canon c1 i (ro_wf _ _ _ _ _ _ _ _ _ _ _ R') (ro_co _ _ _ _ _ _ _ _ _ _ _ R') (ro_reg _ _ _ _ _ _ _ _ _ _ _ R') j k Hj Hkc E). exact Hk. }
        assert (G : forall b', w_ran w = w_ran w1 ++ [(t_name (obj c1 j), b')] ->
          In (p, false) (w_ran w) -> ~ In (p, true) (w_ran w)).
        { intros b' E H1 H2. rewrite E in H1, H2. apply in_app_iff in H1, H2. simpl in H1, H2.
          destruct H1 as [H1|[H1|[]]], H2 as [H2|[H2|[]]].
          - now apply IH.
          - injection H2 as <- _. eauto.
          - injection H1 as <- _. eauto.
          - congruence. }
        destruct (task_call canon kind P c1 i fs now w0 l w1 j r w R Hj T) as
          [_ _ _ ->|f b v m _ _ _ _ _ _ _ _ E|f b _ _ _ _ E|_ _ _ _ _ _ E|_ _ _ ->|_ _ _ E _ _|m ca' _ _ _ _ _ _ _ _ _ E|_ _ _ _ E];
          try exact IH; try (eapply G; exact E). now rewrite E.
    Qed.

    Hypothesis Hok : succeeded objs s.

    Lemma success_current : cache_current canon kind c1 i (w_fs (s_world s)) (w_cache (s_world s)).
    Proof.
      destruct (build_run canon kind other_if false P c i fs now ca c1 objs s Him Hb) as (S & w0 & l & R & Hs).
      exact (done_cache canon kind P c1 i fs now w0 l _ R (Hs Hok)).
    Qed.
    Lemma success_up_to_date :
      (forall j f b, cone j -> kind j = MFile f b -> f = false) ->
      (forall j, cone j -> kind j = MSource -> fs (nm j) <> None) ->
      (forall j, cone j -> kind j <> MDir -> ~ needs_update P (w_fs (s_world s)) (nm j)) /\
      (forall j, cone j -> kind j = MDir -> w_fs (s_world s) (nm j) <> None).
    Proof.
      intros Hnf Hsrc.
      destruct (build_run canon kind other_if false P c i fs now ca c1 objs s Him Hb) as (S & w0 & l & R & Hs).
      assert (Bk : forall j, in_cone canon c1 i j -> cone j) by (intros j; apply static_cone; now apply static_sym).
      assert (Fw : forall j, cone j -> in_cone canon c1 i j) by (intros j; now apply static_cone).
      split.
      - intros j Hj Hk. rewrite (static_name c c1 j S).
        apply (done_up_to_date canon kind P c1 i fs now w0 l _ R (Hs Hok)); auto.
        + intros k f b Hck. apply Hnf. auto.
        + intros k Hck Hk'. rewrite <- (static_name c c1 k S). auto.
      - intros j Hj Hk. rewrite (static_name c c1 j S).
        exact (done_dirs canon kind P c1 i fs now w0 l _ R (Hs Hok) j (Fw j Hj) Hk).
    Qed.

    Lemma success_right : reads_only P -> history canon P fs now -> kind i <> MDir ->
      forall p, is_file P p -> p_cone P (nm i) p ->
        right_content P (contents (w_fs (s_world s))) p (contents (w_fs (s_world s)) p).
    Proof.
      intros Hro Hh Hki p Hp Hc. destruct (history_ok canon P Hro fs now Hh) as (Hd & Hf & Hn).
      destruct (build_run canon kind other_if false P c i fs now ca c1 objs s Him Hb) as (S & w0 & l & R & Hs).
      pose proof (ro_imp _ _ _ _ _ _ _ _ _ _ _ R) as Him1. pose proof (ro_wf _ _ _ _ _ _ _ _ _ _ _ R) as Hw.
      rewrite (static_name c c1 i S) in Hc.
      destruct (p_cone_obj canon kind P c1 i Hw Him1 i p (rt_refl _ _ _) Hki Hc) as (j & Hj & Hkj & <-).
      apply (success_contents canon P Hro kind c1 i fs now l w0 _ Hd Hf Hn R (Hs Hok) j Hj).
      exact (p_file_kind canon kind P c1 i Him1 j Hj Hkj Hp).
    Qed.
    (** A rule that was needed was run, with the sources as they were. *)
    Lemma needed_ran : forall j f b, cone j -> kind j = MFile f b -> needs_update P fs (nm j) -> reads_only P ->
      exists v, b (contents (w_fs (s_world s))) = Some v /\ (forall p, P p = Some DSource -> w_fs (s_world s) p = fs p).
    Proof.
      intros j f b Hj Hk Hn Hro.
      destruct (build_run canon kind other_if false P c i fs now ca c1 objs s Him Hb) as (S & w0 & l & R & Hs).
      assert (Hj1 : in_cone canon c1 i j) by (eapply static_cone; eauto).
      assert (Hnd : t_need (obj c1 j) = Some true).
      { destruct (need_flag false Hb j Hj) as (b' & Eb & E). rewrite Eb. f_equal. apply E. left. split; [congruence|exact Hn]. }
      destruct (run_contents canon kind P c1 i fs now w0 l _ R j f b Hj1 Hk (Hs Hok j Hj1) Hnd) as (m & v & _ & _ & E & _).
      exists v. split; [auto|]. exact (run_source canon kind false P c1 i fs now w0 l _ R).
    Qed.
  End One.

  (** A build that finds nothing to do. *)
  Lemma nothing_to_do kind other_if c i fs now ca c1 objs s : implements canon kind P c i ->
    build_of canon kind other_if false c i fs now ca c1 objs s ->
    (forall j, in_cone canon c i j -> kind j <> MDir -> ~ needs_update P fs (t_name (obj c j))) ->
    (forall j, in_cone canon c i j -> kind j = MDir -> fs (t_name (obj c j)) <> None) ->
    (forall j, in_cone canon c i j -> t_need (obj c1 j) = Some false) /\
    w_fs (s_world s) = fs /\ w_ran (s_world s) = [].
  Proof.
    intros Him Hb Hup Hdir.
    split.
    - intros j Hj. destruct (need_flag kind other_if c i fs now ca c1 objs s Him false Hb j Hj) as ([|] & Eb & E); [|exact Eb].
      exfalso. destruct (proj1 E eq_refl) as [[A B]|(k & Hk & A & B)]; [now apply (Hup j)|].
      apply (Hdir k); auto. eapply rt_trans; eauto.
    - destruct (build_run canon kind other_if false P c i fs now ca c1 objs s Him Hb) as (S & w0 & l & R & _).
      assert (Bk : forall j, in_cone canon c1 i j -> in_cone canon c i j) by (intros j; apply static_cone; now apply static_sym).
      destruct (run_nothing canon kind P c1 i fs now w0 l _ R) as (A & B & _); auto;
        intros j Hj Hk; rewrite <- (static_name c c1 j S); auto.
  Qed.

  Lemma second_build_same_process kind other_if c i fs now ca c1 objs s :
    implements canon kind P c i -> build_of canon kind other_if false c i fs now ca c1 objs s -> succeeded objs s ->
    (forall j f b, in_cone canon c i j -> kind j = MFile f b -> f = false) ->
    (forall j, in_cone canon c i j -> kind j = MSource -> fs (t_name (obj c j)) <> None) ->
    cache_current canon kind c1 i (w_fs (s_world s)) (w_cache (s_world s)) /\
    forall now' c2 objs' s',
      build_of canon kind other_if false c1 i (w_fs (s_world s)) now' (w_cache (s_world s)) c2 objs' s' ->
      (forall j, in_cone canon c i j -> t_need (obj c2 j) = Some false) /\
      w_fs (s_world s') = w_fs (s_world s) /\ w_ran (s_world s') = [].
  Proof.
    intros Him Hb Hok Hnf Hsrc. split; [exact (success_current kind other_if c i fs now ca c1 objs s Him Hb Hok)|].
    destruct (success_up_to_date kind other_if c i fs now ca c1 objs s Him Hb Hok Hnf Hsrc) as [U D].
    destruct (build_run canon kind other_if false P c i fs now ca c1 objs s Him Hb) as (S & w0 & l & R & Hs).
    assert (Bk : forall j, in_cone canon c1 i j -> in_cone canon c i j) by (intros j; apply static_cone; now apply static_sym).
    intros now' c2 objs' s' Hb2.
    destruct (nothing_to_do kind other_if c1 i _ now' _ c2 objs' s' (ro_imp _ _ _ _ _ _ _ _ _ _ _ R) Hb2) as (A & B & C).
    - intros j Hj Hk. rewrite <- (static_name c c1 j S). auto.
    - intros j Hj Hk. rewrite <- (static_name c c1 j S). auto.
    - split; [|auto]. intros j Hj. apply A. now apply (static_cone canon c c1).
  Qed.

  Lemma second_build_new_process kind other_if c i fs now ca c1 objs s kind' other_if' c' i' :
    implements canon kind P c i -> build_of canon kind other_if false c i fs now ca c1 objs s -> succeeded objs s ->
    (forall j f b, in_cone canon c i j -> kind j = MFile f b -> f = false) ->
    (forall j, in_cone canon c i j -> kind j = MSource -> fs (t_name (obj c j)) <> None) ->
    implements canon kind' P c' i' ->
    t_name (obj c' i') = t_name (obj c i) -> kind i <> MDir -> kind' i' <> MDir ->
    (forall j, in_cone canon c' i' j -> kind' j = MDir -> w_fs (s_world s) (t_name (obj c' j)) <> None) ->
    forall now' ca' c2 objs' s',
      build_of canon kind' other_if' false c' i' (w_fs (s_world s)) now' ca' c2 objs' s' ->
      (forall j, in_cone canon c' i' j -> t_need (obj c2 j) = Some false) /\
      w_fs (s_world s') = w_fs (s_world s) /\ w_ran (s_world s') = [].
  Proof.
    intros Him Hb Hok Hnf Hsrc Him' En Hki Hki' Hdirs now' ca' c2 objs' s' Hb2.
    pose proof (proj1 (process_ready _ _ _ (proj1 Hb))) as Hw. pose proof (proj1 (process_ready _ _ _ (proj1 Hb2))) as Hw'.
    destruct (success_up_to_date kind other_if c i fs now ca c1 objs s Him Hb Hok Hnf Hsrc) as [U D].
    apply (nothing_to_do kind' other_if' c' i' _ now' ca' c2 objs' s' Him' Hb2); [|exact Hdirs].
    intros j Hj Hk. destruct (cone_p canon kind' P c' i' Hw' Him' i' j (rt_refl _ _ _) Hj Hk) as [_ Hc].
    rewrite En in Hc. destruct (p_cone_obj canon kind P c i Hw Him i _ (rt_refl _ _ _) Hki Hc) as (k & Hk1 & Hk2 & <-).
    now apply U.
  Qed.

  (** The next process. *)
  Lemma next_process_sees kind other_if c i fs now ca c1 objs s kind' other_if' c' i' now' ca' c2 objs' s' :
    implements canon kind P c i -> build_of canon kind other_if false c i fs now ca c1 objs s -> dated fs now ->
    implements canon kind' P c' i' -> build_of canon kind' other_if' false c' i' (w_fs (s_world s)) now' ca' c2 objs' s' ->
    forall p j j', is_file P p -> in_cone canon c i j -> t_name (obj c j) = p ->
    in_cone canon c' i' j' -> t_name (obj c' j') = p ->
    needs_update P fs p -> ~ In (p, true) (w_ran (s_world s)) ->
    t_need (obj c2 j') = Some true.
  Proof.
    intros Him Hb Hd Him' Hb' p j j' Hp Hj Ej Hj' Ej' Hn Hr. subst p.
    eapply need_file; [exact Him'|exact Hb'|exact Hj'|now rewrite Ej'|]. rewrite Ej'.
    eapply (still_outdated kind other_if c i fs now ca c1 objs s Him Hb Hd); eauto.
  Qed.
  Lemma failed_needs_again kind other_if c i fs now ca c1 objs s kind' other_if' c' i' now' ca' c2 objs' s' :
    implements canon kind P c i -> build_of canon kind other_if false c i fs now ca c1 objs s -> dated fs now ->
    implements canon kind' P c' i' -> build_of canon kind' other_if' false c' i' (w_fs (s_world s)) now' ca' c2 objs' s' ->
    forall p j j', is_file P p -> in_cone canon c i j -> t_name (obj c j) = p ->
    in_cone canon c' i' j' -> t_name (obj c' j') = p ->
    needs_update P fs p -> In (p, false) (w_ran (s_world s)) ->
    t_need (obj c2 j') = Some true.
  Proof.
    intros Him Hb Hd Him' Hb' p j j' Hp Hj Ej Hj' Ej' Hn Hr.
    eapply (next_process_sees kind other_if c i fs now ca c1 objs s kind' other_if' c' i'); eauto.
    exact (ran_once_result kind other_if c i fs now ca c1 objs s Him Hb p Hr).
  Qed.

  (** A missing source that a rule cannot do without. *)
  Lemma missing_source_fails kind other_if c i fs now ca c1 objs s j f b q : reads_only P ->
    implements canon kind P c i -> build_of canon kind other_if false c i fs now ca c1 objs s ->
    in_cone canon c i j -> kind j = MFile f b -> p_input P (t_name (obj c j)) q -> P q = Some DSource ->
    (forall st, st q = None -> b st = None) -> fs q = None -> ~ succeeded objs s.
  Proof.
    intros Hro Him Hb Hj Hk Hin Hq Hneed Hno Hok.
    destruct (needed_ran kind other_if c i fs now ca c1 objs s Him Hb Hok j f b Hj Hk) as (v & E & Hs); [|exact Hro|].
    - exists q. split; [now apply p_input_below|]. left. split; [now left|exact Hno].
    - rewrite Hneed in E; [discriminate|]. unfold contents. now rewrite (Hs q Hq), Hno.
  Qed.

  (** Two successful builds from the same sources, after whatever histories. *)
  Lemma same_sources_same_files kind other_if c i fs now ca c1 objs s kind' other_if' c' i' fs' now' ca' c1' objs' s' :
    reads_only P -> history canon P fs now -> history canon P fs' now' ->
    implements canon kind P c i -> build_of canon kind other_if false c i fs now ca c1 objs s -> succeeded objs s ->
    implements canon kind' P c' i' -> build_of canon kind' other_if' false c' i' fs' now' ca' c1' objs' s' -> succeeded objs' s' ->
    t_name (obj c' i') = t_name (obj c i) -> kind i <> MDir -> kind' i' <> MDir ->
    (forall p, P p = Some DSource -> contents fs p = contents fs' p) ->
    forall p, is_file P p -> p_cone P (t_name (obj c i)) p ->
      contents (w_fs (s_world s)) p = contents (w_fs (s_world s')) p.
  Proof.
    intros Hro Hh Hh' Him Hb Hok Him' Hb' Hok' En Hk Hk' Hsrc p Hp Hc.
    pose proof (success_right kind other_if c i fs now ca c1 objs s Him Hb Hok Hro Hh Hk p Hp Hc) as R1.
    assert (Hc' : p_cone P (t_name (obj c' i')) p) by (rewrite En; exact Hc).
    pose proof (success_right kind' other_if' c' i' fs' now' ca' c1' objs' s' Him' Hb' Hok' Hro Hh' Hk' p Hp Hc') as R2.
    eapply (right_content_fun P Hro); [exact R1| |exact R2].
    destruct (build_run canon kind other_if false P c i fs now ca c1 objs s Him Hb) as (S & w0 & l & R & _).
    destruct (build_run canon kind' other_if' false P c' i' fs' now' ca' c1' objs' s' Him' Hb') as (S' & w0' & l' & R' & _).
    intros q _ Hq. specialize (Hsrc q Hq). unfold contents in *.
    rewrite (run_source canon kind false P c1 i fs now w0 l _ R q Hq).
    rewrite (run_source canon kind' false P c1' i' fs' now' w0' l' _ R' q Hq). exact Hsrc.
  Qed.
End Claims.
