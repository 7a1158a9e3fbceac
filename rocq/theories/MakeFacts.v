(** Lemmas: the targets of a registry and the project they implement. *)
From Verif Require Import PyBase PyPath SolverModel SpecGraph InvokerModel CoreModel SpecCore CoreProofs
  NeedProofs RuProofs CoreThms MakeModel MakeEval SpecMake MakeProofs.

Section Times.
  Variable canon : string -> string.
  Variable kind : nat -> mkind.

  Definition file_kind (k : mkind) : Prop := k = MSource \/ exists f b, k = MFile f b.
  (** Files that dependency [j] stands for. *)
  Definition stands_for (c : core) (j k : nat) : Prop :=
    (file_kind (kind j) /\ k = j) \/ (kind j = MSet /\ input canon kind c j k).
  Lemma input_unfold c i k : input canon kind c i k <->
    exists d j, In d (t_deps (obj c i)) /\ core_get canon c d = Ok j /\ stands_for c j k.
  Proof.
    split.
    - intros H. destruct H as [i d j Hd Hg Hk|i d s j Hd Hg Hk Hi]; exists d; eexists; (split; [exact Hd|]);
        (split; [exact Hg|]); [left; split; [exact Hk|reflexivity]|right; auto].
    - intros (d & j & Hd & Hg & [[Hk ->]|[Hk Hi]]); [eapply input_file; eauto|eapply input_set; eauto].
  Qed.

  Lemma pmtime_spec v c : forall fuel j m, pmtime canon kind v fuel c j = Ok m ->
    (forall k, stands_for c j k -> fi_mtime (v (t_name (obj c k))) <= m) /\
    (m = 0 \/ exists k, stands_for c j k /\ fi_mtime (v (t_name (obj c k))) = m).
  Proof.
    induction fuel as [|fuel IH]; intros j m; [discriminate|]. simpl.
    destruct (kind j) as [f b| | | |] eqn:Ek.
    - intros [= <-]. split.
      + intros k [[_ ->]|[E _]]; [lia|congruence].
      + right. exists j. split; [|reflexivity]. left. split; [right; eauto|reflexivity].
    - intros [= <-]. split.
      + intros k [[_ ->]|[E _]]; [lia|congruence].
      + right. exists j. split; [|reflexivity]. left. split; [left; exact Ek|reflexivity].
    - intros [= <-]. split; [|now left].
      intros k [[[E|(f & b & E)] _]|[E _]]; congruence.
    - assert (G : forall ds m0 m,
        (fix loop (ds : list string) (maxtime : nat) : res nat :=
               match ds with
               | [] => Ok maxtime
               | d :: ds' =>
                   do! j <- core_get canon c d;
                   do! m <- pmtime canon kind v fuel c j;
                   loop ds' (if maxtime <? m then m else maxtime)
               end) ds m0 = Ok m ->
        m0 <= m /\
        (forall d k0 k, In d ds -> core_get canon c d = Ok k0 -> stands_for c k0 k ->
           fi_mtime (v (t_name (obj c k))) <= m) /\
        (m = m0 \/ m = 0 \/ exists d k0 k, In d ds /\ core_get canon c d = Ok k0 /\ stands_for c k0 k /\
           fi_mtime (v (t_name (obj c k))) = m)).
      { induction ds as [|d ds IHd]; intros m0 m1 H.
        - injection H as <-. split; [lia|]. split; [intros d k0 k []|now left].
        - destruct (core_get canon c d) as [k0| |] eqn:Eg; simpl in H; try discriminate.
          destruct (pmtime canon kind v fuel c k0) as [mk| |] eqn:Em; simpl in H; try discriminate.
          destruct (IH _ _ Em) as [U A]. destruct (IHd _ _ H) as (L & U' & A').
          assert (Hx : m0 <= m1 /\ mk <= m1) by (destruct (Nat.ltb_spec m0 mk); lia).
          split; [lia|]. split.
          + intros d' k' k [<-|Hd] Hg Hs.
            * rewrite Eg in Hg. injection Hg as <-. specialize (U k Hs). lia.
            * eapply U'; eauto.
          + destruct A' as [A'|[A'|(d' & k' & k & Hd & Hg & Hs & E)]].
            * destruct (Nat.ltb_spec m0 mk); [|left; lia].
              destruct A as [A|(k & Hs & E)]; [right; left; lia|].
              right. right. exists d, k0, k. split; [now left|]. split; [exact Eg|]. split; [exact Hs|lia].
            * right. left. exact A'.
            * right. right. exists d', k', k. split; [now right|]. auto. }
      intros H. destruct (G _ _ _ H) as (_ & U & A). split.
      + intros k [[[E|(f & b & E)] _]|[_ Hi]]; try congruence.
        apply input_unfold in Hi. destruct Hi as (d & k0 & Hd & Hg & Hs). eapply U; eauto.
      + destruct A as [A|[A|(d & k0 & k & Hd & Hg & Hs & E)]]; [now left|now left|right].
        exists k. split; [|exact E]. right. split; [exact Ek|]. apply input_unfold. eauto.
    - discriminate.
  Qed.

  Lemma pmax_spec v c l : forall m0 m, pmax canon kind v c l m0 = Ok m ->
    m0 <= m /\ (forall j k, In j l -> stands_for c j k -> fi_mtime (v (t_name (obj c k))) <= m) /\
    (m = m0 \/ m = 0 \/ exists j k, In j l /\ stands_for c j k /\ fi_mtime (v (t_name (obj c k))) = m).
  Proof.
    induction l as [|j l IH]; intros m0 m H; cbn [pmax] in H.
    - injection H as <-. split; [lia|]. split; [intros j k []|now left].
    - destruct (pmtime canon kind v (mt_fuel c) c j) as [mk| |] eqn:Em; cbn [bind] in H; try discriminate.
      destruct (pmtime_spec _ _ _ _ _ Em) as [U A]. destruct (IH _ _ H) as (L & U' & A').
      assert (Hx : m0 <= m /\ mk <= m) by (destruct (Nat.ltb_spec m0 mk); lia).
      split; [lia|]. split.
      + intros j' k [<-|Hd] Hs; [specialize (U k Hs); lia|eapply U'; eauto].
      + destruct A' as [A'|[A'|(j' & k & Hd & Hs & E)]].
        * destruct (Nat.ltb_spec m0 mk); [|left; lia].
          destruct A as [A|(k & Hs & E)]; [right; left; lia|].
          right. right. exists j, k. split; [now left|]. split; [exact Hs|lia].
        * right. left. exact A'.
        * right. right. exists j', k. split; [now right|]. auto.
  Qed.

  (** When a file is out of date (make.py:164-177). *)
  Lemma pfile_if_spec v f c j b : pfile_if canon kind v f c j = Ok b ->
    (b = true <-> f = true \/ fi_exist (v (t_name (obj c j))) = false \/
       exists k, input canon kind c j k /\ fi_mtime (v (t_name (obj c j))) < fi_mtime (v (t_name (obj c k)))).
  Proof.
    unfold pfile_if. destruct f; [intros [= <-]; tauto|].
    destruct (fi_exist (v (t_name (obj c j)))) eqn:Ex; simpl; [|intros [= <-]; tauto].
    destruct (mapM (core_get canon c) (t_deps (obj c j))) as [l| |] eqn:El; simpl; try discriminate.
    destruct (pmax canon kind v c l 0) as [m| |] eqn:Em; simpl; try discriminate.
    intros [= <-]. apply pmax_spec in Em. destruct Em as (_ & U & A).
    apply mapM_In in El. destruct El as [El _].
    rewrite Nat.ltb_lt. split.
    - intros H. right. right. destruct A as [A|[A|(d & k & Hd & Hs & E)]]; try lia.
      apply El in Hd. destruct Hd as (x & Hx & Hg). exists k. split; [|lia].
      apply input_unfold. eauto.
    - intros [H|[H|(k & Hk & H)]]; try discriminate.
      apply input_unfold in Hk. destruct Hk as (d & d' & Hd & Hg & Hs).
      assert (In d' l) by (apply El; eauto). specialize (U d' k ltac:(auto) Hs). lia.
  Qed.
End Times.

Section Project.
  Variable canon : string -> string.
  Variable kind : nat -> mkind.
  Variable other_if : nat -> res bool.
  Variable P : project.
  Variables (c : core) (i : nat).
  Hypothesis Hw : wf_core c.
  Hypothesis Hco : coherent canon c.
  Hypothesis Hi : exists nm, In (nm, i) (c_targets c).
  Hypothesis Him : implements canon kind P c i.
  Local Notation nm j := (t_name (obj c j)).
  Local Notation cone := (in_cone canon c i).

  Lemma cone_dep j d : cone j -> obj_dep canon c j d -> cone d.
  Proof. intros Hj Hd. eapply rt_trans; [exact Hj|]. now apply rt_step. Qed.
  Lemma cone_cone j d : cone j -> in_cone canon c j d -> cone d.
  Proof. intros Hj Hd. eapply rt_trans; eauto. Qed.
  Lemma cone_inj j k : cone j -> cone k -> nm j = nm k -> j = k.
  Proof. destruct Hi as [x Hx]. apply (cone_name_inj canon c Hw Hco i). now apply (Hco x). Qed.

  Lemma file_deps_In j ds : file_deps canon kind c j ds ->
    (forall d, obj_dep canon c j d -> kind d <> MDir -> In (nm d) ds) /\
    (forall q, In q ds -> exists d, obj_dep canon c j d /\ kind d <> MDir /\ nm d = q).
  Proof.
    intros (js & F & ->). split.
    - intros d (x & Hx & Hr) Hk. apply in_map_iff. exists d. split; [reflexivity|].
      apply filter_In. split; [|destruct (kind d); congruence].
      clear - F Hx Hr Hw. induction F as [|y k ys ks Hy _ IH]; [destruct Hx|].
      destruct Hx as [->|Hx]; [left; now apply (resolves_fun canon c x)|right; auto].
    - intros q Hq. apply in_map_iff in Hq. destruct Hq as (d & <- & Hd).
      apply filter_In in Hd. destruct Hd as [Hd Hk]. exists d. split; [|split; [|reflexivity]].
      + unfold obj_dep. clear - F Hd. induction F as [|y k ys ks Hy _ IH]; [destruct Hd|].
        destruct Hd as [->|Hd]; [exists y; split; [now left|exact Hy]|].
        destruct (IH Hd) as (x & Hx & Hr). exists x. split; [now right|exact Hr].
      + intros E. rewrite E in Hk. discriminate.
  Qed.

  Lemma dep_p j d : cone j -> obj_dep canon c j d -> kind d <> MDir -> kind j <> MDir /\ p_dep P (nm j) (nm d).
  Proof.
    intros Hj Hd Hk. destruct (Him j Hj) as [_ H]. destruct (kind j) as [f b| | | |]; try contradiction.
    - destruct H as (ds & HP & HF). split; [discriminate|]. exists ds.
      split; [now apply (file_deps_In j ds HF)|]. right. eauto.
    - destruct H as [_ HF]. now apply (file_deps_In j [] HF) in Hd.
    - destruct H as [_ HF]. now apply (file_deps_In j [] HF) in Hd.
    - destruct H as (ds & HP & HF). split; [discriminate|]. exists ds.
      split; [now apply (file_deps_In j ds HF)|]. now left.
  Qed.
  Lemma p_dep_obj j q : cone j -> kind j <> MDir -> p_dep P (nm j) q ->
    exists d, obj_dep canon c j d /\ kind d <> MDir /\ nm d = q.
  Proof.
    intros Hj Hk (ds & Hq & Hd). destruct (Him j Hj) as [_ H].
    destruct (kind j) as [f b| | | |]; try contradiction.
    - destruct H as (ds' & HP & HF). rewrite HP in Hd. destruct Hd as [Hd|(f' & b' & Hd)]; [discriminate|].
      injection Hd as -> -> ->. now apply (file_deps_In j ds HF).
    - destruct H as [HP _]. rewrite HP in Hd. destruct Hd as [Hd|(f' & b' & Hd)]; discriminate.
    - destruct H as (ds' & HP & HF). rewrite HP in Hd. destruct Hd as [Hd|(f' & b' & Hd)]; [|discriminate].
      injection Hd as ->. now apply (file_deps_In j ds HF).
  Qed.

  Lemma cone_p a j : cone a -> in_cone canon c a j -> kind j <> MDir -> kind a <> MDir /\ p_cone P (nm a) (nm j).
  Proof.
    intros Ha Hj. apply Operators_Properties.clos_rt_rtn1 in Hj.
    induction Hj as [|y z Hyz Hy IH]; intros Hk; [split; [exact Hk|apply rt_refl]|].
    assert (Hcy : cone y) by (eapply cone_cone; [exact Ha|now apply Operators_Properties.clos_rtn1_rt]).
    destruct (dep_p y z Hcy Hyz Hk) as [Hky Hp]. destruct (IH Hky) as [Hka Hc]. split; [exact Hka|].
    eapply rt_trans; [exact Hc|]. now apply rt_step.
  Qed.
  Lemma p_cone_obj a q : cone a -> kind a <> MDir -> p_cone P (nm a) q ->
    exists j, in_cone canon c a j /\ kind j <> MDir /\ nm j = q.
  Proof.
    intros Ha Hk Hq. apply Operators_Properties.clos_rt_rtn1 in Hq.
    induction Hq as [|y z Hyz Hy IH]; [exists a; split; [apply rt_refl|auto]|].
    destruct IH as (j & Hj & Hkj & <-).
    destruct (p_dep_obj j z (cone_cone a j Ha Hj) Hkj Hyz) as (d & Hd & Hkd & <-).
    exists d. split; [|auto]. eapply rt_trans; [exact Hj|]. now apply rt_step.
  Qed.

  Lemma file_kind_p j : cone j -> file_kind (kind j) -> is_file P (nm j).
  Proof.
    intros Hj [E|(f & b & E)]; destruct (Him j Hj) as [_ H]; rewrite E in H.
    - left. apply H.
    - right. destruct H as (ds & H & _). exists f, ds, b. exact H.
  Qed.
  Lemma p_file_kind j : cone j -> kind j <> MDir -> is_file P (nm j) -> file_kind (kind j).
  Proof.
    intros Hj Hk Hf. destruct (Him j Hj) as [_ H]. unfold file_kind. destruct (kind j) as [f b| | | |]; eauto.
    - congruence.
    - destruct H as (ds & H & _). destruct Hf as [Hf|(f & ds' & b & Hf)]; congruence.
    - contradiction.
  Qed.
  Lemma not_dir_file j : cone j -> is_file P (nm j) -> kind j <> MDir.
  Proof.
    intros Hj Hf E. destruct (Him j Hj) as [_ H]. rewrite E in H. destruct H as [H _].
    apply (H (nm j)); auto.
  Qed.
  Lemma rule_kind j : cone j -> is_rule P (nm j) -> exists f b ds, kind j = MFile f b /\
    P (nm j) = Some (DRule f ds b) /\ file_deps canon kind c j ds.
  Proof.
    intros Hj Hr. assert (Hk := not_dir_file j Hj (or_intror Hr)).
    destruct Hr as (f & ds & b & Hr). destruct (Him j Hj) as [_ H].
    destruct (kind j) as [f' b'| | | |]; try congruence; try contradiction.
    - destruct H as (ds' & H & HF). rewrite H in Hr. injection Hr as -> -> ->. exists f, b, ds. auto.
    - destruct H as [H _]. congruence.
    - destruct H as (ds' & H & _). congruence.
  Qed.

  Lemma input_cone j k : cone j -> input canon kind c j k -> cone k /\ file_kind (kind k).
  Proof.
    intros Hj H. induction H as [j d k Hd Hg Hk|j d s k Hd Hg Hk Hin IH].
    - split; [|exact Hk]. apply (cone_dep j); [exact Hj|]. exists d. split; [exact Hd|]. now apply get_resolves.
    - apply IH. apply (cone_dep j); [exact Hj|]. exists d. split; [exact Hd|]. now apply get_resolves.
  Qed.
  Lemma input_below j k : input canon kind c j k -> in_cone canon c j k.
  Proof.
    intros H. induction H as [j d k Hd Hg Hk|j d s k Hd Hg Hk Hin IH].
    - apply rt_step. exists d. split; [exact Hd|]. now apply get_resolves.
    - eapply rt_trans; [|exact IH]. apply rt_step. exists d. split; [exact Hd|]. now apply get_resolves.
  Qed.
  Lemma input_p j k : cone j -> input canon kind c j k -> p_input P (nm j) (nm k).
  Proof.
    intros Hj H. induction H as [j d k Hd Hg Hk|j d s k Hd Hg Hk Hin IH].
    - assert (D : obj_dep canon c j k) by (exists d; split; [exact Hd|now apply get_resolves]).
      apply pi_file; [|now apply file_kind_p; [apply (cone_dep j)|]].
      apply (dep_p j k Hj D). intros E. destruct Hk as [Hk|(f & b & Hk)]; congruence.
    - assert (D : obj_dep canon c j s) by (exists d; split; [exact Hd|now apply get_resolves]).
      assert (Hs := cone_dep j s Hj D). destruct (Him s Hs) as [_ H]. rewrite Hk in H.
      destruct H as (ds & HP & _). eapply pi_set; [|exact HP|now apply IH].
      apply (dep_p j s Hj D). congruence.
  Qed.
  Lemma p_input_obj p q : p_input P p q -> forall j, cone j -> kind j <> MDir -> nm j = p ->
    exists k, input canon kind c j k /\ nm k = q.
  Proof.
    induction 1 as [p q Hd Hf|p s ds q Hd Hs _ IH]; intros j Hj Hk E; subst p.
    - destruct (p_dep_obj j q Hj Hk Hd) as (k & (d & Hk1 & Hk2) & Hkk & <-). exists k. split; [|reflexivity].
      eapply input_file; [exact Hk1|now apply get_resolves|].
      apply p_file_kind; auto. apply (cone_dep j); [exact Hj|]. exists d. auto.
    - destruct (p_dep_obj j s Hj Hk Hd) as (x & (d & Hk1 & Hk2) & Hkk & <-).
      assert (Hx : cone x) by (apply (cone_dep j); [exact Hj|exists d; auto]).
      destruct (IH x Hx Hkk eq_refl) as (k & Hin & <-). exists k. split; [|reflexivity].
      eapply input_set; [exact Hk1|apply get_resolves; [exact Hw|exact Hk2]| |exact Hin].
      destruct (Him x Hx) as [_ H]. destruct (kind x) as [f b| | | |]; try congruence; try contradiction.
      + destruct H as (ds' & H & _). congruence.
      + destruct H as [H _]. congruence.
  Qed.
  Lemma p_input_below p q : p_input P p q -> p_cone P p q.
  Proof.
    induction 1 as [p q Hd Hf|p s ds q Hd Hs _ IH]; [now apply rt_step|].
    eapply rt_trans; [apply rt_step; exact Hd|exact IH].
  Qed.
  Lemma p_input_file p q : p_input P p q -> is_file P q.
  Proof. induction 1; auto. Qed.

  Lemma newer_stat fs q p : (exists m n, fs p = Some (m, n)) ->
    newer fs q p <-> fi_mtime (stat fs p) < fi_mtime (stat fs q).
  Proof.
    intros (m & n & E). unfold newer, stat. rewrite E. simpl. split.
    - intros (mq & nq & mp & np & Eq & Ep & H). rewrite Eq. simpl. injection Ep as -> ->. exact H.
    - destruct (fs q) as [[mq nq]|]; simpl; [|lia]. intros H. exists mq, nq, m, n. auto.
  Qed.

  (** [update_if] of a target that is no directory. *)
  Lemma puif_outdated fs j b : cone j -> kind j <> MDir -> puif canon kind other_if (stat fs) c j = Ok b ->
    (b = true <-> outdated P fs (nm j)).
  Proof.
    intros Hj Hk H. unfold puif in H. pose proof (Him j Hj) as [_ HI].
    assert (Hrule : forall k, input canon kind c j k -> file_kind (kind k) /\ in_cone canon c j k /\ p_input P (nm j) (nm k)).
    { intros k Hin. destruct (input_cone j k Hj Hin) as [_ F].
      split; [exact F|]. split; [now apply input_below|now apply input_p]. }
    assert (Ex : fi_exist (stat fs (nm j)) = false <-> fs (nm j) = None).
    { unfold stat. destruct (fs (nm j)) as [[m n]|]; simpl; split; congruence. }
    assert (Ex' : fs (nm j) <> None -> exists m n, fs (nm j) = Some (m, n)).
    { destruct (fs (nm j)) as [[m n]|]; [eauto|congruence]. }
    destruct (kind j) as [f bb| | | |] eqn:Ek; try congruence; try contradiction.
    - destruct HI as (ds & HP & HF). apply pfile_if_spec in H. rewrite H. unfold outdated. split.
      + intros [->|[E|(k & Hin & Hlt)]].
        * right. left. eauto.
        * left. split; [right; exists f, ds, bb; exact HP|]. now apply Ex.
        * destruct (fs (nm j)) as [e|] eqn:Ef; [|left; split; [right; exists f, ds, bb; exact HP|reflexivity]].
          right. right. split; [exists f, ds, bb; exact HP|]. exists (nm k). split; [now apply Hrule|].
          rewrite newer_stat; [exact Hlt|]. rewrite Ef. destruct e; eauto.
      + intros [[_ E]|[(ds' & b' & E)|(_ & q & Hq & Hn)]].
        * right. left. now apply Ex.
        * left. congruence.
        * right. right. destruct (p_input_obj _ _ Hq j Hj) as (k & Hin & <-); [congruence|reflexivity|].
          exists k. split; [exact Hin|]. apply newer_stat; [|exact Hn].
          destruct Hn as (mq & nq & mp & np & _ & E & _). eauto.
    - destruct HI as [HP HF]. apply pfile_if_spec in H. rewrite H. unfold outdated. split.
      + intros [E|[E|(k & Hin & Hlt)]]; [discriminate| |].
        * left. split; [now left|]. now apply Ex.
        * exfalso. apply input_unfold in Hin. destruct Hin as (d & x & Hd & Hg & Hs).
          assert (Hkx : kind x <> MDir).
          { intros E. destruct Hs as [[[Hs|(f & b' & Hs)] _]|[Hs _]]; congruence. }
          apply (proj1 (file_deps_In j [] HF) x); [|exact Hkx].
          exists d. split; [exact Hd|]. now apply get_resolves.
      + intros [[_ E]|[(ds' & b' & E)|((f & ds & b' & E) & _)]]; [|congruence|congruence].
        right. left. now apply Ex.
    - destruct HI as (ds & HP & HF). injection H as <-. split; [discriminate|].
      intros [[[E|(f & ds' & b' & E)] _]|[(ds' & b' & E)|((f & ds' & b' & E) & _)]]; congruence.
  Qed.

  (** Directories below [j] that do not exist. *)
  Definition dir_missing (fs : fsys) (j : nat) : Prop :=
    exists k, in_cone canon c j k /\ kind k = MDir /\ fs (nm k) = None.

  Lemma below_outdated fs j : cone j ->
    (forall k, cone k -> exists b, puif canon kind other_if (stat fs) c k = Ok b) ->
    out_of_date_below canon (puif canon kind other_if (stat fs) c) c j <->
    (kind j <> MDir /\ needs_update P fs (nm j)) \/ dir_missing fs j.
  Proof.
    intros Hj Ht. split.
    - intros (k & Hk & Hu). assert (Hck := cone_cone j k Hj Hk).
      destruct (kind k) as [f b| | | |] eqn:Ek.
      3: { right. exists k. split; [exact Hk|]. split; [exact Ek|]. unfold puif in Hu. rewrite Ek in Hu.
           injection Hu as Hu. unfold stat in Hu. destruct (fs (nm k)) as [[m n]|]; [discriminate|reflexivity]. }
      all: left; assert (Hkk : kind k <> MDir) by congruence;
        destruct (cone_p j k Hj Hk Hkk) as [Hkj Hp]; (split; [exact Hkj|]); exists (nm k);
        (split; [exact Hp|]); now apply (puif_outdated fs k true).
    - intros [[Hk (q & Hq & Ho)]|(k & Hk & Ek & Hf)].
      + destruct (p_cone_obj j q Hj Hk Hq) as (k & Hjk & Hkk & <-).
        assert (Hck := cone_cone j k Hj Hjk).
        exists k. split; [exact Hjk|]. destruct (Ht k Hck) as [b Hb].
        rewrite Hb. f_equal. now apply (puif_outdated fs k b).
      + exists k. split; [exact Hk|]. unfold puif. rewrite Ek. unfold stat. now rewrite Hf.
  Qed.
End Project.
