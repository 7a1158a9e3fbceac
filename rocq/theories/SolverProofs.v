(** [solver_init] against the graph specification of SpecGraph.v. *)
From Coq Require Import Permutation Relations.Relation_Operators Relations.Operators_Properties.
From Verif Require Import PyBase SolverModel SpecGraph InvertProofs DfsProofs.

Section Order.
  Variable so : set_order.
  Hypothesis Hso : fair_order so.

  Lemma deps_set_In i t nm : In nm (deps_set so i t) <-> In nm (dt_deps t).
  Proof.
    unfold deps_set. rewrite <- (nodup_In string_dec (dt_deps t) nm).
    destruct Hso as [H _]. specialize (H i (nodup string_dec (dt_deps t))).
    split; apply Permutation_in; [now apply Permutation_sym|exact H].
  Qed.

  Lemma deps_set_NoDup i t : NoDup (deps_set so i t).
  Proof.
    unfold deps_set. destruct Hso as [H _].
    eapply Permutation_NoDup; [apply H|apply NoDup_nodup].
  Qed.

  Lemma deps_set_nil i t : List.length (deps_set so i t) = 0 <-> dt_deps t = [].
  Proof.
    split.
    - intros H. apply length_zero_iff_nil in H. destruct (dt_deps t) as [|nm l] eqn:E; [reflexivity|].
      assert (Hi : In nm (deps_set so i t)) by (apply deps_set_In; rewrite E; now left).
      rewrite H in Hi. destruct Hi.
    - intros H. destruct (deps_set so i t) as [|nm l] eqn:E; [reflexivity|].
      assert (Hi : In nm (dt_deps t)) by (apply (deps_set_In i); rewrite E; now left).
      rewrite H in Hi. destruct Hi.
  Qed.

  Lemma count_NoDup (l : list string) x : NoDup l -> List.length (filter (String.eqb x) l) <= 1.
  Proof.
    induction 1 as [|y l Hy Hl IH]; simpl; [lia|].
    destruct (String.eqb_spec x y) as [->|Hn]; [|exact IH]. simpl.
    replace (filter (String.eqb y) l) with (@nil string); [simpl; lia|].
    symmetry. destruct (filter (String.eqb y) l) as [|z m] eqn:E; [reflexivity|].
    exfalso. assert (Hz : In z (filter (String.eqb y) l)) by (rewrite E; now left).
    apply filter_In in Hz. destruct Hz as [Hz1 Hz2]. apply String.eqb_eq in Hz2. now subst.
  Qed.

  Lemma double_depends_none i ts : double_depends_check so i ts = None.
  Proof.
    revert i; induction ts as [|t ts IH]; intros i; simpl; [reflexivity|].
    replace (double_dep_of (deps_set so i t)) with (@None string); [apply IH|].
    symmetry. unfold double_dep_of.
    destruct (find _ (deps_set so i t)) eqn:E; [|reflexivity].
    apply find_some in E. destruct E as [_ E]. apply Nat.ltb_lt in E.
    pose proof (count_NoDup (deps_set so i t) s (deps_set_NoDup i t)). lia.
  Qed.

  (** names *)
  Lemma names_gen ts : forall i acc nm,
    (exists k, denotes ts nm k /\ sget (names_to_deptargets i ts acc) nm = Some (i + k)) \/
    (~ In nm (map dt_name ts) /\ sget (names_to_deptargets i ts acc) nm = sget acc nm).
  Proof.
    induction ts as [|t ts IH]; intros i acc nm; simpl; [right; auto|].
    destruct (IH (S i) (sset acc (dt_name t) i) nm) as [(k & [Hk1 Hk2] & Hk3)|[Hk1 Hk2]].
    - left. exists (S k). split; [|rewrite Hk3; f_equal; lia].
      split; [exact Hk1|]. intros [|j] Hj; [lia|]. simpl. apply Hk2. lia.
    - destruct (String.eqb_spec (dt_name t) nm) as [E|E].
      + left. exists 0. split.
        * split; [simpl; now rewrite E|]. intros [|j] Hj; [lia|]. simpl.
          intros Hn. apply nth_error_In in Hn. contradiction.
        * rewrite Hk2, E, (dget_dset_eq _ String.eqb_spec). f_equal; lia.
      + right. split; [tauto|]. rewrite Hk2. now rewrite (dget_dset_neq _ String.eqb_spec).
  Qed.

  Lemma denotes_unique ts nm i j : denotes ts nm i -> denotes ts nm j -> i = j.
  Proof.
    intros [H1 H2] [H3 H4]. destruct (Nat.lt_trichotomy i j) as [H|[H|H]]; [|exact H|].
    - now apply H2 in H.
    - now apply H4 in H.
  Qed.

  Lemma denotes_lt ts nm i : denotes ts nm i -> i < List.length ts.
  Proof.
    intros [H _]. rewrite <- (map_length dt_name). apply nth_error_Some. congruence.
  Qed.

  Lemma denotes_In ts nm i : denotes ts nm i -> In nm (map dt_name ts).
  Proof. intros [H _]. eapply nth_error_In; eauto. Qed.

  Lemma names_spec ts nm j : sget (names_to_deptargets 0 ts []) nm = Some j <-> denotes ts nm j.
  Proof.
    destruct (names_gen ts 0 [] nm) as [(k & H1 & H2)|[H1 H2]].
    - simpl in H2. rewrite H2. split; [intros [= <-]; exact H1|].
      intros H. f_equal. eapply denotes_unique; eauto.
    - rewrite H2. simpl. split; [discriminate|]. intros H. now apply denotes_In in H.
  Qed.

  Lemma names_none ts nm :
    sget (names_to_deptargets 0 ts []) nm = None <-> ~ In nm (map dt_name ts).
  Proof.
    destruct (names_gen ts 0 [] nm) as [(k & H1 & H2)|[H1 H2]].
    - simpl in H2. rewrite H2. split; [discriminate|]. intros H. exfalso; apply H.
      eapply denotes_In; eauto.
    - rewrite H2. simpl. tauto.
  Qed.

  Lemma known_denotes ts nm : In nm (map dt_name ts) -> exists j, denotes ts nm j.
  Proof.
    intros H. destruct (sget (names_to_deptargets 0 ts []) nm) as [j|] eqn:E.
    - exists j. now apply names_spec.
    - apply names_none in E. contradiction.
  Qed.

  (** collect_one *)
  Lemma collect_one_ok (names : list (string * nat)) : forall deps acc,
    (forall a b j, sget names a = Some j -> sget names b = Some j -> a = b) ->
    NoDup deps -> NoDup acc ->
    (forall nm j, In nm deps -> sget names nm = Some j -> ~ In j acc) ->
    (forall nm, In nm deps -> sget names nm <> None) ->
    exists l, collect_one names deps acc = inr l /\ NoDup l /\
      List.length l = List.length acc + List.length deps /\
      forall j, In j l <-> In j acc \/ exists nm, In nm deps /\ sget names nm = Some j.
  Proof.
    induction deps as [|d deps IH]; intros acc Hinj Hnd Hacc Hdis Hk; simpl.
    - exists acc. repeat split; auto; try lia. intros [H|(nm & Hf & _)]; [exact H|destruct Hf].
    - destruct (sget names d) as [j|] eqn:E.
      2:{ exfalso. apply (Hk d); [now left|exact E]. }
      inversion Hnd as [|? ? Hd Hnd']; subst.
      assert (Ej : ~ In j acc) by (apply (Hdis d); [now left|exact E]).
      destruct (IH (sadd Nat.eqb acc j)) as (l & H1 & H2 & H3 & H4); auto.
      + apply sadd_NoDup; auto using nat_eqb_spec'.
      + intros nm j' Hi Hs. rewrite (sadd_In Nat.eqb nat_eqb_spec'). intros [Hx| ->].
        * apply (Hdis nm j'); auto. now right.
        * apply Hd. rewrite <- (Hinj nm d j Hs E). exact Hi.
      + intros nm Hi. apply Hk. now right.
      + exists l. split; [exact H1|]. split; [exact H2|]. split.
        * rewrite H3. unfold sadd. apply (smem_false Nat.eqb nat_eqb_spec') in Ej. rewrite Ej.
          rewrite app_length. simpl. lia.
        * intros k. rewrite H4, (sadd_In Nat.eqb nat_eqb_spec'). split.
          -- intros [[H| ->]|(nm & H5 & H6)]; [now left| |].
             ++ right. exists d. split; [now left|exact E].
             ++ right. exists nm. split; [now right|exact H6].
          -- intros [H|(nm & [<-|H5] & H6)]; [now left; left| |].
             ++ left; right. congruence.
             ++ right. now exists nm.
  Qed.

  Lemma collect_one_err (names : list (string * nat)) : forall deps acc e,
    collect_one names deps acc = inl e -> In e deps /\ sget names e = None.
  Proof.
    induction deps as [|d deps IH]; intros acc e; simpl; [discriminate|].
    destruct (sget names d) as [j|] eqn:E.
    - intros H. destruct (IH _ _ H). split; [now right|assumption].
    - intros [= <-]. split; [now left|exact E].
  Qed.

  Lemma collect_one_some (names : list (string * nat)) : forall deps acc l,
    collect_one names deps acc = inr l -> forall nm, In nm deps -> sget names nm <> None.
  Proof.
    induction deps as [|d deps IH]; intros acc l; simpl; [intros _ nm []|].
    destruct (sget names d) as [j|] eqn:E; [|discriminate].
    intros H nm [<-|Hn]; [congruence|]. eapply IH; eauto.
  Qed.

  Lemma collect_err names : forall ts i e,
    collect_depends_of_targets so names i ts = inl e ->
    exists t, In t ts /\ In e (dt_deps t) /\ sget names e = None.
  Proof.
    induction ts as [|t ts IH]; intros i e; simpl; [discriminate|].
    destruct (collect_one names (deps_set so i t) []) as [e'|l] eqn:E.
    - intros [= ->]. apply collect_one_err in E. destruct E as [E1 E2].
      apply deps_set_In in E1. exists t. split; [now left|]. now split.
    - destruct (collect_depends_of_targets so names (S i) ts) as [e'|d] eqn:E'; [|discriminate].
      intros [= ->]. destruct (IH _ _ E') as (t' & H1 & H2 & H3). exists t'.
      split; [now right|]. now split.
  Qed.

  Lemma collect_some names : forall ts i d,
    collect_depends_of_targets so names i ts = inr d ->
    map fst d = seq i (List.length ts) /\
    (forall k t, nth_error ts k = Some t ->
       exists l, In (i + k, l) d /\ collect_one names (deps_set so (i + k) t) [] = inr l) /\
    (forall j l, In (j, l) d -> exists k t, j = i + k /\ nth_error ts k = Some t /\
        collect_one names (deps_set so (i + k) t) [] = inr l).
  Proof.
    induction ts as [|t ts IH]; intros i d; simpl.
    - intros [= <-]. split; [reflexivity|]. split; [intros [|k] t; discriminate|intros j l []].
    - destruct (collect_one names (deps_set so i t) []) as [e'|l] eqn:E; [discriminate|].
      destruct (collect_depends_of_targets so names (S i) ts) as [e'|d'] eqn:E'; [discriminate|].
      intros [= <-]. destruct (IH _ _ E') as (H1 & H2 & H3). simpl. split; [now rewrite H1|]. split.
      + intros [|k] t' Hk; simpl in Hk.
        * injection Hk as <-. exists l. rewrite Nat.add_0_r. split; [now left|exact E].
        * destruct (H2 k t' Hk) as (l' & H4 & H5). exists l'.
          replace (i + S k) with (S i + k) by lia. split; [now right|exact H5].
      + intros j l' [[= <- <-]|Hj].
        * exists 0, t. rewrite Nat.add_0_r. auto.
        * destruct (H3 j l' Hj) as (k & t' & H4 & H5 & H6). exists (S k), t'.
          replace (i + S k) with (S i + k) by lia. auto.
  Qed.

  Lemma roots_spec : forall ts i r,
    In r (get_non_dependable_targets so i ts) <->
    exists k t, r = i + k /\ nth_error ts k = Some t /\ dt_deps t = [].
  Proof.
    induction ts as [|t ts IH]; intros i r; simpl.
    - split; [intros []|]. intros ([|k] & t & _ & H & _); discriminate.
    - rewrite in_app_iff, IH. split.
      + intros [H|(k & t' & H1 & H2 & H3)].
        * destruct (List.length (deps_set so i t) =? 0) eqn:E; [|destruct H].
          apply Nat.eqb_eq in E. apply deps_set_nil in E. destruct H as [<-|[]].
          exists 0, t. rewrite Nat.add_0_r. auto.
        * exists (S k), t'. split; [lia|]. auto.
      + intros ([|k] & t' & H1 & H2 & H3); simpl in H2.
        * injection H2 as <-. left. apply (deps_set_nil i) in H3. rewrite H3. simpl. left. lia.
        * right. exists k, t'. split; [lia|]. auto.
  Qed.

  Lemma roots_lb : forall ts i r, In r (get_non_dependable_targets so i ts) -> i <= r.
  Proof. intros ts i r H. apply roots_spec in H. destruct H as (k & t & -> & _). lia. Qed.

  Lemma roots_NoDup : forall ts i, NoDup (get_non_dependable_targets so i ts).
  Proof.
    induction ts as [|t ts IH]; intros i; simpl; [constructor|].
    destruct (List.length (deps_set so i t) =? 0); simpl; [|apply IH].
    constructor; [|apply IH]. intros H. apply roots_lb in H. lia.
  Qed.

  Lemma depcounts_nth : forall ts i k t, nth_error ts k = Some t ->
    nth_error (depcounts so i ts) k = Some (List.length (deps_set so (i + k) t)).
  Proof.
    induction ts as [|t0 ts IH]; intros i [|k] t; simpl; try discriminate.
    - intros [= ->]. now rewrite Nat.add_0_r.
    - intros H. rewrite (IH (S i) k t H). do 2 f_equal. f_equal. lia.
  Qed.

  Lemma depcounts_length : forall ts i, List.length (depcounts so i ts) = List.length ts.
  Proof. induction ts as [|t ts IH]; intros i; simpl; [reflexivity|now rewrite IH]. Qed.

  (** A finite set in which everybody has a successor in the set contains a cycle. *)
  Lemma finite_cycle (R : nat -> nat -> Prop) (U : list nat) :
    U <> [] -> (forall x, In x U -> exists y, In y U /\ R x y) -> exists x, clos_trans nat R x x.
  Proof.
    intros Hne Htot.
    assert (G : forall k, (exists x, clos_trans nat R x x) \/
              exists x l, List.length l = k /\ NoDup (x :: l) /\ incl (x :: l) U /\
                 (forall y, In y l -> clos_trans nat R y x)).
    { induction k as [|k IH].
      - right. destruct U as [|u U']; [contradiction|]. exists u, []. repeat split.
        + constructor; [intros []|constructor].
        + intros z [<-|[]]. now left.
        + intros y [].
      - destruct IH as [H|(x & l & H1 & H2 & H3 & H4)]; [now left|].
        destruct (Htot x) as (y & Hy & HR); [apply H3; now left|].
        destruct (in_dec Nat.eq_dec y (x :: l)) as [Hin|Hnin].
        + left. exists y. destruct Hin as [<-|Hin]; [now apply t_step|].
          eapply t_trans; [apply H4, Hin|now apply t_step].
        + right. exists y, (x :: l). repeat split.
          * simpl. now rewrite H1.
          * now constructor.
          * intros z [<-|Hz]; auto.
          * intros z [<-|Hz]; [now apply t_step|]. eapply t_trans; [now apply H4|now apply t_step]. }
    destruct (G (List.length U)) as [H|(x & l & H1 & H2 & H3 & _)]; [exact H|].
    exfalso. pose proof (NoDup_incl_length H2 H3). simpl in *. lia.
  Qed.

  (** What a successfully constructed solver looks like. *)
  Record solver_for (ts : list dtarget) (th : Z) (sv : solver) : Prop := {
    sf_n : sv_n sv = List.length ts;
    sf_threads : sv_threads sv = th;
    sf_inv : forall i j, In j (inv_of (sv_inv sv) i) <-> depends_on ts j i;
    sf_inv_nodup : forall i, NoDup (inv_of (sv_inv sv) i);
    sf_queue : forall i, In i (sv_queue sv) <-> dependency_free ts i;
    sf_queue_nodup : NoDup (sv_queue sv);
    sf_queue_ne : sv_queue sv <> [];
    sf_deps : forall i j, In j (inv_of (sv_deps sv) i) <-> depends_on ts i j;
    sf_deps_nodup : forall i, NoDup (inv_of (sv_deps sv) i);
    sf_count : forall i, i < List.length ts ->
       nth i (sv_depcount sv) 0 = List.length (inv_of (sv_deps sv) i) }.

  Lemma dependency_free_lt ts i : dependency_free ts i -> i < List.length ts.
  Proof. intros (t & H & _). apply nth_error_Some. congruence. Qed.

  Lemma depends_on_lt ts i j : depends_on ts i j -> i < List.length ts /\ j < List.length ts.
  Proof.
    intros (t & nm & H1 & _ & H3). split; [apply nth_error_Some; congruence|].
    eapply denotes_lt; eauto.
  Qed.

  Lemma clos_inv (R S : nat -> nat -> Prop) :
    (forall a b, R a b -> S b a) ->
    forall x y, clos_trans nat R x y -> clos_trans nat S y x.
  Proof. intros H. induction 1; [apply t_step; auto|eapply t_trans; eauto]. Qed.
  Lemma clos_rt_inv (R S : nat -> nat -> Prop) :
    (forall a b, R a b -> S b a) ->
    forall x y, clos_refl_trans nat R x y -> clos_refl_trans nat S y x.
  Proof. intros H. induction 1; [apply rt_step; auto|apply rt_refl|eapply rt_trans; eauto]. Qed.

  Lemma chain_dependency ts (succ : nat -> list nat) l :
    (forall i j, In j (succ i) -> depends_on ts j i) ->
    chain succ l -> dependency_chain ts l.
  Proof.
    intros H. induction l as [|a [|b l] IH]; simpl; auto.
    intros [H1 H2]. split; [now apply H|]. now apply IH.
  Qed.

  Definition init_verdict (ts : list dtarget) (th : Z) (r : solver_error + solver) : Prop :=
    match r with
    | inr sv => ts <> [] /\ all_known ts /\ no_cycle ts /\ solver_for ts th sv
    | inl (UnknowTargetError e) =>
        exists t, In t ts /\ In e (dt_deps t) /\ ~ In e (map dt_name ts)
    | inl NoOneNonDependableTarget =>
        all_known ts /\ forall i, ~ dependency_free ts i
    | inl (CircularDependencyError l) =>
        all_known ts /\ (exists i, dependency_free ts i) /\
        exists l0 d, l = l0 ++ [d] /\ In d l0 /\ dependency_chain ts l
    | inl (ConnectivityError l) =>
        all_known ts /\ (exists i, dependency_free ts i) /\ l <> [] /\
        forall i, In i l <-> i < List.length ts /\ ~ grounded ts i
    | inl _ => False
    end.

  Lemma solver_init_verdict ts th : init_verdict ts th (solver_init so ts (Some th)).
  Proof.
    unfold solver_init. rewrite double_depends_none.
    set (names := names_to_deptargets 0 ts []).
    destruct (collect_depends_of_targets so names 0 ts) as [e|deps] eqn:Ec.
    { simpl. apply collect_err in Ec. destruct Ec as (t & H1 & H2 & H3).
      exists t. split; [exact H1|]. split; [exact H2|]. now apply names_none. }
    apply collect_some in Ec. destruct Ec as (Hk & Hc1 & Hc2). simpl in Hc1, Hc2.
    assert (Hknown : all_known ts).
    { intros t nm Ht Hnm. apply In_nth_error in Ht. destruct Ht as [k Hk'].
      destruct (Hc1 k t Hk') as (l & _ & Hl).
      pose proof (collect_one_some _ _ _ _ Hl nm) as Hs.
      rewrite deps_set_In in Hs. specialize (Hs Hnm).
      destruct (in_dec string_dec nm (map dt_name ts)) as [Hi|Hi]; [exact Hi|].
      apply names_none in Hi. contradiction. }
    assert (Hone : forall k t, nth_error ts k = Some t ->
       exists l, collect_one names (deps_set so k t) [] = inr l /\ NoDup l /\
          List.length l = List.length (deps_set so k t) /\
          forall j, In j l <-> depends_on ts k j).
    { intros k t Hkt. destruct (collect_one_ok names (deps_set so k t) []) as (l & L1 & L2 & L3 & L4).
      - intros a b j Ha Hb. apply names_spec in Ha, Hb. destruct Ha as [Ha _], Hb as [Hb _]. congruence.
      - apply deps_set_NoDup.
      - constructor.
      - intros nm j _ _ [].
      - intros nm Hn. apply deps_set_In in Hn. intros Hno. apply names_none in Hno. apply Hno.
        eapply Hknown; [eapply nth_error_In; eauto|exact Hn].
      - exists l. split; [exact L1|]. split; [exact L2|]. split; [exact L3|].
        intros j. rewrite L4. simpl. split.
        + intros [[]|(nm & H1 & H2)]. apply deps_set_In in H1. apply names_spec in H2.
          now exists t, nm.
        + intros (t' & nm & H1 & H2 & H3). right. exists nm.
          assert (t' = t) by congruence. subst t'.
          split; [now apply deps_set_In|now apply names_spec]. }
    assert (Hdeps : forall i l, In (i, l) deps -> NoDup l /\ i < List.length ts /\
                      forall j, In j l <-> depends_on ts i j).
    { intros i l Hi. destruct (Hc2 i l Hi) as (k & t & -> & H2 & H3).
      destruct (Hone k t H2) as (l' & H4 & H5 & _ & H6). assert (l' = l) by congruence. subst.
      split; [exact H5|]. split; [apply nth_error_Some; congruence|exact H6]. }
    assert (Hdeps' : forall i j, depends_on ts i j -> exists l, In (i, l) deps /\ In j l).
    { intros i j Hd. pose proof Hd as (t & nm & H1 & H2 & H3).
      destruct (Hc1 i t H1) as (l & H4 & _). exists l. split; [exact H4|].
      now apply (proj2 (proj2 (Hdeps i l H4))). }
    assert (Hnd : NoDup (dkeys deps)) by (unfold dkeys; rewrite Hk; apply seq_NoDup).
    assert (Hclosed : forall t s x, In (t, s) deps -> In x s -> In x (dkeys deps)).
    { intros t s x H1 H2. unfold dkeys. rewrite Hk. apply in_seq. simpl.
      apply (proj2 (proj2 (Hdeps t s H1))) in H2. apply depends_on_lt in H2. lia. }
    destruct (invert_spec Nat.eqb nat_eqb_spec' deps Hnd Hclosed) as (inv & Hi1 & Hi2 & Hi3 & Hi4).
    rewrite Hi1.
    assert (Hlen : List.length inv = List.length ts).
    { rewrite <- (map_length fst). fold (dkeys inv). rewrite Hi2. unfold dkeys.
      now rewrite Hk, seq_length. }
    rewrite Hlen, Nat.eqb_refl. simpl negb. cbv iota.
    assert (Hinv : forall i j, In j (inv_of inv i) <-> depends_on ts j i).
    { intros i j. change (inv_of inv i) with (dval Nat.eqb inv i). rewrite Hi3. split.
      - intros (s & H1 & H2). now apply (proj2 (proj2 (Hdeps j s H1))).
      - intros H. now apply Hdeps'. }
    set (roots := get_non_dependable_targets so 0 ts).
    assert (Hroots : forall i, In i roots <-> dependency_free ts i).
    { intros i. unfold roots. rewrite roots_spec. simpl. split.
      - intros (k & t & -> & H1 & H2). now exists t.
      - intros (t & H1 & H2). now exists i, t. }
    destruct (List.length roots =? 0) eqn:Er.
    { apply Nat.eqb_eq, length_zero_iff_nil in Er. simpl. split; [exact Hknown|].
      intros i Hi. apply Hroots in Hi. rewrite Er in Hi. destruct Hi. }
    apply Nat.eqb_neq in Er.
    assert (Hrne : roots <> []) by (intros E; rewrite E in Er; now apply Er).
    assert (Hex : exists i, dependency_free ts i).
    { destruct roots as [|r rs] eqn:E; [contradiction|]. exists r. apply Hroots. now left. }
    set (succ := fun i => so_obj so i (inv_of inv i)).
    assert (Hsucc : forall i j, In j (succ i) <-> depends_on ts j i).
    { intros i j. rewrite <- Hinv. unfold succ. destruct Hso as [_ H].
      specialize (H i (inv_of inv i)). split; apply Permutation_in; [now apply Permutation_sym|exact H]. }
    pose proof (connectivity_check_spec succ (List.length ts)) as C.
    specialize (C (fun t s _ H => proj1 (depends_on_lt ts s t (proj1 (Hsucc t s) H)))).
    specialize (C roots (roots_NoDup ts 0)).
    specialize (C (fun r H => dependency_free_lt ts r (proj1 (Hroots r) H))).
    assert (Hrs : forall r x, In r roots -> ~ In r (succ x)).
    { intros r x Hr Hx. apply Hroots in Hr. apply Hsucc in Hx.
      destruct Hr as (t & H1 & H2), Hx as (t' & nm & H3 & H4 & _).
      assert (t' = t) by congruence. subst. rewrite H2 in H4. destruct H4. }
    specialize (C Hrs).
    assert (Hg : forall i, grounded ts i <->
               exists r, In r roots /\ clos_refl_trans nat (fun a b => In b (succ a)) r i).
    { intros i. split; intros (r & H1 & H2); exists r.
      - split; [now apply Hroots|]. eapply clos_rt_inv; [|exact H2]. intros a b Hab; now apply Hsucc.
      - split; [now apply Hroots|]. eapply clos_rt_inv; [|exact H2]. intros a b Hab; now apply Hsucc. }
    destruct (connectivity_check succ (List.length ts) roots) as [err|].
    - destruct err; try contradiction; simpl.
      + split; [exact Hknown|]. split; [exact Hex|].
        destruct C as (l0 & d & C1 & C2 & C3). exists l0, d. split; [exact C1|]. split; [exact C2|].
        eapply chain_dependency; [|exact C3]. intros i j. apply Hsucc.
      + split; [exact Hknown|]. split; [exact Hex|]. destruct C as [C0 C]. split; [exact C0|].
        intros i. rewrite C, Hg. reflexivity.
    - destruct C as [C1 C2]. simpl. split.
      { intros ->. apply Hrne. reflexivity. }
      split; [exact Hknown|]. split.
      + intros i Hi.
        assert (Hil : i < List.length ts).
        { apply clos_trans_t1n in Hi. inversion Hi as [y Hy|y z Hy _]; subst; now apply depends_on_lt in Hy. }
        apply (C2 i Hil). eapply clos_inv; [|exact Hi]. intros a b Hab. now apply Hsucc.
      + assert (Hof : forall i, (exists l, In (i, l) deps /\ inv_of deps i = l) \/
                               (List.length ts <= i /\ inv_of deps i = [])).
        { intros i. unfold inv_of. destruct (nget deps i) as [l|] eqn:El.
          - left. exists l. split; [|reflexivity]. now apply (dget_In Nat.eqb nat_eqb_spec') in El.
          - right. split; [|reflexivity].
            destruct (Nat.le_gt_cases (List.length ts) i) as [|Hl]; [assumption|exfalso].
            apply nth_error_Some in Hl. destruct (nth_error ts i) as [t|] eqn:Et; [|contradiction].
            destruct (Hc1 i t Et) as (l & H4 & _).
            apply (dget_None Nat.eqb nat_eqb_spec') in El. apply El.
            unfold dkeys. apply (in_map fst) in H4. exact H4. }
        constructor; simpl; auto.
        * apply roots_NoDup.
        * intros i j. destruct (Hof i) as [(l & H1 & ->)|(H1 & ->)].
          -- now apply (Hdeps i l H1).
          -- split; [intros []|]. intros Hd. apply depends_on_lt in Hd. lia.
        * intros i. destruct (Hof i) as [(l & H1 & ->)|(H1 & ->)]; [|constructor].
          now apply (Hdeps i l H1).
        * intros i Hil. destruct (Hof i) as [(l & H1 & ->)|(H1 & ->)]; [|lia].
          destruct (Hc2 i l H1) as (k & t & E & Et & El). simpl in E. subst k.
          destruct (Hone i t Et) as (l' & H3 & H4 & H5 & _).
          assert (l' = l) by congruence. subst l'. rewrite H5.
          apply nth_error_nth. rewrite (depcounts_nth ts 0 i t Et). reflexivity.
  Qed.

  Lemma acyclic_all_grounded ts : all_known ts -> no_cycle ts ->
    forall l, (forall i, In i l <-> i < List.length ts /\ ~ grounded ts i) -> l = [].
  Proof.
    intros Hk Hn l Hl. destruct l as [|u l']; [reflexivity|exfalso].
    destruct (finite_cycle (depends_on ts) (u :: l')) as [x Hx]; [discriminate| |now apply (Hn x)].
    intros x Hx. apply Hl in Hx. destruct Hx as [Hx1 Hx2].
    apply nth_error_Some in Hx1. destruct (nth_error ts x) as [t|] eqn:E; [clear Hx1|contradiction].
    destruct (dt_deps t) as [|nm deps] eqn:Ed.
    - exfalso. apply Hx2. exists x. split; [now exists t|apply rt_refl].
    - assert (Hnm : In nm (map dt_name ts)).
      { eapply Hk; [eapply nth_error_In; eauto|rewrite Ed; now left]. }
      apply known_denotes in Hnm. destruct Hnm as [j Hj].
      assert (Hd : depends_on ts x j).
      { exists t, nm. split; [exact E|]. split; [rewrite Ed; now left|exact Hj]. }
      exists j. split; [|exact Hd]. apply Hl. split; [now apply depends_on_lt in Hd|].
      intros (r & H1 & H2). apply Hx2. exists r. split; [exact H1|].
      eapply rt_trans; [apply rt_step; exact Hd|exact H2].
  Qed.

  Lemma chain_clos ts l a b :
    dependency_chain ts (a :: l ++ [b]) -> clos_trans nat (depends_on ts) b a.
  Proof.
    revert a; induction l as [|c l IH]; intros a.
    - simpl. intros [H _]. now apply t_step.
    - intros H. change (depends_on ts c a /\ dependency_chain ts (c :: l ++ [b])) in H.
      destruct H as [H1 H2]. eapply t_trans; [apply IH; exact H2|now apply t_step].
  Qed.

  Lemma dependency_chain_app ts l1 l2 : dependency_chain ts (l1 ++ l2) -> dependency_chain ts l2.
  Proof.
    induction l1 as [|a l1 IH]; [auto|]. intros H. apply IH. clear IH.
    destruct l1 as [|b l1]; simpl in *; [|tauto]. destruct l2; simpl in *; tauto.
  Qed.

  Lemma circular_cycle ts l0 d :
    In d l0 -> dependency_chain ts (l0 ++ [d]) -> clos_trans nat (depends_on ts) d d.
  Proof.
    intros H Hc. apply in_split in H. destruct H as (l1 & l2 & ->).
    rewrite <- app_assoc in Hc. apply dependency_chain_app in Hc. simpl in Hc.
    now apply chain_clos in Hc.
  Qed.

  Lemma empty_no_root i : ~ dependency_free [] i.
  Proof. intros (t & H & _). destruct i; discriminate. Qed.

  Lemma solver_accepts ts th :
    (exists sv, solver_init so ts (Some th) = inr sv) <->
    ts <> [] /\ all_known ts /\ no_cycle ts.
  Proof.
    pose proof (solver_init_verdict ts th) as V. split.
    - intros [sv E]. rewrite E in V. simpl in V. tauto.
    - intros (Hne & Hk & Hc). destruct (solver_init so ts (Some th)) as [e|sv]; [|now exists sv].
      exfalso. destruct e; simpl in V; try contradiction.
      + destruct V as (t & H1 & H2 & H3). apply H3. eapply Hk; eauto.
      + destruct V as [_ V].
        assert (Hall : forall i, In i (seq 0 (List.length ts)) <->
                         i < List.length ts /\ ~ grounded ts i).
        { intros i. rewrite in_seq. split; [|lia]. intros [_ Hi]. split; [exact Hi|].
          intros (r & H1 & _). exact (V r H1). }
        pose proof (acyclic_all_grounded ts Hk Hc _ Hall) as E.
        destruct ts; [contradiction|discriminate].
      + destruct V as (_ & _ & l0 & d & -> & H1 & H2).
        apply (Hc d). eapply circular_cycle; eauto.
      + destruct V as (_ & _ & H1 & H2). apply H1. eapply acyclic_all_grounded; eauto.
  Qed.

  Lemma verdict_unknown ts th :
    (exists e, solver_init so ts (Some th) = inl (UnknowTargetError e)) <-> ~ all_known ts.
  Proof.
    pose proof (solver_init_verdict ts th) as V. split.
    - intros [e E] Hk. rewrite E in V. destruct V as (t & H1 & H2 & H3). apply H3. eapply Hk; eauto.
    - intros Hn. destruct (solver_init so ts (Some th)) as [e|sv]; simpl in V.
      + destruct e; try contradiction; try (exfalso; tauto). now exists dep.
      + exfalso. tauto.
  Qed.

  Lemma verdict_unknown_name ts th e :
    solver_init so ts (Some th) = inl (UnknowTargetError e) ->
    exists t, In t ts /\ In e (dt_deps t) /\ ~ In e (map dt_name ts).
  Proof. intros E. pose proof (solver_init_verdict ts th) as V. rewrite E in V. exact V. Qed.

  Lemma verdict_noone ts th :
    solver_init so ts (Some th) = inl NoOneNonDependableTarget <->
    all_known ts /\ forall i, ~ dependency_free ts i.
  Proof.
    pose proof (solver_init_verdict ts th) as V. split.
    - intros E. rewrite E in V. exact V.
    - intros [Hk Hn]. destruct (solver_init so ts (Some th)) as [e|sv]; simpl in V.
      + destruct e; try contradiction; [|reflexivity| |]; exfalso.
        * destruct V as (t & H1 & H2 & H3). apply H3. eapply Hk; eauto.
        * destruct V as (_ & (i & Hi) & _). exact (Hn i Hi).
        * destruct V as (_ & (i & Hi) & _). exact (Hn i Hi).
      + exfalso. destruct V as (_ & _ & _ & V).
        destruct (sv_queue sv) as [|q qs] eqn:Eq; [exact (sf_queue_ne _ _ _ V Eq)|].
        apply (Hn q). apply (sf_queue _ _ _ V). rewrite Eq. now left.
  Qed.

  Lemma verdict_circular ts th l :
    solver_init so ts (Some th) = inl (CircularDependencyError l) ->
    exists l0 d, l = l0 ++ [d] /\ In d l0 /\ dependency_chain ts l /\
                 clos_trans nat (depends_on ts) d d.
  Proof.
    intros E. pose proof (solver_init_verdict ts th) as V. rewrite E in V.
    destruct V as (_ & _ & l0 & d & -> & H1 & H2). exists l0, d. repeat split; auto.
    eapply circular_cycle; eauto.
  Qed.

  Lemma verdict_connectivity ts th l :
    solver_init so ts (Some th) = inl (ConnectivityError l) ->
    l <> [] /\ forall i, In i l <-> i < List.length ts /\ ~ grounded ts i.
  Proof. intros E. pose proof (solver_init_verdict ts th) as V. rewrite E in V. simpl in V. tauto. Qed.

  Lemma verdict_no_other ts th e :
    solver_init so ts (Some th) = inl e ->
    match e with
    | UnknowTargetError _ | NoOneNonDependableTarget
    | CircularDependencyError _ | ConnectivityError _ => True
    | _ => False
    end.
  Proof.
    intros E. pose proof (solver_init_verdict ts th) as V. rewrite E in V.
    destruct e; simpl in V; auto.
  Qed.
End Order.
