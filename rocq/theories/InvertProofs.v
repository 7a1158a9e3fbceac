(** Lemmas about [invert_depends_dictionary]. *)
From Coq Require Import Permutation.
From Verif Require Import PyBase SolverModel.

Section InvertProofs.
  Context {K : Type} (eqb : K -> K -> bool).
  Hypothesis eqb_spec : forall a b, reflect (a = b) (eqb a b).

  Definition dval (d : list (K * list K)) (k : K) : list K :=
    match dget eqb d k with Some s => s | None => [] end.

  Lemma dkeys_dset_in (d : list (K * list K)) k v :
    In k (dkeys d) -> dkeys (dset eqb d k v) = dkeys d.
  Proof.
    induction d as [|[k1 v1] d IH]; simpl; [contradiction|].
    intros H. destruct (eqb_spec k k1) as [->|n]; simpl; [reflexivity|].
    rewrite IH; [reflexivity|]. destruct H; [congruence|assumption].
  Qed.

  Lemma dval_dset (d : list (K * list K)) k v k' :
    dval (dset eqb d k v) k' = if eqb k' k then v else dval d k'.
  Proof.
    unfold dval. destruct (eqb_spec k' k) as [->|n].
    - now rewrite (dget_dset_eq eqb eqb_spec).
    - now rewrite (dget_dset_neq eqb eqb_spec) by congruence.
  Qed.

  Lemma invert_init_gen (d acc : list (K * list K)) :
    NoDup (dkeys acc ++ dkeys d) -> (forall k, dval acc k = []) ->
    dkeys (fold_left (fun acc kv => dset eqb acc (fst kv) []) d acc) = dkeys acc ++ dkeys d /\
    forall k, dval (fold_left (fun acc kv => dset eqb acc (fst kv) []) d acc) k = [].
  Proof.
    revert acc; induction d as [|[k v] d IH]; intros acc Hnd Hv; simpl.
    - now rewrite app_nil_r.
    - assert (Hk : ~ In k (dkeys acc)).
      { apply NoDup_remove_2 in Hnd. intros H. apply Hnd. apply in_or_app. now left. }
      assert (E : dkeys (dset eqb acc k []) = dkeys acc ++ [k]).
      { rewrite (dset_notin eqb eqb_spec) by assumption. unfold dkeys. now rewrite map_app. }
      destruct (IH (dset eqb acc k [])) as [H1 H2].
      + rewrite E, <- app_assoc. exact Hnd.
      + intros k'. rewrite dval_dset. destruct (eqb k' k); auto.
      + rewrite H1, E, <- app_assoc. now split.
  Qed.

  Lemma invert_init_spec (d : list (K * list K)) :
    NoDup (dkeys d) ->
    dkeys (invert_init eqb d) = dkeys d /\ forall k, dval (invert_init eqb d) k = [].
  Proof. intros H. now apply (invert_init_gen d []). Qed.

  Lemma invert_inner_ok t deps inv :
    (forall x, In x deps -> In x (dkeys inv)) ->
    exists inv', invert_inner eqb t deps inv = Some inv' /\ dkeys inv' = dkeys inv /\
      (forall k x, In x (dval inv' k) <-> In x (dval inv k) \/ (x = t /\ In k deps)) /\
      ((forall k, NoDup (dval inv k)) -> forall k, NoDup (dval inv' k)).
  Proof.
    revert inv; induction deps as [|dep deps IH]; intros inv Hin; simpl.
    - exists inv. repeat split; auto; intros; tauto.
    - destruct (dget eqb inv dep) as [s|] eqn:E.
      2:{ apply dget_None in E; [|assumption]. exfalso; apply E, Hin; now left. }
      destruct (IH (dset eqb inv dep (sadd eqb s t))) as (inv' & H1 & H2 & H3 & H4).
      { intros x Hx. rewrite dkeys_dset_in; [apply Hin; now right|]. apply Hin; now left. }
      assert (Es : dval inv dep = s) by (unfold dval; now rewrite E).
      exists inv'. split; [exact H1|]. split; [|split].
      + rewrite H2. apply dkeys_dset_in. apply Hin; now left.
      + intros k x. rewrite H3, dval_dset. destruct (eqb_spec k dep) as [->|n].
        * rewrite sadd_In by assumption. rewrite Es. intuition.
        * intuition congruence.
      + intros Hnd. apply H4. intros k. rewrite dval_dset. destruct (eqb k dep); [|apply Hnd].
        apply sadd_NoDup; [assumption|]. rewrite <- Es. apply Hnd.
  Qed.

  Lemma invert_inner_none t deps inv :
    invert_inner eqb t deps inv = None -> exists x, In x deps /\ ~ In x (dkeys inv).
  Proof.
    intros H. destruct (Forall_Exists_dec (fun x => In x (dkeys inv))) with (l := deps) as [F|F].
    - intros x. destruct (dhas eqb inv x) eqn:E; [left|right].
      + now apply (dhas_In eqb eqb_spec).
      + intros Hi. apply (dhas_In eqb eqb_spec) in Hi. congruence.
    - rewrite Forall_forall in F. destruct (invert_inner_ok t deps inv F) as (i & Hi & _). congruence.
    - apply Exists_exists in F. exact F.
  Qed.

  Lemma invert_inner_some t deps inv inv' :
    invert_inner eqb t deps inv = Some inv' ->
    (forall x, In x deps -> In x (dkeys inv)) /\ dkeys inv' = dkeys inv.
  Proof.
    revert inv; induction deps as [|dep deps IH]; intros inv; simpl.
    - intros [= <-]. split; [contradiction|reflexivity].
    - destruct (dget eqb inv dep) as [s|] eqn:E; [|discriminate].
      apply dget_In_keys in E; [|assumption].
      intros H. apply IH in H. rewrite dkeys_dset_in in H by assumption.
      destruct H as [H1 H2]. split; [|assumption]. intros x [<-|Hx]; auto.
  Qed.

  Lemma invert_outer_ok (d inv : list (K * list K)) :
    (forall t s x, In (t, s) d -> In x s -> In x (dkeys inv)) ->
    exists inv', invert_outer eqb d inv = Some inv' /\ dkeys inv' = dkeys inv /\
      (forall k x, In x (dval inv' k) <->
                   In x (dval inv k) \/ exists s, In (x, s) d /\ In k s) /\
      ((forall k, NoDup (dval inv k)) -> forall k, NoDup (dval inv' k)).
  Proof.
    revert inv; induction d as [|[t s] d IH]; intros inv Hin; simpl.
    - exists inv. split; [reflexivity|]. split; [reflexivity|]. split; [|auto].
      intros k x. split; [tauto|]. intros [H|[s [[] _]]]; exact H.
    - destruct (invert_inner_ok t s inv) as (i1 & E1 & K1 & M1 & N1).
      { intros x Hx. eapply Hin; [now left|exact Hx]. }
      rewrite E1. destruct (IH i1) as (i2 & E2 & K2 & M2 & N2).
      { intros t' s' x H1 H2. rewrite K1. eapply Hin; [right; exact H1|exact H2]. }
      exists i2. split; [exact E2|]. split; [now rewrite K2|]. split; [|auto].
      intros k x. rewrite M2, M1. split.
      + intros [[H|[-> H]]|(s' & H1 & H2)].
        * now left.
        * right. exists s. split; [now left|exact H].
        * right. exists s'. split; [now right|exact H2].
      + intros [H|(s' & [[= -> ->]|H1] & H2)].
        * now left; left.
        * left; right; auto.
        * right. now exists s'.
  Qed.

  Lemma invert_outer_some (d inv inv' : list (K * list K)) :
    invert_outer eqb d inv = Some inv' ->
    (forall t s x, In (t, s) d -> In x s -> In x (dkeys inv)).
  Proof.
    revert inv; induction d as [|[t s] d IH]; intros inv; simpl; [contradiction|].
    destruct (invert_inner eqb t s inv) as [i1|] eqn:E; [|discriminate].
    apply invert_inner_some in E. destruct E as [E1 E2].
    intros H t' s' x [[= <- <-]|H1] H2; [now apply E1|].
    rewrite <- E2. eapply IH; eauto.
  Qed.

  (** The specification, in terms of membership. *)
  Lemma invert_spec (d : list (K * list K)) :
    NoDup (dkeys d) ->
    (forall t s x, In (t, s) d -> In x s -> In x (dkeys d)) ->
    exists inv, invert_depends_dictionary eqb d = Some inv /\ dkeys inv = dkeys d /\
      (forall k x, In x (dval inv k) <-> exists s, In (x, s) d /\ In k s) /\
      (forall k, NoDup (dval inv k)).
  Proof.
    intros Hnd Hc. destruct (invert_init_spec d Hnd) as [Hk Hv].
    destruct (invert_outer_ok d (invert_init eqb d)) as (inv & H1 & H2 & H3 & H4).
    { rewrite Hk. exact Hc. }
    exists inv. split; [exact H1|]. split; [now rewrite H2|]. split.
    - intros k x. rewrite H3, Hv. simpl. intuition.
    - apply H4. intros k. rewrite Hv. constructor.
  Qed.

  Lemma invert_keyerror (d : list (K * list K)) :
    NoDup (dkeys d) ->
    (invert_depends_dictionary eqb d = None <->
     exists t s x, In (t, s) d /\ In x s /\ ~ In x (dkeys d)).
  Proof.
    intros Hnd. destruct (invert_init_spec d Hnd) as [Hk Hv]. split.
    - intros H.
      assert (Hdec : forall x, {In x (dkeys d)} + {~ In x (dkeys d)}).
      { intros x. destruct (dhas eqb d x) eqn:E; [left|right].
        + now apply (dhas_In eqb eqb_spec).
        + intros Hi. apply (dhas_In eqb eqb_spec) in Hi. congruence. }
      destruct (Exists_dec (fun kv => Exists (fun x => ~ In x (dkeys d)) (snd kv)) d) as [E|E].
      { intros [t s]. apply Exists_dec. intros x. destruct (Hdec x); [right; tauto|now left]. }
      + apply Exists_exists in E. destruct E as ([t s] & H1 & H2).
        apply Exists_exists in H2. destruct H2 as (x & H2 & H3). now exists t, s, x.
      + exfalso. destruct (invert_spec d Hnd) as (inv & H1 & _); [|congruence].
        intros t s x H1 H2. destruct (Hdec x) as [Hx|Hx]; [exact Hx|]. exfalso. apply E.
        apply Exists_exists. exists (t, s). split; [exact H1|].
        apply Exists_exists. exists x. auto.
    - intros (t & s & x & H1 & H2 & H3).
      destruct (invert_depends_dictionary eqb d) as [inv|] eqn:E; [exfalso|reflexivity].
      unfold invert_depends_dictionary in E.
      pose proof (invert_outer_some _ _ _ E t s x H1 H2) as H. now rewrite Hk in H.
  Qed.

  Lemma dval_ex (d : list (K * list K)) k x : NoDup (dkeys d) ->
    (In x (dval d k) <-> exists s, In (k, s) d /\ In x s).
  Proof.
    intros Hnd. unfold dval. split.
    - destruct (dget eqb d k) as [s|] eqn:E; [|intros []].
      intros H. exists s. split; [now apply (dget_In eqb eqb_spec)|exact H].
    - intros (s & H1 & H2). rewrite (dget_of_In eqb eqb_spec d k s Hnd H1). exact H2.
  Qed.

  Lemma invert_relation (d : list (K * list K)) :
    NoDup (dkeys d) ->
    (forall t s x, In (t, s) d -> In x s -> In x (dkeys d)) ->
    exists inv, invert_depends_dictionary eqb d = Some inv /\ dkeys inv = dkeys d /\
      (forall k x, (exists s, In (k, s) inv /\ In x s) <-> (exists s, In (x, s) d /\ In k s)).
  Proof.
    intros Hnd Hc. destruct (invert_spec d Hnd Hc) as (inv & H1 & H2 & H3 & _).
    exists inv. split; [exact H1|]. split; [exact H2|]. intros k x.
    rewrite <- H3, dval_ex; [reflexivity|now rewrite H2].
  Qed.

  Lemma invert_involutive (d : list (K * list K)) :
    NoDup (dkeys d) ->
    (forall t s x, In (t, s) d -> In x s -> In x (dkeys d)) ->
    exists inv inv2, invert_depends_dictionary eqb d = Some inv /\
      invert_depends_dictionary eqb inv = Some inv2 /\ dkeys inv2 = dkeys d /\
      (forall k x, (exists s, In (k, s) inv2 /\ In x s) <-> (exists s, In (k, s) d /\ In x s)).
  Proof.
    intros Hnd Hc. destruct (invert_relation d Hnd Hc) as (inv & H1 & H2 & H3).
    assert (Hnd' : NoDup (dkeys inv)) by now rewrite H2.
    assert (Hc' : forall t s x, In (t, s) inv -> In x s -> In x (dkeys inv)).
    { intros t s x Ht Hx. rewrite H2.
      destruct (proj1 (H3 t x)) as (s' & H4 & _); [now exists s|].
      apply (in_map fst) in H4. exact H4. }
    destruct (invert_relation inv Hnd' Hc') as (inv2 & G1 & G2 & G3).
    exists inv, inv2. split; [exact H1|]. split; [exact G1|]. split; [congruence|].
    intros k x. rewrite G3, H3. reflexivity.
  Qed.
End InvertProofs.
