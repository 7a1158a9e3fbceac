(** Lemmas: modification times of file sets; evaluation of single targets. *)
From Verif Require Import PyBase PyPath SolverModel SpecGraph InvokerModel CoreModel SpecCore CoreProofs
  NeedProofs RuProofs CoreThms MakeModel MakeEval SpecMake MakeProofs MakeFacts.

Section Times.
  Variable canon : string -> string.
  Variable kind : nat -> mkind.
  Variable other_if : nat -> res bool.

  Lemma known_view fs (ca : cache) : (forall p x, sget ca p = Some x -> x = stat fs p) -> forall p, view fs ca p = stat fs p.
  Proof. intros H p. unfold view. destruct (sget ca p) as [x|] eqn:E; auto. Qed.

  Lemma set_mtime fs fuel c ca i m ca' : (forall p x, sget ca p = Some x -> x = stat fs p) ->
    kind i = MSet -> mtime canon kind fs fuel c ca i = Ok (m, ca') ->
    (forall k, input canon kind c i k -> fi_mtime (stat fs (t_name (obj c k))) <= m) /\
    (m = 0 \/ exists k, input canon kind c i k /\ fi_mtime (stat fs (t_name (obj c k))) = m).
  Proof.
    intros Hca Hk H.
    pose proof (mtime_sim canon kind fs (stat fs) fuel c ca i (known_view fs ca Hca)) as S.
    destruct (pmtime canon kind (stat fs) fuel c i) as [m'| |] eqn:E; [|congruence|congruence].
    destruct S as (ca2 & E2 & _). rewrite H in E2. injection E2 as -> _.
    apply pmtime_spec in E. destruct E as [U A]. split.
    - intros k Hin. apply U. now right.
    - destruct A as [A|(k & [[[Hs|(f & b & Hs)] _]|[_ Hs]] & A)]; [now left|congruence|congruence|].
      right. eauto.
  Qed.

  (** [mtime] returns on every acyclic nesting of registered files, directories and sets. *)
  Lemma pmtime_total v c : wf_core c -> forall fuel i path,
    (forall j, in_cone canon c i j -> kind j <> MOther) -> cone_registered canon c i -> acyclic_cone canon c i ->
    i < List.length (c_heap c) -> NoDup path -> (forall j, In j path -> j < List.length (c_heap c)) ->
    (forall j, In j path -> clos_trans nat (obj_dep canon c) j i) ->
    List.length (c_heap c) < fuel + List.length path ->
    exists m, pmtime canon kind v fuel c i = Ok m.
  Proof.
    intros Hw. induction fuel as [|fuel IH]; intros i path Hk Hr Ha Hi Hnd Hlt Hp Hf.
    - exfalso. assert (List.length path <= List.length (seq 0 (List.length (c_heap c)))).
      { apply NoDup_incl_length; [exact Hnd|]. intros j Hj. apply in_seq. specialize (Hlt j Hj). lia. }
      rewrite seq_length in H. simpl in Hf. lia.
    - simpl. destruct (kind i) as [f b| | | |] eqn:Ek; eauto.
      2: { exfalso. apply (Hk i); [apply rt_refl|exact Ek]. }
      assert (D : forall d, In d (t_deps (obj c i)) -> exists j m, core_get canon c d = Ok j /\ pmtime canon kind v fuel c j = Ok m).
      { intros d Hd. destruct (Hr i d (rt_refl _ _ _) Hd) as [j Hj].
        assert (Hdep : obj_dep canon c i j) by (exists d; auto).
        assert (Hsub : forall x, in_cone canon c j x -> in_cone canon c i x)
          by (intros x Hx; eapply rt_trans; [apply rt_step; exact Hdep|exact Hx]).
        destruct (IH j (i :: path)) as [m Hm].
        - intros x Hx. apply Hk. auto.
        - intros x y Hx. apply Hr. auto.
        - intros x Hx. apply Ha. auto.
        - eapply resolves_lt; eauto.
        - constructor; [|exact Hnd]. intros Hin. apply (Ha i (rt_refl _ _ _)). now apply Hp.
        - intros x [<-|Hx]; auto.
        - intros x [<-|Hx]; [now apply t_step|]. eapply t_trans; [apply Hp; exact Hx|now apply t_step].
        - simpl. lia.
        - exists j, m. split; [now apply get_resolves|exact Hm]. }
      revert D. generalize 0. induction (t_deps (obj c i)) as [|d ds IHd]; intros m0 D; [eauto|].
      destruct (D d (or_introl eq_refl)) as (j & m & Eg & Em). rewrite Eg. simpl. rewrite Em. simpl.
      apply IHd. intros d' Hd'. apply D. now right.
  Qed.

  Lemma mtime_total fs c ca i : wf_core c ->
    (forall j, in_cone canon c i j -> kind j <> MOther) -> cone_registered canon c i -> acyclic_cone canon c i ->
    i < List.length (c_heap c) -> exists m ca', mtime canon kind fs (mt_fuel c) c ca i = Ok (m, ca').
  Proof.
    intros Hw Hk Hr Ha Hi.
    destruct (pmtime_total (view fs ca) c Hw (mt_fuel c) i [] Hk Hr Ha Hi (NoDup_nil _)) as [m E].
    - intros j [].
    - intros j [].
    - unfold mt_fuel. simpl. lia.
    - pose proof (mtime_sim canon kind fs (view fs ca) (mt_fuel c) c ca i (fun p => eq_refl)) as S.
      rewrite E in S. destruct S as (ca' & S & _). eauto.
  Qed.

  Lemma newer_stat_any fs q p : fs p <> None -> newer fs q p <-> fi_mtime (stat fs p) < fi_mtime (stat fs q).
  Proof. intros H. apply newer_stat. destruct (fs p) as [[m n]|]; [eauto|congruence]. Qed.

  (** [update_if] of a file, of a directory. *)
  Lemma file_out_of_date fs c (ca : cache) i f b r s' : caches_fresh canon c ->
    (forall p x, sget ca p = Some x -> x = stat fs p) -> kind i = MFile f b ->
    mk_update_if canon kind other_if fs (c, ca) i = Ok (r, s') ->
    (r = true <-> f = true \/ fs (t_name (obj c i)) = None \/
       exists k, input canon kind c i k /\ newer fs (t_name (obj c k)) (t_name (obj c i))).
  Proof.
    intros Hf Hca Hk H.
    pose proof (update_if_sim canon kind other_if fs (stat fs) c ca i (known_view fs ca Hca) Hf) as S.
    unfold puif in S. rewrite Hk in S.
    destruct (pfile_if canon kind (stat fs) f c i) as [r'| |] eqn:E; [|congruence|congruence].
    destruct S as (c2 & s2 & E2 & _). rewrite H in E2. injection E2 as -> _.
    apply pfile_if_spec in E. rewrite E.
    assert (X : fi_exist (stat fs (t_name (obj c i))) = false <-> fs (t_name (obj c i)) = None).
    { unfold stat. destruct (fs (t_name (obj c i))) as [[m n]|]; simpl; split; congruence. }
    rewrite X. destruct (fs (t_name (obj c i))) as [e|] eqn:Ef.
    - assert (Hne : fs (t_name (obj c i)) <> None) by congruence.
      split; (intros [A|[A|(k & A & B)]]; [now left|right; now left|right; right; exists k; split; [exact A|]]).
      + now apply newer_stat_any.
      + now apply newer_stat_any in B.
    - tauto.
  Qed.
  Lemma dir_out_of_date fs c (ca : cache) i r s' :
    (forall p x, sget ca p = Some x -> x = stat fs p) -> kind i = MDir ->
    mk_update_if canon kind other_if fs (c, ca) i = Ok (r, s') ->
    (r = true <-> fs (t_name (obj c i)) = None).
  Proof.
    intros Hca Hk. unfold mk_update_if. rewrite Hk. simpl.
    destruct (get_info fs ca (t_name (obj c i))) as [x ca'] eqn:E. intros [= <- <-].
    apply get_info_view in E. destruct E as (-> & _). rewrite (known_view fs ca Hca).
    unfold stat. destruct (fs (t_name (obj c i))) as [[m n]|]; simpl; split; congruence.
  Qed.
  Lemma puif_total v c i : wf_core c ->
    (forall j, in_cone canon c i j -> kind j <> MOther) -> cone_registered canon c i -> acyclic_cone canon c i ->
    exists r, puif canon kind other_if v c i = Ok r.
  Proof.
    intros Hw Hk Hr Ha.
    assert (F : forall f, exists r, pfile_if canon kind v f c i = Ok r).
    { intros f. unfold pfile_if. destruct f; [eauto|]. destruct (negb _); [eauto|].
      destruct (mapM_ok (core_get canon c) (t_deps (obj c i))) as [l El].
      { intros d Hd. destruct (Hr i d (rt_refl _ _ _) Hd) as [j Hj]. exists j. now apply get_resolves. }
      rewrite El. cbn [bind].
      assert (M : forall l0, (forall j, In j l0 -> obj_dep canon c i j) -> forall m, exists m', pmax canon kind v c l0 m = Ok m').
      { induction l0 as [|j l0 IH]; intros Hl m; cbn [pmax]; [eauto|].
        assert (Hd : obj_dep canon c i j) by (apply Hl; now left).
        assert (Hsub : forall x, in_cone canon c j x -> in_cone canon c i x)
          by (intros x Hx; eapply rt_trans; [apply rt_step; exact Hd|exact Hx]).
        destruct (pmtime_total v c Hw (mt_fuel c) j []) as [m' Em].
        - intros x Hx. apply Hk. auto.
        - intros x y Hx. apply Hr. auto.
        - intros x Hx. apply Ha. auto.
        - destruct Hd as (d & _ & Hd). eapply resolves_lt; eauto.
        - constructor.
        - intros x [].
        - intros x [].
        - unfold mt_fuel. simpl. lia.
        - rewrite Em. cbn [bind]. apply IH. intros x Hx. apply Hl. now right. }
      destruct (M l (fun j => proj1 (deplist_dep canon c i l Hw El j)) 0) as [m Em]. rewrite Em. cbn [bind]. eauto. }
    unfold puif. destruct (kind i) as [f b| | | |] eqn:Ek; eauto.
    exfalso. apply (Hk i); [apply rt_refl|exact Ek].
  Qed.
  Lemma file_update_if_total fs c (ca : cache) i : wf_core c -> caches_fresh canon c ->
    (forall p x, sget ca p = Some x -> x = stat fs p) ->
    (forall j, in_cone canon c i j -> kind j <> MOther) -> cone_registered canon c i -> acyclic_cone canon c i ->
    exists r s', mk_update_if canon kind other_if fs (c, ca) i = Ok (r, s').
  Proof.
    intros Hw Hf Hca Hk Hr Ha.
    pose proof (update_if_sim canon kind other_if fs (stat fs) c ca i (known_view fs ca Hca) Hf) as S.
    pose proof (puif_total (stat fs) c i Hw Hk Hr Ha) as G.
    destruct G as [r G]. rewrite G in S. destruct S as (c2 & s2 & S & _). eauto.
  Qed.
End Times.
