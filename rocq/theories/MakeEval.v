(** Lemmas about the evaluation of file targets: the caches do not change its result. *)
From Verif Require Import PyBase PyPath SolverModel InvokerModel CoreModel SpecCore CoreProofs NeedProofs CoreThms MakeModel.

(** What [get_info] answers. *)
Definition view (fs : fsys) (ca : cache) (p : string) : finfo :=
  match sget ca p with Some x => x | None => stat fs p end.
Definition same_view (fs : fsys) (ca ca' : cache) : Prop :=
  (forall p, view fs ca' p = view fs ca p) /\
  (forall p x, sget ca p = Some x -> sget ca' p = Some x).

Lemma same_view_refl fs ca : same_view fs ca ca.
Proof. split; auto. Qed.
Lemma same_view_trans fs a b c : same_view fs a b -> same_view fs b c -> same_view fs a c.
Proof. intros [A1 A2] [B1 B2]. split; [intros p; now rewrite B1, A1|auto]. Qed.

Lemma sget_sset {V} (d : list (string * V)) k v q :
  sget (sset d k v) q = if String.eqb q k then Some v else sget d q.
Proof.
  destruct (String.eqb_spec q k) as [->|n].
  - apply (dget_dset_eq String.eqb string_eqb_spec').
  - apply (dget_dset_neq String.eqb string_eqb_spec'). congruence.
Qed.

Lemma view_update_info fs ca p q :
  view fs (update_info fs ca p) q = if String.eqb q p then stat fs p else view fs ca q.
Proof. unfold view, update_info. rewrite sget_sset. destruct (String.eqb q p); reflexivity. Qed.

Lemma get_info_view fs ca p x ca' : get_info fs ca p = (x, ca') ->
  x = view fs ca p /\ same_view fs ca ca' /\ sget ca' p = Some x.
Proof.
  unfold get_info. destruct (sget ca p) as [y|] eqn:E.
  - intros [= <- <-]. unfold view. rewrite E. split; [reflexivity|]. split; [apply same_view_refl|reflexivity].
  - assert (G : sget (update_info fs ca p) p = Some (stat fs p)).
    { unfold update_info. rewrite sget_sset, String.eqb_refl. reflexivity. }
    rewrite G. intros [= <- <-]. unfold view at 1. rewrite E. split; [reflexivity|]. split; [|exact G].
    split.
    + intros q. rewrite view_update_info. destruct (String.eqb_spec q p) as [->|n]; [|reflexivity].
      unfold view. now rewrite E.
    + intros q y Hq. unfold update_info. rewrite sget_sset. destruct (String.eqb_spec q p); congruence.
Qed.

Section Eval.
  Variable canon : string -> string.
  Variable kind : nat -> mkind.
  Variable other_if : nat -> res bool.

  (** ** The evaluation without caches, from a table [v] of file information. *)
  Fixpoint pmtime (v : string -> finfo) (fuel : nat) (c : core) (i : nat) : res nat :=
    match fuel with
    | 0 => OutOfFuel
    | S fuel' =>
        match kind i with
        | MFile _ _ | MSource => Ok (fi_mtime (v (t_name (obj c i))))
        | MDir => Ok 0
        | MOther => Raise (AttributeError "mtime")
        | MSet =>
            (fix loop (ds : list string) (maxtime : nat) : res nat :=
               match ds with
               | [] => Ok maxtime
               | d :: ds' =>
                   do! j <- core_get canon c d;
                   do! m <- pmtime v fuel' c j;
                   loop ds' (if maxtime <? m then m else maxtime)
               end) (t_deps (obj c i)) 0
        end
    end.
  Fixpoint pmax (v : string -> finfo) (c : core) (l : list nat) (maxtime : nat) : res nat :=
    match l with
    | [] => Ok maxtime
    | j :: l' => do! m <- pmtime v (mt_fuel c) c j; pmax v c l' (if maxtime <? m then m else maxtime)
    end.
  Definition pfile_if (v : string -> finfo) (force : bool) (c : core) (i : nat) : res bool :=
    let x := v (t_name (obj c i)) in
    if force then Ok true
    else if negb (fi_exist x) then Ok true
    else do! l <- mapM (core_get canon c) (t_deps (obj c i));
         do! m <- pmax v c l 0; Ok (fi_mtime x <? m).
  Definition puif (v : string -> finfo) (c : core) (i : nat) : res bool :=
    match kind i with
    | MFile force _ => pfile_if v force c i
    | MSource => pfile_if v false c i
    | MDir => Ok (negb (fi_exist (v (t_name (obj c i)))))
    | MSet => Ok false
    | MOther => other_if i
    end.

  Lemma pmtime_ext v v' fuel : (forall p, v p = v' p) -> forall c i, pmtime v fuel c i = pmtime v' fuel c i.
  Proof.
    intros Hv. induction fuel as [|fuel IH]; intros c i; [reflexivity|]. simpl.
    destruct (kind i); try reflexivity; try (now rewrite Hv).
    generalize 0 at 1 2. generalize (t_deps (obj c i)).
    induction l as [|d ds IHd]; intros m; [reflexivity|].
    destruct (core_get canon c d) as [j| |]; simpl; try reflexivity.
    rewrite IH. destruct (pmtime v' fuel c j); simpl; try reflexivity. apply IHd.
  Qed.
  Lemma pmax_ext v v' c l : (forall p, v p = v' p) -> forall m, pmax v c l m = pmax v' c l m.
  Proof.
    intros Hv. induction l as [|j l IH]; intros m; [reflexivity|]. cbn [pmax].
    rewrite (pmtime_ext v v' _ Hv). destruct (pmtime v' (mt_fuel c) c j); cbn [bind]; try reflexivity. apply IH.
  Qed.
  Lemma puif_ext v v' c i : (forall p, v p = v' p) -> puif v c i = puif v' c i.
  Proof.
    intros Hv. unfold puif, pfile_if.
    destruct (kind i) as [force b| | | |]; try reflexivity; rewrite ?Hv; try reflexivity;
      destruct (mapM (core_get canon c) (t_deps (obj c i))); simpl; try reflexivity;
      now rewrite (pmax_ext v v' c _ Hv).
  Qed.

  Lemma mtime_sim fs v : forall fuel c ca i, (forall p, view fs ca p = v p) ->
    match pmtime v fuel c i with
    | Ok m => exists ca', mtime canon kind fs fuel c ca i = Ok (m, ca') /\ same_view fs ca ca'
    | Raise e => mtime canon kind fs fuel c ca i = Raise e
    | OutOfFuel => mtime canon kind fs fuel c ca i = OutOfFuel
    end.
  Proof.
    induction fuel as [|fuel IH]; intros c ca i Hv; [reflexivity|]. simpl.
    assert (F : exists ca', (let '(x, ca'0) := get_info fs ca (t_name (obj c i)) in Ok (fi_mtime x, ca'0)) =
                  Ok (fi_mtime (v (t_name (obj c i))), ca') /\ same_view fs ca ca').
    { destruct (get_info fs ca (t_name (obj c i))) as [x ca'] eqn:E.
      apply get_info_view in E. destruct E as (-> & E & _). rewrite Hv. eauto. }
    destruct (kind i) as [force b| | | |]; try exact F.
    - exists ca. split; [reflexivity|apply same_view_refl].
    - clear F.
      match goal with |- match ?L (t_deps (obj c i)) 0 with _ => _ end => set (lp := L) end.
      match goal with |- context [?L (t_deps (obj c i)) 0 ca = _] => set (lm := L) end.
      revert ca Hv. generalize 0. induction (t_deps (obj c i)) as [|d ds IHd]; intros m ca Hv.
      + exists ca. split; [reflexivity|apply same_view_refl].
      + simpl. destruct (core_get canon c d) as [j| |]; simpl; try reflexivity.
        specialize (IH c ca j Hv). destruct (pmtime v fuel c j) as [mj| |]; simpl.
        * destruct IH as (ca1 & -> & V1). simpl.
          assert (Hv1 : forall p, view fs ca1 p = v p) by (intros p; now rewrite (proj1 V1), Hv).
          specialize (IHd (if m <? mj then mj else m) ca1 Hv1).
          destruct (lp ds (if m <? mj then mj else m)) as [m2| |]; [|exact IHd|exact IHd].
          destruct IHd as (ca2 & E & V2). exists ca2. split; [exact E|]. eapply same_view_trans; eauto.
        * now rewrite IH.
        * now rewrite IH.
    - reflexivity.
  Qed.

  Lemma pmtime_static c c' v fuel i : same_static c c' -> pmtime v fuel c i = pmtime v fuel c' i.
  Proof.
    intros Hs. revert i. induction fuel as [|fuel IH]; intros i; [reflexivity|]. simpl.
    destruct (proj2 (proj2 (proj2 Hs)) i) as (-> & -> & _).
    destruct (kind i); try reflexivity.
    generalize 0 at 1 2. generalize (t_deps (obj c' i)).
    induction l as [|d ds IHd]; intros m; [reflexivity|].
    rewrite (static_get canon c c' d Hs). destruct (core_get canon c' d) as [j| |]; simpl; try reflexivity.
    rewrite IH. destruct (pmtime v fuel c' j); simpl; try reflexivity. apply IHd.
  Qed.
  Lemma mt_fuel_static c c' : same_static c c' -> mt_fuel c = mt_fuel c'.
  Proof. intros (_ & _ & H & _). unfold mt_fuel. now rewrite H. Qed.
  Lemma pmax_static c c' v l : same_static c c' -> forall m, pmax v c l m = pmax v c' l m.
  Proof.
    intros Hs. induction l as [|j l IH]; intros m; [reflexivity|]. cbn [pmax].
    rewrite <- (mt_fuel_static c c' Hs), (pmtime_static c c' v _ j Hs).
    destruct (pmtime v (mt_fuel c) c' j); cbn [bind]; try reflexivity. apply IH.
  Qed.
  Lemma puif_static c c' v i : same_static c c' -> puif v c i = puif v c' i.
  Proof.
    intros Hs. unfold puif, pfile_if. destruct (proj2 (proj2 (proj2 Hs)) i) as (-> & -> & _).
    destruct (kind i) as [force b| | | |]; try reflexivity;
      rewrite (mapM_ext (core_get canon c) (core_get canon c')) by (intros x _; now apply static_get);
      destruct (mapM (core_get canon c') (t_deps (obj c' i))) as [l| |]; simpl; try reflexivity;
      now rewrite (pmax_static c c' v l Hs).
  Qed.

  Lemma max_mtime_sim fs v c : forall l m ca, (forall p, view fs ca p = v p) ->
    match pmax v c l m with
    | Ok x => exists ca', max_mtime canon kind fs c l m ca = Ok (x, ca') /\ same_view fs ca ca'
    | Raise e => max_mtime canon kind fs c l m ca = Raise e
    | OutOfFuel => max_mtime canon kind fs c l m ca = OutOfFuel
    end.
  Proof.
    induction l as [|j l IH]; intros m ca Hv; cbn [pmax max_mtime].
    - exists ca. split; [reflexivity|apply same_view_refl].
    - pose proof (mtime_sim fs v (mt_fuel c) c ca j Hv) as M.
      destruct (pmtime v (mt_fuel c) c j) as [mj| |]; cbn [bind].
      + destruct M as (ca1 & -> & V1). cbn [bind].
        assert (Hv1 : forall p, view fs ca1 p = v p) by (intros p; now rewrite (proj1 V1), Hv).
        specialize (IH (if m <? mj then mj else m) ca1 Hv1).
        destruct (pmax v c l (if m <? mj then mj else m)); [|exact IH|exact IH].
        destruct IH as (ca2 & E & V2). exists ca2. split; [exact E|]. eapply same_view_trans; eauto.
      + now rewrite M.
      + now rewrite M.
  Qed.

  Definition same_needs (c c' : core) : Prop := forall k, t_need (obj c' k) = t_need (obj c k).

  Lemma get_deplist_sim c i : caches_fresh canon c ->
    match mapM (core_get canon c) (t_deps (obj c i)) with
    | Ok l => exists c', get_deplist canon c i = Ok (l, c') /\ same_static c c' /\ caches_fresh canon c' /\ same_needs c c'
    | Raise e => get_deplist canon c i = Raise e
    | OutOfFuel => get_deplist canon c i = OutOfFuel
    end.
  Proof.
    intros Hf. destruct (get_deplist canon c i) as [[l c']|e|] eqn:E.
    - destruct (get_deplist_ok canon c i l c' E Hf) as (S & F & N & ->). exists c'. repeat split; auto; apply S.
    - unfold get_deplist in E. destruct (t_cached (obj c i)); [discriminate|].
      destruct (mapM _ _); simpl in E; congruence.
    - unfold get_deplist in E. destruct (t_cached (obj c i)); [discriminate|].
      destruct (mapM _ _); simpl in E; congruence.
  Qed.

  Lemma file_if_sim fs v c ca force i : (forall p, view fs ca p = v p) -> caches_fresh canon c ->
    match pfile_if v force c i with
    | Ok b => exists c' ca', file_update_if canon kind fs force (c, ca) i = Ok (b, (c', ca')) /\
        same_static c c' /\ caches_fresh canon c' /\ same_needs c c' /\ same_view fs ca ca'
    | Raise e => file_update_if canon kind fs force (c, ca) i = Raise e
    | OutOfFuel => file_update_if canon kind fs force (c, ca) i = OutOfFuel
    end.
  Proof.
    intros Hv Hf. unfold pfile_if, file_update_if. destruct force.
    { exists c, ca. split; [reflexivity|]. split; [apply static_refl|]. split; [exact Hf|]. split; [intros k; reflexivity|apply same_view_refl]. }
    destruct (get_info fs ca (t_name (obj c i))) as [x ca1] eqn:E1.
    apply get_info_view in E1. destruct E1 as (-> & V1 & _). rewrite Hv.
    destruct (negb (fi_exist (v (t_name (obj c i))))).
    { exists c, ca1. split; [reflexivity|]. split; [apply static_refl|]. split; [exact Hf|]. split; [intros k; reflexivity|exact V1]. }
    pose proof (get_deplist_sim c i Hf) as G.
    destruct (mapM (core_get canon c) (t_deps (obj c i))) as [l| |]; simpl; [|now rewrite G|now rewrite G].
    destruct G as (c1 & -> & S1 & F1 & N1). simpl.
    assert (Hv1 : forall p, view fs ca1 p = v p) by (intros p; now rewrite (proj1 V1), Hv).
    pose proof (max_mtime_sim fs v c1 l 0 ca1 Hv1) as M. rewrite <- (pmax_static c c1 v l S1) in M.
    destruct (pmax v c l 0) as [m| |]; simpl; [|now rewrite M|now rewrite M].
    destruct M as (ca2 & -> & V2). simpl.
    destruct (get_info fs ca2 (t_name (obj c i))) as [y ca3] eqn:E3.
    apply get_info_view in E3. destruct E3 as (-> & V3 & _).
    rewrite (proj1 V2), Hv1. exists c1, ca3. split; [reflexivity|]. split; [exact S1|]. split; [exact F1|].
    split; [exact N1|]. eapply same_view_trans; [exact V1|]. eapply same_view_trans; eauto.
  Qed.

  Lemma update_if_sim fs v c ca i : (forall p, view fs ca p = v p) -> caches_fresh canon c ->
    match puif v c i with
    | Ok b => exists c' ca', mk_update_if canon kind other_if fs (c, ca) i = Ok (b, (c', ca')) /\
        same_static c c' /\ caches_fresh canon c' /\ same_needs c c' /\ same_view fs ca ca'
    | Raise e => mk_update_if canon kind other_if fs (c, ca) i = Raise e
    | OutOfFuel => mk_update_if canon kind other_if fs (c, ca) i = OutOfFuel
    end.
  Proof.
    intros Hv Hf. unfold puif, mk_update_if. destruct (kind i) as [force b| | | |].
    - now apply file_if_sim.
    - now apply file_if_sim.
    - destruct (get_info fs (snd (c, ca)) _) as [x ca1] eqn:E1. simpl in E1.
      apply get_info_view in E1. destruct E1 as (-> & V1 & _). rewrite <- Hv.
      exists c, ca1. split; [reflexivity|]. split; [apply static_refl|]. split; [exact Hf|]. split; [intros k; reflexivity|exact V1].
    - exists c, ca. split; [reflexivity|]. split; [apply static_refl|]. split; [exact Hf|]. split; [intros k; reflexivity|apply same_view_refl].
    - destruct (other_if i) as [b| |]; simpl; try reflexivity.
      exists c, ca. split; [reflexivity|]. split; [apply static_refl|]. split; [exact Hf|]. split; [intros k; reflexivity|apply same_view_refl].
  Qed.

  (** ** The whole evaluation *)
  Section Sim.
    Variable fs : fsys.
    Variable v : string -> finfo.
    Variable c0 : core.
    Notation u := (puif v c0).

    Definition rel (c : core) (s : mstate) : Prop :=
      same_static c0 c /\ same_static c (fst s) /\ same_needs c (fst s) /\
      caches_fresh canon c /\ caches_fresh canon (fst s) /\ forall p, view fs (snd s) p = v p.

    Definition sim_res {A} (R : A -> mstate -> Prop) (x : res (bool * A)) (y : res (bool * mstate)) : Prop :=
      match x with
      | Ok (b, a) => exists s, y = Ok (b, s) /\ R a s
      | Raise e => y = Raise e
      | OutOfFuel => y = OutOfFuel
      end.

    Lemma rel_deplist c s i l : rel c s -> mapM (core_get canon c) (t_deps (obj c i)) = Ok l ->
      exists c1 s1c, get_deplist canon c i = Ok (l, c1) /\ get_deplist canon (fst s) i = Ok (l, s1c) /\ rel c1 (s1c, snd s).
    Proof.
      intros (R1 & R2 & R3 & R4 & R5 & R6) Hm.
      pose proof (get_deplist_sim c i R4) as G. rewrite Hm in G. destruct G as (c1 & E1 & S1 & F1 & N1).
      pose proof (get_deplist_sim (fst s) i R5) as G.
      assert (Hm' : mapM (core_get canon (fst s)) (t_deps (obj (fst s) i)) = Ok l).
      { destruct (proj2 (proj2 (proj2 R2)) i) as (_ & <- & _).
        rewrite <- Hm. apply mapM_ext. intros x _. symmetry. now apply static_get. }
      rewrite Hm' in G. destruct G as (c2 & E2 & S2 & F2 & N2).
      exists c1, c2. split; [exact E1|]. split; [exact E2|].
      split; [exact (static_trans _ _ _ R1 S1)|]. split.
      { exact (static_trans _ _ _ (static_sym _ _ S1) (static_trans _ _ _ R2 S2)). }
      split; [intros k; simpl; now rewrite N2, N1, R3|]. auto.
    Qed.
    Lemma deplist_raise c s i : rel c s -> forall e, mapM (core_get canon c) (t_deps (obj c i)) = Raise e ->
      get_deplist canon c i = Raise e /\ get_deplist canon (fst s) i = Raise e.
    Proof.
      intros (R1 & R2 & R3 & R4 & R5 & R6) e Hm.
      pose proof (get_deplist_sim c i R4) as G. rewrite Hm in G. split; [exact G|].
      pose proof (get_deplist_sim (fst s) i R5) as G'.
      assert (Hm' : mapM (core_get canon (fst s)) (t_deps (obj (fst s) i)) = Raise e).
      { destruct (proj2 (proj2 (proj2 R2)) i) as (_ & <- & _).
        rewrite <- Hm. apply mapM_ext. intros x _. symmetry. now apply static_get. }
      now rewrite Hm' in G'.
    Qed.

    Lemma rec_need_sim : forall fuel c s i, rel c s ->
      sim_res rel (rec_need canon u fuel c i) (mrec_need canon kind other_if fs fuel s i).
    Proof.
      induction fuel as [|fuel IH]; intros c s i R; [reflexivity|]. simpl.
      destruct R as (R1 & R2 & R3 & R4 & R5 & R6).
      destruct (proj2 (proj2 (proj2 R2)) i) as (_ & _ & <-).
      destruct (t_class (obj c i)); [reflexivity|].
      rewrite (R3 i). destruct (t_need (obj c i)) as [b|].
      { exists s. split; [reflexivity|]. split; [exact R1|]. auto. }
      destruct s as [cm ca]. simpl in *.
      pose proof (update_if_sim fs v cm ca i R6 R5) as U.
      rewrite <- (puif_static c cm v i R2), <- (puif_static c0 c v i R1) in U.
      destruct (u i) as [b| |]; simpl; [|now rewrite U|now rewrite U].
      destruct U as (cm1 & ca1 & -> & S1 & F1 & N1 & V1). simpl.
      assert (Rel1 : rel c (cm1, ca1)).
      { split; [exact R1|]. split; [eapply static_trans; eauto|]. split; [intros k; simpl; now rewrite N1, R3|].
        split; [exact R4|]. split; [exact F1|]. intros p. simpl. now rewrite (proj1 V1), R6. }
      destruct b.
      { exists (cm1, ca1). split; [reflexivity|exact Rel1]. }
      destruct (mapM (core_get canon c) (t_deps (obj c i))) as [l|e|] eqn:Em.
      - destruct (rel_deplist c (cm1, ca1) i l Rel1 Em) as (c1 & cm2 & E1 & E2 & Rel2).
        simpl in E2. rewrite E1, E2. simpl.
        clear - IH Rel2. simpl in Rel2. revert Rel2. generalize (cm2, ca1) as s. revert c1.
        match goal with |- context [sim_res rel (?L l _) (?M l _)] => set (lp := L); set (lm := M) end.
        induction l as [|j l IHl]; intros c1 s R.
        + exists s. split; [reflexivity|exact R].
        + simpl. specialize (IH c1 s j R).
          destruct (rec_need canon u fuel c1 j) as [[b c2]| |]; simpl in *; [|now rewrite IH|now rewrite IH].
          destruct IH as (s2 & -> & R2). simpl. destruct b.
          * exists s2. split; [reflexivity|exact R2].
          * now apply IHl.
      - destruct (deplist_raise c (cm1, ca1) i Rel1 e Em) as [E1 E2]. simpl in E2. rewrite E1, E2. reflexivity.
      - apply mapM_fuel in Em. destruct Em as (x & _ & Ex). unfold core_get in Ex.
        destruct (sget (c_targets c) x); [discriminate|]. destruct (sget (c_targets c) (canon x)); discriminate.
    Qed.

    Lemma rel_set_need c s i b : rel c s -> rel (set_need c i b) (set_need (fst s) i b, snd s).
    Proof.
      intros (R1 & R2 & R3 & R4 & R5 & R6).
      assert (Fr : forall c, caches_fresh canon c -> caches_fresh canon (set_need c i b)).
      { intros cc Hf k l Hk. rewrite cached_set_need in Hk. pose proof (static_set_need cc i b) as S.
        rewrite (mapM_ext _ (core_get canon cc)) by (intros x _; symmetry; now apply static_get).
        destruct S as (_ & _ & _ & S). destruct (S k) as (_ & <- & _). now apply Hf. }
      pose proof (static_set_need c i b) as S1. pose proof (static_set_need (fst s) i b) as S2.
      split; [exact (static_trans _ _ _ R1 S1)|]. split.
      { exact (static_trans _ _ _ (static_sym _ _ S1) (static_trans _ _ _ R2 S2)). }
      split; [|split; [now apply Fr|split; [now apply Fr|exact R6]]].
      intros k. simpl. rewrite !need_set_need, R3. destruct R2 as (_ & _ & <- & _). reflexivity.
    Qed.

    Lemma eval_one_sim fuel c s i : rel c s ->
      match eval_one canon u fuel c i with
      | Ok c' => exists s', meval_one canon kind other_if fs fuel s i = Ok s' /\ rel c' s'
      | Raise e => meval_one canon kind other_if fs fuel s i = Raise e
      | OutOfFuel => meval_one canon kind other_if fs fuel s i = OutOfFuel
      end.
    Proof.
      intros R. unfold eval_one, meval_one.
      destruct (proj2 (proj2 (proj2 (proj1 (proj2 R)))) i) as (_ & _ & <-).
      destruct (t_class (obj c i)); [exists s; auto|].
      pose proof (rec_need_sim fuel c s i R) as G.
      destruct (rec_need canon u fuel c i) as [[b c1]| |]; simpl in *; [|now rewrite G|now rewrite G].
      destruct G as (s1 & -> & R1). simpl. eexists. split; [reflexivity|]. now apply rel_set_need.
    Qed.

    Lemma eval_all_sim fuel ids : forall c s, rel c s ->
      match eval_all canon u fuel ids c with
      | Ok c' => exists s', meval_all canon kind other_if fs fuel ids s = Ok s' /\ rel c' s'
      | Raise e => meval_all canon kind other_if fs fuel ids s = Raise e
      | OutOfFuel => meval_all canon kind other_if fs fuel ids s = OutOfFuel
      end.
    Proof.
      induction ids as [|i ids IH]; intros c s R; simpl; [exists s; auto|].
      pose proof (eval_one_sim fuel c s i R) as G.
      destruct (eval_one canon u fuel c i) as [c1| |]; simpl; [|now rewrite G|now rewrite G].
      destruct G as (s1 & -> & R1). simpl. now apply IH.
    Qed.
  End Sim.

  (** The evaluation with caches does what the evaluation without caches does. *)
  Lemma mevaluate_sim fs fuel c ca : caches_fresh canon c ->
    match update_update_needity canon (puif (view fs ca) c) fuel c with
    | Ok c' => exists c1 ca1, mevaluate canon kind other_if fs fuel (c, ca) = Ok (c1, ca1) /\
        same_static c' c1 /\ same_needs c' c1 /\ caches_fresh canon c1 /\ forall p, view fs ca1 p = view fs ca p
    | Raise e => mevaluate canon kind other_if fs fuel (c, ca) = Raise e
    | OutOfFuel => mevaluate canon kind other_if fs fuel (c, ca) = OutOfFuel
    end.
  Proof.
    intros Hf. unfold update_update_needity, mevaluate. simpl.
    destruct (nullify_fold (dvalues (c_targets c)) c) as (S & C & _ & _). fold (nullify c) in S, C.
    assert (F : caches_fresh canon (nullify c)).
    { intros i l Hi. rewrite C in Hi.
      rewrite (mapM_ext _ (core_get canon c)) by (intros x _; symmetry; now apply static_get).
      destruct S as (_ & _ & _ & S). destruct (S i) as (_ & <- & _). now apply Hf. }
    pose proof (eval_all_sim fs (view fs ca) c fuel (dvalues (c_targets (nullify c))) (nullify c) (nullify c, ca)) as G.
    assert (R : rel fs (view fs ca) c (nullify c) (nullify c, ca)).
    { split; [exact S|]. split; [apply static_refl|]. split; [intros k; reflexivity|]. auto. }
    specialize (G R).
    destruct (eval_all canon (puif (view fs ca) c) fuel (dvalues (c_targets (nullify c))) (nullify c)); [|exact G|exact G].
    destruct G as ([c1 ca1] & -> & G1 & G2 & G3 & G4 & G5 & G6). exists c1, ca1. repeat split; auto; apply G2.
  Qed.
End Eval.
