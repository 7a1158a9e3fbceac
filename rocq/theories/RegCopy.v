(** Lemmas: [licant.copy] with the default core and with another one (C39). *)
From Verif Require Import PyBase PyPath PathProofs SolverModel SpecGraph InvokerModel CoreModel SpecCore CoreProofs NeedProofs
  MakeModel SpecMake RegModel SpecUtil UtilProofs SpecReg RegProofs RegScript RegBuild RegTotal.
Local Open Scope string_scope.
Local Open Scope list_scope.

Lemma fnew_length canon exists_ glob_ : forall fuel st k kd name deps dk st',
  fnew canon exists_ glob_ fuel st k kd name deps dk = Ok st' -> List.length st' = List.length st.
Proof.
  induction fuel as [|fuel IH]; intros st k kd name deps dk st' E; [discriminate|]. cbn [fnew] in E.
  match type of E with bind ?X _ = _ => destruct X as [[st1 deps1]| |] eqn:E1; cbn [bind] in E; try discriminate end.
  assert (H1 : List.length st1 = List.length st).
  { destruct (dk && negb (exists_ (normpath (dirname (canon name))))); [|injection E1 as <- <-; reflexivity].
    match type of E1 with bind ?X _ = _ => destruct X as [st0| |] eqn:E0; cbn [bind] in E1; try discriminate end.
    injection E1 as <- <-. eauto. }
  match type of E with bind ?X _ = _ => destruct X as [st2| |] eqn:E2; cbn [bind] in E; try discriminate end.
  assert (H2 : List.length st2 = List.length st1).
  { clear - IH E2. revert st1 E2. induction (expand_names glob_ deps1) as [|r l IHl]; intros st1 E2; [now injection E2 as <-|].
    destruct (exists_ r); [|now apply IHl]. destruct (rhas canon st1 0 r) as [b st3] eqn:E3.
    assert (H3 : List.length st3 = List.length st1).
    { unfold rhas in E3. destruct (core_has canon (fst (reg st1 0)) r) as [b' c']. injection E3 as <- <-. apply put_length. }
    destruct b; [rewrite <- H3; now apply IHl|].
    destruct (fnew canon exists_ glob_ fuel st3 0 MSource r [] true) as [st4| |] eqn:E4; cbn [bind] in E2; try discriminate.
    rewrite <- H3, <- (IH _ _ _ _ _ _ _ E4). now apply IHl. }
  injection E as <-. rewrite put_length. congruence.
Qed.

Section Copy.
  Variables (cwd home : string) (ex exists_ : string -> bool) (glob_ : string -> list string).
  Hypothesis disk : disk_ok cwd ex exists_.
  Notation canon := (realpath cwd).

  (** Every dependency of a registered target can be looked up. *)
  Definition closed (r : mreg) : Prop :=
    (forall nm i, In (nm, i) (c_targets (fst r)) -> i < List.length (c_heap (fst r))) /\
    forall nm i d, In (nm, i) (c_targets (fst r)) -> In d (t_deps (obj (fst r) i)) -> known cwd r d.

  Lemma closed_has r nm : closed r -> closed (snd (core_has canon (fst r) nm), snd r) /\
    incl (keys r) (keys (snd (core_has canon (fst r) nm), snd r)) /\
    (fst (core_has canon (fst r) nm) = true -> In nm (keys (snd (core_has canon (fst r) nm), snd r))).
  Proof.
    intros [B G]. unfold core_has. destruct r as [c ks]. cbn [fst snd] in *.
    destruct (sget (c_targets c) nm) as [i|] eqn:E.
    - split; [split; [exact B|exact G]|]. split; [apply incl_refl|]. intros _. unfold keys. cbn [fst snd].
      apply (dget_In String.eqb string_eqb_spec') in E. apply in_map_iff. exists (nm, i). auto.
    - destruct (sget (c_targets c) (canon nm)) as [i|] eqn:E2; cbn [fst snd]; [|split; [split; [exact B|exact G]|split; [apply incl_refl|discriminate]]].
      apply (dget_In String.eqb string_eqb_spec') in E2.
      assert (K : forall k, In k (map fst (c_targets c)) -> In k (map fst (sset (c_targets c) nm i))).
      { intros k Hk. apply (dkeys_dset String.eqb string_eqb_spec'). now left. }
      assert (J : forall k j, In (k, j) (sset (c_targets c) nm i) -> exists k', In (k', j) (c_targets c)).
      { intros k j H. apply In_dset in H. destruct H as [[_ ->]|H]; eauto. }
      split; [split|split; [exact K|]].
      + intros k j H. destruct (J k j H) as [k' H']. exact (B k' j H').
      + intros k j d H Hd. destruct (J k j H) as [k' H']. destruct (G k' j d H' Hd) as [Q|Q]; [left|right]; now apply K.
      + intros _. apply (dkeys_dset String.eqb string_eqb_spec'). now right.
  Qed.
  Lemma closed_add r cls kd nm deps : closed r -> (forall d, In d deps -> known cwd r d) ->
    closed (reg_add r cls kd nm deps) /\ incl (keys r) (keys (reg_add r cls kd nm deps)) /\ In nm (keys (reg_add r cls kd nm deps)).
  Proof.
    intros [B G] Hd. destruct r as [c ks]. unfold reg_add. cbn [fst snd] in *.
    assert (T : c_targets (core_new c cls nm deps) = sset (c_targets c) nm (List.length (c_heap c))) by apply core_new_targets.
    assert (Hh : c_heap (core_new c cls nm deps) = c_heap c ++ [new_obj cls nm deps]) by apply core_new_heap.
    set (c' := core_new c cls nm deps) in *. clearbody c'.
    assert (K : forall k, In k (map fst (c_targets c)) -> In k (map fst (c_targets c'))).
    { intros k Hk. rewrite T. apply (dkeys_dset String.eqb string_eqb_spec'). now left. }
    assert (Kn : forall d, known cwd (c, ks) d -> known cwd (c', ks ++ [kd]) d) by (intros d [Q|Q]; [left|right]; now apply K).
    split; [split|split; [exact K|]].
    - cbn [fst]. intros k j H. rewrite Hh, app_length. cbn. rewrite T in H. apply In_dset in H.
      destruct H as [[_ ->]|H]; [lia|]. specialize (B k j H). lia.
    - cbn [fst]. intros k j d H Hdd. rewrite T in H. apply In_dset in H. unfold obj in Hdd. rewrite Hh in Hdd. destruct H as [[_ ->]|H].
      + rewrite app_nth2, Nat.sub_diag in Hdd by lia. cbn in Hdd. apply Kn. now apply Hd.
      + rewrite app_nth1 in Hdd by (now apply (B k)). apply Kn. now apply (G k j).
    - unfold keys. cbn [fst]. rewrite T. apply (dkeys_dset String.eqb string_eqb_spec'). now right.
  Qed.

  Definition step0 (st st' : regs) : Prop := closed (reg st' 0) /\ grows st st'.
  Lemma step0_put st r : 0 < List.length st -> closed r -> incl (keys (reg st 0)) (keys r) -> step0 st (put st 0 r).
  Proof.
    intros L G Hi. split; [now rewrite reg_put, Nat.eqb_refl by exact L|].
    split; [apply put_length|]. intros j. rewrite reg_put by exact L. destruct (Nat.eqb_spec j 0) as [->|]; [exact Hi|apply incl_refl].
  Qed.
  Lemma step0_has st nm b st' : 0 < List.length st -> closed (reg st 0) -> rhas canon st 0 nm = (b, st') ->
    step0 st st' /\ (b = true -> In nm (keys (reg st' 0))).
  Proof.
    intros L G. unfold rhas. destruct (core_has canon (fst (reg st 0)) nm) as [b' c'] eqn:E. intros [= <- <-].
    destruct (closed_has (reg st 0) nm G) as (G1 & G2 & G3). rewrite E in *. cbn [fst snd] in *.
    split; [now apply step0_put|]. intros Hb. rewrite reg_put, Nat.eqb_refl by exact L. now apply G3.
  Qed.

  Lemma fnew_closed : forall fuel st kd name deps dk st',
    fnew canon exists_ glob_ fuel st 0 kd name deps dk = Ok st' -> 0 < List.length st -> closed (reg st 0) ->
    (forall d, In d deps -> star_free d /\ known cwd (reg st 0) d) ->
    (dk = true -> ex (dirname (canon name)) = false -> star_free (canon name) /\ star_free cwd) ->
    step0 st st' /\ In (canon name) (keys (reg st' 0)).
  Proof.
    induction fuel as [|fuel IH]; intros st kd name deps dk st' E L G Hd Hs; [discriminate|]. cbn [fnew] in E.
    set (dirpath := normpath (dirname (canon name))) in *.
    assert (Edir : exists_ dirpath = ex (dirname (canon name))) by apply (exists_dirpath cwd ex exists_ disk).
    assert (Cd : canon dirpath = dirname (canon name)) by apply dirpath_canon.
    match type of E with bind ?X _ = _ => destruct X as [[st1 deps1]| |] eqn:E1; cbn [bind] in E; try discriminate end.
    assert (S1 : step0 st st1 /\ forall d, In d deps1 -> star_free d /\ known cwd (reg st1 0) d).
    { destruct (dk && negb (exists_ dirpath)) eqn:Ed.
      - apply andb_true_iff in Ed. destruct Ed as [-> Ed]. apply negb_true_iff in Ed. rewrite Edir in Ed.
        destruct (Hs eq_refl Ed) as [Q1 Q2].
        assert (Sd : star_free dirpath) by (now apply star_free_normpath, star_free_dirname).
        destruct (fnew canon exists_ glob_ fuel st 0 MDir dirpath [] (negb (exists_ (normpath (dirname dirpath))))) as [st0| |] eqn:E2;
          cbn [bind] in E1; try discriminate. injection E1 as <- <-.
        destruct (IH _ _ _ _ _ _ E2 L G) as [[C1 W1] K1].
        + intros d [].
        + intros _ _. split; [now apply star_free_realpath|exact Q2].
        + split; [split; [exact C1|exact W1]|]. intros d Hin. apply in_app_iff in Hin. destruct Hin as [Hin|[<-|[]]].
          * destruct (Hd d Hin) as [A B]. split; [exact A|]. now apply (known_grows cwd st).
          * split; [exact Sd|]. right. exact K1.
      - injection E1 as <- <-. split; [split; [exact G|apply grows_refl]|exact Hd]. }
    destruct S1 as [[G1 W1] Hd1]. clear E1.
    assert (L1 : 0 < List.length st1) by (destruct W1 as [-> _]; exact L).
    match type of E with bind ?X _ = _ => destruct X as [st2| |] eqn:E2; cbn [bind] in E; try discriminate end.
    assert (S2 : step0 st1 st2).
    { clear - IH L1 G1 E2 disk. revert st1 L1 G1 E2. induction (expand_names glob_ deps1) as [|r l IHl]; intros st1 L1 G1 E2.
      - injection E2 as <-. split; [exact G1|apply grows_refl].
      - destruct (exists_ r) eqn:Er; [|now apply IHl].
        destruct (rhas canon st1 0 r) as [b st3] eqn:E3. destruct (step0_has _ _ _ _ L1 G1 E3) as [[G3 W3] _].
        assert (L3 : 0 < List.length st3) by (destruct W3 as [-> _]; exact L1).
        assert (S4 : exists st4, (if b then Ok st3 else fnew canon exists_ glob_ fuel st3 0 MSource r [] true) = Ok st4 /\ step0 st3 st4).
        { destruct b; [exists st3; split; [reflexivity|split; [exact G3|apply grows_refl]]|].
          destruct (fnew canon exists_ glob_ fuel st3 0 MSource r [] true) as [st4| |] eqn:E4; cbn [bind] in E2; try discriminate.
          exists st4. split; [reflexivity|]. apply (IH _ _ _ _ _ _ E4 L3 G3); [intros d []|]. intros _ Hx.
          pose proof (dirpath_exists cwd ex exists_ disk r Er) as Hy. rewrite (exists_dirpath cwd ex exists_ disk) in Hy. congruence. }
        destruct S4 as (st4 & E4 & G4 & W4).
        assert (L4 : 0 < List.length st4) by (destruct W4 as [-> _]; exact L3).
        assert (E5 : step0 st4 st2).
        { destruct b; [injection E4 as <-; now apply IHl|]. rewrite E4 in E2. cbn [bind] in E2. now apply IHl. }
        destruct E5 as [G5 W5]. split; [exact G5|]. eapply grows_trans; [exact W3|]. eapply grows_trans; eauto. }
    destruct S2 as [G2 W2]. assert (L2 : 0 < List.length st2) by (destruct W2 as [-> _]; exact L1).
    injection E as <-.
    destruct (closed_add (reg st2 0) Updatable kd (canon name) (expand_names glob_ deps1) G2) as (A1 & A2 & A3).
    - intros d Hin. unfold expand_names in Hin. apply in_flat_map in Hin. destruct Hin as (d0 & H0 & H1).
      destruct (Hd1 d0 H0) as [Q1 Q2]. apply has_star_free in Q1. rewrite Q1 in H1. destruct H1 as [<-|[]].
      now apply (known_grows cwd st1).
    - destruct (step0_put st2 _ L2 A1 A2) as [B1 B2]. split.
      + split; [exact B1|]. eapply grows_trans; [exact W1|]. eapply grows_trans; eauto.
      + rewrite reg_put, Nat.eqb_refl by exact L2. exact A3.
  Qed.

  Lemma copy_closed fuel st tgt src b st' : copy canon exists_ glob_ home fuel st 0 tgt src [] b = Ok st' ->
    0 < List.length st -> closed (reg st 0) -> star_free cwd -> star_free (expanduser home tgt) -> star_free (expanduser home src) ->
    step0 st st' /\ In (canon (expanduser home tgt)) (keys (reg st' 0)).
  Proof.
    intros E L G Sc S1 S2. unfold copy in E.
    destruct (RegModel.source canon exists_ glob_ fuel st (expanduser home src)) as [st1| |] eqn:E1; cbn [bind] in E; try discriminate.
    assert (H1 : step0 st st1 /\ known cwd (reg st1 0) (expanduser home src)).
    { unfold RegModel.source in E1. destruct (rhas canon st 0 (expanduser home src)) as [b0 st0] eqn:E0.
      destruct (step0_has _ _ _ _ L G E0) as [[G0 W0] K0]. destruct b0.
      - injection E1 as <-. split; [split; [exact G0|exact W0]|]. left. now apply K0.
      - assert (L0 : 0 < List.length st0) by (destruct W0 as [-> _]; exact L).
        destruct (fnew_closed _ _ _ _ _ _ _ E1 L0 G0) as [[G1 W1] K1]; [intros d []| |].
        + intros _ _. split; [now apply star_free_realpath|exact Sc].
        + split; [split; [exact G1|eapply grows_trans; eauto]|]. now right. }
    destruct H1 as [[G1 W1] K1]. assert (L1 : 0 < List.length st1) by (destruct W1 as [-> _]; exact L).
    destruct (fnew_closed _ _ _ _ _ _ _ E L1 G1) as [[G2 W2] K2].
    - intros d [<-|[]]. split; [exact S2|exact K1].
    - intros _ _. split; [now apply star_free_realpath|exact Sc].
    - split; [split; [exact G2|eapply grows_trans; eauto]|exact K2].
  Qed.

  Lemma copies_closed fuel k l : star_free cwd ->
    (forall t s b, In (t, s, b) l -> star_free (expanduser home t) /\ star_free (expanduser home s)) ->
    forall st st', 0 < List.length st -> closed (reg st 0) -> mrun canon exists_ glob_ home fuel k (copies l) st = Ok st' ->
    step0 st st' /\ forall t s b, In (t, s, b) l -> In (canon (expanduser home t)) (keys (reg st' 0)).
  Proof.
    intros Sc. induction l as [|[[t s] b] l IH]; intros Hl st st' L G E.
    - injection E as <-. split; [split; [exact G|apply grows_refl]|intros ? ? ? []].
    - cbn [copies map mrun mstep] in E.
      destruct (copy canon exists_ glob_ home fuel st 0 t s [] b) as [st1| |] eqn:E1; cbn [bind] in E; try discriminate.
      destruct (Hl t s b (or_introl eq_refl)) as [S1 S2].
      destruct (copy_closed _ _ _ _ _ _ E1 L G Sc S1 S2) as [[G1 W1] K1].
      assert (L1 : 0 < List.length st1) by (destruct W1 as [-> _]; exact L).
      destruct (IH (fun t s b H => Hl t s b (or_intror H)) st1 st' L1 G1 E) as [[G2 W2] K2].
      split; [split; [exact G2|eapply grows_trans; eauto]|].
      intros t' s' b' [[= <- <- <-]|H]; [now apply W2|eauto].
  Qed.

  (** Another core: the source goes to the default core. *)
  Lemma keys_fnew0 : forall fuel st kd name deps dk st', fnew canon exists_ glob_ fuel st 0 kd name deps dk = Ok st' ->
    forall k, k <> 0 -> reg st' k = reg st k.
  Proof.
    assert (Pn : forall st r k, k <> 0 -> reg (put st 0 r) k = reg st k).
    { intros st r k Hk. unfold reg, put. rewrite NeedProofs.lupd_nth. apply Nat.eqb_neq in Hk. now rewrite Hk. }
    assert (Hn : forall st nm b st', rhas canon st 0 nm = (b, st') -> forall k, k <> 0 -> reg st' k = reg st k).
    { intros st nm b st'. unfold rhas. destruct (core_has canon (fst (reg st 0)) nm) as [b' c']. intros [= <- <-] k Hk. now apply Pn. }
    induction fuel as [|fuel IH]; intros st kd name deps dk st' E k Hk; [discriminate|]. cbn [fnew] in E.
    match type of E with bind ?X _ = _ => destruct X as [[st1 deps1]| |] eqn:E1; cbn [bind] in E; try discriminate end.
    assert (H1 : reg st1 k = reg st k).
    { destruct (dk && negb (exists_ (normpath (dirname (canon name))))); [|injection E1 as <- <-; reflexivity].
      match type of E1 with bind ?X _ = _ => destruct X as [st0| |] eqn:E0; cbn [bind] in E1; try discriminate end.
      injection E1 as <- <-. eauto. }
    match type of E with bind ?X _ = _ => destruct X as [st2| |] eqn:E2; cbn [bind] in E; try discriminate end.
    assert (H2 : reg st2 k = reg st1 k).
    { clear - IH Hn Hk E2. revert st1 E2. induction (expand_names glob_ deps1) as [|r l IHl]; intros st1 E2; [now injection E2 as <-|].
      destruct (exists_ r); [|now apply IHl]. destruct (rhas canon st1 0 r) as [b st3] eqn:E3.
      pose proof (Hn _ _ _ _ E3 k Hk) as H3. destruct b; [rewrite <- H3; now apply IHl|].
      destruct (fnew canon exists_ glob_ fuel st3 0 MSource r [] true) as [st4| |] eqn:E4; cbn [bind] in E2; try discriminate.
      rewrite <- H3, <- (IH _ _ _ _ _ _ E4 k Hk). now apply IHl. }
    injection E as <-. rewrite Pn by exact Hk. congruence.
  Qed.
  Lemma source_core0 fuel st p st' : RegModel.source canon exists_ glob_ fuel st p = Ok st' -> forall k, k <> 0 -> reg st' k = reg st k.
  Proof.
    unfold RegModel.source. intros E k Hk. destruct (rhas canon st 0 p) as [b st1] eqn:E1.
    assert (H1 : reg st1 k = reg st k).
    { unfold rhas in E1. destruct (core_has canon (fst (reg st 0)) p) as [b' c']. injection E1 as <- <-.
      unfold reg, put. rewrite NeedProofs.lupd_nth. apply Nat.eqb_neq in Hk. now rewrite Hk. }
    destruct b; [injection E as <-; exact H1|]. rewrite <- H1. eapply keys_fnew0; eauto.
  Qed.
  (** [fnew] for core [k]: one more target there. *)
  Lemma fnew_other fuel st k kd name deps dk st' : fnew canon exists_ glob_ fuel st k kd name deps dk = Ok st' -> k <> 0 -> k < List.length st ->
    exists ret, (forall d, In d deps -> star_free d -> In d ret) /\ reg st' k = reg_add (reg st k) Updatable kd (canon name) ret.
  Proof.
    destruct fuel as [|fuel]; intros E Hk L; [discriminate|]. cbn [fnew] in E.
    match type of E with bind ?X _ = _ => destruct X as [[st1 deps1]| |] eqn:E1; cbn [bind] in E; try discriminate end.
    assert (H1 : reg st1 k = reg st k /\ List.length st1 = List.length st /\ incl deps deps1).
    { destruct (dk && negb (exists_ (normpath (dirname (canon name))))); [|injection E1 as <- <-; split; [reflexivity|split; [reflexivity|apply incl_refl]]].
      match type of E1 with bind ?X _ = _ => destruct X as [st0| |] eqn:E0; cbn [bind] in E1; try discriminate end.
      injection E1 as <- <-. split; [eapply keys_fnew0; eauto|]. split; [|now apply incl_appl, incl_refl].
      eapply fnew_length; eauto. }
    match type of E with bind ?X _ = _ => destruct X as [st2| |] eqn:E2; cbn [bind] in E; try discriminate end.
    assert (H2 : reg st2 k = reg st1 k /\ List.length st2 = List.length st1).
    { clear - Hk E2. revert st1 E2. induction (expand_names glob_ deps1) as [|r l IHl]; intros st1 E2; [injection E2 as <-; auto|].
      destruct (exists_ r); [|now apply IHl]. destruct (rhas canon st1 0 r) as [b st3] eqn:E3.
      assert (H3 : reg st3 k = reg st1 k /\ List.length st3 = List.length st1).
      { unfold rhas in E3. destruct (core_has canon (fst (reg st1 0)) r) as [b' c']. injection E3 as <- <-. split; [|apply put_length].
        unfold reg, put. rewrite NeedProofs.lupd_nth. apply Nat.eqb_neq in Hk. now rewrite Hk. }
      destruct H3 as [H3 H4]. destruct b; [destruct (IHl _ E2); split; [congruence|lia]|].
      destruct (fnew canon exists_ glob_ fuel st3 0 MSource r [] true) as [st4| |] eqn:E4; cbn [bind] in E2; try discriminate.
      pose proof (keys_fnew0 _ _ _ _ _ _ _ E4 k Hk). pose proof (fnew_length _ _ _ _ _ _ _ _ _ _ _ E4). destruct (IHl _ E2). split; [congruence|lia]. }
    injection E as <-. exists (expand_names glob_ deps1). split.
    - intros d Hd Hs. apply expand_keeps; [exact Hs|]. now apply H1.
    - rewrite reg_put, Nat.eqb_refl by lia. destruct H1 as (H1 & _ & _), H2 as [H2 _]. now rewrite H2, H1.
  Qed.
End Copy.

Lemma known_registered cwd r d : known cwd r d -> registered (realpath cwd) (fst r) d.
Proof.
  intros K. destruct (in_dec string_dec d (keys r)) as [H|H].
  - apply in_map_iff in H. destruct H as ([q i] & E & H). cbn in E. subst q. exists i. now left.
  - destruct K as [K|K]; [contradiction|]. apply in_map_iff in K. destruct K as ([q i] & E & K). cbn in E. subst q.
    exists i. right. auto.
Qed.
Lemma closed_cone cwd r nm i : closed cwd r -> In (nm, i) (c_targets (fst r)) -> cone_registered (realpath cwd) (fst r) i.
Proof.
  intros [_ G] Hi j d Hc Hd. destruct (cone_registered_name (realpath cwd) (fst r) i j) as [nm' H]; [now exists nm|exact Hc|].
  apply known_registered. now apply (G nm' j).
Qed.

Lemma copies_usable cwd home ex exists_ glob_ l fuel k n st : disk_ok cwd ex exists_ -> has_star cwd = false ->
  (forall t s b, In (t, s, b) l -> has_star (expanduser home t) = false /\ has_star (expanduser home s) = false) ->
  0 < n -> mrun (realpath cwd) exists_ glob_ home fuel k (copies l) (repeat empty_reg n) = Ok st ->
  forall t s b, In (t, s, b) l ->
  exists i, resolves (realpath cwd) (fst (reg st 0)) (realpath cwd (expanduser home t)) i /\
    cone_registered (realpath cwd) (fst (reg st 0)) i.
Proof.
  intros disk Sc Sl Hn E t s b Hin.
  destruct (copies_closed cwd home ex exists_ glob_ disk fuel k l) with (st := repeat empty_reg n) (st' := st) as [[G _] K].
  - now apply has_star_free.
  - intros t' s' b' H. destruct (Sl t' s' b' H) as [A B]. split; now apply has_star_free.
  - now rewrite repeat_length.
  - rewrite reg_start. split; [intros ? ? []|intros ? ? ? []].
  - exact E.
  - specialize (K t s b Hin). apply in_map_iff in K. destruct K as ([q i] & Eq & K). cbn in Eq. subst q.
    exists i. split; [now left|]. now apply (closed_cone cwd _ (realpath cwd (expanduser home t)) i).
Qed.

Lemma copy_elsewhere cwd home exists_ glob_ fuel st k tgt src adddeps b st' :
  copy (realpath cwd) exists_ glob_ home fuel st k tgt src adddeps b = Ok st' -> k <> 0 -> k < List.length st ->
  has_star (expanduser home src) = false -> ~ registered (realpath cwd) (fst (reg st k)) (expanduser home src) ->
  realpath cwd (expanduser home src) <> realpath cwd (expanduser home tgt) ->
  exists i, In (realpath cwd (expanduser home tgt), i) (c_targets (fst (reg st' k))) /\
    ~ cone_registered (realpath cwd) (fst (reg st' k)) i.
Proof.
  intros E Hk L Hs Hr Hne. unfold copy in E.
  destruct (RegModel.source (realpath cwd) exists_ glob_ fuel st (expanduser home src)) as [st1| |] eqn:E1; cbn [bind] in E; try discriminate.
  assert (H1 : reg st1 k = reg st k) by (eapply source_core0; eauto).
  assert (L1 : k < List.length st1).
  { unfold RegModel.source in E1. destruct (rhas (realpath cwd) st 0 (expanduser home src)) as [b0 st0] eqn:E0.
    assert (L0 : List.length st0 = List.length st).
    { unfold rhas in E0. destruct (core_has (realpath cwd) (fst (reg st 0)) (expanduser home src)) as [b' c']. injection E0 as <- <-. apply put_length. }
    destruct b0; [injection E1 as <-; lia|]. apply fnew_length in E1. lia. }
  destruct (fnew_other cwd exists_ glob_ _ _ _ _ _ _ _ _ E Hk L1) as (ret & Hret & Hreg).
  exists (List.length (c_heap (fst (reg st k)))). rewrite Hreg, H1. unfold reg_add. cbn [fst].
  set (c := fst (reg st k)) in *. set (T := realpath cwd (expanduser home tgt)) in *.
  split.
  - rewrite core_new_targets. apply (dget_In String.eqb string_eqb_spec'). apply (dget_dset_eq String.eqb string_eqb_spec').
  - intros Hc. specialize (Hc (List.length (c_heap c)) (expanduser home src) (rt_refl _ _ _)).
    destruct Hc as [i Hi].
    + unfold obj. rewrite core_new_heap, app_nth2, Nat.sub_diag by lia. cbn. apply Hret; [now left|]. now apply has_star_free.
    + assert (Hd : expanduser home src <> T).
      { intros Q. apply Hne. rewrite Q. unfold T. now rewrite realpath_idem. }
      apply Hr. unfold resolves in Hi. rewrite core_new_targets in Hi.
      destruct Hi as [Hi|[Hn Hi]].
      * apply In_dset in Hi. destruct Hi as [[Q _]|Hi]; [contradiction|]. exists i. now left.
      * apply In_dset in Hi. destruct Hi as [[Q _]|Hi]; [contradiction|]. exists i. right. split; [|exact Hi].
        intros Q. apply Hn. apply (dkeys_dset String.eqb string_eqb_spec'). now left.
Qed.

(** ** C65 *)
Lemma first_rule_stays canon c cls p deps ops : canon p = p -> unheard canon c p ->
  Forall (fun o => ~ adds_file canon p o) ops ->
  forall nm, canon nm = p -> core_get canon (crun canon ops (core_new c cls p deps)) nm = Ok (List.length (c_heap c)).
Proof.
  intros Hp Hu Hf nm Hnm. set (i0 := List.length (c_heap c)).
  assert (G : sget (c_targets (core_new c cls p deps)) p = Some i0 /\
              forall x i, In (x, i) (c_targets (core_new c cls p deps)) -> canon x = p -> i = i0).
  { rewrite core_new_targets. split; [apply (dget_dset_eq String.eqb string_eqb_spec')|].
    intros x i H Hx. apply In_dset in H. destruct H as [[_ ->]|H]; [reflexivity|]. destruct (Hu x i H Hx). }
  revert G. generalize (core_new c cls p deps). induction ops as [|o ops IH]; intros c' [G1 G2]; cbn [crun fold_left].
  - unfold core_get. destruct (sget (c_targets c') nm) as [i|] eqn:E; [|now rewrite Hnm, G1].
    f_equal. apply (G2 nm i); [|exact Hnm]. now apply (dget_In String.eqb string_eqb_spec').
  - inversion Hf as [|? ? Ho Hr]; subst. apply IH; [exact Hr|]. clear IH. destruct o as [cls' n deps'|n|a b]; cbn [cstep adds_file] in *.
    + rewrite core_new_targets. split.
      * rewrite (dget_dset_neq String.eqb string_eqb_spec'); [exact G1|]. intros Q. apply Ho. congruence.
      * intros x i H Hx. apply In_dset in H. destruct H as [[-> _]|H]; [contradiction|eauto].
    + unfold core_has. destruct (sget (c_targets c') n) eqn:E; [cbn; auto|]. destruct (sget (c_targets c') (canon n)) as [i|] eqn:E2; cbn [snd]; [|auto].
      cbn [c_targets]. split.
      * rewrite (dget_dset_neq String.eqb string_eqb_spec'); [exact G1|]. intros Q. congruence.
      * intros x j H Hx. apply In_dset in H. destruct H as [[-> ->]|H]; [|eauto]. rewrite Hx, G1 in E2. congruence.
    + assert (T : forall r c'', depends_as_set canon c' a b = Ok (r, c'') -> c_targets c'' = c_targets c').
      { intros r c'' E. apply depends_shape in E. apply E. }
      destruct (depends_as_set canon c' a b) as [[r c'']| |]; [|split; assumption..].
      rewrite (T _ _ eq_refl). split; assumption.
Qed.
