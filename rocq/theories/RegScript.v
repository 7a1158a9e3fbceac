(** Lemmas: the directories of everything a script registers are registered (C33). *)
From Verif Require Import PyBase PyPath PathProofs SolverModel InvokerModel CoreModel SpecCore CoreProofs NeedProofs MakeModel RegModel
  SpecUtil UtilProofs SpecReg RegProofs.
Local Open Scope string_scope.
Local Open Scope list_scope.

(** ** Scripts *)
Section Script.
  Variables (cwd home : string) (ex exists_ : string -> bool) (glob_ : string -> list string).
  Hypothesis disk : disk_ok cwd ex exists_.
  Notation canon := (realpath cwd).
  Variable ops : list mop.
  Hypothesis ok : script_ok cwd home ex ops.
  Notation D := (missing_dir cwd home ex ops).
  Notation good := (good cwd ex D).
  Notation goods := (goods cwd ex D).

  Lemma D_missing a : D a -> ex a = false.
  Proof. intros [H _]. exact H. Qed.
  Lemma D_up a : D a -> ex (dirname a) = false -> D (dirname a).
  Proof.
    intros HD Hx. destruct (string_dec (dirname a) a) as [->|N]; [exact HD|].
    destruct HD as (_ & o & p & H1 & H2 & H3). split; [exact Hx|]. exists o, p. split; [exact H1|]. split; [exact H2|].
    now apply ab_up.
  Qed.
  Lemma out_dirs o p : In o ops -> In p (outs home o) -> forall a, above a (canon p) -> ex a = false -> D a.
  Proof. intros H1 H2 a H3 H4. split; [exact H4|]. exists o, p. auto. Qed.
  Lemma out_parent o p : In o ops -> In p (outs home o) -> ex (dirname (canon p)) = false ->
    D (dirname (canon p)) /\ star_free (canon p) /\ star_free cwd.
  Proof.
    intros H1 H2 H3. destruct ok as (Oc & Oo & _). apply has_star_free in Oc. destruct (Oo _ _ H1 H2) as [_ Os].
    apply has_star_free in Os. split; [|split; [now apply star_free_realpath|exact Oc]].
    apply (out_dirs o p H1 H2); [|exact H3]. now apply (missing_parent_above cwd ex exists_ disk).
  Qed.
  Lemma name_not_dir o nm : In o ops -> In nm (names home o) -> ~ D (canon nm).
  Proof. intros H1 H2. destruct ok as (_ & _ & H). eauto. Qed.

  (** A [FileTarget] made by a function of the default core. *)
  Lemma file_good fuel st o p f b deps st' : fnew canon exists_ glob_ fuel st 0 (MFile f b) p deps true = Ok st' ->
    goods st -> 0 < List.length st -> In o ops -> In p (outs home o) -> In p (names home o) ->
    goods st' /\ grows st st' /\ In (canon p) (keys (reg st' 0)).
  Proof.
    intros E G L H1 H2 H3. apply (fnew_good cwd ex exists_ glob_ disk D D_missing D_up _ _ _ _ _ _ _ _ E G L).
    split; [intros HD; now apply (name_not_dir o p H1 H3) in HD|]. split; [intros _; now apply out_parent with o|].
    intros _ Hx. split; [now apply (out_parent o p H1 H2 Hx)|]. now left.
  Qed.
  (** One made by a method, after [dirkeep]. *)
  Lemma file_good' fuel st k o p f b deps st' : fnew canon exists_ glob_ fuel st k (MFile f b) p deps false = Ok st' ->
    goods st -> k < List.length st -> In o ops -> In p (outs home o) -> In p (names home o) ->
    (ex (dirname (canon p)) = false -> exists d, In d deps /\ star_free d /\ canon d = dirname (canon p) /\ known cwd (reg st k) d) ->
    goods st' /\ grows st st' /\ In (canon p) (keys (reg st' k)).
  Proof.
    intros E G L H1 H2 H3 H4. apply (fnew_good cwd ex exists_ glob_ disk D D_missing D_up _ _ _ _ _ _ _ _ E G L).
    split; [intros HD; now apply (name_not_dir o p H1 H3) in HD|]. split; [discriminate|].
    intros _ Hx. split; [now apply (out_parent o p H1 H2 Hx)|]. right. auto.
  Qed.
  Lemma existing_parent r : exists_ r = true -> ex (dirname (canon r)) = true /\ ~ D (canon r).
  Proof.
    intros Er.
    assert (X : ex (canon r) = true).
    { destruct (String.eqb_spec r "") as [->|N]; [|rewrite <- (exists_canon cwd ex exists_ disk r N); exact Er].
      destruct disk as (_ & Hc & _). rewrite realpath_abs in *. exact Hc. }
    split; [now apply disk|]. intros HD. apply D_missing in HD. congruence.
  Qed.
  Lemma source_existing_good fuel l st st' : source_existing canon exists_ glob_ fuel l st = Ok st' ->
    goods st -> 0 < List.length st -> goods st' /\ grows st st'.
  Proof.
    revert st. induction l as [|r l IH]; intros st E G L; [injection E as <-; split; [exact G|apply grows_refl]|].
    cbn [source_existing] in E. destruct (exists_ r) eqn:Er; [|now apply IH].
    destruct (RegModel.source canon exists_ glob_ fuel st r) as [st1| |] eqn:E1; cbn [bind] in E; try discriminate.
    destruct (existing_parent r Er) as [X1 X2].
    destruct (source_good cwd ex exists_ glob_ disk D D_missing D_up _ _ _ _ E1 G L X2) as (G1 & W1 & _); [congruence|].
    assert (L1 : 0 < List.length st1) by (destruct W1 as [-> _]; exact L).
    destruct (IH st1 E G1 L1) as [G2 W2]. split; [exact G2|]. eapply grows_trans; eauto.
  Qed.
  Lemma plain_good fuel st k cls kd o nm deps st' : plain_new canon exists_ glob_ fuel st k cls kd nm deps = Ok st' ->
    goods st -> k < List.length st -> In o ops -> In nm (names home o) -> ~ makes_file kd ->
    goods st' /\ grows st st' /\ In nm (keys (reg st' k)).
  Proof.
    intros E G L H1 H2 H3. unfold plain_new in E.
    destruct (source_existing canon exists_ glob_ fuel (expand_names glob_ deps) st) as [st1| |] eqn:E1; cbn [bind] in E; try discriminate.
    injection E as <-. destruct (source_existing_good _ _ _ _ E1 G) as [G1 W1]; [lia|].
    assert (L1 : k < List.length st1) by (destruct W1 as [-> _]; exact L).
    destruct (good_add cwd ex glob_ D (reg st1 k) cls kd nm (expand_names glob_ deps) (G1 k)) as (A1 & A2 & A3).
    - intros HD. exfalso. now apply (name_not_dir o nm H1 H2).
    - intros Hm. contradiction.
    - destruct (put_good cwd ex D st1 k _ L1 G1 A1 A2) as [B1 B2]. split; [exact B1|]. split; [eapply grows_trans; eauto|].
      rewrite reg_put, Nat.eqb_refl by exact L1. exact A3.
  Qed.
  Lemma mc_source_good fuel st k o src st' : mc_source canon exists_ glob_ home fuel st k src = Ok st' ->
    goods st -> k < List.length st -> In o ops -> In (expanduser home src) (names home o) ->
    goods st' /\ grows st st'.
  Proof.
    intros E G L H1 H2. unfold mc_source in E. destruct (rhas canon st k src) as [b st1] eqn:Eh.
    destruct (rhas_good cwd ex glob_ D _ _ _ _ _ L G Eh) as (G1 & W1 & _). destruct b; [injection E as <-; auto|].
    assert (L1 : k < List.length st1) by (destruct W1 as [-> _]; exact L).
    destruct (fnew_good cwd ex exists_ glob_ disk D D_missing D_up _ _ _ _ _ _ _ _ E G1 L1) as (Q1 & Q2 & _).
    { split; [intros HD; now apply (name_not_dir o _ H1 H2) in HD|]. split; [discriminate|intros []]. }
    split; [exact Q1|eapply grows_trans; eauto].
  Qed.

  (** The core that a call registers its output in. *)
  Lemma mstep_good fuel k st o st' : mstep canon exists_ glob_ home fuel k st o = Ok st' -> goods st -> k < List.length st ->
    In o ops -> goods st' /\ grows st st' /\ (forall p, In p (outs home o) -> known cwd (reg st' (target_core k o)) p).
  Proof.
    intros E G L Ho. assert (L0 : 0 < List.length st) by lia. assert (Ok2 := ok). destruct Ok2 as (Oc & Oo & On).
    destruct o as [tgt b deps|src dst b deps|src|nm ts deps|u nm deps|fc tgt deps b|tgt src deps b|src];
      cbn [mstep target_core outs] in *.
    - unfold mc_ftarget in E. destruct (mc_dirkeep canon exists_ glob_ fuel st k (expanduser home tgt)) as [[dd st1]| |] eqn:E1;
        cbn [bind] in E; try discriminate.
      destruct (Oo _ (expanduser home tgt) Ho (or_introl eq_refl)) as [F1 F2]. apply has_star_free in F2.
      destruct (dirkeep_good cwd ex exists_ glob_ disk D D_missing D_up _ _ _ _ _ _ E1 G L F2 F1 (out_dirs _ _ Ho (or_introl eq_refl)))
        as (G1 & W1 & K1).
      assert (L1 : k < List.length st1) by (destruct W1 as [-> _]; exact L).
      destruct (file_good' _ _ _ _ _ _ _ _ _ E G1 L1 Ho (or_introl eq_refl) (or_introl eq_refl)) as (G2 & W2 & K2).
      { intros Hx. destruct (K1 Hx) as (d & -> & Q). exists d. split; [apply in_app_iff; right; now left|exact Q]. }
      split; [exact G2|]. split; [eapply grows_trans; eauto|]. intros p [<-|[]]. now right.
    - unfold mc_copy in E. destruct (mc_dirkeep canon exists_ glob_ fuel st k (expanduser home dst)) as [[dd st1]| |] eqn:E1;
        cbn [bind] in E; try discriminate.
      destruct (Oo _ (expanduser home dst) Ho (or_introl eq_refl)) as [F1 F2]. apply has_star_free in F2.
      destruct (dirkeep_good cwd ex exists_ glob_ disk D D_missing D_up _ _ _ _ _ _ E1 G L F2 F1 (out_dirs _ _ Ho (or_introl eq_refl)))
        as (G1 & W1 & K1).
      assert (L1 : k < List.length st1) by (destruct W1 as [-> _]; exact L).
      destruct (mc_source canon exists_ glob_ home fuel st1 k (expanduser home src)) as [st2| |] eqn:E2; cbn [bind] in E; try discriminate.
      destruct (mc_source_good _ _ _ _ _ _ E2 G1 L1 Ho (or_introl eq_refl)) as [G2 W2].
      assert (L2 : k < List.length st2) by (destruct W2 as [-> _]; exact L1).
      destruct (file_good' _ _ _ _ _ _ _ _ _ E G2 L2 Ho (or_introl eq_refl) (or_intror (or_introl eq_refl))) as (G3 & W3 & K3).
      { intros Hx. destruct (K1 Hx) as (d & -> & Q1 & Q2 & Q3). exists d. split; [right; now left|]. split; [exact Q1|].
        split; [exact Q2|]. now apply (known_grows cwd st1). }
      split; [exact G3|]. split; [eapply grows_trans; [exact W1|]; eapply grows_trans; eauto|]. intros p [<-|[]]. now right.
    - destruct (mc_source_good _ _ _ _ _ _ E G L Ho (or_introl eq_refl)) as [G1 W1]. split; [exact G1|]. split; [exact W1|intros p []].
    - destruct (plain_good _ _ _ _ _ _ _ _ _ E G L Ho (or_introl eq_refl)) as (G1 & W1 & _); [intros []|].
      split; [exact G1|]. split; [exact W1|intros p []].
    - destruct (plain_good _ _ _ _ _ _ _ _ _ E G L Ho (or_introl eq_refl)) as (G1 & W1 & _); [intros []|].
      split; [exact G1|]. split; [exact W1|intros p []].
    - destruct (file_good _ _ _ _ _ _ _ _ E G L0 Ho (or_introl eq_refl) (or_introl eq_refl)) as (G1 & W1 & K1).
      split; [exact G1|]. split; [exact W1|]. intros p [<-|[]]. now right.
    - unfold copy in E.
      destruct (RegModel.source canon exists_ glob_ fuel st (expanduser home src)) as [st1| |] eqn:E1; cbn [bind] in E; try discriminate.
      destruct (source_good cwd ex exists_ glob_ disk D D_missing D_up _ _ _ _ E1 G L0
         (name_not_dir _ _ Ho (or_intror (or_introl eq_refl))) (out_parent _ _ Ho (or_intror (or_introl eq_refl)))) as (G1 & W1 & K1).
      assert (L1 : 0 < List.length st1) by (destruct W1 as [-> _]; exact L0).
      destruct (file_good _ _ _ _ _ _ _ _ E G1 L1 Ho (or_introl eq_refl) (or_introl eq_refl)) as (G2 & W2 & K2).
      split; [exact G2|]. split; [eapply grows_trans; eauto|]. intros p [<-|[<-|[]]]; [now right|].
      now apply (known_grows cwd st1).
    - destruct (source_good cwd ex exists_ glob_ disk D D_missing D_up _ _ _ _ E G L0
         (name_not_dir _ _ Ho (or_introl eq_refl)) (out_parent _ _ Ho (or_introl eq_refl))) as (G1 & W1 & K1).
      split; [exact G1|]. split; [exact W1|]. intros p [<-|[]]. exact K1.
  Qed.

  Lemma mrun_good fuel k l st st' : mrun canon exists_ glob_ home fuel k l st = Ok st' -> goods st -> k < List.length st ->
    incl l ops -> goods st' /\ grows st st' /\
    (forall o p, In o l -> In p (outs home o) -> known cwd (reg st' (target_core k o)) p).
  Proof.
    revert st. induction l as [|o l IH]; intros st E G L Hl; [injection E as <-; split; [exact G|]; split; [apply grows_refl|intros ? ? []]|].
    cbn [mrun] in E. destruct (mstep canon exists_ glob_ home fuel k st o) as [st1| |] eqn:E1; cbn [bind] in E; try discriminate.
    destruct (mstep_good _ _ _ _ _ E1 G L (Hl _ (or_introl eq_refl))) as (G1 & W1 & K1).
    assert (L1 : k < List.length st1) by (destruct W1 as [-> _]; exact L).
    destruct (IH st1 E G1 L1) as (G2 & W2 & K2); [intros x Hx; apply Hl; now right|].
    split; [exact G2|]. split; [eapply grows_trans; eauto|].
    intros o' p [<-|Ho] Hp; [|eauto]. apply (known_grows cwd st1); [exact W2|]. auto.
  Qed.
End Script.
