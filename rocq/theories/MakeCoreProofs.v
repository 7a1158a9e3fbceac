(** Lemmas: the registry of a MakeCore implements the project of the calls (C95). *)
From Coq Require Import Permutation Operators_Properties.
From Verif Require Import PyBase PyPath PathProofs SolverModel SpecGraph InvokerModel CoreModel SpecCore CoreProofs NeedProofs
  RuProofs CoreThms MakeModel MakeEval SpecMake MakeProofs MakeFacts MakeTimes RegModel SpecUtil UtilProofs SpecReg RegProofs RegScript RegBuild RegTotal
  RegCopy SpecProject ProjectProofs SpecMakeCore.
Local Open Scope string_scope.
Local Open Scope list_scope.

(** ** What the default core gets does not touch the other cores *)
Section Other.
  Variables (cwd home : string) (exists_ : string -> bool) (glob_ : string -> list string) (k : nat).
  Hypothesis Hk : k <> 0.
  Notation canon := (realpath cwd).
  Definition aside (st st' : regs) : Prop := reg st' k = reg st k /\ List.length st' = List.length st.
  Lemma source_aside fuel st p st' : RegModel.source canon exists_ glob_ fuel st p = Ok st' -> aside st st'.
  Proof.
    intros E. split; [eapply source_core0; eauto|]. unfold RegModel.source in E. destruct (rhas canon st 0 p) as [b st1] eqn:E1.
    assert (L : List.length st1 = List.length st).
    { unfold rhas in E1. destruct (core_has canon (fst (reg st 0)) p). injection E1 as _ <-. apply put_length. }
    destruct b; [injection E as <-; exact L|]. rewrite <- L. eapply fnew_length; eauto.
  Qed.
  Lemma existing_aside fuel ds : forall st st', source_existing canon exists_ glob_ fuel ds st = Ok st' -> aside st st'.
  Proof.
    induction ds as [|d ds IH]; intros st st' E; [injection E as <-; split; reflexivity|]. cbn [source_existing] in E.
    destruct (exists_ d); [|now apply IH].
    destruct (RegModel.source canon exists_ glob_ fuel st d) as [st1| |] eqn:E1; cbn [bind] in E; try discriminate.
    destruct (source_aside _ _ _ _ E1) as [A B], (IH _ _ E) as [C D]. split; congruence.
  Qed.
  Lemma fnew_here fuel st kd name deps st' : fnew canon exists_ glob_ fuel st k kd name deps false = Ok st' -> k < List.length st ->
    reg st' k = reg_add (reg st k) Updatable kd (canon name) (expand_names glob_ deps) /\ List.length st' = List.length st.
  Proof.
    intros E L. split; [|eapply fnew_length; eauto]. destruct fuel as [|fuel]; [discriminate|]. cbn [fnew andb bind] in E.
    match type of E with bind ?X _ = _ => destruct X as [st2| |] eqn:E2; cbn [bind] in E; try discriminate end.
    assert (H2 : aside st st2).
    { clear - Hk E2. revert st E2. induction (expand_names glob_ deps) as [|r l IHl]; intros st1 E2; [injection E2 as <-; split; reflexivity|].
      destruct (exists_ r); [|now apply IHl].
      destruct (rhas canon st1 0 r) as [b st3] eqn:E3.
      assert (H3 : aside st1 st3).
      { unfold rhas in E3. destruct (core_has canon (fst (reg st1 0)) r) as [b' c']. injection E3 as <- <-. split; [|apply put_length].
        unfold reg, put. rewrite NeedProofs.lupd_nth. apply Nat.eqb_neq in Hk. now rewrite Hk. }
      destruct H3 as [H3 H4]. destruct b; [destruct (IHl _ E2); split; [congruence|lia]|].
      destruct (fnew canon exists_ glob_ fuel st3 0 MSource r [] true) as [st4| |] eqn:E4; cbn [bind] in E2; try discriminate.
      pose proof (keys_fnew0 _ _ _ _ _ _ _ _ _ _ E4 k Hk). pose proof (fnew_length _ _ _ _ _ _ _ _ _ _ _ E4). destruct (IHl _ E2). split; [congruence|lia]. }
    injection E as <-. destruct H2 as [A B]. rewrite reg_put by lia. now rewrite Nat.eqb_refl, A.
  Qed.
  Lemma plain_here fuel st cls kd nm ds st' : plain_new canon exists_ glob_ fuel st k cls kd nm ds = Ok st' -> k < List.length st ->
    reg st' k = reg_add (reg st k) cls kd nm (expand_names glob_ ds) /\ List.length st' = List.length st.
  Proof.
    intros E L. unfold plain_new in E.
    destruct (source_existing canon exists_ glob_ fuel (expand_names glob_ ds) st) as [st2| |] eqn:E2; cbn [bind] in E; try discriminate.
    injection E as <-. destruct (existing_aside _ _ _ _ E2) as [A B]. rewrite reg_put, put_length by lia. now rewrite Nat.eqb_refl, A.
  Qed.
  Lemma default_aside fuel st o st' : core_stmt home o = [] -> mstep canon exists_ glob_ home fuel k st o = Ok st' -> aside st st'.
  Proof.
    destruct o as [| | | | |f t ds b|t s ds b|s]; try discriminate; intros _ E; cbn [mstep] in E.
    - unfold makefile in E. split; [eapply keys_fnew0; eauto|eapply fnew_length; eauto].
    - unfold copy in E. destruct (RegModel.source canon exists_ glob_ fuel st (expanduser home s)) as [st1| |] eqn:E1; cbn [bind] in E; try discriminate.
      destruct (source_aside _ _ _ _ E1) as [A B]. split.
      + rewrite <- A. eapply keys_fnew0; eauto.
      + rewrite <- B. eapply fnew_length; eauto.
    - eapply source_aside; eauto.
  Qed.
End Other.

Section Core.
  Variables (cwd home : string) (ex exists_ : string -> bool) (glob_ : string -> list string).
  Hypothesis disk : disk_ok cwd ex exists_.
  Variable ops : list mop.
  Hypothesis cok : core_in_order cwd home glob_ exists_ ops.
  Variable k : nat.
  Hypothesis Hk : k <> 0.
  Notation l := (core_script home ops).
  Let ok := co_script _ _ _ _ _ cok.
  Notation canon := (realpath cwd).
  Notation P := (project_of cwd home glob_ l).
  Notation declares := (declares cwd home glob_).
  Notation rule_of := (rule_of cwd home glob_).
  Notation deps_of := (deps_of home glob_).
  Notation sources_of := (sources_of home).
  Notation mentions := (mentions home glob_).
  Notation is_name := (is_name l).
  Notation meaning := (meaning cwd l).
  Notation D := (D cwd home ex l).
  Notation inv0 := (inv0 cwd home ex glob_ l false).
  Notation next := (next l).
  Notation declared_keys := (declared_keys cwd home glob_).

  (** Keys that directories bring. *)
  Definition dirs_more (r r' : mreg) : Prop := incl (keys r) (keys r') /\ forall x, In x (keys r') -> In x (keys r) \/ D (canon x).
  Lemma dirs_more_refl r : dirs_more r r.
  Proof. split; [apply incl_refl|auto]. Qed.
  Lemma dirs_more_trans a b c : dirs_more a b -> dirs_more b c -> dirs_more a c.
  Proof. intros [A1 A2] [B1 B2]. split; [intros x Hx; auto|]. intros x Hx. destruct (B2 x Hx) as [H|H]; auto. Qed.

  Lemma has_keys l1 r x y : core_has canon (fst r) x = y -> inv0 l1 r -> forall z, In z (keys (snd y, snd r)) -> In z (keys r) \/ z = x /\ (fst y = true).
  Proof.
    intros <- _ z. unfold core_has. destruct (sget (c_targets (fst r)) x) as [i|]; [now left|].
    destruct (sget (c_targets (fst r)) (canon x)) as [i|]; [|now left]. unfold keys. cbn [fst snd c_targets]. intros H.
    apply (dkeys_dset String.eqb string_eqb_spec') in H. tauto.
  Qed.
  (** A directory that is known is known by its canonical name. *)
  Lemma file_key l1 r x : incl l1 l -> inv0 l1 r -> is_name x = false -> In x (keys r) -> In (canon x) (keys r).
  Proof.
    intros Hl (_ & _ & V) Nx Hx. apply key_In in Hx. destruct Hx as [i Hi]. destruct (V x i Hi) as (_ & B & _ & C). unfold nm_of in B.
    destruct (kind_of r i) as [f b| | | |].
    - destruct C as (C & _). rewrite C in B. now apply In_key in B.
    - destruct C as (C & _). rewrite C in B. now apply In_key in B.
    - destruct C as (C & _). rewrite C in B. now apply In_key in B.
    - destruct C as (_ & s & ds & C1 & C2 & _). exfalso. pose proof (set_name glob_ l s x ds (Hl s C1) C2). congruence.
    - destruct C as (_ & s & u & ds & C1 & C2 & _). exfalso. pose proof (other_name glob_ l s u x ds (Hl s C1) C2). congruence.
  Qed.
  Lemma name_key l1 r x i : inv0 l1 r -> In (x, i) (c_targets (fst r)) -> In (nm_of r i) (keys r).
  Proof. intros (_ & _ & V) Hi. destruct (V x i Hi) as (_ & B & _). now apply In_key in B. Qed.

  (** ** dirkeep *)
  Lemma keep_inv l1 s q : incl l1 l -> In s l -> In q (places_of home s) -> forall fuel st path ds st',
    mc_dirkeep canon exists_ glob_ fuel st k path = Ok (ds, st') ->
    (canon path = canon q \/ above (canon path) (canon q)) ->
    star_free path -> file_name (basename path) -> k < List.length st -> inv0 l1 (reg st k) ->
    inv0 l1 (reg st' k) /\ List.length st' = List.length st /\ dirs_more (reg st k) (reg st' k) /\
    (forall d, In d ds -> canon d = dirname (canon path) /\ D (canon d) /\ is_name d = false /\ In (canon d) (keys (reg st' k)) /\ star_free d) /\
    (ex (dirname (canon path)) = false -> ds <> []).
  Proof.
    intros Hl Hs Hq. induction fuel as [|fuel IH]; intros st path ds st' E Hab Sp Fp Ls G; [discriminate|].
    cbn [mc_dirkeep] in E. set (base := normpath (dirname path)) in *.
    assert (Cb : canon base = dirname (canon path)).
    { unfold base. rewrite realpath_normpath. apply realpath_dirname. now apply file_name_proper. }
    assert (Nb : normal_form base) by apply normpath_normal.
    assert (Bne : base <> "").
    { intros E0. rewrite E0 in Nb. destruct Nb as [Nb|(n & ups & nms & _ & F & _ & H0 & Nb)]; [discriminate|].
      destruct n; [|discriminate]. destruct ups; [|cbn in Nb; destruct (repeat ".." ups ++ nms); discriminate].
      destruct nms as [|a nms]; [now specialize (H0 eq_refl eq_refl)|]. inversion F as [|? ? (Hx & _) _]. subst.
      destruct a; [congruence|]. destruct nms; discriminate. }
    assert (Eb : exists_ base = ex (dirname (canon path))) by (rewrite <- Cb; now apply (exists_canon cwd ex exists_ disk)).
    destruct (exists_ base) eqn:Ex; cbn [negb] in E.
    - injection E as <- <-. split; [exact G|]. split; [reflexivity|]. split; [apply dirs_more_refl|]. split; [intros d []|congruence].
    - assert (Sb : star_free base) by now apply star_free_normpath, star_free_dirname.
      assert (Up : above (canon base) (canon path)) by (rewrite Cb; now apply (missing_parent_above cwd ex exists_ disk)).
      assert (Uq : above (canon base) (canon q)) by (destruct Hab as [<-|Hab]; [exact Up|eapply above_trans; eauto]).
      assert (Db : D (canon base)) by (split; [rewrite Cb; now symmetry|exists s, q; auto]).
      assert (Nm : is_name base = false).
      { destruct (is_name base) eqn:En; [|reflexivity]. exfalso. exact (co_names _ _ _ _ _ cok s q base Hs Hq En Uq). }
      destruct (mc_dirkeep canon exists_ glob_ fuel st k base) as [[deps st1]| |] eqn:E1; cbn [bind] in E; try discriminate.
      destruct (IH _ _ _ _ E1 (or_intror Uq) Sb (missing_normal_named cwd ex exists_ disk base Nb Ex) Ls G) as (G1 & L1 & W1 & K1 & N1).
      unfold rhas in E. destruct (inv0_has cwd home ex exists_ glob_ l ok false l1 (reg st1 k) base Hl G1) as (A1 & A2 & A3 & A4);
        [congruence|discriminate|]. pose proof (has_keys l1 (reg st1 k) base _ eq_refl G1) as A5.
      destruct (core_has canon (fst (reg st1 k)) base) as [b c'] eqn:Ec. cbn [fst snd] in *.
      set (st2 := put st1 k (c', snd (reg st1 k))) in *.
      assert (R2 : reg st2 k = (c', snd (reg st1 k))) by (unfold st2; rewrite reg_put, Nat.eqb_refl by lia; reflexivity).
      assert (L2 : List.length st2 = List.length st1) by apply put_length.
      destruct b.
      + cbn [bind] in E. injection E as <- <-. rewrite R2. split; [exact A1|]. split; [lia|].
        assert (W2 : dirs_more (reg st1 k) (c', snd (reg st1 k))).
        { split; [exact A2|]. intros x Hx. destruct (A5 x Hx) as [H|[-> _]]; [now left|now right]. }
        split; [exact (dirs_more_trans _ _ _ W1 W2)|]. split; [|discriminate]. intros d [<-|[]].
        split; [exact Cb|]. split; [exact Db|]. split; [exact Nm|]. split; [|exact Sb].
        eapply file_key; [exact Hl|exact A1|exact Nm|now apply A3].
      + destruct (A4 eq_refl) as (B1 & B2 & B3). rewrite B1 in R2. clear A3 A4.
        destruct (mc_makedir canon exists_ glob_ fuel st2 k base deps) as [st3| |] eqn:E3; cbn [bind] in E; try discriminate. injection E as <- <-.
        unfold mc_makedir in E3. destruct (fnew_here cwd exists_ glob_ k Hk _ _ _ _ _ _ E3) as [R3 L3]; [lia|]. rewrite R2 in R3.
        assert (Ed : expand_names glob_ deps = deps).
        { clear - K1. induction deps as [|d deps IHd]; [reflexivity|]. unfold expand_names. cbn [flat_map].
          destruct (K1 d (or_introl eq_refl)) as (_ & _ & _ & _ & Sd). rewrite (proj2 (has_star_free d) Sd). cbn [app]. f_equal. apply IHd.
          intros x Hx. apply K1. now right. }
        rewrite Ed in R3.
        destruct (inv0_add cwd home ex glob_ l false Updatable l1 (reg st1 k) MDir (canon base) deps G1) as (C1 & C2 & C3 & C4).
        * intros x i Hi En. exfalso. apply B3. rewrite <- En. eapply name_key; eauto.
        * split; [reflexivity|]. cbn [t_name new_obj t_deps]. rewrite !realpath_idem. split; [reflexivity|].
          split; [exact (canon_no_name cwd home exists_ glob_ l ok base)|]. split; [exact Db|]. split; [|split; [|discriminate]].
          -- exists [], [], deps. split; [reflexivity|]. split; [cbn [app t_deps new_obj]; now rewrite app_nil_r|].
             intros d Hd. destruct (K1 d Hd) as (Q1 & Q2 & Q3 & Q4 & _). cbn [t_name new_obj]. split; [exact Q1|]. split; [exact Q2|]. split; [exact Q3|]. now right.
          -- exact N1.
        * rewrite R3. split; [exact C1|]. split; [lia|].
          assert (W2 : dirs_more (reg st1 k) (reg_add (reg st1 k) Updatable MDir (canon base) deps)).
          { split; [exact C2|]. intros x Hx. destruct (C4 x Hx) as [->|H]; [right; now rewrite realpath_idem|now left]. }
          split; [exact (dirs_more_trans _ _ _ W1 W2)|]. split; [|discriminate]. intros d [<-|[]].
          split; [exact Cb|]. split; [exact Db|]. split; [exact Nm|]. split; [exact C3|exact Sb].
  Qed.

  (** ** source *)
  Lemma msource_inv l1 s fuel st d st' : next l1 s -> In d (sources_of s) -> mc_source canon exists_ glob_ home fuel st k d = Ok st' ->
    k < List.length st -> inv0 l1 (reg st k) -> declared_keys l1 (reg st k) ->
    inv0 l1 (reg st' k) /\ List.length st' = List.length st /\ incl (keys (reg st k)) (keys (reg st' k)) /\ known cwd (reg st' k) d.
  Proof.
    intros Hx Hd E Ls G Hd'. pose proof (next_incl cwd home exists_ glob_ l ok l1 s Hx) as Hl. pose proof (next_In cwd home exists_ glob_ l ok l1 s Hx) as Hs.
    assert (Hm : In d (mentions s)) by (apply in_app_iff; now left).
    unfold mc_source, rhas in E. rewrite (co_tilde _ _ _ _ _ cok s d Hs Hd) in E.
    destruct (inv0_has cwd home ex exists_ glob_ l ok false l1 (reg st k) d Hl G) as (A1 & A2 & A3 & A4);
      [intros H; eapply (mention_name cwd home exists_ glob_ l ok); eauto|discriminate|].
    destruct (core_has canon (fst (reg st k)) d) as [b c'] eqn:Ec. cbn [fst snd] in *.
    set (st2 := put st k (c', snd (reg st k))) in *.
    assert (R2 : reg st2 k = (c', snd (reg st k))) by (unfold st2; rewrite reg_put, Nat.eqb_refl by lia; reflexivity).
    assert (L2 : List.length st2 = List.length st) by apply put_length.
    destruct b.
    - injection E as <-. rewrite R2. split; [exact A1|]. split; [exact L2|]. split; [exact A2|]. left. now apply A3.
    - destruct (A4 eq_refl) as (B1 & B2 & B3). rewrite B1 in R2. clear A3 A4.
      destruct (fnew_here cwd exists_ glob_ k Hk _ _ _ _ _ _ E) as [R3 L3]; [lia|]. rewrite R2 in R3. cbn [expand_names flat_map] in R3.
      assert (Ns : is_name d = false).
      { destruct (is_name d) eqn:Ed; [|reflexivity]. elim B2. eapply (mention_name cwd home exists_ glob_ l ok); eauto. }
      assert (HP : P (canon d) = Some DSource).
      { rewrite <- (meaning_file cwd l d Ns). apply (P_source cwd home exists_ glob_ l ok s); [exact Hs|exact Hm|exact Ns|]. intros H. apply B3.
        destruct Hx as [l2 El]. rewrite <- (meaning_file cwd l d Ns). apply Hd'. eapply (io_before _ _ _ _ _ ok); eauto. }
      destruct (inv0_add cwd home ex glob_ l false Updatable l1 (reg st k) MSource (canon d) [] G) as (C1 & C2 & C3 & C4).
      + intros x i Hi En. exfalso. apply B3. rewrite <- En. eapply name_key; eauto.
      + split; [reflexivity|]. rewrite !realpath_idem. split; [reflexivity|]. split; [exact (canon_no_name cwd home exists_ glob_ l ok d)|].
        split; [exact HP|]. exists [], [], []. split; [reflexivity|]. split; [reflexivity|]. intros x [].
      + rewrite R3. split; [exact C1|]. split; [lia|]. split; [exact C2|]. now right.
  Qed.

  (** ** A rule *)
  Lemma mrule_inv l1 s fuel st name a b dd f bf st' : next l1 s ->
    rule_of s = Some (canon name, expand_names glob_ (a ++ b), (f, bf)) ->
    fnew canon exists_ glob_ fuel st k (MFile f bf) name (a ++ dd ++ b) false = Ok st' ->
    (forall d, In d dd -> canon d = dirname (canon name) /\ D (canon d) /\ is_name d = false /\ In (canon d) (keys (reg st k)) /\ star_free d) ->
    k < List.length st -> inv0 l1 (reg st k) ->
    inv0 (l1 ++ [s]) (reg st' k) /\ List.length st' = List.length st /\ incl (keys (reg st k)) (keys (reg st' k)) /\
    In (canon name) (keys (reg st' k)).
  Proof.
    intros Hx Hr E Hdd Ls G. pose proof (next_incl cwd home exists_ glob_ l ok l1 s Hx) as Hl. pose proof (next_In cwd home exists_ glob_ l ok l1 s Hx) as Hs.
    destruct (declares_rule cwd home glob_ s _ _ _ Hr) as [Edec Edep].
    destruct (fnew_here cwd exists_ glob_ k Hk _ _ _ _ _ _ E Ls) as [R L].
    assert (Ed : expand_names glob_ dd = dd).
    { clear - Hdd. induction dd as [|d dd IHd]; [reflexivity|]. unfold expand_names. cbn [flat_map].
      destruct (Hdd d (or_introl eq_refl)) as (_ & _ & _ & _ & Sd). rewrite (proj2 (has_star_free d) Sd). cbn [app]. f_equal. apply IHd.
      intros x Hx. apply Hdd. now right. }
    assert (Ex : expand_names glob_ (a ++ dd ++ b) = expand_names glob_ a ++ dd ++ expand_names glob_ b).
    { unfold expand_names in *. rewrite !flat_map_app. now rewrite Ed. }
    rewrite Ex in R.
    destruct (inv0_add cwd home ex glob_ l false Updatable (l1 ++ [s]) (reg st k) (MFile f bf) (canon name) (expand_names glob_ a ++ dd ++ expand_names glob_ b)) as (A1 & A2 & A3 & A4).
    - eapply inv0_mono; [|exact G]. intros x Hx'. apply in_app_iff. now left.
    - intros x i Hi En. exfalso. destruct (proj2 (proj2 G) x i Hi) as (_ & _ & _ & C). unfold nm_of in En.
      destruct (kind_of (reg st k) i) as [f0 b0| | | |].
      + destruct C as (C1 & _ & s0 & ds & C2 & C3 & _).
        apply (not_registered cwd home exists_ glob_ l ok l1 s (canon name) Hx); [rewrite Edec; now left|].
        apply in_flat_map. exists s0. split; [exact C2|]. rewrite (proj1 (declares_rule cwd home glob_ s0 _ _ _ C3)). left. congruence.
      + destruct C as (C1 & _ & C2 & _). rewrite <- C1, En in C2. rewrite (P_rule cwd home exists_ glob_ l ok s _ _ _ Hs Hr) in C2. discriminate.
      + destruct C as (C1 & _ & C2 & _). apply (D_no_file cwd home ex exists_ glob_ l ok _ C2). rewrite <- C1, En.
        exact (rule_file cwd home exists_ glob_ l ok s _ _ _ Hs Hr).
      + destruct C as (C1 & s0 & ds & C2 & C3 & _). pose proof (canon_no_name cwd home exists_ glob_ l ok name) as X.
        pose proof (set_name glob_ l s0 _ ds (Hl s0 C2) C3). congruence.
      + destruct C as (C1 & s0 & u & ds & C2 & C3 & _). pose proof (canon_no_name cwd home exists_ glob_ l ok name) as X.
        pose proof (other_name glob_ l s0 u _ ds (Hl s0 C2) C3). congruence.
    - split; [reflexivity|]. rewrite realpath_idem. split; [reflexivity|]. split; [exact (canon_no_name cwd home exists_ glob_ l ok name)|].
      exists s, (expand_names glob_ (a ++ b)). split; [apply in_app_iff; right; now left|]. split; [exact Hr|].
      exists (expand_names glob_ a), (expand_names glob_ b), dd. split; [apply flat_map_app|]. split; [reflexivity|].
      intros d Hd. destruct (Hdd d Hd) as (Q1 & Q2 & Q3 & Q4 & _). cbn [t_name new_obj]. split; [exact Q1|]. split; [exact Q2|]. split; [exact Q3|]. now right.
    - rewrite R. split; [exact A1|]. split; [exact L|]. split; [exact A2|exact A3].
  Qed.

  Definition minv (l1 : list stmt) (r : mreg) : Prop :=
    inv0 l1 r /\ declared_keys l1 r /\ forall s d, In s l1 -> In d (sources_of s) -> known cwd r d.
  Lemma minv_next l1 s r r' : minv l1 r -> inv0 (l1 ++ [s]) r' -> incl (keys r) (keys r') -> incl (declares s) (keys r') ->
    (forall d, In d (sources_of s) -> known cwd r' d) -> minv (l1 ++ [s]) r'.
  Proof.
    intros (G & Hd & Hsrc) F1 F3 F4 F5. split; [exact F1|]. split.
    - intros x Hx'. rewrite flat_map_app in Hx'. apply in_app_iff in Hx'. destruct Hx' as [Hx'|Hx']; [auto|].
      cbn [flat_map] in Hx'. rewrite app_nil_r in Hx'. auto.
    - intros s' d Hs' Hd'. apply in_app_iff in Hs'. destruct Hs' as [Hs'|[<-|[]]]; [eapply known_incl; eauto|auto].
  Qed.
  Lemma mnamed_inv l1 s fuel st cls kd nm ds st' : next l1 s -> plain_new canon exists_ glob_ fuel st k cls kd nm ds = Ok st' ->
    k < List.length st -> minv l1 (reg st k) -> declares s = [nm] -> sources_of s = [] -> is_name nm = true ->
    (forall K, desc cwd home ex glob_ l false (l1 ++ [s]) K kd (new_obj cls nm (expand_names glob_ ds)) nm) ->
    minv (l1 ++ [s]) (reg st' k) /\ List.length st' = List.length st.
  Proof.
    intros Hx E Ls G0 Edec Esrc Ns Hd. pose proof G0 as (G & _). pose proof (next_incl cwd home exists_ glob_ l ok l1 s Hx) as Hl.
    destruct (plain_here cwd exists_ glob_ k Hk _ _ _ _ _ _ _ E Ls) as [R L]. split; [|exact L]. rewrite R.
    pose proof (name_relative cwd home exists_ glob_ l ok nm Ns) as Rel.
    destruct (inv0_add cwd home ex glob_ l false cls (l1 ++ [s]) (reg st k) kd nm (expand_names glob_ ds)) as (B1 & B2 & B3 & B4).
    - eapply inv0_mono; [|exact G]. intros x Hx'. apply in_app_iff. now left.
    - intros x i Hi En. destruct (proj2 (proj2 G) x i Hi) as (_ & _ & _ & C). unfold nm_of in En.
      assert (No : forall y, canon y = nm -> False) by (intros y Ey; rewrite <- Ey, realpath_starts in Rel; discriminate).
      destruct (kind_of (reg st k) i) as [f b0| | | |].
      + destruct C as (C & _). elim (No x). congruence.
      + destruct C as (C & _). elim (No x). congruence.
      + destruct C as (C & _). elim (No x). congruence.
      + destruct C as (C & _). congruence.
      + destruct C as (C & _). congruence.
    - apply Hd.
    - apply (minv_next l1 s (reg st k)); [exact G0|exact B1|exact B2|rewrite Edec; intros x [<-|[]]; exact B3|rewrite Esrc; intros d []].
  Qed.

  Lemma out_place s p : In p (out_of home s) -> In p (places_of home s).
  Proof. destruct s; cbn; tauto. Qed.
  Lemma mstep_inv l1 o s fuel st st' : core_stmt home o = [s] -> next l1 s -> mstep canon exists_ glob_ home fuel k st o = Ok st' ->
    k < List.length st -> minv l1 (reg st k) -> minv (l1 ++ [s]) (reg st' k) /\ List.length st' = List.length st.
  Proof.
    intros Eo Hx E Ls G0. pose proof G0 as (G & Hd & Hsrc). pose proof (next_incl cwd home exists_ glob_ l ok l1 s Hx) as Hl. pose proof (next_In cwd home exists_ glob_ l ok l1 s Hx) as Hs.
    assert (Up : incl l1 (l1 ++ [s])) by (intros x Hx'; apply in_app_iff; now left).
    assert (Star : forall p, In p (out_of home s) -> star_free p).
    { intros p Hp. apply has_star_free. exact (io_star _ _ _ _ _ ok s p Hs (out_place s p Hp)). }
    destruct o as [t b ds|src dst b ds|src|nm ts ds|u nm ds| | |]; try discriminate; cbn [core_stmt] in Eo; injection Eo as Eo; cbn [mstep] in E.
    - set (t' := expanduser home t) in *. assert (Ho : In t' (out_of home s)) by (subst s; now left).
      unfold mc_ftarget in E. fold t' in E.
      destruct (mc_dirkeep canon exists_ glob_ fuel st k t') as [[dd st1]| |] eqn:E1; cbn [bind] in E; try discriminate.
      destruct (keep_inv l1 s t' Hl Hs (out_place _ _ Ho) _ _ _ _ _ E1 (or_introl eq_refl) (Star _ Ho) (co_outs _ _ _ _ _ cok s t' Hs Ho) Ls G)
        as (G1 & L1 & [W1 W2] & K1 & _).
      destruct (mrule_inv l1 s fuel st1 t' ds [] dd false b st' Hx) as (A1 & A2 & A3 & A4).
      { rewrite app_nil_r, <- Eo. reflexivity. }
      { rewrite app_nil_r. exact E. }
      { exact K1. }
      { lia. }
      { exact G1. }
      split; [|lia]. apply (minv_next l1 s (reg st k)); [exact G0|exact A1|intros x Hx'; auto| |].
      + subst s. intros x [<-|[]]. exact A4.
      + subst s. intros d [].
    - set (t' := expanduser home dst) in *. assert (Ho : In t' (out_of home s)) by (subst s; now left).
      assert (Hso : In (expanduser home src) (sources_of s)) by (subst s; now left).
      unfold mc_copy in E. fold t' in E.
      destruct (mc_dirkeep canon exists_ glob_ fuel st k t') as [[dd st1]| |] eqn:E1; cbn [bind] in E; try discriminate.
      destruct (keep_inv l1 s t' Hl Hs (out_place _ _ Ho) _ _ _ _ _ E1 (or_introl eq_refl) (Star _ Ho) (co_outs _ _ _ _ _ cok s t' Hs Ho) Ls G)
        as (G1 & L1 & [W1 W2] & K1 & _).
      destruct (mc_source canon exists_ glob_ home fuel st1 k (expanduser home src)) as [st2| |] eqn:E2; cbn [bind] in E; try discriminate.
      destruct (msource_inv l1 s fuel st1 (expanduser home src) st2 Hx Hso E2) as (G2 & L2 & W3 & K2); [lia|exact G1|intros x Hx'; auto|].
      destruct (mrule_inv l1 s fuel st2 t' [expanduser home src] ds dd false b st' Hx) as (A1 & A2 & A3 & A4).
      { rewrite <- Eo. reflexivity. }
      { exact E. }
      { intros d Hd'. destruct (K1 d Hd') as (Q1 & Q2 & Q3 & Q4 & Q5). auto 8. }
      { lia. }
      { exact G2. }
      split; [|lia]. apply (minv_next l1 s (reg st k)); [exact G0|exact A1|intros x Hx'; auto| |].
      + subst s. intros x [<-|[]]. exact A4.
      + subst s. intros d [<-|[]]. eapply known_incl; eauto.
    - destruct (msource_inv l1 s fuel st src st' Hx) as (A1 & A2 & A3 & A4); [subst s; now left|exact E|exact Ls|exact G|exact Hd|].
      split; [|exact A2]. apply (minv_next l1 s (reg st k)); [exact G0|eapply inv0_mono; eauto|exact A3| |].
      + subst s. intros x [].
      + subst s. intros d [<-|[]]. exact A4.
    - unfold fileset in E. apply (mnamed_inv l1 s fuel st Updatable MSet nm (ds ++ ts) st' Hx E Ls G0); try (subst s; reflexivity).
      + now apply (set_name glob_ l s nm (expand_names glob_ (ds ++ ts))); [|subst s].
      + split; [reflexivity|]. split; [reflexivity|]. exists s, (expand_names glob_ (ds ++ ts)).
        split; [apply in_app_iff; right; now left|]. subst s. split; reflexivity.
    - apply (mnamed_inv l1 s fuel st (if u then Updatable else Plain) MOther nm ds st' Hx E Ls G0); try (subst s; reflexivity).
      + now apply (other_name glob_ l s u nm (expand_names glob_ ds)); [|subst s].
      + split; [intros F; now elim F|]. split; [reflexivity|]. exists s, u, (expand_names glob_ ds).
        split; [apply in_app_iff; right; now left|]. subst s. split; [reflexivity|]. split; reflexivity.
  Qed.
  Lemma mrun_inv fuel : forall ops2 l1 st st', l = l1 ++ core_script home ops2 -> mrun canon exists_ glob_ home fuel k ops2 st = Ok st' ->
    k < List.length st -> minv l1 (reg st k) -> minv l (reg st' k) /\ List.length st' = List.length st.
  Proof.
    induction ops2 as [|o ops2 IH]; intros l1 st st' El E Ls G.
    - injection E as <-. cbn in El. rewrite app_nil_r in El. split; [rewrite El; exact G|reflexivity].
    - cbn [mrun] in E. destruct (mstep canon exists_ glob_ home fuel k st o) as [st1| |] eqn:E1; cbn [bind] in E; try discriminate.
      change (core_script home (o :: ops2)) with (core_stmt home o ++ core_script home ops2) in El.
      assert (Dec : core_stmt home o = [] \/ exists s, core_stmt home o = [s]) by (destruct o; cbn; eauto).
      destruct Dec as [En|[s En]]; rewrite En in El.
      + destruct (default_aside cwd home exists_ glob_ k Hk fuel st o st1 En E1) as [A B]. rewrite <- A in G.
        destruct (IH l1 st1 st' El E) as [C1 C2]; [lia|exact G|]. split; [exact C1|lia].
      + destruct (mstep_inv l1 o s fuel st st1 En) as [A1 A2]; [exists (core_script home ops2); exact El|exact E1|exact Ls|exact G|].
        destruct (IH (l1 ++ [s]) st1 st') as [B1 B2]; [rewrite <- app_assoc; exact El|exact E|lia|exact A1|]. split; [exact B1|lia].
  Qed.
  Lemma minv_whole r : minv l r -> inv cwd home ex exists_ glob_ l l r.
  Proof.
    intros (G & Hd & Hsrc). split; [exact G|]. split; [exact Hd|]. split; [exact Hsrc|]. intros s d Hs Hd' _.
    destruct (co_own _ _ _ _ _ cok s d Hs Hd') as [H|H].
    - apply Hd in H. unfold SpecProject.meaning in H. destruct (is_name d); [now left|now right].
    - apply in_map_iff in H. destruct H as (d' & E & H). apply in_flat_map in H. destruct H as (s' & Hs' & Hd'').
      pose proof (Hsrc s' d' Hs' Hd'') as K. unfold SpecProject.meaning in E. destruct (is_name d') eqn:E'.
      + destruct (is_name d) eqn:Ed; [now subst d'|]. rewrite E, (canon_no_name cwd home exists_ glob_ l ok d) in E'. discriminate.
      + destruct (is_name d) eqn:Ed; [rewrite <- E, (canon_no_name cwd home exists_ glob_ l ok d') in Ed; discriminate|]. right. rewrite <- E.
        destruct K as [K|K]; [|exact K]. eapply file_key; [apply incl_refl|exact G|exact E'|exact K].
  Qed.
  Lemma core_inv fuel n st : k < n -> mrun canon exists_ glob_ home fuel k ops (repeat empty_reg n) = Ok st ->
    inv cwd home ex exists_ glob_ l l (reg st k).
  Proof.
    intros Hn E. apply minv_whole. eapply (mrun_inv fuel ops [] (repeat empty_reg n) st); [reflexivity|exact E|now rewrite repeat_length|].
    rewrite reg_start. split; [|split; [intros x []|intros s d []]]. apply (inv_empty cwd home ex exists_ glob_ l false).
  Qed.
End Core.
