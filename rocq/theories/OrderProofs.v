(** Proofs about the order of collected modules (C105). *)
From Verif Require Import PyBase PyPath ModulesModel SpecModules ModulesProofs CollectProofs SpecOrder.
From Coq Require Import Permutation Sorted Lia.
Local Open Scope string_scope.
Local Open Scope list_scope.

Local Notation K st x := (nget (c_keys st) x).

Section Order.
  Variables (lib0 : mlib) (root : nat).
  Notation good := (good lib0 root).
  Notation asks := (asks root).

  Definition bounded (st : cst) : Prop := forall x k, K st x = Some k -> k < c_key st.
  (** The modules that [x] asks for explicitly have greater keys. *)
  Definition ordered (st : cst) (x : nat) : Prop :=
    forall n i, wants (c_lib st) x (EPair n i) ->
    exists y k k', sget (c_dep st) n = Some y /\ K st x = Some k /\ K st y = Some k' /\ k < k'.
  (** Keys given meanwhile are new, and those who have them are in order. *)
  Definition later (a b : cst) : Prop :=
    c_key a <= c_key b /\
    forall x, K b x = K a x \/ exists k, K b x = Some k /\ c_key a <= k /\ ordered b x.
  (** What [m] asks for explicitly was given a key not before [a]. *)
  Definition fresh (a b : cst) (m : nat) : Prop :=
    forall n i, wants (c_lib b) m (EPair n i) -> exists y k, sget (c_dep b) n = Some y /\ K b y = Some k /\ c_key a <= k.

  Lemma later_refl a : later a a.
  Proof. split; [lia|]. now left. Qed.
  Lemma later_up a b y k : bounded a -> later a b -> K a y = Some k -> exists k', K b y = Some k' /\ k <= k'.
  Proof.
    intros B [_ L] E. destruct (L y) as [Q|(k' & Q & Hk & _)]; [exists k; split; [congruence|lia]|].
    exists k'. split; [exact Q|]. apply B in E. lia.
  Qed.
  Lemma ordered_later a b x : mono a b -> bounded a -> later a b -> K b x = K a x -> ordered a x -> ordered b x.
  Proof.
    intros M B L E O n i W. apply (wants_back _ _ _ _ (mo_ext _ _ M)) in W. destruct (O n i W) as (y & k & k' & D & E1 & E2 & Hk).
    destruct (later_up a b y k' B L E2) as (k2 & E3 & H2). exists y, k, k2. split; [now apply (mo_dep _ _ M)|].
    split; [congruence|]. split; [exact E3|lia].
  Qed.
  Lemma later_trans a b c : mono b c -> bounded b -> later a b -> later b c -> later a c.
  Proof.
    intros M B L1 L2. split; [destruct L1, L2; lia|]. intros x. destruct (proj2 L2 x) as [E|(k & E & Hk & O)].
    - destruct (proj2 L1 x) as [E'|(k & E' & Hk & O)]; [left; congruence|]. right. exists k. split; [congruence|]. split; [exact Hk|].
      now apply (ordered_later b).
    - right. exists k. split; [exact E|]. split; [destruct L1; lia|exact O].
  Qed.
  Lemma fresh_later a b c m : mono b c -> bounded b -> later b c -> fresh a b m -> fresh a c m.
  Proof.
    intros M B L F n i W. apply (wants_back _ _ _ _ (mo_ext _ _ M)) in W. destruct (F n i W) as (y & k & D & E & Hk).
    destruct (later_up b c y k B L E) as (k' & E' & H'). exists y, k'. split; [now apply (mo_dep _ _ M)|]. split; [exact E'|lia].
  Qed.

  (** specify_implementation, then the visit. *)
  Lemma specify_key st lib n m from x : K (specify st lib n m from) x = if Nat.eqb x m then Some (c_key st) else K st x.
  Proof.
    cbn [specify c_keys]. destruct (Nat.eqb_spec x m) as [->|N].
    - apply (dget_dset_eq _ nat_eqb_spec').
    - apply (dget_dset_neq _ nat_eqb_spec'). congruence.
  Qed.
  Lemma specify_bounded st lib n m from : bounded st -> bounded (specify st lib n m from).
  Proof.
    intros B x k. rewrite specify_key. cbn [specify c_key]. destruct (Nat.eqb x m); [intros [= <-]; lia|]. intros E. apply B in E. lia.
  Qed.
  Lemma after_specify st lib n m from st' : bounded st -> let st1 := specify st lib n m from in
    mono st1 st' -> later st1 st' -> fresh st1 st' m -> later st st' /\ exists k, K st' m = Some k /\ c_key st <= k.
  Proof.
    intros B st1 M L F. assert (B1 : bounded st1) by now apply specify_bounded.
    assert (Km : K st1 m = Some (c_key st)) by (unfold st1; now rewrite specify_key, Nat.eqb_refl).
    assert (C1 : c_key st1 = S (c_key st)) by reflexivity.
    split.
    - split; [destruct L; lia|]. intros x. destruct (proj2 L x) as [E|(k & E & Hk & O)].
      + destruct (Nat.eq_dec x m) as [->|N].
        * right. exists (c_key st). split; [congruence|]. split; [lia|]. intros k i W. destruct (F k i W) as (y & k' & D & E' & Hk).
          exists y, (c_key st), k'. split; [exact D|]. split; [congruence|]. split; [exact E'|lia].
        * left. rewrite E. unfold st1. rewrite specify_key. apply Nat.eqb_neq in N. now rewrite N.
      + right. exists k. split; [exact E|]. split; [lia|exact O].
    - destruct (later_up st1 st' m _ B1 L Km) as (k & E & Hk). eauto.
  Qed.
  Lemma no_mdepends_fresh a st m : shas (mod_opts (c_lib st) m) "mdepends" = false -> fresh a st m.
  Proof.
    intros H n i (r & v & Hr & Hv & _). exfalso. unfold mod_opts in H. rewrite Hr in H. unfold dhas in H. rewrite Hv in H. discriminate.
  Qed.

  Definition visited (st st' : cst) (m : nat) : Prop := bounded st' /\ later st st' /\ fresh st st' m.
  Definition item_fresh (a b : cst) (e : elem) : Prop :=
    match e with EPair n i => exists y k, sget (c_dep b) n = Some y /\ K b y = Some k /\ c_key a <= k | _ => True end.

  Lemma item_order rec m st e st' :
    (forall st1 nm st2, good st1 -> asks st1 nm -> rec st1 nm = Ok st2 -> visit_post lib0 root st1 st2 nm) ->
    (forall st1 nm st2, good st1 -> asks st1 nm -> bounded st1 -> rec st1 nm = Ok st2 -> visited st1 st2 nm) ->
    good st -> asks st m -> wants (c_lib st) m e -> bounded st -> collect_item rec m st e = Ok st' ->
    bounded st' /\ later st st' /\ item_fresh st st' e.
  Proof.
    intros Hrec Hord G A We B H. destruct e as [n|n i| |]; simpl in H; try discriminate.
    - destruct (shas (c_dep st) n); inversion H; subst st'; (split; [exact B|]); (split; [|exact Logic.I]); (split; [cbn; lia|]; now left).
    - rewrite get_some in H. destruct (get_impl (c_lib st) n i) as [[nm lib]| |] eqn:E; simpl in H; try discriminate.
      destruct (get_impl_lext _ _ _ _ _ (le_wf _ _ (g_ext _ _ _ G)) E) as (L & Hi).
      assert (Hd : sget (c_dep st) n = None \/ sget (c_dep st) n = Some nm).
      { destruct (sget (c_dep st) n) as [o|]; [|now left]. right.
        destruct (Nat.eqb_spec o nm) as [Ho|Ho]; [now rewrite Ho|simpl in H; discriminate]. }
      assert (H' : (if shas (mod_opts lib nm) "mdepends"
                    then rec (specify st lib n nm (mod_name lib m)) nm
                    else Ok (specify st lib n nm (mod_name lib m))) = Ok st').
      { destruct Hd as [Hd|Hd]; rewrite Hd in H; [exact H|]. now rewrite Nat.eqb_refl in H. }
      clear H.
      destruct (specify_good lib0 root st lib n nm m (mod_name lib m) i G L Hd Hi A) as (G1 & M1 & A1).
      { left. eapply wants_lext; eauto. }
      { now left. }
      set (st1 := specify st lib n nm (mod_name lib m)) in *.
      assert (B1 : bounded st1) by now apply specify_bounded.
      assert (Hp : mono st1 st' /\ visited st1 st' nm).
      { destruct (shas (mod_opts lib nm) "mdepends") eqn:Em.
        - split; [apply (Hrec st1 nm st' G1 A1 H')|now apply Hord].
        - inversion H'; subst st'. split; [apply mono_refl; apply G1|]. split; [exact B1|]. split; [apply later_refl|].
          now apply no_mdepends_fresh. }
      destruct Hp as (M' & B' & L' & F'). split; [exact B'|].
      destruct (after_specify st lib n nm (mod_name lib m) st' B M' L' F') as [La (k & Ek & Hk)]. split; [exact La|].
      exists nm, k. split; [|auto]. apply (mo_dep _ _ M'). apply sget_eq.
  Qed.
  Lemma item_fresh_later a b c e : mono b c -> bounded b -> later b c -> item_fresh a b e -> item_fresh a c e.
  Proof.
    intros M B L. destruct e as [n|n i| |]; cbn; auto. intros (y & k & D & E & Hk).
    destruct (later_up b c y k B L E) as (k' & E' & H'). exists y, k'. split; [now apply (mo_dep _ _ M)|]. split; [exact E'|lia].
  Qed.
  Lemma item_fresh_earlier a a' b e : c_key a <= c_key a' -> item_fresh a' b e -> item_fresh a b e.
  Proof. intros H. destruct e as [n|n i| |]; cbn; auto. intros (y & k & D & E & Hk). exists y, k. split; [exact D|]. split; [exact E|lia]. Qed.

  Lemma fold_order rec m l : forall st st',
    (forall st1 nm st2, good st1 -> asks st1 nm -> rec st1 nm = Ok st2 -> visit_post lib0 root st1 st2 nm) ->
    (forall st1 nm st2, good st1 -> asks st1 nm -> bounded st1 -> rec st1 nm = Ok st2 -> visited st1 st2 nm) ->
    good st -> asks st m -> (forall e, In e l -> wants (c_lib st) m e) -> bounded st ->
    fold_res (collect_item rec m) l st = Ok st' ->
    bounded st' /\ later st st' /\ forall e, In e l -> item_fresh st st' e.
  Proof.
    induction l as [|e l IH]; intros st st' Hrec Hord G A W B H; simpl in H.
    - inversion H; subst st'. split; [exact B|]. split; [apply later_refl|intros e []].
    - destruct (collect_item rec m st e) as [st1| |] eqn:E; simpl in H; try discriminate.
      destruct (collect_item_ok lib0 root rec m st e st1 Hrec G A (W e (or_introl eq_refl)) E) as (G1 & M1 & _).
      destruct (item_order rec m st e st1 Hrec Hord G A (W e (or_introl eq_refl)) B E) as (B1 & L1 & F1).
      assert (A1 : asks st1 m) by (eapply asks_mono; eauto).
      assert (W1 : forall e', In e' l -> wants (c_lib st1) m e').
      { intros e' He'. eapply wants_lext; [apply M1|]. apply W. now right. }
      destruct (fold_ok lib0 root rec m l st1 st' Hrec G1 A1 W1 H) as (_ & M2 & _).
      destruct (IH st1 st' Hrec Hord G1 A1 W1 B1 H) as (B2 & L2 & F2).
      split; [exact B2|]. split; [now apply (later_trans st st1)|]. intros e' [<-|He'].
      + now apply (item_fresh_later st st1).
      + apply (item_fresh_earlier st st1); [apply L1|auto].
  Qed.
  Lemma visit_order fuel : forall st m st',
    good st -> asks st m -> bounded st -> visit fuel st m = Ok st' -> visited st st' m.
  Proof.
    induction fuel as [|f IH]; intros st m st' G A B H; [discriminate|]. pose proof (visit_ok lib0 root _ _ _ _ G A H) as (_ & M' & _).
    simpl in H.
    destruct (sget (mod_opts (c_lib st) m) "mdepends") as [v|] eqn:Ev; [|discriminate].
    destruct (iter_oval v) as [l| |] eqn:El; simpl in H; try discriminate.
    pose proof (asks_heap lib0 root _ _ G A) as Hh. unfold mod_opts in Ev.
    destruct (nth_error (l_heap (c_lib st)) m) as [r|] eqn:Er; [|congruence].
    assert (Hw : forall e, wants (c_lib st) m e <-> In e l) by (intros; eapply wants_items; eauto).
    destruct (fold_order (visit f) m l st st') as (B' & L' & F'); auto.
    { intros st1 nm st2 G1 A1 H1. exact (visit_ok lib0 root f st1 nm st2 G1 A1 H1). }
    { intros e He. now apply Hw. }
    split; [exact B'|]. split; [exact L'|]. intros n i W. apply (wants_back _ _ _ _ (mo_ext _ _ M')), Hw in W.
    exact (F' _ W).
  Qed.

  Lemma drain_order fuel : forall st st',
    good st -> all_closed root st -> bounded st -> drain fuel root st = Ok st' -> bounded st' /\ later st st'.
  Proof.
    induction fuel as [|f IH]; intros st st' G C B H; [discriminate|]. simpl in H.
    destruct (c_queue st) as [|n q] eqn:Eq.
    - inversion H; subst st'. split; [exact B|apply later_refl].
    - set (st0 := CS (c_lib st) (c_dep st) q (c_key st) (c_keys st) (c_inc st)) in *.
      assert (G0 : good st0).
      { split; try apply G. intros x Hx. apply G. rewrite Eq. now right. }
      destruct (shas (c_dep st) n) eqn:Ed.
      + assert (M0 : mono st st0).
        { split; simpl; eauto.
          - apply lext_refl. apply G.
          - intros x Hx. rewrite Eq in Hx. destruct Hx as [<-|Hx]; auto. }
        destruct (IH st0 st' G0) as (B' & L'); auto.
        intros m Hm. destruct (C m Hm). split; [eapply closed_mono|eapply inc_closed_mono]; eauto.
      + destruct (get_default (c_lib st) n) as [[dm lib]| |] eqn:Eg; simpl in H; try discriminate.
        assert (W := le_wf _ _ (g_ext _ _ _ G)).
        destruct (get_default_ok _ _ _ _ W Eg) as (i & Hdf & Eg').
        destruct (get_impl_lext _ _ _ _ _ W Eg') as (L & Hi).
        destruct (g_queue _ _ _ G n) as (qm & Aq & Wq); [rewrite Eq; now left|].
        assert (Hnone : sget (c_dep st) n = None).
        { unfold dhas in Ed. destruct (sget (c_dep st) n); [discriminate|reflexivity]. }
        destruct (specify_good lib0 root st0 lib n dm qm (mod_name lib root) i G0 L) as (G1 & M1 & A1); auto.
        { right. split; [eapply wants_lext; eauto|]. exists i. rewrite (le_def _ _ L). auto. }
        set (st1 := specify st0 lib n dm (mod_name lib root)) in *.
        assert (M1' : mono st st1).
        { split; try apply M1. intros x Hx. rewrite Eq in Hx. destruct Hx as [<-|Hx].
          - right. simpl. rewrite shas_dset, String.eqb_refl. reflexivity.
          - left. exact Hx. }
        assert (Hp : exists st2, (if shas (mod_opts lib dm) "mdepends" then visit f st1 dm else Ok st1) = Ok st2 /\
                       drain f root st2 = Ok st').
        { destruct (if shas (mod_opts lib dm) "mdepends" then visit f st1 dm else Ok st1); simpl in H;
            try discriminate. eauto. }
        destruct Hp as (st2 & E2 & H2). clear H.
        assert (B0 : bounded st0) by exact B.
        assert (B1 : bounded st1) by now apply specify_bounded.
        assert (Hp : visit_post lib0 root st1 st2 dm /\ visited st1 st2 dm).
        { destruct (shas (mod_opts lib dm) "mdepends") eqn:Em; [split; [now apply (visit_ok lib0 root f)|now apply (visit_order f)]|].
          inversion E2; subst st2. split; [|split; [exact B1|split; [apply later_refl|now apply no_mdepends_fresh]]].
          split; [exact G1|]. split; [apply mono_refl; apply G1|].
          destruct (no_mdepends_closed st1 dm Em). repeat split; auto. }
        destruct Hp as ((G2 & M2 & C2 & I2 & N2) & B2 & L2 & F2).
        assert (M12 : mono st st2) by (eapply mono_trans; eauto).
        assert (C12 : all_closed root st2).
        { intros m [->|[k Hk]].
          - destruct (C root (or_introl eq_refl)). split; [eapply closed_mono|eapply inc_closed_mono]; eauto.
          - apply N2 in Hk. destruct Hk as [Hk|Hk]; [|exact Hk].
            simpl in Hk. destruct (string_dec k n) as [->|Hn].
            + rewrite sget_eq in Hk. inversion Hk; subst m. auto.
            + rewrite sget_neq in Hk by congruence.
              destruct (C m (or_intror (ex_intro _ k Hk))). split; [eapply closed_mono|eapply inc_closed_mono]; eauto. }
        destruct (IH st2 st' G2 C12 B2 H2) as (B' & L').
        destruct (drain_ok lib0 root f st2 st' G2 C12 H2) as (_ & M' & _).
        split; [exact B'|]. destruct (after_specify st0 lib n dm (mod_name lib root) st2 B0 M2 L2 F2) as [La _].
        apply (later_trans st st2); auto.
  Qed.
End Order.

(** ** Sorting *)
Definition key_le (a b : nat * nat) : Prop := fst a <= fst b.
Lemma insert_sorted k m l : StronglySorted key_le l -> StronglySorted key_le (insert_key k m l).
Proof.
  induction 1 as [|[k' m'] l Hs IH Hf]; cbn [insert_key]; [repeat constructor|].
  destruct (Nat.leb_spec k' k) as [Le|Lt].
  - constructor; [exact IH|]. apply (Permutation_Forall (insert_key_perm k m l)). constructor; [exact Le|exact Hf].
  - constructor; [now constructor|]. constructor; [unfold key_le; cbn; lia|].
    eapply Forall_impl; [|exact Hf]. intros [a b] H. unfold key_le in *. cbn in *. lia.
Qed.
Lemma sort_sorted l : StronglySorted key_le (sort_keys l).
Proof.
  unfold sort_keys. assert (S0 : StronglySorted key_le []) by constructor. revert S0. generalize (@nil (nat * nat)).
  induction l as [|[k m] l IH]; intros acc Hs; cbn [fold_left]; [exact Hs|]. apply IH. now apply insert_sorted.
Qed.
Lemma sorted_split l1 a l2 x : StronglySorted key_le (l1 ++ a :: l2) -> In x l1 -> key_le x a.
Proof.
  induction l1 as [|y l1 IH]; intros H Hx; [destruct Hx|]. cbn in H. inversion H as [|? ? Hs Hf]; subst. destruct Hx as [->|Hx].
  - rewrite Forall_forall in Hf. apply Hf. apply in_app_iff. right. now left.
  - now apply IH.
Qed.
Lemma sorted_before l k m k' m' : StronglySorted key_le l -> In (k, m) l -> In (k', m') l -> k < k' -> before (map snd l) m m'.
Proof.
  intros Hs H H' Lt. apply in_split in H as (l1 & l2 & ->). apply in_app_iff in H' as [H'|[H'|H']].
  - apply (sorted_split _ _ _ _ Hs) in H'. unfold key_le in H'. cbn in H'. lia.
  - injection H' as -> _. lia.
  - apply in_split in H' as (l3 & l4 & ->). exists (map snd l1), (map snd l3), (map snd l4).
    rewrite map_app. cbn. now rewrite map_app.
Qed.
Lemma with_keys_in keys l r m : with_keys keys l = Ok r -> In m l -> exists k, nget keys m = Some k /\ In (k, m) r.
Proof.
  revert r. induction l as [|x l IH]; intros r H Hm; [destruct Hm|]. destruct Hm as [->|Hm]; cbn in H.
  - destruct (nget keys m) as [k|]; [|discriminate]. destruct (with_keys keys l) as [r'| |]; cbn in H; try discriminate.
    injection H as <-. exists k. split; [reflexivity|now left].
  - destruct (nget keys x) as [k|]; [|discriminate]. destruct (with_keys keys l) as [r'| |]; cbn in H; try discriminate.
    injection H as <-. destruct (IH r' eq_refl Hm) as (k' & E & I). exists k'. split; [exact E|now right].
Qed.

Lemma collect_order fuel lib root l lib' inc : wf_lib lib -> nth_error (l_heap lib) root <> None ->
  collect_modules fuel lib root = Ok (l, lib', inc) ->
  forall m n i m', In m l -> In m' l -> wants lib' m (EPair n i) -> named lib' m' n -> before l m m'.
Proof.
  intros W Hr H m n i m' Hm Hm' Wm Nm'.
  pose proof (final_once fuel lib root l lib' inc W Hr H) as Once.
  unfold collect_modules in H.
  set (st0 := CS lib [] [] 0 [] []) in *.
  assert (G0 : good lib root st0).
  { split; simpl; try discriminate; auto.
    - now apply lext_refl.
    - intros x [].
    - constructor. }
  assert (B0 : bounded st0) by (intros x k E; discriminate E).
  assert (Hp : exists st1, (if shas (mod_opts lib root) "mdepends" then visit fuel st0 root else Ok st0) = Ok st1 /\
      (do! st2 <- drain fuel root st1; do! _ <- check_inc st2;
       do! l <- with_keys (c_keys st2) (dvalues (c_dep st2));
       Ok (map snd (sort_keys l), c_lib st2, c_inc st2)) = Ok (l, lib', inc)).
  { destruct (if shas (mod_opts lib root) "mdepends" then visit fuel st0 root else Ok st0); simpl in H;
      try discriminate. eauto. }
  destruct Hp as (st1 & E1 & H1). clear H.
  assert (Hp : visit_post lib root st0 st1 root /\ bounded st1 /\ later st0 st1).
  { destruct (shas (mod_opts lib root) "mdepends") eqn:Em.
    - split; [apply (visit_ok lib root fuel); auto; now left|].
      destruct (visit_order lib root fuel st0 root st1 G0 (or_introl eq_refl) B0 E1) as (B1 & L1 & _). auto.
    - inversion E1; subst st1. split; [|split; [exact B0|apply later_refl]]. split; [exact G0|]. split; [apply mono_refl; exact W|].
      destruct (no_mdepends_closed st0 root Em). repeat split; auto. }
  destruct Hp as ((G1 & M1 & C1 & I1 & N1) & B1 & L1).
  destruct (drain fuel root st1) as [st2| |] eqn:E2; simpl in H1; try discriminate.
  assert (CC : all_closed root st1).
  { intros x [->|[k Hk]]; [auto|]. apply N1 in Hk. destruct Hk as [Hk|Hk]; [discriminate|exact Hk]. }
  destruct (drain_ok lib root fuel st1 st2 G1 CC E2) as (G2 & M2 & _).
  destruct (drain_order lib root fuel st1 st2 G1 CC B1 E2) as (B2 & L2).
  destruct (check_inc st2); simpl in H1; try discriminate.
  destruct (with_keys (c_keys st2) (dvalues (c_dep st2))) as [r| |] eqn:E3; simpl in H1; try discriminate.
  inversion H1; subst l lib' inc. clear H1.
  assert (Inv : forall x, In x (map snd (sort_keys r)) -> exists k, nget (c_keys st2) x = Some k /\ In (k, x) (sort_keys r)).
  { intros x Hx. assert (Hx' : In x (dvalues (c_dep st2))).
    { rewrite <- (with_keys_map _ _ _ E3). eapply Permutation_in; [|exact Hx]. apply Permutation_map. symmetry. apply sort_keys_perm. }
    destruct (with_keys_in _ _ _ _ E3 Hx') as (k & Ek & Ik). exists k. split; [exact Ek|].
    eapply Permutation_in; [apply sort_keys_perm|exact Ik]. }
  destruct (Inv m Hm) as (k & Ek & Ik). destruct (Inv m' Hm') as (k' & Ek' & Ik').
  pose proof (later_trans st0 st1 st2 M2 B1 L1 L2) as L.
  destruct (proj2 L m) as [E|(k0 & E & _ & O)]; [rewrite Ek in E; discriminate E|].
  destruct (O n i Wm) as (y & ka & kb & D & Ea & Eb & Lt).
  assert (y = m').
  { assert (Hy : In y (map snd (sort_keys r))).
    { eapply Permutation_in; [apply Permutation_map, sort_keys_perm|]. rewrite (with_keys_map _ _ _ E3).
      apply (in_values st2 y (g_nodup _ _ _ G2)). eauto. }
    apply (Once y m' n); auto. apply (g_dep _ _ _ G2) in D. destruct D as [j D].
    apply (wf_obj _ (le_wf _ _ (g_ext _ _ _ G2))) in D. destruct D as (r0 & A & Bn & _). exists r0. auto. }
  subst y. apply (sorted_before _ k m k' m'); auto; [apply sort_sorted|]. congruence.
Qed.

(** ** Requests by name only *)
Section Plain.
  Variables (lib0 : mlib) (root : nat).
  Notation good := (good lib0 root).
  Notation asks := (asks root).
  Hypothesis P0 : forall m e, wants lib0 m e -> exists n, e = EStr n.

  Lemma plain_item rec m st e st' : good st -> wants (c_lib st) m e -> collect_item rec m st e = Ok st' ->
    c_dep st' = c_dep st /\ c_keys st' = c_keys st /\ c_key st' = c_key st /\ c_lib st' = c_lib st.
  Proof.
    intros G We H. destruct (P0 m e (wants_back _ _ _ _ (g_ext _ _ _ G) We)) as [n ->]. cbn in H.
    destruct (shas (c_dep st) n); injection H as <-; repeat split.
  Qed.
  Lemma plain_fold rec m l : forall st st', good st ->
    (forall st1 nm st2, good st1 -> asks st1 nm -> rec st1 nm = Ok st2 -> visit_post lib0 root st1 st2 nm) -> asks st m ->
    (forall e, In e l -> wants (c_lib st) m e) -> fold_res (collect_item rec m) l st = Ok st' ->
    c_dep st' = c_dep st /\ c_keys st' = c_keys st /\ c_key st' = c_key st /\ c_lib st' = c_lib st.
  Proof.
    induction l as [|e l IH]; intros st st' G Hrec A W H; simpl in H; [injection H as <-; repeat split|].
    destruct (collect_item rec m st e) as [st1| |] eqn:E; simpl in H; try discriminate.
    destruct (collect_item_ok lib0 root rec m st e st1 Hrec G A (W e (or_introl eq_refl)) E) as (G1 & M1 & _).
    destruct (plain_item rec m st e st1 G (W e (or_introl eq_refl)) E) as (E1 & E2 & E3 & E4).
    destruct (IH st1 st' G1 Hrec) as (F1 & F2 & F3 & F4); auto.
    - eapply asks_mono; eauto.
    - intros e' He'. rewrite E4. apply W. now right.
    - repeat split; congruence.
  Qed.
  Lemma plain_visit fuel st m st' : good st -> asks st m -> visit fuel st m = Ok st' ->
    c_dep st' = c_dep st /\ c_keys st' = c_keys st /\ c_key st' = c_key st /\ c_lib st' = c_lib st.
  Proof.
    intros G A H. destruct fuel as [|f]; [discriminate|]. simpl in H.
    destruct (sget (mod_opts (c_lib st) m) "mdepends") as [v|] eqn:Ev; [|discriminate].
    destruct (iter_oval v) as [l| |] eqn:El; simpl in H; try discriminate.
    pose proof (asks_heap lib0 root _ _ G A) as Hh. unfold mod_opts in Ev.
    destruct (nth_error (l_heap (c_lib st)) m) as [r|] eqn:Er; [|congruence].
    apply (plain_fold (visit f) m l st st'); auto.
    - intros st1 nm st2 G1 A1 H1. exact (visit_ok lib0 root f st1 nm st2 G1 A1 H1).
    - intros e He. eapply wants_items; eauto.
  Qed.

  (** Someone with a smaller key, or the root, asks for each collected module. *)
  Definition asked (st : cst) : Prop := forall n x, sget (c_dep st) n = Some x ->
    exists q k, K st x = Some k /\ wants (c_lib st) q (EStr n) /\
      (q = root \/ exists p k', sget (c_dep st) p = Some q /\ K st q = Some k' /\ k' < k).

  Lemma plain_drain fuel : forall st st',
    good st -> all_closed root st -> bounded st -> asked st -> drain fuel root st = Ok st' -> asked st'.
  Proof.
    induction fuel as [|f IH]; intros st st' G C B Q H; [discriminate|]. simpl in H.
    destruct (c_queue st) as [|n q] eqn:Eq.
    - inversion H; subst st'. exact Q.
    - set (st0 := CS (c_lib st) (c_dep st) q (c_key st) (c_keys st) (c_inc st)) in *.
      assert (G0 : good st0).
      { split; try apply G. intros x Hx. apply G. rewrite Eq. now right. }
      destruct (shas (c_dep st) n) eqn:Ed.
      + assert (M0 : mono st st0).
        { split; simpl; eauto.
          - apply lext_refl. apply G.
          - intros x Hx. rewrite Eq in Hx. destruct Hx as [<-|Hx]; auto. }
        apply (IH st0 st' G0); auto.
        intros m Hm. destruct (C m Hm). split; [eapply closed_mono|eapply inc_closed_mono]; eauto.
      + destruct (get_default (c_lib st) n) as [[dm lib]| |] eqn:Eg; simpl in H; try discriminate.
        assert (W := le_wf _ _ (g_ext _ _ _ G)).
        destruct (get_default_ok _ _ _ _ W Eg) as (i & Hdf & Eg').
        destruct (get_impl_lext _ _ _ _ _ W Eg') as (L & Hi).
        destruct (g_queue _ _ _ G n) as (qm & Aq & Wq); [rewrite Eq; now left|].
        assert (Hnone : sget (c_dep st) n = None).
        { unfold dhas in Ed. destruct (sget (c_dep st) n); [discriminate|reflexivity]. }
        destruct (specify_good lib0 root st0 lib n dm qm (mod_name lib root) i G0 L) as (G1 & M1 & A1); auto.
        { right. split; [eapply wants_lext; eauto|]. exists i. rewrite (le_def _ _ L). auto. }
        set (st1 := specify st0 lib n dm (mod_name lib root)) in *.
        assert (M1' : mono st st1).
        { split; try apply M1. intros x Hx. rewrite Eq in Hx. destruct Hx as [<-|Hx].
          - right. simpl. rewrite shas_dset, String.eqb_refl. reflexivity.
          - left. exact Hx. }
        assert (Hp : exists st2, (if shas (mod_opts lib dm) "mdepends" then visit f st1 dm else Ok st1) = Ok st2 /\
                       drain f root st2 = Ok st').
        { destruct (if shas (mod_opts lib dm) "mdepends" then visit f st1 dm else Ok st1); simpl in H;
            try discriminate. eauto. }
        destruct Hp as (st2 & E2 & H2). clear H.
        assert (B1 : bounded st1) by now apply (specify_bounded st0).
        assert (Hp : visit_post lib0 root st1 st2 dm /\ c_dep st2 = c_dep st1 /\ c_keys st2 = c_keys st1 /\ c_key st2 = c_key st1 /\ c_lib st2 = c_lib st1).
        { destruct (shas (mod_opts lib dm) "mdepends") eqn:Em; [split; [now apply (visit_ok lib0 root f)|now apply (plain_visit f st1 dm st2)]|].
          inversion E2; subst st2. split; [|repeat split].
          split; [exact G1|]. split; [apply mono_refl; apply G1|].
          destruct (no_mdepends_closed st1 dm Em). repeat split; auto. }
        destruct Hp as ((G2 & M2 & C2 & I2 & N2) & D2 & K2 & k2 & L2).
        assert (M12 : mono st st2) by (eapply mono_trans; eauto).
        assert (New : forall p x, sget (c_dep st) p = Some x -> x <> dm).
        { intros p x Hx ->. assert (p <> n) by congruence. apply (g_dep _ _ _ G) in Hx. destruct Hx as [j Hj].
          apply (le_impl _ _ L) in Hj. pose proof (proj1 (wf_distinct lib p j n i dm (le_wf _ _ L) Hj Hi)). congruence. }
        assert (Old : forall p x, sget (c_dep st) p = Some x -> sget (c_dep st2) p = Some x /\ K st2 x = K st x).
        { intros p x Hx. split; [now apply (mo_dep _ _ M12)|]. rewrite K2. unfold st1. rewrite specify_key.
          pose proof (New p x Hx) as Nx. apply Nat.eqb_neq in Nx. now rewrite Nx. }
        assert (Q2 : asked st2).
        { intros p x Hx. rewrite D2 in Hx. unfold st1 in Hx. cbn [specify c_dep st0] in Hx. destruct (string_dec p n) as [->|Np].
          - rewrite sget_eq in Hx. injection Hx as <-. exists qm, (c_key st). split; [rewrite K2; unfold st1; now rewrite specify_key, Nat.eqb_refl|].
            split; [eapply wants_lext; [apply M12|exact Wq]|]. destruct Aq as [->|[p Hq]]; [now left|]. right.
            destruct (g_keys _ _ _ G p qm Hq) as [k' Ek']. exists p, k'. destruct (Old p qm Hq) as [O1 O2]. split; [exact O1|]. split; [congruence|]. now apply B in Ek'.
          - rewrite sget_neq in Hx by congruence. destruct (Q p x Hx) as (q' & k & Ek & Wk & D). exists q', k.
            destruct (Old p x Hx) as [_ O2]. split; [congruence|]. split; [eapply wants_lext; [apply M12|exact Wk]|].
            destruct D as [->|(p' & k' & Hp & Ek' & Lt)]; [now left|]. right. exists p', k'. destruct (Old p' q' Hp) as [O3 O4].
            split; [exact O3|]. split; [congruence|exact Lt]. }
        apply (IH st2 st' G2); auto.
        { intros m [->|[k Hk]].
          - destruct (C root (or_introl eq_refl)). split; [eapply closed_mono|eapply inc_closed_mono]; eauto.
          - apply N2 in Hk. destruct Hk as [Hk|Hk]; [|exact Hk].
            simpl in Hk. destruct (string_dec k n) as [->|Hn].
            + rewrite sget_eq in Hk. inversion Hk; subst m. auto.
            + rewrite sget_neq in Hk by congruence.
              destruct (C m (or_intror (ex_intro _ k Hk))). split; [eapply closed_mono|eapply inc_closed_mono]; eauto. }
        { intros x k. rewrite K2, k2. apply B1. }
  Qed.
End Plain.

Lemma collect_plain fuel lib root l lib' inc : wf_lib lib -> nth_error (l_heap lib) root <> None ->
  (forall m e, wants lib m e -> exists n, e = EStr n) -> collect_modules fuel lib root = Ok (l, lib', inc) ->
  forall m, In m l -> exists q n, named lib' m n /\ wants lib' q (EStr n) /\ (q = root \/ before l q m).
Proof.
  intros W Hr P0 H m Hm. unfold collect_modules in H.
  set (st0 := CS lib [] [] 0 [] []) in *.
  assert (G0 : good lib root st0).
  { split; simpl; try discriminate; auto.
    - now apply lext_refl.
    - intros x [].
    - constructor. }
  assert (B0 : bounded st0) by (intros x k E; discriminate E).
  assert (Hp : exists st1, (if shas (mod_opts lib root) "mdepends" then visit fuel st0 root else Ok st0) = Ok st1 /\
      (do! st2 <- drain fuel root st1; do! _ <- check_inc st2;
       do! l <- with_keys (c_keys st2) (dvalues (c_dep st2));
       Ok (map snd (sort_keys l), c_lib st2, c_inc st2)) = Ok (l, lib', inc)).
  { destruct (if shas (mod_opts lib root) "mdepends" then visit fuel st0 root else Ok st0); simpl in H;
      try discriminate. eauto. }
  destruct Hp as (st1 & E1 & H1). clear H.
  assert (Hp : visit_post lib root st0 st1 root /\ bounded st1 /\ c_dep st1 = []).
  { destruct (shas (mod_opts lib root) "mdepends") eqn:Em.
    - split; [apply (visit_ok lib root fuel); auto; now left|].
      split; [apply (visit_order lib root fuel st0 root st1 G0 (or_introl eq_refl) B0 E1)|].
      apply (plain_visit lib root P0 fuel st0 root st1 G0 (or_introl eq_refl) E1).
    - inversion E1; subst st1. split; [|split; [exact B0|reflexivity]]. split; [exact G0|]. split; [apply mono_refl; exact W|].
      destruct (no_mdepends_closed st0 root Em). repeat split; auto. }
  destruct Hp as ((G1 & M1 & C1 & I1 & N1) & B1 & D1).
  destruct (drain fuel root st1) as [st2| |] eqn:E2; simpl in H1; try discriminate.
  assert (CC : all_closed root st1).
  { intros x [->|[k Hk]]; [auto|]. apply N1 in Hk. destruct Hk as [Hk|Hk]; [discriminate|exact Hk]. }
  destruct (drain_ok lib root fuel st1 st2 G1 CC E2) as (G2 & M2 & _).
  assert (Q2 : asked root st2).
  { apply (plain_drain lib root P0 fuel st1 st2 G1 CC B1); [|exact E2]. intros n x Hx. rewrite D1 in Hx. discriminate Hx. }
  destruct (check_inc st2); simpl in H1; try discriminate.
  destruct (with_keys (c_keys st2) (dvalues (c_dep st2))) as [r| |] eqn:E3; simpl in H1; try discriminate.
  inversion H1; subst l lib' inc. clear H1.
  assert (Vals : forall x, In x (map snd (sort_keys r)) <-> In x (dvalues (c_dep st2))).
  { intros x. rewrite <- (with_keys_map _ _ _ E3). split; apply Permutation_in; [symmetry|]; apply Permutation_map, sort_keys_perm. }
  assert (Inv : forall x k, In x (dvalues (c_dep st2)) -> K st2 x = Some k -> In (k, x) (sort_keys r)).
  { intros x k Hx Ex. destruct (with_keys_in _ _ _ _ E3 Hx) as (k' & Ek & Ik). replace k with k' by congruence.
    eapply Permutation_in; [apply sort_keys_perm|exact Ik]. }
  pose proof (proj1 (Vals m) Hm) as Vm. pose proof Vm as Vm'. apply (in_values st2 m (g_nodup _ _ _ G2)) in Vm' as [n Hn].
  destruct (Q2 n m Hn) as (q & k & Ek & Wq & D). exists q, n. split.
  - apply (g_dep _ _ _ G2) in Hn. destruct Hn as [j Hj].
    apply (wf_obj _ (le_wf _ _ (g_ext _ _ _ G2))) in Hj. destruct Hj as (r0 & A & Bn & _). exists r0. auto.
  - split; [exact Wq|]. destruct D as [->|(p & k' & Hp & Ek' & Lt)]; [now left|]. right.
    apply (sorted_before _ k' q k m); auto; [apply sort_sorted|]. apply Inv; [|exact Ek'].
    apply (in_values st2 q (g_nodup _ _ _ G2)). eauto.
Qed.
