(** Lemmas for C107. *)
From Coq Require Import Permutation.
From Verif Require Import PyBase PyPath ModulesModel SpecModules ModulesProofs CollectProofs CollectTraceModel SpecCollectTrace CollectTerm ModulesExamples CxxProofs.
Local Open Scope string_scope.
Local Open Scope list_scope.

(** ** The output changes nothing *)
Definition erase {A B} (r : res (A * B)) : res A := do! (a, _) <- r; Ok a.
Lemma item_erase rec rec_t m st tr e : (forall s x, rec s x = erase (rec_t s x)) ->
  collect_item rec m st e = erase (item_t rec_t m (st, tr) e).
Proof.
  intros H. destruct e as [n|n i|n i|c]; cbn [collect_item item_t]; try reflexivity.
  - destruct (shas (c_dep st) n); reflexivity.
  - destruct (get (c_lib st) n (Some i)) as [[nm lib]| |]; try reflexivity. cbn [bind].
    destruct (match sget (c_dep st) n with Some o => negb (Nat.eqb o nm) | None => false end); [reflexivity|].
    destruct (shas (mod_opts lib nm) "mdepends"); [|reflexivity]. rewrite H. unfold erase.
    destruct (rec_t _ nm) as [[s t]| |]; reflexivity.
Qed.
Lemma fold_erase rec rec_t m l : (forall s x, rec s x = erase (rec_t s x)) ->
  forall st tr, fold_res (collect_item rec m) l st = erase (fold_res (item_t rec_t m) l (st, tr)).
Proof.
  intros H. induction l as [|e l IH]; intros st tr; [reflexivity|]. cbn [fold_res]. rewrite (item_erase rec rec_t m st tr e H).
  unfold erase at 1. destruct (item_t rec_t m (st, tr) e) as [[s t]| |]; cbn [bind]; [apply IH|reflexivity|reflexivity].
Qed.
Lemma visit_erase fuel : forall st m, visit fuel st m = erase (visit_t fuel st m).
Proof.
  induction fuel as [|f IH]; intros st m; [reflexivity|]. cbn [visit visit_t].
  destruct (sget (mod_opts (c_lib st) m) "mdepends") as [v|]; [|reflexivity].
  destruct (iter_oval v) as [l| |]; cbn [bind]; try reflexivity. now apply fold_erase.
Qed.
Lemma drain_erase fuel root : forall st tr, drain fuel root st = erase (drain_t fuel root (st, tr)).
Proof.
  induction fuel as [|f IH]; intros st tr; [reflexivity|]. cbn [drain drain_t].
  destruct (c_queue st) as [|n q]; [reflexivity|]. cbn zeta. destruct (shas (c_dep st) n); [apply IH|].
  destruct (get_default (c_lib st) n) as [[dm lib]| |]; cbn [bind]; try reflexivity.
  destruct (shas (mod_opts lib dm) "mdepends").
  - rewrite visit_erase. unfold erase at 1. destruct (visit_t f _ dm) as [[s t]| |]; cbn [bind]; [apply IH|reflexivity|reflexivity].
  - cbn [bind]. apply IH.
Qed.
Lemma collect_erase fuel lib root : collect_modules fuel lib root = erase (collect_modules_t fuel lib root).
Proof.
  unfold collect_modules, collect_modules_t. cbn zeta. set (st0 := CS lib [] [] 0 [] []).
  assert (E : (if shas (mod_opts lib root) "mdepends" then visit fuel st0 root else Ok st0) =
    erase (if shas (mod_opts lib root) "mdepends" then visit_t fuel st0 root else Ok (st0, []))).
  { destruct (shas (mod_opts lib root) "mdepends"); [apply visit_erase|reflexivity]. }
  rewrite E. clear E. unfold erase at 1.
  destruct (if shas (mod_opts lib root) "mdepends" then visit_t fuel st0 root else Ok (st0, [])) as [[s t]| |]; cbn [bind]; try reflexivity.
  rewrite (drain_erase fuel root s t). unfold erase. destruct (drain_t fuel root (s, t)) as [[s2 t2]| |]; cbn [bind]; try reflexivity.
  destruct (check_inc s2); cbn [bind]; try reflexivity. destruct (with_keys _ _); reflexivity.
Qed.

(** ** What is gone through *)
Scheme walked_ind2 := Induction for walked Sort Prop with walked_all_ind2 := Induction for walked_all Sort Prop.
Combined Scheme walked_both from walked_ind2, walked_all_ind2.
Lemma walked_lext a b : lext a b ->
  (forall m t, walked a m t -> walked b m t) /\ (forall l t, walked_all a l t -> walked_all b l t).
Proof.
  intros L. cut ((forall m t, forall _ : walked a m t, walked b m t) /\ (forall l t, forall _ : walked_all a l t, walked_all b l t)); [auto|].
  apply (walked_both a (fun m t _ => walked b m t) (fun l t _ => walked_all b l t)); intros.
  - eapply wk_list; [apply (le_heap _ _ L)| |]; eassumption.
  - eapply wk_chars; [apply (le_heap _ _ L)|]; eassumption.
  - constructor.
  - now constructor.
  - eapply wa_leaf; [apply (le_impl _ _ L)|apply (le_heap _ _ L)| |]; eassumption.
  - eapply wa_node; [apply (le_impl _ _ L)| |]; eassumption.
Qed.
Lemma walked_app lib l1 t1 l2 t2 : walked_all lib l1 t1 -> walked_all lib l2 t2 -> walked_all lib (l1 ++ l2) (t1 ++ t2).
Proof.
  intros H H2. induction H; cbn [app]; auto; [constructor; auto|eapply wa_leaf; eauto|]. rewrite <- app_assoc. eapply wa_node; eauto.
Qed.
Lemma erase_ok {A B} (r : res (A * B)) a b : r = Ok (a, b) -> erase r = Ok a.
Proof. intros ->. reflexivity. Qed.

Lemma Forall2_weaken {A B} (P Q : A -> B -> Prop) la lb : (forall a b, P a b -> Q a b) -> Forall2 P la lb -> Forall2 Q la lb.
Proof. intros H F. induction F; constructor; auto. Qed.

Section S.
  Variables (lib0 : mlib) (root : nat).
  Notation good := (good lib0 root).
  Notation asks := (asks root).

  Definition rec_spec (rec : cst -> nat -> res (cst * list string)) : Prop :=
    forall st m st' t, good st -> asks st m -> rec st m = Ok (st', t) -> walked (c_lib st') m t.
  Lemma item_walked f m st tr e st' tr' : rec_spec (visit_t f) -> good st -> asks st m -> wants (c_lib st) m e ->
    item_t (visit_t f) m (st, tr) e = Ok (st', tr') ->
    good st' /\ mono st st' /\ exists t, tr' = tr ++ t /\ walked_all (c_lib st') [e] t.
  Proof.
    intros R G A We H.
    destruct (collect_item_ok lib0 root (visit f) m st e st') as (G' & M' & _); auto.
    { intros st1 nm st2 G1 A1 H1. exact (visit_ok lib0 root f st1 nm st2 G1 A1 H1). }
    { rewrite (item_erase (visit f) (visit_t f) m st tr e (visit_erase f)). now rewrite H. }
    split; [exact G'|]. split; [exact M'|].
    destruct e as [n|n i|n i|c]; cbn [item_t] in H; try discriminate H.
    - exists []. assert (tr' = tr) as -> by (destruct (shas (c_dep st) n); inversion H; reflexivity). rewrite app_nil_r.
      split; [reflexivity|]. constructor. constructor.
    - apply bind_ok in H as ([nm lib] & Hg & H).
      destruct (match sget (c_dep st) n with Some o => negb (Nat.eqb o nm) | None => false end) eqn:Hc; [discriminate|].
      rewrite get_some in Hg. destruct (get_impl_lext _ _ _ _ _ (le_wf _ _ (g_ext _ _ _ G)) Hg) as (L & Hi).
      destruct (specify_good lib0 root st lib n nm m (mod_name lib m) i G L) as (G1 & M1 & A1); auto.
      { destruct (sget (c_dep st) n); [right|now left]. f_equal. apply negb_false_iff, Nat.eqb_eq in Hc. exact Hc. }
      { left. eapply wants_lext; eauto. }
      set (st1 := specify st lib n nm (mod_name lib m)) in *.
      assert (Hn : exists r, nth_error (l_heap lib) nm = Some r).
      { destruct (wf_obj _ (le_wf _ _ L) _ _ _ Hi) as (r & Er & _). eauto. }
      destruct Hn as [r Er].
      destruct (shas (mod_opts lib nm) "mdepends") eqn:Em.
      + apply bind_ok in H as ([st2 t] & H2 & H). injection H as <- <-. exists t. split; [reflexivity|].
        pose proof (R st1 nm st2 t G1 A1 H2) as W.
        pose proof (visit_ok lib0 root f st1 nm st2 G1 A1) as V. rewrite visit_erase, H2 in V. specialize (V eq_refl).
        destruct V as (_ & M2 & _). rewrite <- (app_nil_r t). eapply wa_node; [|exact W|constructor].
        apply (le_impl _ _ (mo_ext _ _ M2)). exact Hi.
      + injection H as <- <-. exists []. rewrite app_nil_r. split; [reflexivity|]. eapply wa_leaf; [exact Hi|exact Er| |constructor].
        unfold mod_opts in Em. rewrite Er in Em. unfold dhas in Em. destruct (sget (m_opts r) "mdepends"); [discriminate|reflexivity].
  Qed.
  Lemma fold_walked f m : rec_spec (visit_t f) -> forall l st tr st' tr', good st -> asks st m ->
    (forall e, In e l -> wants (c_lib st) m e) -> fold_res (item_t (visit_t f) m) l (st, tr) = Ok (st', tr') ->
    mono st st' /\ exists t, tr' = tr ++ t /\ walked_all (c_lib st') l t.
  Proof.
    intros R. induction l as [|e l IH]; intros st tr st' tr' G A W H; cbn [fold_res] in H.
    - injection H as <- <-. split; [apply mono_refl; apply G|]. exists []. rewrite app_nil_r. split; [reflexivity|constructor].
    - apply bind_ok in H as ([st1 tr1] & H1 & H).
      destruct (item_walked f m st tr e st1 tr1 R G A (W e (or_introl eq_refl)) H1) as (G1 & M1 & t1 & -> & W1).
      destruct (IH st1 (tr ++ t1) st' tr' G1 (asks_mono root _ _ _ M1 A)) as (M2 & t2 & -> & W2); auto.
      { intros e' He'. eapply wants_lext; [apply M1|]. apply W. now right. }
      split; [eapply mono_trans; eauto|]. exists (t1 ++ t2). rewrite app_assoc. split; [reflexivity|].
      apply (walked_app _ [e] t1 l t2); [|exact W2]. exact (proj2 (walked_lext _ _ (mo_ext _ _ M2)) _ _ W1).
  Qed.
  Lemma visit_walked f : rec_spec (visit_t f).
  Proof.
    induction f as [|f IH]; intros st m st' t G A H; [discriminate|]. cbn [visit_t] in H.
    destruct (sget (mod_opts (c_lib st) m) "mdepends") as [v|] eqn:Ev; [|discriminate].
    apply bind_ok in H as (l & El & H). pose proof (asks_heap lib0 root _ _ G A) as Hh. unfold mod_opts in Ev.
    destruct (nth_error (l_heap (c_lib st)) m) as [r|] eqn:Er; [|congruence].
    destruct (fold_walked f m IH l st [mod_name (c_lib st) m] st' t G A) as (M & u & -> & W); [intros e He; eapply wants_items; eauto|exact H|].
    unfold mod_name. rewrite Er. apply (le_heap _ _ (mo_ext _ _ M)) in Er. destruct v as [s|l'| | |]; try discriminate El.
    - cbn in El. injection El as <-. assert (u = []) as ->.
      { clear - W. revert u W. induction s as [|c s IHs]; intros u W; cbn in W; inversion W; subst; auto. }
      eapply wk_chars; eauto.
    - injection El as ->. eapply wk_list; eauto.
  Qed.

  Lemma drain_walked fuel : forall st tr st' tr', good st -> all_closed root st -> drain_t fuel root (st, tr) = Ok (st', tr') ->
    exists ns ds ts, tr' = tr ++ List.concat ts /\ Forall2 (walked (c_lib st')) ds ts /\ NoDup ns /\
      Forall2 (fun n d => sget (c_dep st') n = Some d) ns ds /\ forall n, In n ns -> shas (c_dep st) n = false.
  Proof.
    induction fuel as [|f IH]; intros st tr st' tr' G C H; [discriminate|].
    pose proof (drain_ok lib0 root (S f) st st' G C) as D. rewrite (drain_erase (S f) root st tr), H in D. specialize (D eq_refl).
    destruct D as (G' & M' & _). cbn [drain_t] in H.
    destruct (c_queue st) as [|n q] eqn:Eq.
    - injection H as <- <-. exists [], [], []. cbn. rewrite app_nil_r. repeat split; auto; [constructor|intros d []].
    - set (st0 := CS (c_lib st) (c_dep st) q (c_key st) (c_keys st) (c_inc st)) in *.
      assert (G0 : good st0).
      { split; try apply G. intros x Hx. apply G. rewrite Eq. now right. }
      destruct (shas (c_dep st) n) eqn:Ed.
      + assert (M0 : mono st st0).
        { split; simpl; eauto.
          - apply lext_refl. apply G.
          - intros x Hx. rewrite Eq in Hx. destruct Hx as [<-|Hx]; auto. }
        apply (IH st0 tr st' tr' G0); [|exact H].
        intros m Hm. destruct (C m Hm). split; [eapply closed_mono|eapply inc_closed_mono]; eauto.
      + apply bind_ok in H as ([dm lib] & Eg & H). cbn zeta in H. apply bind_ok in H as ([st2 t] & E2 & H).
        assert (W := le_wf _ _ (g_ext _ _ _ G)).
        destruct (get_default_ok _ _ _ _ W Eg) as (i & Hdf & Eg').
        destruct (get_impl_lext _ _ _ _ _ W Eg') as (L & Hi).
        destruct (g_queue _ _ _ G n) as (qm & Aq & Wq); [rewrite Eq; now left|].
        assert (Hnone : sget (c_dep st) n = None).
        { unfold dhas in Ed. destruct (sget (c_dep st) n); [discriminate|reflexivity]. }
        destruct (specify_good lib0 root st0 lib n dm qm (mod_name lib root) i G0 L) as (G1 & M1 & A1); auto.
        { right. split; [eapply wants_lext; eauto|]. exists i. rewrite (le_def _ _ L). auto. }
        set (st1 := specify st0 lib n dm (mod_name lib root)) in *.
        assert (M1' : mono st st1).
        { split; try apply M1. intros x Hx. rewrite Eq in Hx. destruct Hx as [<-|Hx].
          - right. simpl. rewrite shas_dset, String.eqb_refl. reflexivity.
          - left. exact Hx. }
        assert (Hp : visit_post lib0 root st1 st2 dm /\ ((t = [] /\ shas (mod_opts lib dm) "mdepends" = false) \/ walked (c_lib st2) dm t)).
        { destruct (shas (mod_opts lib dm) "mdepends") eqn:Em.
          - split; [|right; exact (visit_walked f st1 dm st2 t G1 A1 E2)].
            apply (visit_ok lib0 root f); auto. now rewrite visit_erase, E2.
          - injection E2 as <- <-. split; [|left; auto]. split; [exact G1|]. split; [apply mono_refl; apply G1|].
            destruct (no_mdepends_closed st1 dm Em). repeat split; auto. }
        destruct Hp as ((G2 & M2 & C2 & I2 & N2) & Ht).
        assert (M12 : mono st st2) by (eapply mono_trans; eauto).
        assert (C2' : all_closed root st2).
        { intros m [->|[k Hk]].
          - destruct (C root (or_introl eq_refl)). split; [eapply closed_mono|eapply inc_closed_mono]; eauto.
          - apply N2 in Hk. destruct Hk as [Hk|Hk]; [|exact Hk].
            simpl in Hk. destruct (string_dec k n) as [->|Hn].
            + rewrite sget_eq in Hk. inversion Hk; subst m. auto.
            + rewrite sget_neq in Hk by congruence.
              destruct (C m (or_intror (ex_intro _ k Hk))). split; [eapply closed_mono|eapply inc_closed_mono]; eauto. }
        pose proof (drain_ok lib0 root f st2 st' G2 C2') as D. rewrite (drain_erase f root st2 (tr ++ t)), H in D. specialize (D eq_refl).
        destruct D as (_ & M3 & _).
        destruct (IH st2 (tr ++ t) st' tr' G2 C2' H) as (ns & ds & ts & -> & Hw & Hnd & Hds & Hns).
        assert (Sn : sget (c_dep st2) n = Some dm) by (apply (mo_dep _ _ M2); cbn; apply sget_eq).
        assert (Back : forall n0, In n0 ns -> shas (c_dep st) n0 = false).
        { intros n0 Hn. specialize (Hns n0 Hn).
          unfold dhas in Hns |- *. destruct (sget (c_dep st) n0) as [x|] eqn:Ex; [|reflexivity]. apply (mo_dep _ _ M12) in Ex. rewrite Ex in Hns. discriminate. }
        destruct Ht as [[-> _]|Ht].
        * exists ns, ds, ts. rewrite app_nil_r. auto.
        * exists (n :: ns), (dm :: ds), (t :: ts). cbn [List.concat]. rewrite app_assoc. split; [reflexivity|]. split; [|split; [|split]].
          -- constructor; [|exact Hw]. exact (proj1 (walked_lext _ _ (mo_ext _ _ M3)) _ _ Ht).
          -- constructor; [|exact Hnd]. intros Hd. specialize (Hns n Hd). unfold dhas in Hns. rewrite Sn in Hns. discriminate.
          -- constructor; [|exact Hds]. apply (mo_dep _ _ M3). exact Sn.
          -- intros n0 [<-|Hd]; auto.
  Qed.
End S.

Lemma collect_walked fuel lib root l lib' inc tr : wf_lib lib -> nth_error (l_heap lib) root <> None ->
  collect_modules_t fuel lib root = Ok ((l, lib', inc), tr) ->
  exists t0 ns ds ts, tr = t0 ++ List.concat ts /\
    ((sget (mod_opts lib root) "mdepends" = None /\ t0 = []) \/ walked lib' root t0) /\
    Forall2 (walked lib') ds ts /\ NoDup ns /\ Forall2 (fun n d => In d l /\ exists i, impl_of lib' n i d) ns ds.
Proof.
  intros W Hr H. unfold collect_modules_t in H. cbn zeta in H. set (st0 := CS lib [] [] 0 [] []) in *.
  apply bind_ok in H as ([st1 t0] & H1 & H). apply bind_ok in H as ([st2 tr2] & H2 & H).
  apply bind_ok in H as (u & _ & H). apply bind_ok in H as (r & E3 & H). injection H as <- <- <- <-.
  assert (G0 : good lib root st0).
  { split; simpl; try discriminate; auto.
    - now apply lext_refl.
    - intros x [].
    - constructor. }
  assert (Hp : visit_post lib root st0 st1 root /\ ((sget (mod_opts lib root) "mdepends" = None /\ t0 = []) \/ walked (c_lib st1) root t0)).
  { destruct (shas (mod_opts lib root) "mdepends") eqn:Em.
    - split; [apply (visit_ok lib root fuel); auto; [now left|now rewrite visit_erase, H1]|right].
      exact (visit_walked lib root fuel st0 root st1 t0 G0 (or_introl eq_refl) H1).
    - injection H1 as <- <-. split.
      + split; [exact G0|]. split; [apply mono_refl; exact W|]. destruct (no_mdepends_closed st0 root Em). repeat split; auto.
      + left. split; [|reflexivity]. unfold dhas in Em. destruct (sget (mod_opts lib root) "mdepends"); [discriminate|reflexivity]. }
  destruct Hp as ((G1 & M1 & C1 & I1 & N1) & Ht).
  assert (CC : all_closed root st1).
  { intros x [->|[k Hk]]; [auto|]. apply N1 in Hk. destruct Hk as [Hk|Hk]; [discriminate|exact Hk]. }
  pose proof (drain_ok lib root fuel st1 st2 G1 CC) as D. rewrite (drain_erase fuel root st1 t0), H2 in D. specialize (D eq_refl).
  destruct D as (G2 & M2 & _).
  destruct (drain_walked lib root fuel st1 t0 st2 tr2 G1 CC H2) as (ns & ds & ts & -> & Hw & Hnd & Hds & _).
  exists t0, ns, ds, ts. split; [reflexivity|]. split.
  - destruct Ht as [Ht|Ht]; [now left|right]. exact (proj1 (walked_lext _ _ (mo_ext _ _ M2)) _ _ Ht).
  - split; [exact Hw|]. split; [exact Hnd|]. eapply Forall2_weaken; [|exact Hds]. cbn beta. intros n d Hn. split.
    + eapply Permutation_in; [apply Permutation_map, sort_keys_perm|]. rewrite (with_keys_map _ _ _ E3).
      apply (in_values st2 d (g_nodup _ _ _ G2)). eauto.
    + exact (g_dep _ _ _ G2 _ _ Hn).
Qed.

(** ** Without explicit requests *)
Lemma walked_once lib m t r : (forall m' n i, ~ wants lib m' (EPair n i)) -> nth_error (l_heap lib) m = Some r -> walked lib m t -> t = [m_name r].
Proof.
  intros N Er H. inversion H as [m0 r0 l t' E1 E2 W|m0 r0 s E1 E2]; subst.
  - rewrite Er in E1. injection E1 as <-. assert (D : forall e, In e l -> wants lib m e).
    { intros e He. eapply wants_items; [exact Er|exact E2|reflexivity|exact He]. }
    assert (t' = []) as ->; [|reflexivity]. clear - N D W. induction W; auto.
    + apply IHW. intros e He. apply D. now right.
    + destruct (N m n i). apply D. now left.
    + destruct (N m n i). apply D. now left.
  - rewrite Er in E1. now injection E1 as <-.
Qed.

(** ** Two modules in each level *)
Fixpoint xs (k : nat) : string := match k with 0 => "" | S k => "x" ++ xs k end.
Definition node (b : bool) (k : nat) : string := (if b then "l" else "r") ++ xs k.
Definition both (k : nat) : list elem := [EPair (node true k) "__default__"; EPair (node false k) "__default__"].
(** [rungs n k]: the levels from [k], of which each but the last asks for both modules of the next. *)
Fixpoint rungs (n k : nat) : list libop :=
  match n with
  | 0 => [dep_module (node true k) []; dep_module (node false k) []]
  | S n => dep_module (node true k) (both (S k)) :: dep_module (node false k) (both (S k)) :: rungs n (S k)
  end.
Lemma rungs_length n : forall k, List.length (rungs n k) = 2 * S n.
Proof. induction n as [|n IH]; intros k; cbn [rungs List.length]; [reflexivity|]. rewrite IH. lia. Qed.
Lemma xs_inj : forall a b, xs a = xs b -> a = b.
Proof. induction a as [|a IH]; intros [|b] H; cbn in H; try discriminate; [reflexivity|]. injection H as H. f_equal. auto. Qed.
Lemma node_inj b k c j : node b k = node c j -> b = c /\ k = j.
Proof. unfold node. destruct b, c; cbn; intros H; try discriminate H; injection H as H; split; auto using xs_inj. Qed.
Lemma rungs_in n : forall k o, In o (rungs n k) -> exists b j, k <= j <= k + n /\
  o = dep_module (node b j) (if Nat.eqb j (k + n) then [] else both (S j)).
Proof.
  induction n as [|n IH]; intros k o H; cbn [rungs] in H.
  - destruct H as [<-|[<-|[]]]; [exists true, k|exists false, k]; rewrite Nat.add_0_r, Nat.eqb_refl; split; auto; lia.
  - destruct H as [<-|[<-|H]].
    + exists true, k. split; [lia|]. destruct (Nat.eqb_spec k (k + S n)); [lia|reflexivity].
    + exists false, k. split; [lia|]. destruct (Nat.eqb_spec k (k + S n)); [lia|reflexivity].
    + destruct (IH _ _ H) as (b & j & Hj & ->). exists b, j. split; [lia|]. now replace (S k + n) with (k + S n) by lia.
Qed.
Lemma rungs_last n : forall k b j, k <= j <= k + n ->
  last_registered (rungs n k) (node b j) "__default__" ([], "lib/main.py", [("mdepends", VList (if Nat.eqb j (k + n) then [] else both (S j)))]).
Proof.
  assert (O : forall k b j l o c, j < k -> In o (rungs l k) -> registers o <> Some (node b j, "__default__", c)).
  { intros k b j l o c Hj Ho. destruct (rungs_in _ _ _ Ho) as (b' & j' & Hj' & ->). cbn. intros E. injection E as E _.
    apply node_inj in E as [_ ->]. lia. }
  induction n as [|n IH]; intros k b j Hj.
  - assert (j = k) as -> by lia. rewrite Nat.add_0_r, Nat.eqb_refl. destruct b; cbn [rungs].
    + exists [], (dep_module (node true k) []), [dep_module (node false k) []]. split; [reflexivity|]. split; [reflexivity|].
      intros o c [<-|[]]. cbn. intros E. discriminate E.
    + exists [dep_module (node true k) []], (dep_module (node false k) []), []. split; [reflexivity|]. split; [reflexivity|]. intros o c [].
  - destruct (Nat.eq_dec j k) as [->|Hn].
    + destruct (Nat.eqb_spec k (k + S n)); [lia|]. destruct b; cbn [rungs].
      * exists [], (dep_module (node true k) (both (S k))), (dep_module (node false k) (both (S k)) :: rungs n (S k)).
        split; [reflexivity|]. split; [reflexivity|]. intros o c [<-|Ho]; [|apply (O (S k) true k n o c (Nat.lt_succ_diag_r k) Ho)]. cbn. intros E. discriminate E.
      * exists [dep_module (node true k) (both (S k))], (dep_module (node false k) (both (S k))), (rungs n (S k)).
        split; [reflexivity|]. split; [reflexivity|]. intros o c Ho. apply (O (S k) false k n o c (Nat.lt_succ_diag_r k) Ho).
    + destruct (IH (S k) b j) as (h1 & o & h2 & E & R & Hl); [lia|].
      exists (dep_module (node true k) (both (S k)) :: dep_module (node false k) (both (S k)) :: h1), o, h2.
      split; [cbn [rungs]; now rewrite E|]. split; [|exact Hl]. now replace (k + S n) with (S k + n) by lia.
Qed.
Lemma all_register h : (forall o, In o h -> exists c, registers o = Some c) -> exists lib, lib_run mlib0 h = Ok lib.
Proof.
  induction h as [|o h IH] using rev_ind; intros H; [exists mlib0; reflexivity|].
  destruct IH as [lib E]; [intros o' Ho; apply H, in_app_iff; now left|].
  destruct (H o) as [c R]; [apply in_app_iff; right; now left|]. destruct (registering_succeeds h lib o c E R) as [lib' E'].
  exists lib'. rewrite lib_run_app, E. cbn [bind lib_run]. now rewrite E'.
Qed.

Section Ladder.
  Variables (n : nat) (lib : mlib).
  Hypothesis run : lib_run mlib0 (rungs n 0) = Ok lib.
  Definition place (b : bool) (k : nat) : nat := match get lib (node b k) (Some "__default__") with Ok (m, _) => m | _ => 0 end.
  Lemma place_ok b k : k <= n -> get lib (node b k) (Some "__default__") = Ok (place b k, lib) /\
    nth_error (l_heap lib) (place b k) <> None /\
    sget (mod_opts lib (place b k)) "mdepends" = Some (VList (if Nat.eqb k n then [] else both (S k))).
  Proof.
    intros Hk. destruct (lookup_registered _ _ _ _ _ run (rungs_last n 0 b k ltac:(lia))) as (m & r & Eg & Er & M).
    assert (place b k = m) as -> by (unfold place; now rewrite Eg). split; [exact Eg|]. split; [congruence|].
    unfold mod_opts. rewrite Er. destruct M as (_ & _ & _ & M). rewrite M. reflexivity.
  Qed.
  Definition calm (st : cst) : Prop := c_lib st = lib /\ c_queue st = [] /\
    forall b k, k <= n -> sget (c_dep st) (node b k) = None \/ sget (c_dep st) (node b k) = Some (place b k).
  Lemma ladder_item rec m st tr b k (P : list string -> Prop) : k <= n -> calm st ->
    (forall st1, calm st1 -> exists st' t, rec st1 (place b k) = Ok (st', t) /\ calm st' /\ P t) ->
    exists st' t, item_t rec m (st, tr) (EPair (node b k) "__default__") = Ok (st', tr ++ t) /\ calm st' /\ P t.
  Proof.
    intros Hk C R. destruct (place_ok b k Hk) as (Eg & _ & Em). cbn [item_t]. destruct C as (Cl & Cq & Cd). rewrite Cl, Eg. cbn [bind].
    assert (match sget (c_dep st) (node b k) with Some o => negb (Nat.eqb o (place b k)) | None => false end = false) as ->.
    { destruct (Cd b k Hk) as [-> | ->]; [reflexivity|]. now rewrite Nat.eqb_refl. }
    assert (shas (mod_opts lib (place b k)) "mdepends" = true) as -> by (apply shas_get; eauto).
    destruct (R (specify st lib (node b k) (place b k) (mod_name lib m))) as (st' & t & E & C' & Pt).
    - split; [reflexivity|]. split; [exact Cq|]. intros b' k' Hk'. cbn [specify c_dep].
      destruct (string_dec (node b' k') (node b k)) as [E|Hne].
      + apply node_inj in E as [-> ->]. right. apply sget_eq.
      + rewrite sget_neq by congruence. auto.
    - rewrite E. cbn [bind]. exists st', t. auto.
  Qed.
  Lemma ladder_visit j : forall f k b st, j <= f -> k + j = n -> calm st ->
    exists st' t, visit_t (S f) st (place b k) = Ok (st', t) /\ calm st' /\ S (List.length t) = 2 ^ S j.
  Proof.
    induction j as [|j IH]; intros f k b st Hf Hj C.
    - destruct (place_ok b k ltac:(lia)) as (_ & _ & Em). destruct (Nat.eqb_spec k n); [|lia].
      exists st, [mod_name (c_lib st) (place b k)]. split; [|split; [exact C|reflexivity]]. cbn [visit_t]. destruct C as (-> & _). rewrite Em. reflexivity.
    - destruct (place_ok b k ltac:(lia)) as (_ & _ & Em). destruct (Nat.eqb_spec k n); [lia|]. destruct f as [|f]; [lia|].
      assert (Hst : c_lib st = lib) by apply C. remember (S f) as sf eqn:Esf. cbn [visit_t]. rewrite Hst, Em. cbn [iter_oval bind both fold_res].
      assert (R : forall b', forall st1, calm st1 -> exists st' t, visit_t sf st1 (place b' (S k)) = Ok (st', t) /\ calm st' /\ S (List.length t) = 2 ^ S j).
      { intros b' st1 C1. rewrite Esf. apply IH; [lia|lia|exact C1]. }
      destruct (ladder_item (visit_t sf) (place b k) st [mod_name lib (place b k)] true (S k) (fun t => S (List.length t) = 2 ^ S j) ltac:(lia) C (R true))
        as (s1 & t1 & -> & C1 & L1). cbn [bind].
      destruct (ladder_item (visit_t sf) (place b k) s1 ([mod_name lib (place b k)] ++ t1) false (S k) (fun t => S (List.length t) = 2 ^ S j) ltac:(lia) C1 (R false))
        as (s2 & t2 & -> & C2 & L2). cbn [bind].
      exists s2, (([mod_name lib (place b k)] ++ t1) ++ t2). split; [reflexivity|]. split; [exact C2|].
      rewrite !app_length. cbn [List.length]. change (2 ^ S (S j)) with (2 * 2 ^ S j). lia.
  Qed.
  Lemma ladder f : n <= f -> exists l lib' inc tr,
    collect_modules_t (S f) lib (place true 0) = Ok ((l, lib', inc), tr) /\ S (List.length tr) = 2 ^ S n.
  Proof.
    intros Hf. pose (st0 := CS lib [] [] 0 [] []). destruct (place_ok true 0 ltac:(lia)) as (_ & Hh & Em).
    assert (C0 : calm st0) by (split; [reflexivity|]; split; [reflexivity|]; intros; now left).
    destruct (ladder_visit n f 0 true st0 Hf eq_refl C0) as (st1 & t & E & C1 & L).
    pose proof (hi_wf _ _ (history_ok _ _ run)) as W.
    assert (G0 : good lib (place true 0) st0) by now apply start_good.
    assert (G1 : good lib (place true 0) st1).
    { apply (visit_ok lib (place true 0) (S f) st0 (place true 0) st1 G0 (or_introl eq_refl)). now rewrite visit_erase, E. }
    destruct (with_keys_ok lib (place true 0) st1 G1) as [r Ek].
    unfold collect_modules_t. cbn zeta. fold st0.
    assert (shas (mod_opts lib (place true 0)) "mdepends" = true) as -> by (apply shas_get; eauto).
    rewrite E. cbn [bind drain_t]. destruct C1 as (Cl & Cq & _). rewrite Cq. cbn [bind].
    rewrite (check_inc_ok lib (place true 0) st1 G1). cbn [bind]. rewrite Ek. cbn [bind]. eexists _, _, _, t. split; [reflexivity|exact L].
  Qed.
End Ladder.
Lemma ladder_exists n : exists lib root, lib_run mlib0 (rungs n 0) = Ok lib /\ get lib (node true 0) (Some "__default__") = Ok (root, lib) /\
  forall f, n <= f -> exists l lib' inc tr, collect_modules_t (S f) lib root = Ok ((l, lib', inc), tr) /\ S (List.length tr) = 2 ^ S n.
Proof.
  destruct (all_register (rungs n 0)) as [lib E].
  - intros o Ho. destruct (rungs_in _ _ _ Ho) as (b & j & _ & ->). eexists. reflexivity.
  - exists lib, (place lib true 0). split; [exact E|]. split; [apply (place_ok n lib E); lia|]. intros f Hf. now apply (ladder n lib E).
Qed.

(** ** The names *)
Lemma walked_names lib : wf_lib lib ->
  (forall m t, walked lib m t -> (exists n i, impl_of lib n i m) -> forall x, In x t -> shas (l_mods lib) x = true) /\
  (forall l t, walked_all lib l t -> forall x, In x t -> shas (l_mods lib) x = true).
Proof.
  intros W.
  assert (K : forall m r, nth_error (l_heap lib) m = Some r -> (exists n i, impl_of lib n i m) -> shas (l_mods lib) (m_name r) = true).
  { intros m r Er (n & i & Hi). destruct (wf_obj _ W _ _ _ Hi) as (r' & Er' & <- & _). rewrite Er in Er'. injection Er' as <-.
    destruct Hi as (impls & E & _). apply shas_get. eauto. }
  apply (walked_both lib (fun m t _ => (exists n i, impl_of lib n i m) -> forall x, In x t -> shas (l_mods lib) x = true)
    (fun l t _ => forall x, In x t -> shas (l_mods lib) x = true)).
  - intros m r l t Er Em Wl IH Hm x [<-|Hx]; [now apply (K m)|auto].
  - intros m r s Er Em Hm x [<-|[]]. now apply (K m).
  - intros x [].
  - auto.
  - auto.
  - intros n i m t0 l t Hi W0 IH0 Wl IHl x Hx. apply in_app_iff in Hx as [Hx|Hx]; eauto.
Qed.
Lemma trace_names h lib root fuel l lib' inc tr : lib_run mlib0 h = Ok lib -> (exists n i, impl_of lib n i root) ->
  collect_modules_t fuel lib root = Ok ((l, lib', inc), tr) -> forall x, In x tr -> known_name h x.
Proof.
  intros R (n0 & i0 & Hi) H x Hx. pose proof (history_ok _ _ R) as Hh. pose proof (hi_wf _ _ Hh) as W.
  assert (Hr : nth_error (l_heap lib) root <> None) by (destruct (wf_obj _ W _ _ _ Hi) as (r & Er & _); congruence).
  assert (L : lext lib lib').
  { assert (E : collect_modules fuel lib root = Ok (l, lib', inc)) by (rewrite collect_erase, H; reflexivity).
    destruct (collect_final fuel lib root l lib' inc W Hr E) as (st & G & _ & _ & -> & _). apply G. }
  destruct (collect_walked fuel lib root l lib' inc tr W Hr H) as (t0 & ns & ds & ts & -> & H0 & Hw & _ & Hd).
  apply (hi_names _ _ Hh). rewrite <- (le_names _ _ L). destruct (walked_names lib' (le_wf _ _ L)) as [N _].
  apply in_app_iff in Hx as [Hx|Hx].
  - destruct H0 as [[_ ->]|H0]; [destruct Hx|]. apply (N _ _ H0); [|exact Hx]. exists n0, i0. now apply (le_impl _ _ L).
  - clear - N Hw Hd Hx. revert ts Hw Hx. induction Hd as [|n d ns ds [_ [i Hi]] Hd IH]; intros ts Hw Hx; inversion Hw; subst; [destruct Hx|].
    cbn [List.concat] in Hx. apply in_app_iff in Hx as [Hx|Hx]; eauto.
Qed.
