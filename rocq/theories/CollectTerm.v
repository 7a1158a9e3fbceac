(** Termination of collect_modules and its ways of failing (C43, C44). *)
From Verif Require Import PyBase PyPath ModulesModel SpecModules ModulesProofs CollectProofs.
From Coq Require Import Permutation.
Local Open Scope string_scope.
Local Open Scope list_scope.

(** ** More fuel changes nothing *)
Lemma collect_item_mono (rec rec' : cst -> nat -> res cst) m st e :
  (forall s x, rec s x <> OutOfFuel -> rec' s x = rec s x) ->
  collect_item rec m st e <> OutOfFuel -> collect_item rec' m st e = collect_item rec m st e.
Proof.
  intros Hr. destruct e as [n|n i| |]; simpl; auto.
  destruct (get (c_lib st) n (Some i)) as [[nm lib]| |]; simpl; auto.
  destruct (match sget (c_dep st) n with Some o => negb (Nat.eqb o nm) | None => false end); auto.
  destruct (shas (mod_opts lib nm) "mdepends"); auto.
Qed.
Lemma fold_mono (rec rec' : cst -> nat -> res cst) m l : forall st,
  (forall s x, rec s x <> OutOfFuel -> rec' s x = rec s x) ->
  fold_res (collect_item rec m) l st <> OutOfFuel ->
  fold_res (collect_item rec' m) l st = fold_res (collect_item rec m) l st.
Proof.
  induction l as [|e l IH]; intros st Hr H; simpl in *; [reflexivity|].
  rewrite (collect_item_mono rec rec' m st e Hr).
  - destruct (collect_item rec m st e); simpl in *; auto.
  - intros E. rewrite E in H. simpl in H. congruence.
Qed.
Lemma visit_mono f : forall f' st m, f <= f' -> visit f st m <> OutOfFuel -> visit f' st m = visit f st m.
Proof.
  induction f as [|f IH]; intros f' st m Hle H; [simpl in H; congruence|].
  destruct f' as [|f']; [lia|]. simpl in *.
  destruct (sget (mod_opts (c_lib st) m) "mdepends") as [v|]; [|reflexivity].
  destruct (iter_oval v) as [l| |]; simpl in *; auto.
  apply fold_mono; [|exact H]. intros s x Hx. apply IH; [lia|exact Hx].
Qed.
Lemma drain_mono f : forall f' root st, f <= f' -> drain f root st <> OutOfFuel ->
  drain f' root st = drain f root st.
Proof.
  induction f as [|f IH]; intros f' root st Hle H; [simpl in H; congruence|].
  destruct f' as [|f']; [lia|]. simpl in *. destruct (c_queue st) as [|n q]; [reflexivity|].
  destruct (shas (c_dep st) n). { apply IH; [lia|exact H]. }
  destruct (get_default (c_lib st) n) as [[dm lib]| |]; simpl in *; auto.
  destruct (shas (mod_opts lib dm) "mdepends").
  - match goal with H : bind (visit f ?s ?x) _ <> _ |- _ =>
      rewrite (visit_mono f f' s x); [|lia|intros E; rewrite E in H; simpl in H; congruence];
      destruct (visit f s x); simpl in *; auto end.
    apply IH; [lia|exact H].
  - simpl in *. apply IH; [lia|exact H].
Qed.
Lemma collect_mono f f' lib root : f <= f' -> collect_modules f lib root <> OutOfFuel ->
  collect_modules f' lib root = collect_modules f lib root.
Proof.
  intros Hle H. unfold collect_modules in *. set (st0 := CS lib [] [] 0 [] []) in *.
  assert (K : (if shas (mod_opts lib root) "mdepends" then visit f st0 root else Ok st0) <> OutOfFuel).
  { intros E. rewrite E in H. simpl in H. congruence. }
  assert (E : (if shas (mod_opts lib root) "mdepends" then visit f' st0 root else Ok st0) =
              (if shas (mod_opts lib root) "mdepends" then visit f st0 root else Ok st0)).
  { destruct (shas (mod_opts lib root) "mdepends"); [|reflexivity]. now apply visit_mono. }
  rewrite E. destruct (if shas (mod_opts lib root) "mdepends" then visit f st0 root else Ok st0) as [st1| |];
    simpl in *; auto.
  rewrite (drain_mono f f'); [reflexivity|exact Hle|]. intros E'. rewrite E' in H. simpl in H. congruence.
Qed.

(** ** Termination without explicit cycles *)
Section Term.
  Variables (lib0 : mlib) (root : nat).
  Hypothesis W0 : wf_lib lib0.
  Hypothesis Hacyc : no_explicit_cycle lib0.

  (** A rank that works for every library met on the way. *)
  Lemma rank_ext : exists rank : nat -> nat, forall lib m n i m',
    lext lib0 lib -> wants lib m (EPair n i) -> impl_of lib n i m' -> rank m' < rank m.
  Proof.
    destruct Hacyc as [rank Hrank].
    exists (fun m => match nth_error (l_heap lib0) m with Some _ => S (rank m) | None => 0 end).
    intros lib m n i m' L Hw Hi. pose proof (wants_back _ _ _ _ L Hw) as Hw0.
    assert (Hm : exists r, nth_error (l_heap lib0) m = Some r) by (destruct Hw0 as (r & v & Hr & _); eauto).
    destruct Hm as [r Hm]. rewrite Hm.
    destruct (le_back _ _ L _ _ _ Hi) as [Hi0|Hn].
    - destruct (nth_error (l_heap lib0) m') eqn:E'; [|lia].
      pose proof (Hrank _ _ _ _ Hw0 Hi0). lia.
    - rewrite Hn. lia.
  Qed.

  Lemma visit_terminates k : forall rank : nat -> nat,
    (forall lib m n i m', lext lib0 lib -> wants lib m (EPair n i) -> impl_of lib n i m' -> rank m' < rank m) ->
    forall st m, good lib0 root st -> asks root st m -> rank m < k -> exists f, visit f st m <> OutOfFuel.
  Proof.
    induction k as [|k IHk]; intros rank Hrank st m G A Hlt; [lia|].
    destruct (sget (mod_opts (c_lib st) m) "mdepends") as [v|] eqn:Ev.
    2: { exists 1. simpl. rewrite Ev. discriminate. }
    destruct (iter_oval v) as [l|e|] eqn:El.
    2: { exists 1. simpl. rewrite Ev, El. simpl. discriminate. }
    2: { destruct v; discriminate. }
    pose proof (asks_heap _ _ _ _ G A) as Hh. pose proof Ev as Ev'. unfold mod_opts in Ev'.
    destruct (nth_error (l_heap (c_lib st)) m) as [r|] eqn:Er; [|congruence].
    assert (Hw : forall e, In e l -> wants (c_lib st) m e) by (intros; eapply wants_items; eauto).
    enough (K : forall l st, good lib0 root st -> asks root st m -> (forall e, In e l -> wants (c_lib st) m e) ->
              exists f, fold_res (collect_item (visit f) m) l st <> OutOfFuel).
    { destruct (K l st G A Hw) as [f Hf]. exists (S f). simpl. rewrite Ev, El. exact Hf. }
    clear st l G A v Ev El Ev' Er Hh Hw. clear r.
    induction l as [|e l IHl]; intros st G A Hw.
    { exists 0. simpl. discriminate. }
    assert (K1 : exists f, collect_item (visit f) m st e <> OutOfFuel).
    { destruct e as [n|n i| |].
      - exists 0. simpl. destruct (shas (c_dep st) n); discriminate.
      - simpl. rewrite get_some. destruct (get_impl (c_lib st) n i) as [[nm lib]|x|] eqn:E; simpl.
        + destruct (get_impl_lext _ _ _ _ _ (le_wf _ _ (g_ext _ _ _ G)) E) as (L & Hi).
          destruct (match sget (c_dep st) n with Some o => negb (Nat.eqb o nm) | None => false end) eqn:Eo.
          { exists 0. discriminate. }
          assert (Hd : sget (c_dep st) n = None \/ sget (c_dep st) n = Some nm).
          { destruct (sget (c_dep st) n) as [o|]; [|now left]. right.
            destruct (Nat.eqb_spec o nm) as [Ho|Ho]; [now rewrite Ho|discriminate]. }
          destruct (shas (mod_opts lib nm) "mdepends"); [|exists 0; discriminate].
          destruct (specify_good lib0 root st lib n nm m (mod_name lib m) i G L Hd Hi A) as (G1 & M1 & A1).
          { left. eapply wants_lext; [exact L|]. apply Hw. now left. }
          { now left. }
          assert (Hlib : lext lib0 lib) by apply (g_ext _ _ _ G1).
          assert (Hr : rank nm < rank m).
          { eapply Hrank; [exact Hlib| |exact Hi]. eapply wants_lext; [exact L|]. apply Hw. now left. }
          apply (IHk rank Hrank); [exact G1|exact A1|lia].
        + exists 0. discriminate.
        + exfalso. destruct (get_impl_cases (c_lib st) n i (le_wf _ _ (g_ext _ _ _ G)))
            as [(y & _ & E')|[_ [(y & _ & _ & E')|[_ [y E']]]]]; congruence.
      - exists 0. discriminate.
      - exists 0. discriminate. }
    destruct K1 as [f1 Hf1].
    destruct (collect_item (visit f1) m st e) as [st1|x|] eqn:E1; [|exists f1; simpl; rewrite E1; discriminate|congruence].
    destruct (collect_item_ok lib0 root (visit f1) m st e st1) as (G1 & M1 & _).
    { intros. now apply (visit_ok lib0 root f1). }
    { exact G. } { exact A. } { apply Hw. now left. } { exact E1. }
    destruct (IHl st1 G1) as [f2 Hf2].
    { eapply asks_mono; eauto. }
    { intros e' He'. eapply wants_lext; [apply M1|]. apply Hw. now right. }
    exists (f1 + f2). cbn [fold_res].
    rewrite (collect_item_mono (visit f1) (visit (f1 + f2))).
    - rewrite E1. cbn [bind]. rewrite (fold_mono (visit f2) (visit (f1 + f2))); [exact Hf2| |exact Hf2].
      intros s y Hy. apply visit_mono; [lia|exact Hy].
    - intros s y Hy. apply visit_mono; [lia|exact Hy].
    - rewrite E1. discriminate.
  Qed.

  Definition undone (st : cst) : nat :=
    List.length (filter (fun n => negb (shas (c_dep st) n)) (dkeys (l_mods lib0))).
  Lemma filter_le {A} (f g : A -> bool) l :
    (forall x, f x = true -> g x = true) -> List.length (filter f l) <= List.length (filter g l).
  Proof.
    intros H. induction l as [|x l IH]; simpl; [lia|]. destruct (f x) eqn:E.
    - rewrite (H _ E). simpl. lia.
    - destruct (g x); simpl; lia.
  Qed.
  Lemma filter_lt {A} (f g : A -> bool) l x :
    (forall x, f x = true -> g x = true) -> In x l -> f x = false -> g x = true ->
    List.length (filter f l) < List.length (filter g l).
  Proof.
    intros H. induction l as [|y l IH]; intros Hi Hf Hg; [destruct Hi|].
    pose proof (filter_le f g l H). simpl. destruct Hi as [->|Hi].
    - rewrite Hf, Hg. simpl. lia.
    - specialize (IH Hi Hf Hg). destruct (f y) eqn:E.
      + rewrite (H _ E). simpl. lia.
      + destruct (g y); simpl; lia.
  Qed.
  Lemma undone_le a b : mono a b -> undone b <= undone a.
  Proof.
    intros M. apply filter_le. intros n H. apply negb_true_iff in H. apply negb_true_iff.
    destruct (shas (c_dep a) n) eqn:E; [|reflexivity]. apply shas_get in E. destruct E as [x E].
    apply (mo_dep _ _ M) in E. unfold dhas in H. now rewrite E in H.
  Qed.

  Lemma drain_terminates u : forall c st,
    good lib0 root st -> all_closed root st -> undone st <= u -> List.length (c_queue st) <= c ->
    exists f, drain f root st <> OutOfFuel.
  Proof.
    destruct rank_ext as [rank Hrank].
    induction u as [u IHu] using (well_founded_induction lt_wf).
    induction c as [|c IHc]; intros st G C Hu Hc.
    { exists 1. simpl. destruct (c_queue st); [discriminate|simpl in Hc; lia]. }
    destruct (c_queue st) as [|n q] eqn:Eq.
    { exists 1. simpl. rewrite Eq. discriminate. }
    set (st0 := CS (c_lib st) (c_dep st) q (c_key st) (c_keys st) (c_inc st)).
    assert (G0 : good lib0 root st0).
    { split; try apply G. intros x Hx. apply (g_queue _ _ _ G). rewrite Eq. now right. }
    destruct (shas (c_dep st) n) eqn:Ed.
    - assert (M0 : mono st st0).
      { split; simpl; eauto.
        - apply lext_refl. apply (le_wf _ _ (g_ext _ _ _ G)).
        - intros x Hx. rewrite Eq in Hx. destruct Hx as [<-|Hx]; auto. }
      destruct (IHc st0 G0) as [f Hf].
      { intros m Hm. destruct (C m Hm). split; [eapply closed_mono|eapply inc_closed_mono]; eauto. }
      { exact Hu. } { simpl in *. lia. }
      exists (S f). simpl. rewrite Eq, Ed. exact Hf.
    - destruct (get_default (c_lib st) n) as [[dm lib]|x|] eqn:Eg.
      2: { exists 1. simpl. rewrite Eq, Ed, Eg. discriminate. }
      2: { exfalso. unfold get_default in Eg. destruct (sget (l_def (c_lib st)) n) as [i|].
           - destruct (get_impl_cases (c_lib st) n i (le_wf _ _ (g_ext _ _ _ G)))
               as [(y & _ & E')|[_ [(y & _ & _ & E')|[_ [y E']]]]]; congruence.
           - destruct (shas (l_mods (c_lib st)) n); discriminate. }
      assert (W := le_wf _ _ (g_ext _ _ _ G)).
      destruct (get_default_ok _ _ _ _ W Eg) as (i & Hdf & Eg').
      destruct (get_impl_lext _ _ _ _ _ W Eg') as (L & Hi).
      destruct (g_queue _ _ _ G n) as (qm & Aq & Wq); [rewrite Eq; now left|].
      assert (Hnone : sget (c_dep st) n = None).
      { unfold dhas in Ed. destruct (sget (c_dep st) n); [discriminate|reflexivity]. }
      destruct (specify_good lib0 root st0 lib n dm qm (mod_name lib root) i G0 L) as (G1 & M1 & A1); auto.
      { right. split; [eapply wants_lext; eauto|]. exists i. rewrite (le_def _ _ L). auto. }
      set (st1 := specify st0 lib n dm (mod_name lib root)) in *.
      assert (M1' : mono st st1).
      { split; try apply M1. intros x Hx. rewrite Eq in Hx. destruct Hx as [<-|Hx].
        - right. simpl. rewrite shas_dset, String.eqb_refl. reflexivity.
        - left. exact Hx. }
      assert (Hlt : undone st1 < undone st).
      { unfold undone. apply filter_lt with (x := n).
        - intros k H. apply negb_true_iff in H. apply negb_true_iff. simpl in H. rewrite shas_dset in H.
          apply orb_false_iff in H. tauto.
        - apply (dhas_In _ string_eqb_spec'). rewrite <- (le_names _ _ (g_ext _ _ _ G1)).
          destruct Hi as (impls & Hi & _). apply shas_get. eauto.
        - apply negb_false_iff. simpl. rewrite shas_dset, String.eqb_refl. reflexivity.
        - apply negb_true_iff. exact Ed. }
      assert (K1 : exists f, (if shas (mod_opts lib dm) "mdepends" then visit f st1 dm else Ok st1) <> OutOfFuel).
      { destruct (shas (mod_opts lib dm) "mdepends"); [|exists 0; discriminate].
        apply (visit_terminates (S (rank dm)) rank Hrank); [exact G1|exact A1|lia]. }
      destruct K1 as [f1 Hf1].
      destruct (if shas (mod_opts lib dm) "mdepends" then visit f1 st1 dm else Ok st1) as [st2|x|] eqn:E2.
      3: congruence.
      2: { exists (S f1). simpl. rewrite Eq, Ed, Eg. simpl. fold st0. fold st1. rewrite E2. discriminate. }
      assert (Hp : visit_post lib0 root st1 st2 dm).
      { destruct (shas (mod_opts lib dm) "mdepends") eqn:Em; [now apply (visit_ok lib0 root f1)|].
        inversion E2; subst st2. split; [exact G1|].
        split; [apply mono_refl; apply (le_wf _ _ (g_ext _ _ _ G1))|].
        destruct (no_mdepends_closed st1 dm Em). repeat split; auto. }
      destruct Hp as (G2 & M2 & C2 & I2 & N2).
      assert (M12 : mono st st2) by (eapply mono_trans; eauto).
      pose proof (undone_le _ _ M2) as Hle.
      destruct (IHu (undone st2)) with (c := List.length (c_queue st2)) (st := st2) as [f2 Hf2]; auto.
      { lia. }
      { intros m [->|[k Hk]].
        - destruct (C root (or_introl eq_refl)). split; [eapply closed_mono|eapply inc_closed_mono]; eauto.
        - apply N2 in Hk. destruct Hk as [Hk|Hk]; [|exact Hk].
          simpl in Hk. destruct (string_dec k n) as [->|Hn].
          + rewrite sget_eq in Hk. inversion Hk; subst m. auto.
          + rewrite sget_neq in Hk by congruence.
            destruct (C m (or_intror (ex_intro _ k Hk))). split; [eapply closed_mono|eapply inc_closed_mono]; eauto. }
      exists (S (f1 + f2)). simpl. rewrite Eq, Ed, Eg. simpl. fold st0. fold st1.
      assert (E3 : (if shas (mod_opts lib dm) "mdepends" then visit (f1 + f2) st1 dm else Ok st1) = Ok st2).
      { destruct (shas (mod_opts lib dm) "mdepends"); [|exact E2].
        rewrite (visit_mono f1); [exact E2|lia|rewrite E2; discriminate]. }
      rewrite E3. simpl. rewrite (drain_mono f2); [exact Hf2|lia|exact Hf2].
  Qed.

  Hypothesis Hroot : nth_error (l_heap lib0) root <> None.

  Lemma start_good : good lib0 root (CS lib0 [] [] 0 [] []).
  Proof.
    split; simpl; try discriminate; auto.
    - now apply lext_refl.
    - intros n [].
    - constructor.
  Qed.

  Lemma check_inc_ok st : good lib0 root st -> check_inc st = Ok tt.
  Proof.
    intros G. unfold check_inc.
    assert (K : forall l, (forall n, In n l -> shas (c_inc st) n = true) ->
              fold_res (fun _ n => if shas (c_inc st) n then Ok tt else Raise (KeyError n)) l tt = Ok tt).
    { induction l as [|n l IH]; intros H; [reflexivity|]. simpl. rewrite (H n) by now left. simpl.
      apply IH. intros. apply H. now right. }
    apply K. intros n Hn. apply (dhas_In _ string_eqb_spec'), shas_get in Hn. destruct Hn as [m Hm].
    now apply (g_inc _ _ _ G n m).
  Qed.
  Lemma with_keys_ok st : good lib0 root st -> exists r, with_keys (c_keys st) (dvalues (c_dep st)) = Ok r.
  Proof.
    intros G. assert (K : forall l, (forall m, In m l -> exists k, nget (c_keys st) m = Some k) ->
      exists r, with_keys (c_keys st) l = Ok r).
    { induction l as [|m l IH]; intros H; [eexists; reflexivity|]. simpl.
      destruct (H m (or_introl eq_refl)) as [k ->]. destruct IH as [r ->]; [intros; apply H; now right|].
      eexists; reflexivity. }
    apply K. intros m Hm. apply (in_values st m (g_nodup _ _ _ G)) in Hm. destruct Hm as [n Hn].
    now apply (g_keys _ _ _ G n).
  Qed.

  Lemma collect_terminates : exists f, collect_modules f lib0 root <> OutOfFuel.
  Proof.
    destruct rank_ext as [rank Hrank]. set (st0 := CS lib0 [] [] 0 [] []).
    assert (K1 : exists f, (if shas (mod_opts lib0 root) "mdepends" then visit f st0 root else Ok st0) <> OutOfFuel).
    { destruct (shas (mod_opts lib0 root) "mdepends"); [|exists 0; discriminate].
      apply (visit_terminates (S (rank root)) rank Hrank); [apply start_good|now left|lia]. }
    destruct K1 as [f1 Hf1].
    destruct (if shas (mod_opts lib0 root) "mdepends" then visit f1 st0 root else Ok st0) as [st1|x|] eqn:E1.
    3: congruence.
    2: { exists f1. unfold collect_modules. fold st0. rewrite E1. discriminate. }
    assert (Hp : visit_post lib0 root st0 st1 root).
    { destruct (shas (mod_opts lib0 root) "mdepends") eqn:Em.
      - apply (visit_ok lib0 root f1); [apply start_good|now left|exact E1].
      - inversion E1; subst st1. split; [apply start_good|]. split; [now apply mono_refl|].
        destruct (no_mdepends_closed st0 root Em). repeat split; auto. }
    destruct Hp as (G1 & M1 & C1 & I1 & N1).
    destruct (drain_terminates (undone st1) (List.length (c_queue st1)) st1 G1) as [f2 Hf2]; auto.
    { intros m [->|[k Hk]]; [auto|]. apply N1 in Hk. destruct Hk as [Hk|Hk]; [discriminate|exact Hk]. }
    exists (f1 + f2). unfold collect_modules. fold st0.
    assert (E3 : (if shas (mod_opts lib0 root) "mdepends" then visit (f1 + f2) st0 root else Ok st0) = Ok st1).
    { destruct (shas (mod_opts lib0 root) "mdepends"); [|exact E1].
      rewrite (visit_mono f1); [exact E1|lia|rewrite E1; discriminate]. }
    rewrite E3. simpl. rewrite (drain_mono f2); [|lia|exact Hf2].
    destruct (drain f2 root st1) as [st2|x|] eqn:E4; simpl; [|discriminate|congruence].
    assert (G2 : good lib0 root st2).
    { apply (drain_ok lib0 root f2 st1); auto. intros m [->|[k Hk]]; [auto|].
      apply N1 in Hk. destruct Hk as [Hk|Hk]; [discriminate|exact Hk]. }
    rewrite (check_inc_ok st2 G2). simpl. destruct (with_keys_ok st2 G2) as [r ->]. simpl. discriminate.
  Qed.
End Term.

(** ** With proper mdepends options, failing means ending the program *)
Section Fails.
  Variables (lib0 : mlib) (root : nat).
  Hypothesis W0 : wf_lib lib0.
  Hypothesis Hroot : nth_error (l_heap lib0) root <> None.
  Hypothesis Hproper : proper_mdepends lib0.

  Lemma proper_lext lib : lext lib0 lib -> proper_mdepends lib.
  Proof.
    intros L m r v Hr Hv. destruct (le_new _ _ L _ _ Hr) as [H|[_ H]]; [eapply Hproper; eauto|congruence].
  Qed.
  Lemma get_impl_raise lib n i e : wf_lib lib -> get_impl lib n i = Raise e -> exists msg, e = SystemExit msg.
  Proof.
    intros W H. destruct (get_impl_cases lib n i W) as [(y & _ & E')|[_ [(y & _ & _ & E')|[_ [y E']]]]]; try congruence.
    exists y. congruence.
  Qed.
  Lemma visit_raise f : forall st m e, good lib0 root st -> asks root st m ->
    shas (mod_opts (c_lib st) m) "mdepends" = true -> visit f st m = Raise e -> exists msg, e = SystemExit msg.
  Proof.
    induction f as [|f IH]; intros st m e G A Hs H; [discriminate|]. simpl in H.
    destruct (sget (mod_opts (c_lib st) m) "mdepends") as [v|] eqn:Ev.
    2: { unfold dhas in Hs. rewrite Ev in Hs. discriminate. }
    pose proof (asks_heap _ _ _ _ G A) as Hh. pose proof Ev as Ev'. unfold mod_opts in Ev'.
    destruct (nth_error (l_heap (c_lib st)) m) as [r|] eqn:Er; [|congruence].
    destruct (proper_lext _ (g_ext _ _ _ G) _ _ _ Er Ev') as (l & -> & Hl). simpl in H.
    assert (Hw : forall e, In e l -> wants (c_lib st) m e) by (intros; eapply wants_items; eauto; reflexivity).
    clear Ev Ev' Er Hh Hs. clear r. revert st G A Hw H. induction l as [|x l IHl]; intros st G A Hw H; [discriminate|].
    simpl in H. destruct (collect_item (visit f) m st x) as [st1|y|] eqn:E1; simpl in H; try discriminate.
    - destruct (collect_item_ok lib0 root (visit f) m st x st1) as (G1 & M1 & _).
      { intros. now apply (visit_ok lib0 root f). }
      { exact G. } { exact A. } { apply Hw. now left. } { exact E1. }
      apply (IHl (fun e' He' => Hl e' (or_intror He')) st1 G1); auto.
      { eapply asks_mono; eauto. }
      { intros e' He'. eapply wants_lext; [apply M1|]. apply Hw. now right. }
    - inversion H; subst y. clear H IHl.
      destruct (Hl x (or_introl eq_refl)) as [[n ->]|[n [i ->]]]; simpl in E1.
      + destruct (shas (c_dep st) n); discriminate.
      + rewrite get_some in E1. destruct (get_impl (c_lib st) n i) as [[nm lib]|y|] eqn:E; simpl in E1; try discriminate.
        2: { inversion E1; subst y. eapply get_impl_raise; [|exact E]. apply (le_wf _ _ (g_ext _ _ _ G)). }
        destruct (get_impl_lext _ _ _ _ _ (le_wf _ _ (g_ext _ _ _ G)) E) as (L & Hi).
        destruct (match sget (c_dep st) n with Some o => negb (Nat.eqb o nm) | None => false end) eqn:Eo.
        { inversion E1. eauto. }
        assert (Hd : sget (c_dep st) n = None \/ sget (c_dep st) n = Some nm).
        { destruct (sget (c_dep st) n) as [o|]; [|now left]. right.
          destruct (Nat.eqb_spec o nm) as [Ho|Ho]; [now rewrite Ho|discriminate]. }
        destruct (shas (mod_opts lib nm) "mdepends") eqn:Em; [|discriminate].
        destruct (specify_good lib0 root st lib n nm m (mod_name lib m) i G L Hd Hi A) as (G1 & M1 & A1).
        { left. eapply wants_lext; [exact L|]. apply Hw. now left. }
        { now left. }
        eapply IH; [exact G1|exact A1|exact Em|exact E1].
  Qed.

  Lemma drain_raise f : forall st e, good lib0 root st -> all_closed root st ->
    drain f root st = Raise e -> exists msg, e = SystemExit msg.
  Proof.
    induction f as [|f IH]; intros st e G C H; [discriminate|]. simpl in H.
    destruct (c_queue st) as [|n q] eqn:Eq; [discriminate|].
    set (st0 := CS (c_lib st) (c_dep st) q (c_key st) (c_keys st) (c_inc st)) in *.
    assert (G0 : good lib0 root st0).
    { split; try apply G. intros x Hx. apply (g_queue _ _ _ G). rewrite Eq. now right. }
    destruct (shas (c_dep st) n) eqn:Ed.
    - assert (M0 : mono st st0).
      { split; simpl; eauto.
        - apply lext_refl. apply (le_wf _ _ (g_ext _ _ _ G)).
        - intros x Hx. rewrite Eq in Hx. destruct Hx as [<-|Hx]; auto. }
      apply (IH st0 e G0); auto.
      intros m Hm. destruct (C m Hm). split; [eapply closed_mono|eapply inc_closed_mono]; eauto.
    - assert (W := le_wf _ _ (g_ext _ _ _ G)).
      destruct (get_default (c_lib st) n) as [[dm lib]|x|] eqn:Eg; simpl in H; try discriminate.
      2: { inversion H; subst x. unfold get_default in Eg. destruct (sget (l_def (c_lib st)) n) as [i|].
           - eapply get_impl_raise; eauto.
           - destruct (shas (l_mods (c_lib st)) n); inversion Eg; eauto. }
      destruct (get_default_ok _ _ _ _ W Eg) as (i & Hdf & Eg').
      destruct (get_impl_lext _ _ _ _ _ W Eg') as (L & Hi).
      destruct (g_queue _ _ _ G n) as (qm & Aq & Wq); [rewrite Eq; now left|].
      assert (Hnone : sget (c_dep st) n = None).
      { unfold dhas in Ed. destruct (sget (c_dep st) n); [discriminate|reflexivity]. }
      destruct (specify_good lib0 root st0 lib n dm qm (mod_name lib root) i G0 L) as (G1 & M1 & A1); auto.
      { right. split; [eapply wants_lext; eauto|]. exists i. rewrite (le_def _ _ L). auto. }
      set (st1 := specify st0 lib n dm (mod_name lib root)) in *.
      assert (M1' : mono st st1).
      { split; try apply M1. intros x Hx. rewrite Eq in Hx. destruct Hx as [<-|Hx].
        - right. simpl. rewrite shas_dset, String.eqb_refl. reflexivity.
        - left. exact Hx. }
      destruct (shas (mod_opts lib dm) "mdepends") eqn:Em.
      + destruct (visit f st1 dm) as [st2|x|] eqn:E2; simpl in H; try discriminate.
        2: { inversion H; subst x. eapply visit_raise; [exact G1|exact A1|exact Em|exact E2]. }
        destruct (visit_ok lib0 root f st1 dm st2 G1 A1 E2) as (G2 & M2 & C2 & I2 & N2).
        assert (M12 : mono st st2) by (eapply mono_trans; eauto).
        apply (IH st2 e G2); auto.
        intros m [->|[k Hk]].
        * destruct (C root (or_introl eq_refl)). split; [eapply closed_mono|eapply inc_closed_mono]; eauto.
        * apply N2 in Hk. destruct Hk as [Hk|Hk]; [|exact Hk].
          simpl in Hk. destruct (string_dec k n) as [->|Hn].
          -- rewrite sget_eq in Hk. inversion Hk; subst m. auto.
          -- rewrite sget_neq in Hk by congruence.
             destruct (C m (or_intror (ex_intro _ k Hk))). split; [eapply closed_mono|eapply inc_closed_mono]; eauto.
      + simpl in H. apply (IH st1 e G1); auto.
        intros m [->|[k Hk]].
        * destruct (C root (or_introl eq_refl)). split; [eapply closed_mono|eapply inc_closed_mono]; eauto.
        * simpl in Hk. destruct (string_dec k n) as [->|Hn].
          -- rewrite sget_eq in Hk. inversion Hk; subst m. now apply no_mdepends_closed.
          -- rewrite sget_neq in Hk by congruence.
             destruct (C m (or_intror (ex_intro _ k Hk))). split; [eapply closed_mono|eapply inc_closed_mono]; eauto.
  Qed.

  Lemma collect_raise f e : collect_modules f lib0 root = Raise e -> exists msg, e = SystemExit msg.
  Proof.
    unfold collect_modules. set (st0 := CS lib0 [] [] 0 [] []).
    assert (G0 : good lib0 root st0) by (apply start_good; assumption).
    intros H.
    assert (K : forall st1, visit_post lib0 root st0 st1 root ->
      (do! st2 <- drain f root st1; do! _ <- check_inc st2;
       do! l <- with_keys (c_keys st2) (dvalues (c_dep st2));
       Ok (map snd (sort_keys l), c_lib st2, c_inc st2)) = Raise e -> exists msg, e = SystemExit msg).
    { intros st1 (G1 & M1 & C1 & I1 & N1) H1.
      assert (AC : all_closed root st1).
      { intros m [->|[k Hk]]; [auto|]. apply N1 in Hk. destruct Hk as [Hk|Hk]; [discriminate|exact Hk]. }
      destruct (drain f root st1) as [st2|x|] eqn:E2; simpl in H1; try discriminate.
      - destruct (drain_ok lib0 root f st1 st2 G1 AC E2) as (G2 & _).
        rewrite (check_inc_ok _ _ st2 G2) in H1. simpl in H1. destruct (with_keys_ok _ _ st2 G2) as [r Er].
        rewrite Er in H1. simpl in H1. discriminate.
      - inversion H1; subst x. eapply drain_raise; eauto. }
    destruct (shas (mod_opts lib0 root) "mdepends") eqn:Em.
    - destruct (visit f st0 root) as [st1|x|] eqn:E1; simpl in H; try discriminate.
      + apply (K st1); [|exact H]. apply (visit_ok lib0 root f); [exact G0|now left|exact E1].
      + inversion H; subst x. eapply visit_raise; [exact G0|now left|exact Em|exact E1].
    - simpl in H. apply (K st0); [|exact H]. split; [exact G0|]. split; [now apply mono_refl|].
      destruct (no_mdepends_closed st0 root Em). repeat split; auto.
  Qed.
End Fails.

(** ** Success excludes explicit cycles *)
Inductive chain (lib : mlib) : nat -> nat -> Prop :=
| chain_0 : forall m, chain lib 0 m
| chain_S : forall k m n i m', wants lib m (EPair n i) -> impl_of lib n i m' -> chain lib k m' ->
    chain lib (S k) m.
Definition bounded (lib : mlib) (f m : nat) : Prop := forall k, chain lib k m -> k <= f.

Lemma bounded_le lib f f' m : f <= f' -> bounded lib f m -> bounded lib f' m.
Proof. intros H B k C. apply B in C. lia. Qed.

Section Height.
  Variables (lib0 : mlib) (root : nat).

  (** The explicit item [e] of a module has been followed down. *)
  Definition followed (L : mlib) (f : nat) (e : elem) : Prop :=
    match e with EPair n i => forall m', impl_of L n i m' -> bounded L f m' | _ => True end.

  Definition height_post (f : nat) (st st' : cst) (m : nat) : Prop :=
    forall L, lext (c_lib st') L ->
      bounded L f m /\
      (forall n x, sget (c_dep st') n = Some x -> sget (c_dep st) n = Some x \/ bounded L f x).

  Lemma no_mdepends_bounded lib L m f :
    lext lib L -> shas (mod_opts lib m) "mdepends" = false -> bounded L f m.
  Proof.
    intros E H k C. inversion C as [|k' m1 n i m' Hw Hi C' E1 E2]; subst; [lia|].
    apply (wants_back _ _ _ _ E) in Hw. destruct Hw as (r & v & Hr & Hv & _).
    unfold mod_opts in H. rewrite Hr in H. unfold dhas in H. rewrite Hv in H. discriminate.
  Qed.

  Lemma item_height f rec m st e st' :
    (forall st1 nm st2, good lib0 root st1 -> asks root st1 nm -> rec st1 nm = Ok st2 ->
       visit_post lib0 root st1 st2 nm /\ height_post f st1 st2 nm) ->
    good lib0 root st -> asks root st m -> wants (c_lib st) m e -> collect_item rec m st e = Ok st' ->
    forall L, lext (c_lib st') L ->
      followed L f e /\
      (forall n x, sget (c_dep st') n = Some x -> sget (c_dep st) n = Some x \/ bounded L f x).
  Proof.
    intros Hrec G A We H L HL. destruct e as [n|n i| |]; simpl in H; try discriminate.
    - split; [exact Logic.I|]. destruct (shas (c_dep st) n); inversion H; subst st'; simpl; auto.
    - rewrite get_some in H. destruct (get_impl (c_lib st) n i) as [[nm lib]| |] eqn:E; simpl in H; try discriminate.
      destruct (get_impl_lext _ _ _ _ _ (le_wf _ _ (g_ext _ _ _ G)) E) as (Lx & Hi).
      assert (Hd : sget (c_dep st) n = None \/ sget (c_dep st) n = Some nm).
      { destruct (sget (c_dep st) n) as [o|]; [|now left]. right.
        destruct (Nat.eqb_spec o nm) as [Ho|Ho]; [now rewrite Ho|simpl in H; discriminate]. }
      assert (H' : (if shas (mod_opts lib nm) "mdepends"
                    then rec (specify st lib n nm (mod_name lib m)) nm
                    else Ok (specify st lib n nm (mod_name lib m))) = Ok st').
      { destruct Hd as [Hd|Hd]; rewrite Hd in H; [exact H|]. now rewrite Nat.eqb_refl in H. }
      clear H.
      destruct (specify_good lib0 root st lib n nm m (mod_name lib m) i G Lx Hd Hi A) as (G1 & M1 & A1).
      { left. eapply wants_lext; eauto. }
      { now left. }
      set (st1 := specify st lib n nm (mod_name lib m)) in *.
      assert (Hp : lext lib L /\ bounded L f nm /\
                (forall n0 x, sget (c_dep st') n0 = Some x -> sget (c_dep st1) n0 = Some x \/ bounded L f x)).
      { destruct (shas (mod_opts lib nm) "mdepends") eqn:Em.
        - destruct (Hrec st1 nm st' G1 A1 H') as ((_ & M2 & _) & Hh). destruct (Hh L HL). split; [|auto].
          eapply lext_trans; [|exact HL]. apply (mo_ext _ _ M2).
        - inversion H'; subst st'. split; [exact HL|].
          split; [eapply no_mdepends_bounded; [exact HL|exact Em]|auto]. }
      destruct Hp as (HL1 & B & N). split.
      + simpl. intros m' Hm'. apply (le_impl _ _ HL1) in Hi. now rewrite (impl_of_fun _ _ _ _ _ Hm' Hi).
      + intros k x Hx. apply N in Hx. destruct Hx as [Hx|Hx]; [|auto].
        simpl in Hx. destruct (string_dec k n) as [->|Hk].
        * rewrite sget_eq in Hx. inversion Hx; subst x. auto.
        * rewrite sget_neq in Hx by congruence. auto.
  Qed.

  Lemma fold_height f rec m l : forall st st',
    (forall st1 nm st2, good lib0 root st1 -> asks root st1 nm -> rec st1 nm = Ok st2 ->
       visit_post lib0 root st1 st2 nm /\ height_post f st1 st2 nm) ->
    good lib0 root st -> asks root st m -> (forall e, In e l -> wants (c_lib st) m e) ->
    fold_res (collect_item rec m) l st = Ok st' ->
    forall L, lext (c_lib st') L ->
      (forall e, In e l -> followed L f e) /\
      (forall n x, sget (c_dep st') n = Some x -> sget (c_dep st) n = Some x \/ bounded L f x).
  Proof.
    induction l as [|e l IH]; intros st st' Hrec G A Hw H L HL; simpl in H.
    - inversion H; subst st'. split; [intros e []|auto].
    - destruct (collect_item rec m st e) as [st1| |] eqn:E; simpl in H; try discriminate.
      assert (Hrec' : forall st1 nm st2, good lib0 root st1 -> asks root st1 nm -> rec st1 nm = Ok st2 ->
                 visit_post lib0 root st1 st2 nm) by (intros; now apply Hrec).
      destruct (collect_item_ok lib0 root rec m st e st1 Hrec' G A (Hw e (or_introl eq_refl)) E) as (G1 & M1 & _).
      assert (A1 : asks root st1 m) by (eapply asks_mono; eauto).
      assert (Hw1 : forall e', In e' l -> wants (c_lib st1) m e').
      { intros e' He'. eapply wants_lext; [apply (mo_ext _ _ M1)|]. apply Hw. now right. }
      destruct (fold_ok lib0 root rec m l st1 st' Hrec' G1 A1 Hw1 H) as (_ & M2 & _).
      destruct (IH st1 st' Hrec G1 A1 Hw1 H L HL) as (F & N).
      destruct (item_height f rec m st e st1 Hrec G A (Hw e (or_introl eq_refl)) E L) as (F1 & N1).
      { eapply lext_trans; [apply (mo_ext _ _ M2)|exact HL]. }
      split.
      + intros e' [<-|He']; auto.
      + intros n x Hx. apply N in Hx. destruct Hx as [Hx|Hx]; auto.
  Qed.

  Lemma visit_height f : forall st m st',
    good lib0 root st -> asks root st m -> visit f st m = Ok st' -> height_post f st st' m.
  Proof.
    induction f as [|f IH]; intros st m st' G A H; [discriminate|].
    pose proof H as H0. apply (visit_ok lib0 root (S f)) in H0; auto. destruct H0 as (_ & M' & _).
    simpl in H.
    destruct (sget (mod_opts (c_lib st) m) "mdepends") as [v|] eqn:Ev; [|discriminate].
    destruct (iter_oval v) as [l| |] eqn:El; simpl in H; try discriminate.
    pose proof (asks_heap _ _ _ _ G A) as Hh. unfold mod_opts in Ev.
    destruct (nth_error (l_heap (c_lib st)) m) as [r|] eqn:Er; [|congruence].
    assert (Hw : forall e, wants (c_lib st) m e <-> In e l) by (intros; eapply wants_items; eauto).
    intros L HL.
    destruct (fold_height f (visit f) m l st st') with (L := L) as (F & N); auto.
    { intros st1 nm st2 G1 A1 E1. split; [now apply (visit_ok lib0 root f)|now apply IH]. }
    { intros e He. now apply Hw. }
    split.
    - intros k C. inversion C as [|k' m1 n i m' Hwx Hi C' E1 E2]; subst; [lia|].
      apply (wants_back _ _ _ _ HL), (wants_back _ _ _ _ (mo_ext _ _ M')), Hw in Hwx.
      apply F in Hwx. simpl in Hwx. apply Hwx in Hi. apply Hi in C'. lia.
    - intros n x Hx. apply N in Hx. destruct Hx as [Hx|Hx]; [auto|right; eapply bounded_le; [|exact Hx]; lia].
  Qed.

  Lemma drain_height f : forall st st',
    good lib0 root st -> all_closed root st -> drain f root st = Ok st' ->
    forall L, lext (c_lib st') L ->
      forall n x, sget (c_dep st') n = Some x -> sget (c_dep st) n = Some x \/ bounded L f x.
  Proof.
    induction f as [|f IH]; intros st st' G C H L HL; [discriminate|].
    pose proof H as H0. simpl in H.
    destruct (c_queue st) as [|n q] eqn:Eq; [inversion H; subst st'; auto|].
    set (st0 := CS (c_lib st) (c_dep st) q (c_key st) (c_keys st) (c_inc st)) in *.
    assert (G0 : good lib0 root st0).
    { split; try apply G. intros x Hx. apply (g_queue _ _ _ G). rewrite Eq. now right. }
    destruct (shas (c_dep st) n) eqn:Ed.
    - assert (M0 : mono st st0).
      { split; simpl; eauto.
        - apply lext_refl. apply (le_wf _ _ (g_ext _ _ _ G)).
        - intros x Hx. rewrite Eq in Hx. destruct Hx as [<-|Hx]; auto. }
      assert (C0 : all_closed root st0).
      { intros m Hm. destruct (C m Hm). split; [eapply closed_mono|eapply inc_closed_mono]; eauto. }
      intros k x Hx. destruct (IH st0 st' G0 C0 H L HL k x Hx) as [K|K]; [now left|].
      right. eapply bounded_le; [|exact K]. lia.
    - assert (W := le_wf _ _ (g_ext _ _ _ G)).
      destruct (get_default (c_lib st) n) as [[dm lib]|x|] eqn:Eg; simpl in H; try discriminate.
      destruct (get_default_ok _ _ _ _ W Eg) as (i & Hdf & Eg').
      destruct (get_impl_lext _ _ _ _ _ W Eg') as (Lx & Hi).
      destruct (g_queue _ _ _ G n) as (qm & Aq & Wq); [rewrite Eq; now left|].
      assert (Hnone : sget (c_dep st) n = None).
      { unfold dhas in Ed. destruct (sget (c_dep st) n); [discriminate|reflexivity]. }
      destruct (specify_good lib0 root st0 lib n dm qm (mod_name lib root) i G0 Lx) as (G1 & M1 & A1); auto.
      { right. split; [eapply wants_lext; eauto|]. exists i. rewrite (le_def _ _ Lx). auto. }
      set (st1 := specify st0 lib n dm (mod_name lib root)) in *.
      assert (M1' : mono st st1).
      { split; try apply M1. intros x Hx. rewrite Eq in Hx. destruct Hx as [<-|Hx].
        - right. simpl. rewrite shas_dset, String.eqb_refl. reflexivity.
        - left. exact Hx. }
      assert (Hp : exists st2, (if shas (mod_opts lib dm) "mdepends" then visit f st1 dm else Ok st1) = Ok st2 /\
                     drain f root st2 = Ok st').
      { destruct (if shas (mod_opts lib dm) "mdepends" then visit f st1 dm else Ok st1); simpl in H;
          try discriminate. eauto. }
      destruct Hp as (st2 & E2 & H2). clear H.
      assert (Hp : visit_post lib0 root st1 st2 dm /\ height_post f st1 st2 dm).
      { destruct (shas (mod_opts lib dm) "mdepends") eqn:Em.
        - split; [now apply (visit_ok lib0 root f)|now apply visit_height].
        - inversion E2; subst st2. split.
          + split; [exact G1|]. split; [apply mono_refl; apply (le_wf _ _ (g_ext _ _ _ G1))|].
            destruct (no_mdepends_closed st1 dm Em). repeat split; auto.
          + intros L' HL'. split; [eapply no_mdepends_bounded; [exact HL'|exact Em]|auto]. }
      destruct Hp as ((G2 & M2 & C2 & I2 & N2) & Hh).
      assert (M12 : mono st st2) by (eapply mono_trans; eauto).
      assert (C2' : all_closed root st2).
      { intros m [->|[k Hk]].
        - destruct (C root (or_introl eq_refl)). split; [eapply closed_mono|eapply inc_closed_mono]; eauto.
        - apply N2 in Hk. destruct Hk as [Hk|Hk]; [|exact Hk].
          simpl in Hk. destruct (string_dec k n) as [->|Hn].
          + rewrite sget_eq in Hk. inversion Hk; subst m. auto.
          + rewrite sget_neq in Hk by congruence.
            destruct (C m (or_intror (ex_intro _ k Hk))). split; [eapply closed_mono|eapply inc_closed_mono]; eauto. }
      destruct (drain_ok lib0 root f st2 st' G2 C2' H2) as (_ & M3 & _).
      destruct (Hh L) as (B & N).
      { eapply lext_trans; [apply (mo_ext _ _ M3)|exact HL]. }
      intros k x Hx. destruct (IH st2 st' G2 C2' H2 L HL k x Hx) as [K|K].
      + apply N in K. destruct K as [K|K]; [|right; eapply bounded_le; [|exact K]; lia].
        simpl in K. destruct (string_dec k n) as [->|Hk].
        * rewrite sget_eq in K. inversion K; subst x. right. eapply bounded_le; [|exact B]. lia.
        * rewrite sget_neq in K by congruence. auto.
      + right. eapply bounded_le; [|exact K]. lia.
  Qed.
End Height.

Lemma chain_shorter lib k : forall m, chain lib (S k) m -> chain lib k m.
Proof.
  induction k as [|k IH]; intros m C; [constructor|].
  inversion C as [|k' m1 n i m' Hw Hi C' E1 E2]; subst. econstructor; eauto.
Qed.
Lemma path_chain lib m m' k : explicit_path lib m m' -> chain lib k m' -> chain lib (S k) m.
Proof.
  intros P C. induction P as [m n i m' Hw Hi|m n i m' m'' Hw Hi P IH].
  - econstructor; eauto.
  - econstructor; eauto. apply chain_shorter. auto.
Qed.
Lemma cycle_chain lib m k : explicit_path lib m m -> chain lib k m.
Proof. intros P. induction k as [|k IH]; [constructor|]. now apply path_chain with m. Qed.

Lemma collect_no_cycle f lib root l lib' inc m :
  wf_lib lib -> nth_error (l_heap lib) root <> None ->
  collect_modules f lib root = Ok (l, lib', inc) -> m = root \/ In m l -> ~ explicit_path lib' m m.
Proof.
  intros W Hr H Hm P. destruct (collect_final _ _ _ _ _ _ W Hr H) as (st & G & AC & Q & -> & _ & Pm).
  assert (B : bounded (c_lib st) f m); [|assert (X := B (S f) (cycle_chain _ _ (S f) P)); lia].
  unfold collect_modules in H. set (st0 := CS lib [] [] 0 [] []) in *.
  assert (G0 : good lib root st0) by (apply start_good; assumption).
  assert (Hp : exists st1, (if shas (mod_opts lib root) "mdepends" then visit f st0 root else Ok st0) = Ok st1 /\
      (do! st2 <- drain f root st1; do! _ <- check_inc st2;
       do! l <- with_keys (c_keys st2) (dvalues (c_dep st2));
       Ok (map snd (sort_keys l), c_lib st2, c_inc st2)) = Ok (l, c_lib st, inc)).
  { destruct (if shas (mod_opts lib root) "mdepends" then visit f st0 root else Ok st0); simpl in H;
      try discriminate. eauto. }
  destruct Hp as (st1 & E1 & H1). clear H.
  assert (Hp : visit_post lib root st0 st1 root /\ height_post f st0 st1 root).
  { destruct (shas (mod_opts lib root) "mdepends") eqn:Em.
    - split; [apply (visit_ok lib root f); auto; now left|]. eapply visit_height; [exact G0|now left|exact E1].
    - inversion E1; subst st1. split.
      + split; [exact G0|]. split; [now apply mono_refl|].
        destruct (no_mdepends_closed st0 root Em). repeat split; auto.
      + intros L' HL'. split; [eapply no_mdepends_bounded; [exact HL'|exact Em]|auto]. }
  destruct Hp as ((G1 & M1 & C1 & I1 & N1) & Hh).
  assert (C1' : all_closed root st1).
  { intros x [->|[k Hk]]; [auto|]. apply N1 in Hk. destruct Hk as [Hk|Hk]; [discriminate|exact Hk]. }
  destruct (drain f root st1) as [st2| |] eqn:E2; simpl in H1; try discriminate.
  destruct (drain_ok lib root f st1 st2 G1 C1' E2) as (G2 & M2 & C2 & Q2).
  destruct (check_inc st2); simpl in H1; try discriminate.
  destruct (with_keys (c_keys st2) (dvalues (c_dep st2))) as [r| |] eqn:E3; simpl in H1; try discriminate.
  assert (Hl : l = map snd (sort_keys r)) by congruence.
  assert (El : c_lib st2 = c_lib st) by congruence.
  clear H1. rewrite <- El. rewrite <- El in P.
  assert (W2 : wf_lib (c_lib st2)) by apply (le_wf _ _ (g_ext _ _ _ G2)).
  destruct (Hh (c_lib st2) (mo_ext _ _ M2)) as (B & N).
  destruct Hm as [->|Hm]; [exact B|].
  assert (Hin : exists n, sget (c_dep st2) n = Some m).
  { apply (in_values st2 m (g_nodup _ _ _ G2)). rewrite <- (with_keys_map _ _ _ E3). rewrite Hl in Hm.
    eapply Permutation_in; [|exact Hm]. apply Permutation_map, Permutation_sym, sort_keys_perm. }
  destruct Hin as [n Hn].
  destruct (drain_height lib root f st1 st2 G1 C1' E2 (c_lib st2) (lext_refl _ W2) n m Hn) as [K|K]; [|exact K].
  apply N in K. destruct K as [K|K]; [discriminate|exact K].
Qed.
