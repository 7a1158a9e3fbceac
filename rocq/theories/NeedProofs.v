(** Lemmas about the evaluation of need_update (core.py:40-54, 322-347). *)
From Coq Require Import Permutation.
From Verif Require Import PyBase SolverModel InvokerModel CoreModel SpecCore CoreProofs.

Lemma lupd_length {A} (l : list A) i v : List.length (lupd l i v) = List.length l.
Proof. revert i; induction l as [|x l IH]; intros [|i]; simpl; auto. Qed.
Lemma lupd_nth {A} (l : list A) i v j d :
  nth j (lupd l i v) d = if (j =? i) && (i <? List.length l) then v else nth j l d.
Proof.
  revert i j; induction l as [|x l IH]; intros [|i] [|j]; simpl; auto.
  - destruct (j =? i); reflexivity.
  - rewrite IH. reflexivity.
Qed.

(** Everything except the mutable fields need_update and cached_deplist is the same. *)
Definition same_static (c c' : core) : Prop :=
  c_targets c = c_targets c' /\ c_threads c = c_threads c' /\
  List.length (c_heap c) = List.length (c_heap c') /\
  forall i, t_name (obj c i) = t_name (obj c' i) /\ t_deps (obj c i) = t_deps (obj c' i) /\
            t_class (obj c i) = t_class (obj c' i).

Lemma static_refl c : same_static c c.
Proof. repeat split. Qed.
Lemma static_trans a b c : same_static a b -> same_static b c -> same_static a c.
Proof.
  intros (A1 & A2 & A3 & A4) (B1 & B2 & B3 & B4). repeat split; try congruence;
    destruct (A4 i) as (X & Y & Z), (B4 i) as (X' & Y' & Z'); congruence.
Qed.
Lemma static_sym a b : same_static a b -> same_static b a.
Proof.
  intros (A1 & A2 & A3 & A4). repeat split; try congruence;
    destruct (A4 i) as (X & Y & Z); congruence.
Qed.

Lemma obj_set_obj c i t j :
  obj (set_obj c i t) j = if (j =? i) && (i <? List.length (c_heap c)) then t else obj c j.
Proof. unfold obj, set_obj. simpl. apply lupd_nth. Qed.

Lemma static_set_obj c i t :
  t_name t = t_name (obj c i) -> t_deps t = t_deps (obj c i) -> t_class t = t_class (obj c i) ->
  same_static c (set_obj c i t).
Proof.
  intros H1 H2 H3. split; [reflexivity|]. split; [reflexivity|]. split; [symmetry; apply lupd_length|].
  intros j. rewrite obj_set_obj. destruct (Nat.eqb_spec j i) as [->|n]; simpl; [|auto].
  destruct (_ <? _); auto.
Qed.
Lemma static_set_need c i b : same_static c (set_need c i b).
Proof. apply static_set_obj; reflexivity. Qed.
Lemma static_set_cached c i l : same_static c (set_cached c i l).
Proof. apply static_set_obj; reflexivity. Qed.

Lemma need_set_need c i b j : t_need (obj (set_need c i b) j) =
  if (j =? i) && (i <? List.length (c_heap c)) then b else t_need (obj c j).
Proof. unfold set_need. rewrite obj_set_obj. destruct (_ && _); reflexivity. Qed.
Lemma cached_set_need c i b j : t_cached (obj (set_need c i b) j) = t_cached (obj c j).
Proof.
  unfold set_need. rewrite obj_set_obj. destruct (Nat.eqb_spec j i) as [->|n]; simpl; [|reflexivity].
  destruct (_ <? _); reflexivity.
Qed.
Lemma need_set_cached c i l j : t_need (obj (set_cached c i l) j) = t_need (obj c j).
Proof.
  unfold set_cached. rewrite obj_set_obj. destruct (Nat.eqb_spec j i) as [->|n]; simpl; [|reflexivity].
  destruct (_ <? _); reflexivity.
Qed.
Lemma cached_set_cached c i l j : t_cached (obj (set_cached c i l) j) =
  if (j =? i) && (i <? List.length (c_heap c)) then Some l else t_cached (obj c j).
Proof. unfold set_cached. rewrite obj_set_obj. destruct (_ && _); reflexivity. Qed.

Lemma mapM_In {A B} (f : A -> res B) l ys : mapM f l = Ok ys ->
  (forall y, In y ys <-> exists x, In x l /\ f x = Ok y) /\
  (forall x, In x l -> exists y, f x = Ok y).
Proof.
  revert ys; induction l as [|x l IH]; intros ys; simpl.
  - intros [= <-]. split; [intros y; split; [intros []|intros (x & [] & _)]|intros x []].
  - destruct (f x) as [y| |] eqn:E; simpl; try discriminate.
    fold (mapM f l). destruct (mapM f l) as [ys'| |]; simpl; try discriminate.
    intros [= <-]. destruct (IH ys' eq_refl) as [I1 I2]. split.
    + intros z. simpl. rewrite I1. split.
      * intros [<-|(w & Hw & Hf)]; [exists x; auto|exists w; auto].
      * intros (w & [<-|Hw] & Hf); [left; congruence|right; eauto].
    + intros z [<-|Hz]; eauto.
Qed.
Lemma mapM_raise {A B} (f : A -> res B) l e : mapM f l = Raise e -> exists x, In x l /\ f x = Raise e.
Proof.
  induction l as [|x l IH]; simpl; [discriminate|].
  destruct (f x) as [y|e'|] eqn:E; simpl; try discriminate.
  - fold (mapM f l). destruct (mapM f l) as [ys'|e'|]; simpl; try discriminate.
    intros [= ->]. destruct (IH eq_refl) as (z & Hz & Hf). eauto.
  - intros [= ->]. eauto.
Qed.
Lemma mapM_fuel {A B} (f : A -> res B) l : mapM f l = OutOfFuel -> exists x, In x l /\ f x = OutOfFuel.
Proof.
  induction l as [|x l IH]; simpl; [discriminate|].
  destruct (f x) as [y|e'|] eqn:E; simpl; try discriminate.
  - fold (mapM f l). destruct (mapM f l) as [ys'|e'|]; simpl; try discriminate.
    intros _. destruct (IH eq_refl) as (z & Hz & Hf). eauto.
  - intros _. eauto.
Qed.
Lemma mapM_ok {A B} (f : A -> res B) l : (forall x, In x l -> exists y, f x = Ok y) ->
  exists ys, mapM f l = Ok ys.
Proof.
  induction l as [|x l IH]; intros H; simpl; [eauto|].
  destruct (H x) as [y Hy]; [now left|]. rewrite Hy. simpl. fold (mapM f l).
  destruct IH as [ys ->]; [intros z Hz; apply H; now right|]. simpl. eauto.
Qed.
Lemma mapM_ext {A B} (f g : A -> res B) l : (forall x, In x l -> f x = g x) -> mapM f l = mapM g l.
Proof.
  induction l as [|x l IH]; intros H; simpl; [reflexivity|].
  rewrite (H x) by now left. fold (mapM f l) (mapM g l). rewrite IH; [reflexivity|].
  intros y Hy. apply H. now right.
Qed.

Section Need.
  Variable canon : string -> string.
  Variable update_if : nat -> res bool.

  Lemma static_get c c' nm : same_static c c' -> core_get canon c nm = core_get canon c' nm.
  Proof. intros (H & _). unfold core_get. now rewrite H. Qed.
  Lemma static_resolves c c' nm i : same_static c c' -> resolves canon c nm i -> resolves canon c' nm i.
  Proof. intros (H & _). unfold resolves. now rewrite H. Qed.
  Lemma static_obj_dep c c' i j : same_static c c' -> obj_dep canon c i j -> obj_dep canon c' i j.
  Proof.
    intros Hs (d & H1 & H2). exists d. split; [|now apply (static_resolves c c')].
    destruct Hs as (_ & _ & _ & H). destruct (H i) as (_ & <- & _). exact H1.
  Qed.
  Lemma static_wf c c' : same_static c c' -> wf_core c -> wf_core c'.
  Proof. intros (H1 & _ & H2 & _). unfold wf_core. now rewrite H1, H2. Qed.
  Lemma static_cone c c' i j : same_static c c' -> in_cone canon c i j -> in_cone canon c' i j.
  Proof.
    intros Hs H. unfold in_cone in *. induction H as [x y H|x|x y z _ IH1 _ IH2].
    - apply rt_step. eapply static_obj_dep; eauto.
    - apply rt_refl.
    - eapply rt_trans; eauto.
  Qed.

  Lemma static_trans_dep c c' i j : same_static c c' ->
    clos_trans nat (obj_dep canon c) i j -> clos_trans nat (obj_dep canon c') i j.
  Proof.
    intros Hs H. induction H as [x y H|x y z _ IH1 _ IH2]; [|now apply t_trans with y].
    apply t_step. eapply static_obj_dep; eauto.
  Qed.

  (** Something in the cone of [i] is out of date. *)
  Notation out_of_date_below := (out_of_date_below canon update_if).
  Notation caches_fresh := (caches_fresh canon).
  Notation healthy := (healthy canon update_if).

  Lemma ood_static c c' i : same_static c c' -> out_of_date_below c i <-> out_of_date_below c' i.
  Proof.
    intros H. split; intros (j & H1 & H2); exists j; split; auto; eapply static_cone; eauto.
    now apply static_sym.
  Qed.

  Definition needs_right (c : core) : Prop :=
    forall i b, t_need (obj c i) = Some b -> (b = true <-> out_of_date_below c i).

  Lemma get_deplist_ok c i l c' : get_deplist canon c i = Ok (l, c') -> caches_fresh c ->
    same_static c c' /\ caches_fresh c' /\ (forall k, t_need (obj c' k) = t_need (obj c k)) /\
    mapM (core_get canon c) (t_deps (obj c i)) = Ok l.
  Proof.
    unfold get_deplist. destruct (t_cached (obj c i)) as [l0|] eqn:E.
    - intros [= <- <-] Hf. repeat split; auto.
    - destruct (mapM (core_get canon c) (t_deps (obj c i))) as [l0| |] eqn:Em; simpl; try discriminate.
      intros [= <- <-] Hf. pose proof (static_set_cached c i l0) as Hs.
      split; [exact Hs|]. split; [|split; [apply need_set_cached|reflexivity]].
      intros k l Hk. rewrite cached_set_cached in Hk.
      rewrite (mapM_ext _ (core_get canon c)) by (intros x _; symmetry; now apply static_get).
      destruct Hs as (_ & _ & _ & Hs). destruct (Hs k) as (_ & <- & _).
      destruct (Nat.eqb_spec k i) as [->|n]; simpl in Hk; [|now apply Hf].
      destruct (_ <? _); [congruence|now apply Hf].
  Qed.

  Lemma deplist_dep c i l : wf_core c -> mapM (core_get canon c) (t_deps (obj c i)) = Ok l ->
    forall j, In j l <-> obj_dep canon c i j.
  Proof.
    intros Hw Hm j. apply mapM_In in Hm. destruct Hm as [Hm _]. rewrite Hm. unfold obj_dep.
    split; intros (d & H1 & H2); exists d; (split; [exact H1|]); now apply get_resolves in H2 || apply get_resolves.
  Qed.

  Lemma ood_unfold c i : out_of_date_below c i <->
    update_if i = Ok true \/ exists j, obj_dep canon c i j /\ out_of_date_below c j.
  Proof.
    split.
    - intros (j & H1 & H2). apply Operators_Properties.clos_rt_rt1n in H1.
      destruct H1 as [|k j Hk Hj]; [now left|right].
      exists k. split; [exact Hk|]. exists j. split; [now apply Operators_Properties.clos_rt1n_rt|exact H2].
    - intros [H|(j & Hj & k & Hk & Hu)]; [exists i; split; [apply rt_refl|exact H]|].
      exists k. split; [|exact Hu]. eapply rt_trans; [apply rt_step; exact Hj|exact Hk].
  Qed.

  Lemma rec_need_sound : forall fuel c i b c',
    rec_need canon update_if fuel c i = Ok (b, c') ->
    wf_core c -> caches_fresh c -> needs_right c ->
    same_static c c' /\ caches_fresh c' /\ (forall k, t_need (obj c' k) = t_need (obj c k)) /\
    (b = true <-> out_of_date_below c i).
  Proof.
    induction fuel as [|fuel IH]; intros c i b c'; [discriminate|]. simpl.
    destruct (t_class (obj c i)); [discriminate|].
    destruct (t_need (obj c i)) as [b0|] eqn:En.
    { intros [= <- <-] Hw Hf Hn. split; [apply static_refl|]. split; [exact Hf|]. split; [auto|]. now apply Hn. }
    destruct (update_if i) as [[|]| |] eqn:Eu; simpl; try discriminate.
    { intros [= <- <-] Hw Hf Hn. split; [apply static_refl|]. split; [exact Hf|]. split; [auto|].
      split; [|reflexivity]. intros _. exists i. split; [apply rt_refl|exact Eu]. }
    destruct (get_deplist canon c i) as [[l c1]| |] eqn:Eg; simpl; try discriminate.
    intros Hl Hw Hf Hn. destruct (get_deplist_ok _ _ _ _ Eg Hf) as (S1 & F1 & N1 & M1).
    pose proof (deplist_dep c i l Hw M1) as Hd.
    match type of Hl with ?L _ _ = _ => set (loop := L) in Hl end.
    assert (G : forall l0 c0, loop l0 c0 = Ok (b, c') -> same_static c c0 -> caches_fresh c0 ->
      (forall k, t_need (obj c0 k) = t_need (obj c k)) ->
      same_static c c' /\ caches_fresh c' /\ (forall k, t_need (obj c' k) = t_need (obj c k)) /\
      (b = true <-> exists j, In j l0 /\ out_of_date_below c j)).
    { induction l0 as [|j l0 IHl]; intros c0 H0 Hs Hf0 Hn0; simpl in H0.
      - injection H0 as <- <-. split; [exact Hs|]. split; [exact Hf0|]. split; [exact Hn0|].
        split; [discriminate|intros (j & [] & _)].
      - destruct (rec_need canon update_if fuel c0 j) as [[b1 c2]| |] eqn:Er; simpl in H0; try discriminate.
        destruct (IH _ _ _ _ Er) as (S2 & F2 & N2 & B2).
        + now apply (static_wf c).
        + exact Hf0.
        + intros k x Hk. rewrite Hn0 in Hk. rewrite (Hn k x Hk). now apply ood_static.
        + assert (B3 : b1 = true <-> out_of_date_below c j).
          { rewrite B2. symmetry. now apply ood_static. }
          destruct b1.
          * injection H0 as <- <-. split; [eapply static_trans; eauto|]. split; [exact F2|].
            split; [intros k; now rewrite N2, Hn0|]. split; [|reflexivity].
            intros _. exists j. split; [now left|now apply B3].
          * destruct (IHl _ H0) as (S3 & F3 & N3 & B4); auto.
            { eapply static_trans; eauto. }
            { intros k. now rewrite N2, Hn0. }
            split; [exact S3|]. split; [exact F3|]. split; [exact N3|]. rewrite B4. split.
            -- intros (x & Hx & Ho). exists x. split; [now right|exact Ho].
            -- intros (x & [<-|Hx] & Ho); [apply B3 in Ho; discriminate|exists x; auto]. }
    destruct (G l c1 Hl S1 F1 N1) as (S2 & F2 & N2 & B2).
    split; [exact S2|]. split; [exact F2|]. split; [exact N2|]. rewrite B2, ood_unfold. split.
    - intros (j & Hj & Ho). right. exists j. split; [now apply Hd|exact Ho].
    - intros [H|(j & Hj & Ho)]; [congruence|]. exists j. split; [now apply Hd|exact Ho].
  Qed.

  Lemma eval_one_sound fuel c i c' : eval_one canon update_if fuel c i = Ok c' ->
    i < List.length (c_heap c) -> wf_core c -> caches_fresh c -> needs_right c ->
    same_static c c' /\ caches_fresh c' /\ needs_right c' /\
    (t_class (obj c i) = Updatable -> exists b, t_need (obj c' i) = Some b) /\
    (forall k, (exists b, t_need (obj c k) = Some b) -> exists b, t_need (obj c' k) = Some b).
  Proof.
    unfold eval_one. destruct (t_class (obj c i)) eqn:Ec.
    - intros [= <-] Hi Hw Hf Hn. split; [apply static_refl|]. split; [exact Hf|]. split; [exact Hn|].
      split; [discriminate|auto].
    - destruct (rec_need canon update_if fuel c i) as [[b c1]| |] eqn:Er; simpl; try discriminate.
      intros [= <-] Hi Hw Hf Hn. destruct (rec_need_sound _ _ _ _ _ Er Hw Hf Hn) as (S1 & F1 & N1 & B1).
      pose proof (static_set_need c1 i (Some b)) as S2.
      assert (S3 : same_static c (set_need c1 i (Some b))) by (eapply static_trans; eauto).
      assert (Hi1 : i <? List.length (c_heap c1) = true).
      { apply Nat.ltb_lt. destruct S1 as (_ & _ & <- & _). exact Hi. }
      split; [exact S3|]. split; [|split; [|split]].
      + intros k l Hk. rewrite cached_set_need in Hk.
        rewrite (mapM_ext _ (core_get canon c1)) by (intros x _; symmetry; now apply static_get).
        destruct S2 as (_ & _ & _ & S2). destruct (S2 k) as (_ & <- & _). now apply F1.
      + intros k x Hk. rewrite need_set_need, Hi1 in Hk.
        rewrite <- (ood_static c _ k S3).
        destruct (Nat.eqb_spec k i) as [->|n]; simpl in Hk; [injection Hk as <-; exact B1|].
        rewrite N1 in Hk. now apply Hn.
      + intros _. exists b. rewrite need_set_need, Hi1, Nat.eqb_refl. reflexivity.
      + intros k [x Hk]. rewrite need_set_need, Hi1. destruct (k =? i); simpl; [eauto|].
        rewrite N1. eauto.
  Qed.

  Lemma eval_all_sound fuel ids : forall c c', eval_all canon update_if fuel ids c = Ok c' ->
    (forall i, In i ids -> i < List.length (c_heap c)) ->
    wf_core c -> caches_fresh c -> needs_right c ->
    same_static c c' /\ caches_fresh c' /\ needs_right c' /\
    (forall i, In i ids -> t_class (obj c i) = Updatable -> exists b, t_need (obj c' i) = Some b) /\
    (forall k, (exists b, t_need (obj c k) = Some b) -> exists b, t_need (obj c' k) = Some b).
  Proof.
    induction ids as [|i ids IH]; intros c c'; simpl.
    - intros [= <-] Hi Hw Hf Hn. split; [apply static_refl|]. repeat split; auto; try (now apply Hn); [intros ? []].
    - destruct (eval_one canon update_if fuel c i) as [c1| |] eqn:E1; simpl; try discriminate.
      intros Hr Hi Hw Hf Hn.
      destruct (eval_one_sound _ _ _ _ E1 (Hi i (or_introl eq_refl)) Hw Hf Hn) as (S1 & F1 & N1 & D1 & K1).
      destruct (IH _ _ Hr) as (S2 & F2 & N2 & D2 & K2); auto.
      { intros k Hk. destruct S1 as (_ & _ & <- & _). apply Hi. now right. }
      { now apply (static_wf c). }
      split; [eapply static_trans; eauto|]. split; [exact F2|]. split; [exact N2|]. split.
      + intros k [<-|Hk] Hu; [apply K2; now apply D1|]. apply D2; [exact Hk|].
        destruct S1 as (_ & _ & _ & S1). destruct (S1 k) as (_ & _ & <-). exact Hu.
      + intros k Hk. apply K2, K1, Hk.
  Qed.

  (** ** nullify *)
  Lemma nullify_fold ids : forall c, let c' := fold_left nullify_one ids c in
    same_static c c' /\ (forall k, t_cached (obj c' k) = t_cached (obj c k)) /\
    (forall k, In k ids -> k < List.length (c_heap c) -> t_class (obj c k) = Updatable -> t_need (obj c' k) = None) /\
    (forall k, t_need (obj c' k) = None \/ t_need (obj c' k) = t_need (obj c k)).
  Proof.
    induction ids as [|i ids IH]; intros c; simpl.
    - split; [apply static_refl|]. split; [auto|]. split; [intros k []|auto].
    - destruct (IH (nullify_one c i)) as (S & C & N & K). clear IH.
      set (c1 := nullify_one c i) in *.
      assert (S1 : same_static c c1).
      { unfold c1, nullify_one. destruct (t_class (obj c i)); [apply static_refl|apply static_set_need]. }
      assert (C1 : forall k, t_cached (obj c1 k) = t_cached (obj c k)).
      { intros k. unfold c1, nullify_one. destruct (t_class (obj c i)); [reflexivity|apply cached_set_need]. }
      assert (N1 : forall k, t_need (obj c1 k) = None \/ t_need (obj c1 k) = t_need (obj c k)).
      { intros k. unfold c1, nullify_one. destruct (t_class (obj c i)); [now right|].
        rewrite need_set_need. destruct (_ && _); auto. }
      split; [eapply static_trans; eauto|]. split; [intros k; now rewrite C, C1|]. split.
      + intros k [<-|Hk] Hl Hu.
        * assert (N2 : t_need (obj c1 i) = None).
          { unfold c1, nullify_one. rewrite Hu, need_set_need, Nat.eqb_refl.
            apply Nat.ltb_lt in Hl. now rewrite Hl. }
          destruct (K i) as [K1|K1]; [exact K1|now rewrite K1].
        * apply N; [exact Hk| |].
          -- destruct S1 as (_ & _ & <- & _). exact Hl.
          -- destruct S1 as (_ & _ & _ & S1). destruct (S1 k) as (_ & _ & <-). exact Hu.
      + intros k. destruct (K k) as [K1|K1]; [now left|]. rewrite K1. apply N1.
  Qed.

  (** Objects that are not registered may carry a need_update from before; for the rest of
      this file they are required to be [None] or right. *)
  Definition unregistered_idle (c : core) : Prop :=
    forall i, (forall nm, ~ In (nm, i) (c_targets c)) -> t_need (obj c i) = None.
  Definition plain_idle (c : core) : Prop :=
    forall i, t_class (obj c i) = Plain -> t_need (obj c i) = None.

  Lemma values_In c i : In i (dvalues (c_targets c)) <-> exists nm, In (nm, i) (c_targets c).
  Proof.
    unfold dvalues. rewrite in_map_iff. split.
    - intros ([nm j] & <- & H). simpl. eauto.
    - intros [nm H]. exists (nm, i). auto.
  Qed.

  Lemma nullified c : wf_core c -> unregistered_idle c -> plain_idle c ->
    forall k, t_need (obj (nullify c) k) = None.
  Proof.
    intros Hw Hu Hp k. unfold nullify.
    destruct (nullify_fold (dvalues (c_targets c)) c) as (S & C & N & K).
    destruct (t_class (obj c k)) eqn:Ec.
    - destruct (K k) as [K1|K1]; [exact K1|]. rewrite K1. now apply Hp.
    - destruct (in_dec Nat.eq_dec k (dvalues (c_targets c))) as [Hk|Hk].
      + apply N; auto. apply values_In in Hk. destruct Hk as [nm Hk]. destruct Hw as [_ Hw]. eauto.
      + destruct (K k) as [K1|K1]; [exact K1|]. rewrite K1. apply Hu.
        intros nm Hnm. apply Hk, values_In. eauto.
  Qed.

  Lemma evaluation_right fuel c c' :
    wf_core c -> caches_fresh c -> unregistered_idle c -> plain_idle c ->
    update_update_needity canon update_if fuel c = Ok c' ->
    same_static c c' /\ caches_fresh c' /\ needs_right c' /\
    (forall nm i, In (nm, i) (c_targets c) -> t_class (obj c i) = Updatable ->
       exists b, t_need (obj c' i) = Some b /\ (b = true <-> out_of_date_below c i)).
  Proof.
    intros Hw Hf Hu Hp. unfold update_update_needity.
    pose proof (nullified c Hw Hu Hp) as Hn.
    destruct (nullify_fold (dvalues (c_targets c)) c) as (S & C & _ & _). fold (nullify c) in S, C.
    set (c1 := nullify c) in *. intros He.
    destruct (eval_all_sound _ _ _ _ He) as (S2 & F2 & N2 & D2 & K2).
    - intros i Hi. apply values_In in Hi. destruct Hi as [nm Hi].
      destruct (static_wf _ _ S Hw) as [_ H]. eauto.
    - now apply (static_wf c).
    - intros i l Hi. rewrite C in Hi.
      rewrite (mapM_ext _ (core_get canon c)) by (intros x _; symmetry; now apply static_get).
      destruct S as (_ & _ & _ & S). destruct (S i) as (_ & <- & _). now apply Hf.
    - intros i b Hi. rewrite Hn in Hi. discriminate.
    - assert (S3 : same_static c c') by (eapply static_trans; eauto).
      split; [exact S3|]. split; [exact F2|]. split; [exact N2|].
      intros nm i Hi Hc. destruct (D2 i) as [b Hb].
      + apply values_In. exists nm. destruct S as (<- & _). exact Hi.
      + destruct S as (_ & _ & _ & S). destruct (S i) as (_ & _ & <-). exact Hc.
      + exists b. split; [exact Hb|]. rewrite (N2 i b Hb). symmetry. now apply ood_static.
  Qed.

  (** ** Evaluation succeeds on healthy registries. *)
  Lemma static_healthy c c' : same_static c c' -> healthy c -> healthy c'.
  Proof.
    intros Hs (H1 & H2 & H3 & H4). pose proof (static_sym _ _ Hs) as Hs'.
    destruct Hs as (Ht & _ & _ & Ho). unfold healthy. rewrite <- Ht. split; [|split; [|split]].
    - intros nm i d Hi Hd. destruct (Ho i) as (_ & Hd' & _). rewrite <- Hd' in Hd.
      destruct (H1 nm i d Hi Hd) as [j Hj]. exists j. unfold resolves in *. now rewrite <- Ht.
    - intros nm i j Hi Hj. destruct (Ho j) as (_ & _ & <-). apply (H2 nm i j Hi). now apply (static_obj_dep c' c).
    - intros nm i Hi Hc. apply (H3 nm i Hi). now apply (static_trans_dep c' c).
    - intros nm i Hi Hc. apply (H4 nm i Hi). destruct (Ho i) as (_ & _ & ->). exact Hc.
  Qed.

  Lemma dep_registered c i j : wf_core c -> obj_dep canon c i j -> exists nm, In (nm, j) (c_targets c).
  Proof. intros Hw (d & _ & Hd). eapply resolves_value; eauto. Qed.

  Lemma rec_need_total : forall fuel c i path nm,
    wf_core c -> healthy c -> caches_fresh c -> needs_right c ->
    In (nm, i) (c_targets c) -> t_class (obj c i) = Updatable ->
    NoDup path -> (forall p, In p path -> p < List.length (c_heap c)) ->
    (forall p, In p path -> clos_trans nat (obj_dep canon c) p i) ->
    List.length (c_heap c) < fuel + List.length path ->
    exists r, rec_need canon update_if fuel c i = Ok r.
  Proof.
    induction fuel as [|fuel IH]; intros c i path nm Hw Hh Hf Hn Hi Hu Hnd Hlt Hp Hb.
    - exfalso. assert (List.length path <= List.length (c_heap c)); [|simpl in Hb; lia].
      rewrite <- (seq_length (List.length (c_heap c)) 0). apply NoDup_incl_length; [exact Hnd|].
      intros p Hp'. apply in_seq. apply Hlt in Hp'. lia.
    - simpl. rewrite Hu. destruct (t_need (obj c i)) as [b|]; [eauto|].
      pose proof Hh as (H1 & H2 & H3 & H4).
      destruct (H4 nm i Hi Hu) as [u ->]. simpl. destruct u; [eauto|].
      destruct (mapM_ok (core_get canon c) (t_deps (obj c i))) as [l Hl].
      { intros d Hd. destruct (H1 nm i d Hi Hd) as [j Hj]. exists j. now apply get_resolves. }
      assert (exists l' c1, get_deplist canon c i = Ok (l', c1)) as (l' & c1 & Eg).
      { unfold get_deplist. destruct (t_cached (obj c i)); [eauto|]. rewrite Hl. simpl. eauto. }
      rewrite Eg. simpl. destruct (get_deplist_ok _ _ _ _ Eg Hf) as (S1 & F1 & N1 & M1).
      pose proof (deplist_dep c i l' Hw M1) as Hd.
      match goal with |- exists r, ?L _ _ = _ => set (loop := L) end.
      assert (Hi' : i < List.length (c_heap c)) by (destruct Hw; eauto).
      assert (G : forall l0 c0, (forall j, In j l0 -> In j l') -> same_static c c0 -> caches_fresh c0 ->
        (forall k, t_need (obj c0 k) = t_need (obj c k)) -> exists r, loop l0 c0 = Ok r).
      { induction l0 as [|j l0 IHl]; intros c0 Hin Hs Hf0 Hn0; simpl; [eauto|].
        assert (Hj : obj_dep canon c i j) by (apply Hd, Hin; now left).
        assert (Hn1 : needs_right c0).
        { intros k x Hk. rewrite Hn0 in Hk. rewrite (Hn k x Hk). now apply ood_static. }
        destruct (dep_registered c i j Hw Hj) as [nm' Hnm'].
        destruct (IH c0 j (i :: path) nm') as [[b1 c2] Er]; auto.
        - now apply (static_wf c).
        - now apply (static_healthy c).
        - destruct Hs as (<- & _). exact Hnm'.
        - destruct Hs as (_ & _ & _ & Hs). destruct (Hs j) as (_ & _ & <-). exact (H2 nm i j Hi Hj).
        - constructor; [|exact Hnd]. intros Hin'. apply Hp in Hin'. exact (H3 nm i Hi Hin').
        - destruct Hs as (_ & _ & <- & _). intros p [<-|Hp']; auto.
        - intros p [<-|Hp'].
          + apply t_step. eapply static_obj_dep; eauto.
          + apply Hp in Hp'. eapply t_trans; [|apply t_step; eapply static_obj_dep; eauto].
            now apply (static_trans_dep c c0).
        - destruct Hs as (_ & _ & <- & _). simpl. lia.
        - rewrite Er. simpl. destruct b1; [eauto|].
          destruct (rec_need_sound _ _ _ _ _ Er) as (S2 & F2 & N2 & _); auto;
            [now apply (static_wf c)|].
          apply IHl; auto.
          + intros k Hk. apply Hin. now right.
          + eapply static_trans; eauto.
          + intros k. now rewrite N2, Hn0. }
      apply G; auto.
  Qed.

  Lemma eval_all_total fuel ids : forall c,
    wf_core c -> healthy c -> caches_fresh c -> needs_right c ->
    (forall i, In i ids -> exists nm, In (nm, i) (c_targets c)) ->
    List.length (c_heap c) < fuel ->
    exists c', eval_all canon update_if fuel ids c = Ok c'.
  Proof.
    induction ids as [|i ids IH]; intros c Hw Hh Hf Hn Hi Hb; simpl; [eauto|].
    destruct (Hi i) as [nm Hnm]; [now left|].
    assert (exists c1, eval_one canon update_if fuel c i = Ok c1) as [c1 E1].
    { unfold eval_one. destruct (t_class (obj c i)) eqn:Ec; [eauto|].
      destruct (rec_need_total fuel c i [] nm) as [[b c1] ->]; auto; simpl; eauto; try (intros p []).
      - constructor.
      - lia. }
    rewrite E1. simpl.
    destruct (eval_one_sound _ _ _ _ E1) as (S1 & F1 & N1 & _); auto; [destruct Hw; eauto|].
    apply IH; auto.
    - now apply (static_wf c).
    - now apply (static_healthy c).
    - intros k Hk. destruct S1 as (<- & _). apply Hi. now right.
    - destruct S1 as (_ & _ & <- & _). exact Hb.
  Qed.

  Lemma evaluation_total c fuel :
    wf_core c -> healthy c -> caches_fresh c -> unregistered_idle c -> plain_idle c ->
    List.length (c_heap c) < fuel ->
    exists c', update_update_needity canon update_if fuel c = Ok c'.
  Proof.
    intros Hw Hh Hf Hu Hp Hb. unfold update_update_needity.
    pose proof (nullified c Hw Hu Hp) as Hn.
    destruct (nullify_fold (dvalues (c_targets c)) c) as (S & C & _ & _). fold (nullify c) in S, C.
    set (c1 := nullify c) in *. apply eval_all_total.
    - now apply (static_wf c).
    - now apply (static_healthy c).
    - intros i l Hi. rewrite C in Hi.
      rewrite (mapM_ext _ (core_get canon c)) by (intros x _; symmetry; now apply static_get).
      destruct S as (_ & _ & _ & S). destruct (S i) as (_ & <- & _). now apply Hf.
    - intros i b Hi. rewrite Hn in Hi. discriminate.
    - intros i Hi. now apply values_In.
    - destruct S as (_ & _ & <- & _). exact Hb.
  Qed.

  (** A cycle nobody of whose cone is out of date is never evaluated to an end. *)
  Lemma rec_need_cycle : forall fuel c i,
    wf_core c -> needs_right c -> caches_fresh c ->
    (forall j, in_cone canon c i j -> t_need (obj c j) = None) ->
    (forall j, in_cone canon c i j -> update_if j = Ok false /\ t_class (obj c j) = Updatable) ->
    (forall j d, in_cone canon c i j -> In d (t_deps (obj c j)) -> registered canon c d) ->
    (exists j, in_cone canon c i j /\ clos_trans nat (obj_dep canon c) j j) ->
    rec_need canon update_if fuel c i = OutOfFuel.
  Proof.
    induction fuel as [|fuel IH]; intros c i Hw Hn Hf Hnone Hf' Hreg (j & Hj & Hcyc); [reflexivity|].
    simpl. destruct (Hf' i) as [Hu Hc]; [apply rt_refl|]. rewrite Hc, (Hnone i (rt_refl _ _ _)), Hu. simpl.
    destruct (mapM_ok (core_get canon c) (t_deps (obj c i))) as [l Hl].
    { intros d Hd. destruct (Hreg i d (rt_refl _ _ _) Hd) as [k Hk]. exists k. now apply get_resolves. }
    assert (exists l' c1, get_deplist canon c i = Ok (l', c1)) as (l' & c1 & Eg).
    { unfold get_deplist. destruct (t_cached (obj c i)); [eauto|]. rewrite Hl. simpl. eauto. }
    rewrite Eg. simpl. destruct (get_deplist_ok _ _ _ _ Eg Hf) as (S1 & F1 & N1 & M1).
    pose proof (deplist_dep c i l' Hw M1) as Hd.
    match goal with |- ?L _ _ = _ => set (loop := L) end.
    (* a dependency from which the cycle is reachable *)
    assert (Hk : exists k, In k l' /\ exists j, in_cone canon c k j /\ clos_trans nat (obj_dep canon c) j j).
    { apply Operators_Properties.clos_rt_rt1n in Hj. destruct Hj as [|k j Hk Hj].
      - apply Operators_Properties.clos_trans_t1n in Hcyc. inversion Hcyc as [y Hy|y z Hy Hz]; subst.
        + exists i. split; [now apply Hd|]. exists i. split; [apply rt_refl|now apply t_step].
        + exists y. split; [now apply Hd|]. exists i. split.
          * apply Operators_Properties.clos_t1n_trans in Hz. clear - Hz.
            induction Hz as [x y H|x y z _ I1 _ I2]; [now apply rt_step|eapply rt_trans; eauto].
          * apply Operators_Properties.clos_t1n_trans. exact Hcyc.
      - exists k. split; [now apply Hd|]. exists j. split; [now apply Operators_Properties.clos_rt1n_rt|exact Hcyc]. }
    destruct Hk as (k & Hk & Hkc).
    assert (G : forall l0 c0, (forall x, In x l0 -> In x l') -> In k l0 -> same_static c c0 -> caches_fresh c0 ->
        (forall x, t_need (obj c0 x) = t_need (obj c x)) -> loop l0 c0 = OutOfFuel).
    { induction l0 as [|x l0 IHl]; intros c0 Hin Hk0 Hs Hf0 Hn0; [destruct Hk0|]. simpl.
      assert (Hx : obj_dep canon c i x) by (apply Hd, Hin; now left).
      assert (Hcone : forall y, in_cone canon c0 x y -> in_cone canon c i y).
      { intros y Hy. eapply rt_trans; [apply rt_step; exact Hx|]. eapply static_cone; [|exact Hy]. now apply static_sym. }
      assert (Hw0 : wf_core c0) by now apply (static_wf c).
      assert (Hn1 : needs_right c0).
      { intros z b Hz. rewrite Hn0 in Hz. rewrite (Hn z b Hz). now apply ood_static. }
      pose proof Hs as (Ht & _ & _ & Ho).
      destruct (Nat.eq_dec x k) as [->|Hxk].
      - rewrite IH; auto.
        + intros y Hy. rewrite Hn0. apply Hnone, Hcone, Hy.
        + intros y Hy. destruct (Ho y) as (_ & _ & <-). apply Hf', Hcone, Hy.
        + intros y d Hy Hdy. destruct (Ho y) as (_ & Hd' & _). rewrite <- Hd' in Hdy.
          destruct (Hreg y d (Hcone y Hy) Hdy) as [z Hz]. exists z. eapply static_resolves; eauto.
        + destruct Hkc as (y & Hy1 & Hy2). exists y. split; [eapply static_cone; eauto|].
          now apply (static_trans_dep c c0).
      - destruct Hk0 as [->|Hk0]; [contradiction|].
        destruct (rec_need canon update_if fuel c0 x) as [[b c2]|e|] eqn:Er; simpl; [| |reflexivity].
        + destruct (rec_need_sound _ _ _ _ _ Er Hw0 Hf0 Hn1) as (S2 & F2 & N2 & B2).
          destruct b.
          * exfalso. destruct B2 as [B2 _]. destruct (B2 eq_refl) as (y & Hy & Hy2).
            destruct (Hf' y (Hcone y Hy)) as [Hy3 _]. congruence.
          * apply IHl; auto; [intros z Hz; apply Hin; now right|eapply static_trans; eauto|].
            intros z. now rewrite N2, Hn0.
        + exfalso. revert Er. clear - Hcone Hf' Hreg Hw0 Hf0 Hn1 Hs canon update_if.
          assert (Hc' : forall y, in_cone canon c0 x y -> update_if y = Ok false /\ t_class (obj c0 y) = Updatable).
          { intros y Hy. destruct Hs as (_ & _ & _ & Ho). destruct (Ho y) as (_ & _ & <-). apply Hf', Hcone, Hy. }
          assert (Hr' : forall y d, in_cone canon c0 x y -> In d (t_deps (obj c0 y)) -> registered canon c0 d).
          { intros y d Hy Hdy. pose proof Hs as (_ & _ & _ & Ho). destruct (Ho y) as (_ & Hd' & _). rewrite <- Hd' in Hdy.
            destruct (Hreg y d (Hcone y Hy) Hdy) as [z Hz]. exists z. eapply static_resolves; eauto. }
          clear Hcone Hf' Hreg Hs. revert x c0 e Hw0 Hf0 Hn1 Hc' Hr'.
          induction fuel as [|fuel IH]; intros x c0 e Hw0 Hf0 Hn1 Hc' Hr'; [discriminate|]. simpl.
          destruct (Hc' x (rt_refl _ _ _)) as [Hu ->]. destruct (t_need (obj c0 x)); [discriminate|].
          rewrite Hu. simpl.
          destruct (mapM_ok (core_get canon c0) (t_deps (obj c0 x))) as [l Hl].
          { intros d Hd. destruct (Hr' x d (rt_refl _ _ _) Hd) as [k Hk]. exists k. now apply get_resolves. }
          assert (exists l' c1, get_deplist canon c0 x = Ok (l', c1)) as (l' & c1 & Eg).
          { unfold get_deplist. destruct (t_cached (obj c0 x)); [eauto|]. rewrite Hl. simpl. eauto. }
          rewrite Eg. simpl. destruct (get_deplist_ok _ _ _ _ Eg Hf0) as (S1 & F1 & N1 & M1).
          pose proof (deplist_dep c0 x l' Hw0 M1) as Hd.
          match goal with |- ?L _ _ = _ -> _ => set (loop := L) end.
          assert (G : forall l0 c2, (forall y, In y l0 -> In y l') -> same_static c0 c2 -> caches_fresh c2 ->
            (forall y, t_need (obj c2 y) = t_need (obj c0 y)) -> loop l0 c2 <> Raise e).
          { induction l0 as [|y l0 IHl]; intros c2 Hin Hs Hf2 Hn2; simpl; [discriminate|].
            assert (Hy : obj_dep canon c0 x y) by (apply Hd, Hin; now left).
            assert (Hw2 : wf_core c2) by now apply (static_wf c0).
            assert (Hn3 : needs_right c2).
            { intros z b Hz. rewrite Hn2 in Hz. rewrite (Hn1 z b Hz). now apply ood_static. }
            destruct (rec_need canon update_if fuel c2 y) as [[b c3]|e'|] eqn:Er; simpl; [| |discriminate].
            - destruct b; [discriminate|].
              destruct (rec_need_sound _ _ _ _ _ Er Hw2 Hf2 Hn3) as (S2 & F2 & N2 & _).
              apply IHl; auto; [intros z Hz; apply Hin; now right|eapply static_trans; eauto|].
              intros z. now rewrite N2, Hn2.
            - intros [= ->].
              assert (Hc2 : forall z, in_cone canon c2 y z -> in_cone canon c0 x z).
              { intros z Hz. eapply rt_trans; [apply rt_step; exact Hy|]. eapply static_cone; [|exact Hz]. now apply static_sym. }
              pose proof Hs as (_ & _ & _ & Ho).
              apply (IH y c2 e); auto.
              + intros z Hz. destruct (Ho z) as (_ & _ & <-). apply Hc', Hc2, Hz.
              + intros z d Hz Hdz. destruct (Ho z) as (_ & Hd' & _). rewrite <- Hd' in Hdz.
                destruct (Hr' z d (Hc2 z Hz) Hdz) as [w Hw']. exists w. eapply static_resolves; eauto. }
          intros Hcontra. now apply (G l' c1) in Hcontra. }
    apply G; auto.
  Qed.
End Need.
