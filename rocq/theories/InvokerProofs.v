(** Invariant of the task invoker. *)
From Coq Require Import Permutation Relations.Relation_Operators.
From Verif Require Import PyBase SolverModel SpecGraph InvokerModel SpecTrace DfsProofs SolverProofs.

(** ** Lists *)
Lemma NoDup_app_iff {A} (a b : list A) :
  NoDup (a ++ b) <-> NoDup a /\ NoDup b /\ forall x, In x a -> ~ In x b.
Proof.
  induction a as [|x a IH]; simpl.
  - split; [intros H; repeat split; auto; constructor|tauto].
  - rewrite !NoDup_cons_iff, IH, in_app_iff. split.
    + intros (H1 & H2 & H3 & H4). repeat split; auto.
      intros y [<-|Hy]; auto.
    + intros ((H1 & H2) & H3 & H4). split; [|split; [|split]]; auto.
      intros [H|H]; [auto|]. exact (H4 x (or_introl eq_refl) H).
Qed.

Lemma lupd_length {A} (l : list A) i v : List.length (lupd l i v) = List.length l.
Proof. revert i; induction l as [|x l IH]; intros [|i]; simpl; auto. Qed.

Lemma nth_error_lupd_eq {A} (l : list A) i v :
  i < List.length l -> nth_error (lupd l i v) i = Some v.
Proof. revert i; induction l as [|x l IH]; intros [|i]; simpl; intros; try lia; auto. apply IH. lia. Qed.

Lemma nth_error_lupd_neq {A} (l : list A) i j v :
  i <> j -> nth_error (lupd l i v) j = nth_error l j.
Proof. revert i j; induction l as [|x l IH]; intros [|i] [|j]; simpl; intros; try congruence; auto. Qed.

Lemma nth_error_lt {A} (l : list A) i x : nth_error l i = Some x -> i < List.length l.
Proof. intros H. apply nth_error_Some. congruence. Qed.

Lemma forallb_lupd_true l i : forallb (fun b : bool => b) (lupd l i true) = true ->
  forall j b, nth_error (lupd l i true) j = Some b -> b = true.
Proof. intros H j b Hj. rewrite forallb_forall in H. apply H. now apply nth_error_In in Hj. Qed.

Definition runs_of (x : wstate) : list nat := match x with WRun t => [t] | _ => [] end.
Definition running (ws : list wstate) : list nat := flat_map runs_of ws.
Definition dead_of (x : wstate) : nat := match x with WDead => 1 | _ => 0 end.
Definition deads (ws : list wstate) : nat := list_sum (map dead_of ws).

Lemma running_lupd ws w x y : nth_error ws w = Some y ->
  Permutation (runs_of y ++ running (lupd ws w x)) (runs_of x ++ running ws).
Proof.
  revert w; induction ws as [|z ws IH]; intros [|w]; simpl; try discriminate.
  - intros [= ->]. rewrite !app_assoc. apply Permutation_app_tail, Permutation_app_comm.
  - intros H. specialize (IH w H).
    transitivity (runs_of z ++ (runs_of y ++ running (lupd ws w x))).
    + rewrite !app_assoc. apply Permutation_app_tail, Permutation_app_comm.
    + rewrite IH. rewrite !app_assoc. apply Permutation_app_tail, Permutation_app_comm.
Qed.

Lemma deads_lupd ws w x y : nth_error ws w = Some y ->
  dead_of y + deads (lupd ws w x) = dead_of x + deads ws.
Proof.
  revert w; induction ws as [|z ws IH]; intros [|w]; simpl; try discriminate.
  - intros [= ->]. unfold deads; simpl. lia.
  - intros H. specialize (IH w H). unfold deads in *; simpl. lia.
Qed.

Lemma running_In ws t : In t (running ws) <-> exists w, nth_error ws w = Some (WRun t).
Proof.
  unfold running. rewrite in_flat_map. split.
  - intros (x & H1 & H2). destruct x; simpl in H2; try contradiction. destruct H2 as [->|[]].
    now apply In_nth_error in H1.
  - intros (w & H). exists (WRun t). split; [now apply nth_error_In in H|now left].
Qed.

Lemma filter_remove (P Q : nat -> bool) l t :
  NoDup l -> In t l -> P t = true -> Q t = false ->
  (forall x, x <> t -> Q x = P x) ->
  List.length (filter P l) = S (List.length (filter Q l)).
Proof.
  intros Hnd Hin Pt Qt HQ. induction l as [|x l IH]; [destruct Hin|].
  apply NoDup_cons_iff in Hnd. destruct Hnd as [Hx Hnd]. simpl. destruct Hin as [->|Hin].
  - rewrite Pt, Qt. simpl. f_equal. f_equal.
    apply filter_ext_in. intros a Ha. symmetry. apply HQ. intros ->. contradiction.
  - assert (x <> t) by (intros ->; contradiction). rewrite (HQ x) by assumption.
    destruct (P x); simpl; auto.
Qed.

(** ** Events *)
Lemma started_app a b : started (a ++ b) = started a ++ started b.
Proof. apply flat_map_app. Qed.
Lemma finished_app a b : finished (a ++ b) = finished a ++ finished b.
Proof. apply flat_map_app. Qed.
Lemma raised_app a b : raised (a ++ b) = raised a ++ raised b.
Proof. apply flat_map_app. Qed.
Lemma dropped_app a b : dropped (a ++ b) = dropped a ++ dropped b.
Proof. apply flat_map_app. Qed.
Lemma started_drops q : started (map EDrop q) = [].
Proof. induction q; simpl; auto. Qed.
Lemma finished_drops q : finished (map EDrop q) = [].
Proof. induction q; simpl; auto. Qed.
Lemma raised_drops q : raised (map EDrop q) = [].
Proof. induction q; simpl; auto. Qed.
Lemma dropped_drops q : dropped (map EDrop q) = q.
Proof. induction q; simpl; f_equal; auto. Qed.

Lemma finished_In l t : In t (finished l) <-> exists r, In (EFinish t r) l.
Proof.
  unfold finished. rewrite in_flat_map. split.
  - intros (e & H1 & H2). destruct e; simpl in H2; try contradiction. destruct H2 as [->|[]]. now exists r.
  - intros (r & H). exists (EFinish t r). split; [exact H|now left].
Qed.
Lemma started_In l t : In t (started l) <-> In (EStart t) l.
Proof.
  unfold started. rewrite in_flat_map. split.
  - intros (e & H1 & H2). destruct e; simpl in H2; try contradiction. now destruct H2 as [->|[]].
  - intros H. exists (EStart t). split; [exact H|now left].
Qed.
Lemma raised_In l t : In t (raised l) <-> In (ERaise t) l.
Proof.
  unfold raised. rewrite in_flat_map. split.
  - intros (e & H1 & H2). destruct e; simpl in H2; try contradiction. now destruct H2 as [->|[]].
  - intros H. exists (ERaise t). split; [exact H|now left].
Qed.

Definition any_false (l : list event) : bool :=
  existsb (fun e => match e with EFinish _ RFalse => true | _ => false end) l.
Lemma any_false_spec l : any_false l = true <-> failed_in l.
Proof.
  unfold any_false, failed_in. rewrite existsb_exists. split.
  - intros (e & H1 & H2). destruct e as [|t [] | | |]; try discriminate. now exists t.
  - intros (t & H). now exists (EFinish t RFalse).
Qed.
Lemma any_false_app a b : any_false (a ++ b) = any_false a || any_false b.
Proof. apply existsb_app. Qed.
Lemma any_false_drops q : any_false (map EDrop q) = false.
Proof. induction q; simpl; auto. Qed.

Lemma split_snoc {A} (l : list A) x a e b :
  l ++ [x] = a ++ e :: b ->
  (exists b', b = b' ++ [x] /\ l = a ++ e :: b') \/ (b = [] /\ x = e /\ l = a).
Proof.
  intros H. destruct (exists_last (l:=e :: b)) as (b0 & z & E); [discriminate|].
  rewrite E, app_assoc in H. apply app_inj_tail in H. destruct H as [H1 ->].
  destruct b0 as [|e0 b0]; simpl in E.
  - injection E as -> ->. right. rewrite app_nil_r in H1. auto.
  - injection E as -> ->. left. exists b0. auto.
Qed.

Section Core.
  Variable n : nat.
  Variables deps inv : nat -> list nat.
  Hypothesis deps_inv : forall i j, In j (deps i) <-> In i (inv j).
  Hypothesis deps_nodup : forall i, NoDup (deps i).
  Hypothesis inv_nodup : forall i, NoDup (inv i).
  Hypothesis deps_lt : forall i j, In j (deps i) -> i < n /\ j < n.
  Hypothesis deps_acyclic : forall i, ~ clos_trans nat (fun a b => In b (deps a)) i i.

  Definition log_safe (l : list event) : Prop :=
    forall l1 t l2, l = l1 ++ EStart t :: l2 ->
      (forall j, In j (deps t) -> In (EFinish j RNotFalse) l1) /\ any_false l1 = false.

  Lemma log_safe_snoc l e :
    log_safe l ->
    match e with
    | EStart t => (forall j, In j (deps t) -> In (EFinish j RNotFalse) l) /\ any_false l = false
    | _ => True
    end -> log_safe (l ++ [e]).
  Proof.
    intros H He l1 t l2 E. apply split_snoc in E. destruct E as [(b' & -> & E)|(-> & -> & ->)].
    - eapply H; eauto.
    - exact He.
  Qed.

  Lemma log_safe_drops q l : log_safe l -> log_safe (l ++ map EDrop q).
  Proof.
    revert l; induction q as [|t q IH]; intros l H; simpl; [now rewrite app_nil_r|].
    replace (l ++ EDrop t :: map EDrop q) with ((l ++ [EDrop t]) ++ map EDrop q).
    - apply IH. now apply log_safe_snoc.
    - now rewrite <- app_assoc.
  Qed.

  Definition notin (l : list nat) (x : nat) : bool := negb (smem Nat.eqb x l).
  Lemma notin_true l x : notin l x = true <-> ~ In x l.
  Proof.
    unfold notin. destruct (smem Nat.eqb x l) eqn:E; simpl.
    - apply (smem_In Nat.eqb nat_eqb_spec') in E. split; [discriminate|contradiction].
    - split; [|reflexivity]. intros _ H. apply (smem_In Nat.eqb nat_eqb_spec') in H. congruence.
  Qed.
  Definition missing (fin : list nat) (i : nat) : nat := List.length (filter (notin fin) (deps i)).

  Lemma missing_0 fin i : missing fin i = 0 <-> forall j, In j (deps i) -> In j fin.
  Proof.
    unfold missing. split.
    - intros H j Hj. apply length_zero_iff_nil in H.
      destruct (in_dec Nat.eq_dec j fin) as [|Hn]; [assumption|exfalso].
      assert (In j (filter (notin fin) (deps i))) by (apply filter_In; split; [exact Hj|now apply notin_true]).
      rewrite H in H0. destruct H0.
    - intros H. apply length_zero_iff_nil.
      destruct (filter (notin fin) (deps i)) as [|x l] eqn:E; [reflexivity|exfalso].
      assert (Hx : In x (filter (notin fin) (deps i))) by (rewrite E; now left).
      apply filter_In in Hx. destruct Hx as [H1 H2]. apply notin_true in H2. auto.
  Qed.

  Record core (dc : nat -> Z) (dn : nat -> bool) (q : list nat) (unf : Z) (rn : list nat)
         (l : list event) : Prop := {
    c_nodup : NoDup (q ++ started l ++ dropped l);
    c_perm : Permutation (started l) (rn ++ finished l ++ raised l);
    c_unf : unf = (Z.of_nat (List.length q) + Z.of_nat (List.length rn) +
                   Z.of_nat (List.length (raised l)))%Z;
    c_dc : forall i, i < n -> dc i = Z.of_nat (missing (finished l) i);
    c_enq : forall i, In i (q ++ started l ++ dropped l) <->
              i < n /\ forall j, In j (deps i) -> In j (finished l);
    c_done : forall i, dn i = true <-> In i (finished l);
    c_kind : forall t r, In (EFinish t r) l -> r <> RExn;
    c_safe : log_safe l;
    c_noabort : ~ In EAbort l }.

  Lemma core_rn dc dn q unf rn rn' l : Permutation rn rn' ->
    core dc dn q unf rn l -> core dc dn q unf rn' l.
  Proof.
    intros P [H1 H2 H3 H4 H5 H6 H7 H8 H9]. split; auto.
    - rewrite H2. now apply Permutation_app_tail.
    - now rewrite <- (Permutation_length P).
  Qed.

  Lemma core_start dc dn t q unf rn l : any_false l = false ->
    core dc dn (t :: q) unf rn l -> core dc dn q unf (t :: rn) (l ++ [EStart t]).
  Proof.
    intros Hf [H1 H2 H3 H4 H5 H6 H7 H8 H9].
    assert (Ef : finished (l ++ [EStart t]) = finished l) by (rewrite finished_app; simpl; apply app_nil_r).
    assert (Er : raised (l ++ [EStart t]) = raised l) by (rewrite raised_app; simpl; apply app_nil_r).
    assert (Ed : dropped (l ++ [EStart t]) = dropped l) by (rewrite dropped_app; simpl; apply app_nil_r).
    assert (Es : started (l ++ [EStart t]) = started l ++ [t]) by (rewrite started_app; reflexivity).
    assert (P : Permutation (q ++ (started l ++ [t]) ++ dropped l) ((t :: q) ++ started l ++ dropped l)).
    { rewrite <- app_assoc. simpl. symmetry. rewrite (app_assoc q (started l) (dropped l)).
      rewrite (app_assoc q (started l) (t :: dropped l)). apply Permutation_middle. }
    split; rewrite ?Ef, ?Er, ?Ed, ?Es; auto.
    - eapply Permutation_NoDup; [symmetry; exact P|exact H1].
    - rewrite H2. simpl. symmetry. apply Permutation_cons_append.
    - rewrite H3. simpl List.length. lia.
    - intros i. rewrite <- H5. split; apply Permutation_in; [exact P|now symmetry].
    - intros t' r Hi. apply in_app_iff in Hi. destruct Hi as [Hi|[Hi|[]]]; [eauto|discriminate].
    - apply log_safe_snoc; [exact H8|]. split; [|exact Hf].
      intros j Hj.
      assert (Ht : In t ((t :: q) ++ started l ++ dropped l)) by now left.
      apply H5 in Ht. destruct Ht as [_ Ht]. specialize (Ht j Hj). apply finished_In in Ht.
      destruct Ht as [r Hr]. destruct r; [exact Hr| |exfalso; now apply (H7 _ _ Hr)].
      exfalso. assert (any_false l = true) by (apply any_false_spec; now exists j). congruence.
    - intros Hi. apply in_app_iff in Hi. destruct Hi as [Hi|[Hi|[]]]; [auto|discriminate].
  Qed.

  Lemma core_raise dc dn t q unf rn l :
    core dc dn q unf (t :: rn) l -> core dc dn q unf rn (l ++ [ERaise t]).
  Proof.
    intros [H1 H2 H3 H4 H5 H6 H7 H8 H9].
    assert (Ef : finished (l ++ [ERaise t]) = finished l) by (rewrite finished_app; simpl; apply app_nil_r).
    assert (Er : raised (l ++ [ERaise t]) = raised l ++ [t]) by (rewrite raised_app; reflexivity).
    assert (Ed : dropped (l ++ [ERaise t]) = dropped l) by (rewrite dropped_app; simpl; apply app_nil_r).
    assert (Es : started (l ++ [ERaise t]) = started l) by (rewrite started_app; simpl; apply app_nil_r).
    split; rewrite ?Ef, ?Er, ?Ed, ?Es; auto.
    - rewrite H2. rewrite !app_assoc. rewrite <- Permutation_cons_append. reflexivity.
    - rewrite H3. rewrite app_length. simpl List.length. lia.
    - intros t' r Hi. apply in_app_iff in Hi. destruct Hi as [Hi|[Hi|[]]]; [eauto|discriminate].
    - now apply log_safe_snoc.
    - intros Hi. apply in_app_iff in Hi. destruct Hi as [Hi|[Hi|[]]]; [auto|discriminate].
  Qed.

  Lemma core_drain dc dn q unf rn l :
    core dc dn q unf rn l ->
    core dc dn [] (unf - Z.of_nat (List.length q)) rn (l ++ map EDrop q).
  Proof.
    intros [H1 H2 H3 H4 H5 H6 H7 H8 H9].
    assert (Ef : finished (l ++ map EDrop q) = finished l)
      by (rewrite finished_app, finished_drops; apply app_nil_r).
    assert (Er : raised (l ++ map EDrop q) = raised l)
      by (rewrite raised_app, raised_drops; apply app_nil_r).
    assert (Ed : dropped (l ++ map EDrop q) = dropped l ++ q)
      by (rewrite dropped_app, dropped_drops; reflexivity).
    assert (Es : started (l ++ map EDrop q) = started l)
      by (rewrite started_app, started_drops; apply app_nil_r).
    assert (P : Permutation ([] ++ started l ++ dropped l ++ q) (q ++ started l ++ dropped l)).
    { simpl. rewrite app_assoc. apply Permutation_app_comm. }
    split; rewrite ?Ef, ?Er, ?Ed, ?Es; auto.
    - eapply Permutation_NoDup; [symmetry; exact P|exact H1].
    - rewrite H3. simpl List.length. lia.
    - intros i. rewrite <- H5. split; apply Permutation_in; [exact P|now symmetry].
    - intros t' r Hi. apply in_app_iff in Hi. destruct Hi as [Hi|Hi]; [eauto|].
      apply in_map_iff in Hi. destruct Hi as (x & Hx & _). discriminate.
    - now apply log_safe_drops.
    - intros Hi. apply in_app_iff in Hi. destruct Hi as [Hi|Hi]; [auto|].
      apply in_map_iff in Hi. destruct Hi as (x & Hx & _). discriminate.
  Qed.

  (** Effect of [decrease_all]. *)
  Definition dc_after (order : list nat) (dc : nat -> Z) : nat -> Z :=
    fold_left (fun f d => upd f d (f d - 1)%Z) order dc.
  Fixpoint newly (order : list nat) (dc : nat -> Z) : list nat :=
    match order with
    | [] => []
    | d :: o => (if (dc d - 1 =? 0)%Z then [d] else []) ++ newly o (upd dc d (dc d - 1)%Z)
    end.

  Lemma dc_after_spec order dc i : NoDup order ->
    dc_after order dc i = (if smem Nat.eqb i order then dc i - 1 else dc i)%Z.
  Proof.
    revert dc; induction order as [|d o IH]; intros dc H; [reflexivity|].
    apply NoDup_cons_iff in H. destruct H as [H1 H2].
    unfold dc_after in *. simpl. rewrite IH by exact H2. unfold upd.
    destruct (Nat.eqb_spec i d) as [->|Hn]; simpl; [|reflexivity].
    destruct (smem Nat.eqb d o) eqn:E; [|reflexivity].
    apply (smem_In Nat.eqb nat_eqb_spec') in E. contradiction.
  Qed.

  Lemma newly_ext order dc dc' : (forall d, In d order -> dc d = dc' d) -> NoDup order ->
    newly order dc = filter (fun d => dc' d =? 1)%Z order.
  Proof.
    revert dc; induction order as [|d o IH]; intros dc He H; [reflexivity|].
    apply NoDup_cons_iff in H. destruct H as [H1 H2]. simpl.
    rewrite (IH (upd dc d (dc d - 1)%Z)); [|intros x Hx; unfold upd|exact H2].
    - rewrite (He d) by now left.
      destruct (Z.eqb_spec (dc' d - 1) 0), (Z.eqb_spec (dc' d) 1); try lia; reflexivity.
    - destruct (Nat.eqb_spec x d) as [->|]; [contradiction|]. apply He. now right.
  Qed.

  Lemma core_finish dc dn t r order q unf rn l :
    r <> RExn -> Permutation (inv t) order ->
    core dc dn q unf (t :: rn) l ->
    (forall d, In d order -> 1 <= dc d)%Z /\
    core (dc_after order dc) (upd dn t true) (q ++ newly order dc)
         (unf + Z.of_nat (List.length (newly order dc)) - 1) rn (l ++ [EFinish t r]).
  Proof.
    intros Hr HP [H1 H2 H3 H4 H5 H6 H7 H8 H9].
    assert (Ef : finished (l ++ [EFinish t r]) = finished l ++ [t]) by (rewrite finished_app; reflexivity).
    assert (Er : raised (l ++ [EFinish t r]) = raised l) by (rewrite raised_app; simpl; apply app_nil_r).
    assert (Ed : dropped (l ++ [EFinish t r]) = dropped l) by (rewrite dropped_app; simpl; apply app_nil_r).
    assert (Es : started (l ++ [EFinish t r]) = started l) by (rewrite started_app; simpl; apply app_nil_r).
    assert (Hsn : NoDup (started l)).
    { apply NoDup_app_iff in H1. destruct H1 as (_ & H1 & _). now apply NoDup_app_iff in H1. }
    assert (Hfr : ~ In t (finished l)).
    { pose proof (Permutation_NoDup H2 Hsn) as Hx. simpl in Hx. apply NoDup_cons_iff in Hx.
      intros Hi. apply (proj1 Hx). apply in_app_iff. right. apply in_app_iff. now left. }
    assert (Ho : forall i, In i order <-> In t (deps i)).
    { intros i. rewrite deps_inv. split; apply Permutation_in; [now symmetry|exact HP]. }
    assert (Hon : NoDup order) by (eapply Permutation_NoDup; [exact HP|apply inv_nodup]).
    assert (Hmis : forall i, In t (deps i) ->
                     missing (finished l) i = S (missing (finished l ++ [t]) i)).
    { intros i Hi. unfold missing. apply (filter_remove _ _ _ t); auto.
      - now apply notin_true.
      - destruct (notin (finished l ++ [t]) t) eqn:E; [|reflexivity].
        apply notin_true in E. exfalso. apply E. apply in_app_iff. right. now left.
      - intros x Hx. destruct (notin (finished l) x) eqn:E.
        + apply notin_true. apply notin_true in E. rewrite in_app_iff. simpl. intuition.
        + destruct (notin (finished l ++ [t]) x) eqn:E'; [|reflexivity].
          apply notin_true in E'. assert (notin (finished l) x = true); [|congruence].
          apply notin_true. intros Hy. apply E'. apply in_app_iff. now left. }
    assert (Hmis' : forall i, ~ In t (deps i) ->
                     missing (finished l) i = missing (finished l ++ [t]) i).
    { intros i Hi. unfold missing. f_equal. apply filter_ext_in. intros x Hx.
      assert (x <> t) by (intros ->; contradiction).
      destruct (notin (finished l) x) eqn:E.
      + symmetry. apply notin_true. apply notin_true in E. rewrite in_app_iff. simpl. intuition.
      + destruct (notin (finished l ++ [t]) x) eqn:E'; [|reflexivity].
        apply notin_true in E'. assert (notin (finished l) x = true); [|congruence].
        apply notin_true. intros Hy. apply E'. apply in_app_iff. now left. }
    assert (Hnew : forall i, In i (newly order dc) <->
                     In t (deps i) /\ missing (finished l ++ [t]) i = 0).
    { intros i. rewrite (newly_ext order dc dc) by auto. rewrite filter_In, Ho, Z.eqb_eq.
      split; intros [Ha Hb]; split; auto.
      - rewrite H4 in Hb by (apply deps_lt in Ha; tauto). rewrite Hmis in Hb by exact Ha. lia.
      - rewrite H4 by (apply deps_lt in Ha; tauto). rewrite Hmis by exact Ha. lia. }
    assert (Hdisj : forall i, In i (newly order dc) -> ~ In i (q ++ started l ++ dropped l)).
    { intros i Hi Hq. apply Hnew in Hi. destruct Hi as [Hi _]. apply H5 in Hq.
      destruct Hq as [_ Hq]. apply Hfr. now apply Hq. }
    assert (P : Permutation ((q ++ newly order dc) ++ started l ++ dropped l)
                            (newly order dc ++ (q ++ started l ++ dropped l))).
    { rewrite <- app_assoc. rewrite Permutation_app_swap_app. reflexivity. }
    split.
    { intros d Hd. apply Ho in Hd. rewrite H4 by (apply deps_lt in Hd; tauto).
      rewrite Hmis by exact Hd. lia. }
    split; rewrite ?Ef, ?Er, ?Ed, ?Es; auto.
    - eapply Permutation_NoDup; [symmetry; exact P|]. apply NoDup_app_iff. split; [|split].
      + rewrite (newly_ext order dc dc) by auto. now apply NoDup_filter.
      + exact H1.
      + exact Hdisj.
    - rewrite H2. simpl. rewrite <- app_assoc. simpl.
      rewrite app_assoc, (app_assoc rn). apply Permutation_middle.
    - rewrite H3. rewrite app_length. simpl List.length. lia.
    - intros i Hi. rewrite dc_after_spec by exact Hon.
      destruct (smem Nat.eqb i order) eqn:E.
      + apply (smem_In Nat.eqb nat_eqb_spec') in E. apply Ho in E. rewrite H4 by exact Hi.
        rewrite Hmis by exact E. lia.
      + rewrite H4 by exact Hi. f_equal. apply Hmis'. intros Hc. apply Ho in Hc.
        apply (smem_In Nat.eqb nat_eqb_spec') in Hc. congruence.
    - intros i. split.
      + intros Hi. apply (Permutation_in i P) in Hi. apply in_app_iff in Hi.
        destruct Hi as [Hi|Hi].
        * apply Hnew in Hi. destruct Hi as [Ha Hb]. split; [now apply deps_lt in Ha|].
          now apply missing_0.
        * apply H5 in Hi. destruct Hi as [Ha Hb]. split; [exact Ha|].
          intros j Hj. apply in_app_iff. left. auto.
      + intros [Ha Hb]. apply (Permutation_in i (Permutation_sym P)). apply in_app_iff.
        destruct (in_dec Nat.eq_dec t (deps i)) as [Ht|Ht].
        * left. apply Hnew. split; [exact Ht|]. now apply missing_0.
        * right. apply H5. split; [exact Ha|]. intros j Hj. specialize (Hb j Hj).
          apply in_app_iff in Hb. destruct Hb as [Hb|[->|[]]]; [exact Hb|contradiction].
    - intros i. unfold upd. rewrite in_app_iff. simpl. destruct (Nat.eqb_spec i t) as [->|Hn].
      + split; auto.
      + rewrite H6. intuition congruence.
    - intros t' r' Hi. apply in_app_iff in Hi. destruct Hi as [Hi|[Hi|[]]]; [eauto|congruence].
    - now apply log_safe_snoc.
    - intros Hi. apply in_app_iff in Hi. destruct Hi as [Hi|[Hi|[]]]; [auto|discriminate].
  Qed.
End Core.
