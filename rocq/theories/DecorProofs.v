(** Lemmas about decorated functions. *)
From Coq Require Import Lia PeanoNat.
From Verif Require Import PyBase PyPath PathProofs SolverModel InvokerModel CoreModel SpecCore CoreProofs NeedProofs
  MakeModel SpecMake RegModel CliModel CliProofs SpecUtil UtilProofs SpecReg RegProofs RegScript RegBuild RegTotal
  RegCopy InstallModel SpecInstall InstallProofs DecorModel SpecDecor.
Local Open Scope string_scope.
Local Open Scope list_scope.

Section Decor.
  Variables (cwd home : string) (exists_ : string -> bool) (glob_ : string -> list string) (k : nat).
  Notation canon := (realpath cwd).
  Notation dstep := (dstep canon exists_ glob_ k).
  Notation drun := (drun canon exists_ glob_ k).
  Notation plain := (plain_new canon exists_ glob_).

  (** One proper statement. *)
  Definition after (fuel : nat) (d : dstate) (s : dstmt) (x : said) : res dstate :=
    do! st <- plain fuel (fst (d_reg d)) k Updatable MOther (sd_name x) (sd_deps x);
    Ok (DS (st, dset Nat.eqb (snd (d_reg d)) (Nat.pred (List.length (c_heap (fst (reg st k))))) (sd_func x))
           match s with
           | DBare n _ | DArgs _ n _ => sset (d_env d) n (VObj (sd_func x))
           | DCall _ _ => d_env d
           end).
  Lemma dstep_proper fuel d s : proper s -> exists x, says s = Some x /\ dstep fuel d s = after fuel d s x.
  Proof.
    intros P. destruct s as [n id|kw n id|[n id|o id|] kw]; cbn in P; try contradiction.
    - eexists. split; [reflexivity|]. unfold DecorModel.dstep, routine, routine_do, after. cbn -[plain_new].
      now destruct (plain fuel (fst (d_reg d)) k Updatable MOther n []).
    - eexists. split; [reflexivity|]. unfold DecorModel.dstep, routine, decorate, routine_do, after. cbn -[plain_new]. rewrite P. cbn -[plain_new].
      destruct (kw_tgt kw) as [t|], (kw_deps kw) as [ds|]; cbn -[plain_new];
        match goal with |- context [plain ?a ?b k Updatable MOther ?c ?e] => now destruct (plain a b k Updatable MOther c e) end.
    - eexists. split; [reflexivity|]. unfold DecorModel.dstep, routine, routine_do, after. cbn -[plain_new]. rewrite P. cbn -[plain_new].
      destruct (kw_tgt kw) as [t|], (kw_deps kw) as [ds|]; cbn -[plain_new];
        match goal with |- context [plain ?a ?b k Updatable MOther ?c ?e] => now destruct (plain a b k Updatable MOther c e) end.
  Qed.

  Definition regs_of (r : res dstate) : res regs := do! d <- r; Ok (fst (d_reg d)).
  Lemma mrun_app fuel j a b st : mrun canon exists_ glob_ home fuel j (a ++ b) st =
    (do! st' <- mrun canon exists_ glob_ home fuel j a st; mrun canon exists_ glob_ home fuel j b st').
  Proof.
    revert st. induction a as [|o a IH]; intros st; [reflexivity|]. cbn. destruct (mstep canon exists_ glob_ home fuel j st o); cbn; auto.
  Qed.
  Lemma same_as_updtarget fuel l : forall d, Forall proper l ->
    regs_of (drun fuel l d) = mrun canon exists_ glob_ home fuel k (flat_map plain_op l) (fst (d_reg d)).
  Proof.
    induction l as [|s l IH]; intros d F; [reflexivity|]. inversion F as [|? ? P F']. subst.
    destruct (dstep_proper fuel d s P) as (x & Hx & E). cbn [DecorModel.drun flat_map]. rewrite E. unfold plain_op. rewrite Hx, mrun_app.
    cbn [mrun mstep]. unfold after. destruct (plain fuel (fst (d_reg d)) k Updatable MOther (sd_name x) (sd_deps x)) as [st| |]; [|reflexivity|reflexivity].
    cbn [bind]. rewrite IH by exact F'. reflexivity.
  Qed.

  Lemma drun_app fuel a b d : drun fuel (a ++ b) d = (do! d' <- drun fuel a d; drun fuel b d').
  Proof. revert d. induction a as [|o a IH]; intros d; [reflexivity|]. cbn. destruct (dstep fuel d o); cbn; auto. Qed.

  (** *** Entries of the registry *)
  Lemma existing_length fuel l : forall st st', source_existing canon exists_ glob_ fuel l st = Ok st' -> List.length st' = List.length st.
  Proof.
    induction l as [|r l IH]; intros st st' E; [injection E as <-; reflexivity|]. cbn [source_existing] in E. destruct (exists_ r); [|now apply IH].
    destruct (RegModel.source canon exists_ glob_ fuel st r) as [st1| |] eqn:E1; cbn [bind] in E; try discriminate E.
    rewrite (IH _ _ E). unfold RegModel.source, rhas in E1. destruct (core_has canon (fst (reg st 0)) r) as [[|] c'].
    - injection E1 as <-. apply put_length.
    - rewrite (fnew_length _ _ _ _ _ _ _ _ _ _ _ E1). apply put_length.
  Qed.
  Lemma existing_elsewhere fuel l : forall st st', source_existing canon exists_ glob_ fuel l st = Ok st' -> k <> 0 -> reg st' k = reg st k.
  Proof.
    induction l as [|r l IH]; intros st st' E K; [injection E as <-; reflexivity|]. cbn [source_existing] in E. destruct (exists_ r); [|now apply IH].
    destruct (RegModel.source canon exists_ glob_ fuel st r) as [st1| |] eqn:E1; cbn [bind] in E; try discriminate E.
    rewrite (IH _ _ E K). eapply source_core0; eauto.
  Qed.
  Section Entry.
    Variables (x : string) (i : nat) (o : tobj).
    Definition entry (r : mreg) : Prop := sget (c_targets (fst r)) x = Some i /\ nth_error (c_heap (fst r)) i = Some o.
    Lemma entry_has r nm : entry r -> entry (snd (core_has canon (fst r) nm), snd r).
    Proof.
      intros [A B]. unfold entry. cbn [fst]. rewrite heap_has. split; [|exact B]. unfold core_has.
      destruct (sget (c_targets (fst r)) nm) as [j|] eqn:E; [exact A|].
      destruct (sget (c_targets (fst r)) (canon nm)); [|exact A]. cbn. rewrite (dget_dset_neq _ string_eqb_spec'); [exact A|congruence].
    Qed.
    Lemma entry_add r cls kd nm deps : nm <> x -> entry r -> entry (reg_add r cls kd nm deps).
    Proof.
      intros N [A B]. unfold entry, reg_add. cbn [fst]. rewrite core_new_targets, core_new_heap.
      rewrite (dget_dset_neq _ string_eqb_spec') by congruence. split; [exact A|]. rewrite nth_error_app1; [exact B|].
      apply nth_error_Some. congruence.
    Qed.
    Hypothesis relative : starts_slash x = false.
    Lemma entry_existing fuel l st st' : source_existing canon exists_ glob_ fuel l st = Ok st' -> k < List.length st ->
      entry (reg st k) -> entry (reg st' k).
    Proof.
      intros E L H. destruct (Nat.eq_dec k 0) as [K|K].
      - rewrite K in *. refine (proj1 (keep_source_existing cwd exists_ glob_ entry entry_has _ fuel l st st' E L H)).
        intros r kd nm deps Hr. apply entry_add; [|exact Hr]. intros X. rewrite <- X, realpath_starts in relative. discriminate.
      - now rewrite (existing_elsewhere _ _ _ _ E K).
    Qed.
    Lemma entry_plain fuel st nm deps st' : plain fuel st k Updatable MOther nm deps = Ok st' -> nm <> x -> k < List.length st ->
      entry (reg st k) -> entry (reg st' k).
    Proof.
      unfold plain_new. intros E N L H.
      match type of E with bind ?X _ = _ => destruct X as [st1| |] eqn:E1; cbn [bind] in E; try discriminate E end.
      pose proof (entry_existing _ _ _ _ E1 L H) as H1. pose proof (existing_length _ _ _ _ E1) as L1.
      injection E as <-. rewrite reg_put, Nat.eqb_refl by lia. now apply entry_add.
    Qed.
  End Entry.

  Lemma plain_length fuel st nm deps st' : plain fuel st k Updatable MOther nm deps = Ok st' -> k < List.length st -> k < List.length st'.
  Proof.
    unfold plain_new. intros E L.
    match type of E with bind ?X _ = _ => destruct X as [st1| |] eqn:E1; cbn [bind] in E; try discriminate E end.
    pose proof (existing_length _ _ _ _ E1) as L1. injection E as <-. rewrite put_length. lia.
  Qed.
  Lemma existing_heap fuel l st st' : source_existing canon exists_ glob_ fuel l st = Ok st' -> k < List.length st ->
    List.length (c_heap (fst (reg st k))) <= List.length (c_heap (fst (reg st' k))).
  Proof.
    intros E L. destruct (Nat.eq_dec k 0) as [K|K]; [|now rewrite (existing_elsewhere _ _ _ _ E K)]. rewrite K in *.
    refine (proj1 (keep_source_existing cwd exists_ glob_ (fun r => List.length (c_heap (fst (reg st 0))) <= List.length (c_heap (fst r))) _ _ _ _ _ _ E L (le_n _))).
    - intros r nm H. cbn [fst]. now rewrite heap_has.
    - intros r kd nm deps H. unfold reg_add. cbn [fst]. rewrite core_new_heap, app_length. cbn [List.length]. lia.
  Qed.
  (** The new target is the last object. *)
  Lemma plain_new_entry fuel st nm deps st' : plain fuel st k Updatable MOther nm deps = Ok st' -> k < List.length st ->
    entry nm (Nat.pred (List.length (c_heap (fst (reg st' k))))) (new_obj Updatable nm (expand_names glob_ deps)) (reg st' k) /\
    List.length (c_heap (fst (reg st k))) < List.length (c_heap (fst (reg st' k))).
  Proof.
    unfold plain_new. intros E L.
    match type of E with bind ?X _ = _ => destruct X as [st1| |] eqn:E1; cbn [bind] in E; try discriminate E end.
    pose proof (existing_heap _ _ _ _ E1 L) as H1. pose proof (existing_length _ _ _ _ E1) as L1.
    injection E as <-. rewrite reg_put, Nat.eqb_refl by lia. unfold entry, reg_add. cbn [fst]. rewrite core_new_targets, core_new_heap, app_length. cbn [List.length].
    rewrite Nat.add_1_r. cbn [Nat.pred]. split; [|lia]. split; [apply (dget_dset_eq _ string_eqb_spec')|].
    rewrite nth_error_app2, Nat.sub_diag by lia. reflexivity.
  Qed.

  (** A routine stays what it is as long as no other one of that name is declared. *)
  Definition routine_is (x : string) (i : nat) (o : tobj) (f : pyobj) (d : dstate) : Prop :=
    entry x i o (reg (fst (d_reg d)) k) /\ func_of (d_reg d) i = Some f.
  Lemma routine_stays fuel x i o f l : starts_slash x = false -> forall d d', Forall proper l ->
    (forall s y, In s l -> says s = Some y -> sd_name y <> x) ->
    drun fuel l d = Ok d' -> k < List.length (fst (d_reg d)) -> routine_is x i o f d -> routine_is x i o f d'.
  Proof.
    intros Hx. induction l as [|s l IH]; intros d d' F N E L H; [injection E as <-; exact H|]. inversion F as [|? ? P F']. subst.
    cbn [DecorModel.drun] in E. destruct (dstep_proper fuel d s P) as (y & Hy & Es). rewrite Es in E. unfold after in E.
    destruct (plain fuel (fst (d_reg d)) k Updatable MOther (sd_name y) (sd_deps y)) as [st| |] eqn:E1; cbn [bind] in E; try discriminate E.
    refine (IH _ _ F' (fun s0 y0 Hin => N s0 y0 (or_intror Hin)) E _ _); [exact (plain_length _ _ _ _ _ E1 L)|].
    destruct H as [H Hf]. split; [exact (entry_plain x i o Hx _ _ _ _ _ E1 (N s y (or_introl eq_refl) Hy) L H)|].
    unfold func_of in *. cbn [d_reg fst snd]. rewrite (dget_dset_neq _ Nat.eqb_spec); [exact Hf|].
    destruct (plain_new_entry _ _ _ _ _ E1 L) as [_ Hl]. destruct H as [_ Hn]. assert (i < List.length (c_heap (fst (reg (fst (d_reg d)) k)))) by (apply nth_error_Some; congruence). lia.
  Qed.
  Lemma declared_found fuel l1 s l2 x d d' : Forall proper (l1 ++ s :: l2) -> says s = Some x ->
    (forall s' y, In s' l2 -> says s' = Some y -> sd_name y <> sd_name x) -> starts_slash (sd_name x) = false ->
    drun fuel (l1 ++ s :: l2) d = Ok d' -> k < List.length (fst (d_reg d)) ->
    exists i, core_get canon (fst (reg (fst (d_reg d')) k)) (sd_name x) = Ok i /\
      obj (fst (reg (fst (d_reg d')) k)) i = new_obj Updatable (sd_name x) (expand_names glob_ (sd_deps x)) /\
      func_of (d_reg d') i = Some (sd_func x).
  Proof.
    intros F Hx N Hs E L. apply Forall_app in F as [F1 F2]. inversion F2 as [|? ? P F2']. subst. rewrite drun_app in E.
    destruct (drun fuel l1 d) as [d1| |] eqn:E1; cbn [bind] in E; try discriminate E.
    assert (L1 : k < List.length (fst (d_reg d1))).
    { clear - F1 E1 L. revert d E1 L. induction l1 as [|s l IH]; intros d E1 L; [injection E1 as <-; exact L|].
      inversion F1 as [|? ? P F1']. subst. cbn [DecorModel.drun] in E1. destruct (dstep_proper fuel d s P) as (y & Hy & Es). rewrite Es in E1. unfold after in E1.
      destruct (plain fuel (fst (d_reg d)) k Updatable MOther (sd_name y) (sd_deps y)) as [st| |] eqn:E2; cbn [bind] in E1; try discriminate E1.
      refine (IH F1' _ E1 _). exact (plain_length _ _ _ _ _ E2 L). }
    cbn [DecorModel.drun] in E. destruct (dstep_proper fuel d1 s P) as (y & Hy & Es). rewrite Hx in Hy. injection Hy as <-. rewrite Es in E. unfold after in E.
    destruct (plain fuel (fst (d_reg d1)) k Updatable MOther (sd_name x) (sd_deps x)) as [st| |] eqn:E2; cbn [bind] in E; try discriminate E.
    destruct (plain_new_entry _ _ _ _ _ E2 L1) as [He _].
    eassert (R : routine_is (sd_name x) _ _ (sd_func x) d').
    { refine (routine_stays fuel _ _ _ _ l2 Hs _ _ F2' N E (plain_length _ _ _ _ _ E2 L1) (conj He _)).
      unfold func_of. cbn [d_reg snd]. apply (dget_dset_eq _ Nat.eqb_spec). }
    destruct R as [[R1 R2] R3]. eexists. split; [unfold core_get; rewrite R1; reflexivity|]. split; [|exact R3].
    unfold obj. now apply nth_error_nth.
  Qed.

  (** The names of the script. *)
  Lemma names_stay fuel l : forall d d' n v, Forall proper l -> drun fuel l d = Ok d' ->
    (forall s f, In s l -> ~ defines s n f) -> sget (d_env d) n = Some v -> sget (d_env d') n = Some v.
  Proof.
    induction l as [|s l IH]; intros d d' n v F E N H; [injection E as <-; exact H|]. inversion F as [|? ? P F']. subst.
    cbn [DecorModel.drun] in E. destruct (dstep_proper fuel d s P) as (y & Hy & Es). rewrite Es in E. unfold after in E.
    destruct (plain fuel (fst (d_reg d)) k Updatable MOther (sd_name y) (sd_deps y)) as [st| |] eqn:E1; cbn [bind] in E; try discriminate E.
    refine (IH _ _ _ _ F' E (fun s0 f Hin => N s0 f (or_intror Hin)) _). cbn [d_env].
    destruct s as [m id|kw m id|g kw]; [| |exact H].
    - rewrite (dget_dset_neq _ string_eqb_spec'); [exact H|]. intros X. apply (N _ (PyFunction n id) (or_introl eq_refl)). exists id. split; [reflexivity|]. left. congruence.
    - rewrite (dget_dset_neq _ string_eqb_spec'); [exact H|]. intros X. apply (N _ (PyFunction n id) (or_introl eq_refl)). exists id. split; [reflexivity|]. right. exists kw. congruence.
  Qed.
  Lemma defined_stays fuel l1 s l2 n f d d' : Forall proper (l1 ++ s :: l2) -> defines s n f ->
    (forall s' g, In s' l2 -> ~ defines s' n g) -> drun fuel (l1 ++ s :: l2) d = Ok d' -> sget (d_env d') n = Some (VObj f).
  Proof.
    intros F D N E. apply Forall_app in F as [F1 F2]. inversion F2 as [|? ? P F2']. subst. rewrite drun_app in E.
    destruct (drun fuel l1 d) as [d1| |]; cbn [bind] in E; try discriminate E.
    cbn [DecorModel.drun] in E. destruct (dstep_proper fuel d1 s P) as (y & Hy & Es). rewrite Es in E. unfold after in E.
    destruct (plain fuel (fst (d_reg d1)) k Updatable MOther (sd_name y) (sd_deps y)) as [st| |]; cbn [bind] in E; try discriminate E.
    refine (names_stay fuel l2 _ _ _ _ F2' E N _). cbn [d_env].
    destruct D as (id & -> & [->|[kw ->]]); cbn in Hy; injection Hy as <-; apply (dget_dset_eq _ string_eqb_spec').
  Qed.

  (** *** Nothing goes wrong *)
  Section Total.
    Variable ex : string -> bool.
    Hypothesis disk : disk_ok cwd ex exists_.
    Lemma plain_total fuel st nm deps : exists st', plain (S fuel) st k Updatable MOther nm deps = Ok st'.
    Proof.
      unfold plain_new. assert (H : forall l st, exists st', source_existing canon exists_ glob_ (S fuel) l st = Ok st').
      { induction l as [|r l IH]; intros st0; [eexists; reflexivity|]. cbn [source_existing]. destruct (exists_ r) eqn:Er; [|apply IH].
        unfold RegModel.source. destruct (rhas canon st0 0 r) as [[|] st1]; [apply IH|].
        destruct (fnew_source_total cwd ex exists_ glob_ disk fuel st1 r Er) as [st2 ->]. cbn [bind]. apply IH. }
      destruct (H (expand_names glob_ deps) st) as [st1 ->]. cbn [bind]. eexists. reflexivity.
    Qed.
    Lemma drun_total fuel l : forall d, Forall proper l -> exists d', drun (S fuel) l d = Ok d'.
    Proof.
      induction l as [|s l IH]; intros d F; [eexists; reflexivity|]. inversion F as [|? ? P F']. subst.
      cbn [DecorModel.drun]. destruct (dstep_proper (S fuel) d s P) as (y & Hy & Es). rewrite Es. unfold after.
      destruct (plain_total fuel (fst (d_reg d)) (sd_name y) (sd_deps y)) as [st ->]. cbn [bind]. now apply IH.
    Qed.
  End Total.

  (** Objects that are no functions, given to [routine] itself. *)
  Lemma callable_ignored fuel d f kw : (forall n id, f <> PyFunction n id) -> dstep fuel d (DCall f kw) = Ok d.
  Proof. intros H. destruct f as [n id|o id|]; [now destruct (H n id)| |]; cbn; destruct d as [s e]; reflexivity. Qed.
  Lemma keyword_raises fuel d w n id : dstep fuel d (with_keyword w n id) = Raise (TypeError w).
  Proof. reflexivity. Qed.
End Decor.
