(** Lemmas: [clean], the frame of a build, the file cache over time. *)
From Coq Require Import Permutation.
From Verif Require Import PyBase PyPath SolverModel SpecGraph InvokerModel InvokerPath CoreModel SpecCore CoreProofs
  NeedProofs RuProofs CoreThms MakeModel MakeEval SpecMake MakeProofs MakeFacts MakeBuild MakeThms.

(** ** The cache over time (C37) *)

(** What may happen to the cache: the world changes, somebody asks, somebody refreshes. *)
Inductive cevent := EWorld (fs : fsys) | EAsk (p : string) | ERefresh (p : string).
Definition cev_step (s : fsys * cache) (e : cevent) : fsys * cache :=
  match e with
  | EWorld fs => (fs, snd s)
  | EAsk p => (fst s, snd (get_info (fst s) (snd s) p))
  | ERefresh p => (fst s, update_info (fst s) (snd s) p)
  end.
Definition cev_run (h : list cevent) (s : fsys * cache) : fsys * cache := fold_left cev_step h s.

(** The world after a history. *)
Definition world_after (fs : fsys) (h : list cevent) : fsys :=
  fold_left (fun fs e => match e with EWorld fs' => fs' | _ => fs end) h fs.
Definition about (p : string) (e : cevent) : Prop := e = EAsk p \/ e = ERefresh p.
(** [e], after the events [h], looks at the disk for [p]. *)
Definition looks (p : string) (h : list cevent) (e : cevent) : Prop :=
  e = ERefresh p \/ (e = EAsk p /\ Forall (fun x => ~ about p x) h).

Lemma cev_fst h : forall fs ca, fst (cev_run h (fs, ca)) = world_after fs h.
Proof.
  induction h as [|e h IH]; intros fs ca; [reflexivity|]. unfold cev_run, world_after in *. simpl.
  destruct e; simpl; apply IH.
Qed.
Lemma get_info_other fs (ca : cache) p q : q <> p -> sget (snd (get_info fs ca p)) q = sget ca q.
Proof.
  intros H. unfold get_info. destruct (sget ca p); [reflexivity|]. simpl. unfold update_info.
  rewrite sget_sset. apply String.eqb_neq in H. now rewrite H.
Qed.
Lemma cev_silent p h : Forall (fun x => ~ about p x) h -> forall (s : fsys * cache), sget (snd (cev_run h s)) p = sget (snd s) p.
Proof.
  induction 1 as [|e h He _ IH]; intros s; [reflexivity|]. unfold cev_run in *. simpl. rewrite IH.
  destruct e as [fs|q|q]; simpl; [reflexivity| |].
  - apply get_info_other. intros ->. apply He. now left.
  - unfold update_info. rewrite sget_sset. destruct (String.eqb_spec p q) as [->|]; [|reflexivity].
    exfalso. apply He. now right.
Qed.
Lemma cev_kept p h : ~ In (ERefresh p) h -> forall (s : fsys * cache) x, sget (snd s) p = Some x -> sget (snd (cev_run h s)) p = Some x.
Proof.
  induction h as [|e h IH]; intros Hn s x Hx; [exact Hx|]. unfold cev_run in *. simpl. apply IH.
  - intros H. apply Hn. now right.
  - destruct e as [fs|q|q]; simpl; [exact Hx| |].
    + destruct (String.eqb_spec p q) as [->|n].
      * unfold get_info. now rewrite Hx.
      * now rewrite get_info_other.
    + unfold update_info. rewrite sget_sset. destruct (String.eqb_spec p q) as [->|]; [|exact Hx].
      exfalso. apply Hn. now left.
Qed.
Lemma cache_tells fs p h1 e h2 : looks p h1 e -> ~ In (ERefresh p) h2 ->
  let s := cev_run (h1 ++ e :: h2) (fs, []) in
  fst (get_info (fst s) (snd s) p) = stat (world_after fs h1) p.
Proof.
  intros Hl Hn s. assert (E : sget (snd s) p = Some (stat (world_after fs h1) p)).
  { unfold s, cev_run. rewrite fold_left_app. cbn [fold_left]. apply cev_kept; [exact Hn|].
    fold (cev_run h1 (fs, [])). destruct Hl as [->|[-> Hs]]; cbn [cev_step snd].
    - unfold update_info. rewrite sget_sset, String.eqb_refl. now rewrite cev_fst.
    - pose proof (cev_silent p h1 Hs (fs, [])) as E. unfold get_info.
      destruct (sget (snd (cev_run h1 (fs, []))) p) as [x|]; [discriminate E|]. cbn [snd].
      unfold update_info. rewrite sget_sset, String.eqb_refl. now rewrite cev_fst. }
  unfold get_info. now rewrite E.
Qed.
Lemma cache_first fs p h : Forall (fun x => ~ about p x) h ->
  let s := cev_run h (fs, []) in
  fst (get_info (fst s) (snd s) p) = stat (world_after fs h) p.
Proof.
  intros Hs s. assert (E : sget (snd s) p = None) by (unfold s; now rewrite cev_silent).
  pose proof (get_info_view (fst s) (snd s) p) as G.
  destruct (get_info (fst s) (snd s) p) as [x ca']. destruct (G x ca' eq_refl) as (-> & _).
  unfold view. rewrite E. simpl. unfold s. now rewrite cev_fst.
Qed.

(** ** Frame (C29) *)
Section Frame.
  Variable canon : string -> string.
  Variable kind : nat -> mkind.
  Variable other_if : nat -> res bool.
  Variable partial : bool.

  Lemma obj_task_frame c j w r w' p : kind j <> MOther -> obj_task canon kind partial c j w r w' ->
    w_fs w' p = w_fs w p \/
    (p = t_name (obj c j) /\ (exists f b, kind j = MFile f b) /\ t_need (obj c j) = Some true) \/
    (kind j = MDir /\ w_fs w p = None /\ (p = t_name (obj c j) \/ In p (ancestors (t_name (obj c j)))) /\
       exists m, w_fs w' p = Some (m, Dir)).
  Proof.
    intros Hk H. destruct (t_class (obj c j)) eqn:Ec.
    - unfold obj_task in H. rewrite Ec in H. destruct (kind j) eqn:Ek; try congruence.
      + destruct H as [_ ->]. now left.
      + destruct H as [_ ->]. now left.
      + destruct H as [x ca' Hg He|x ca' m q Hg He Hf Ha Hm fs'|x ca' q Hg He Hf]; simpl; auto.
        unfold fs', makedirs. destruct (String.eqb_spec p q) as [->|n].
        * right. right. eauto 6.
        * destruct (w_fs w p) as [e|] eqn:Ep; [now left|].
          destruct (smem String.eqb p (ancestors q)) eqn:Em; [|now left].
          apply (smem_In String.eqb string_eqb_spec') in Em. right. right. eauto 6.
      + destruct H as [_ ->]. now left.
    - destruct (task_touches canon kind partial c j w r w' Ec Hk H) as (_ & _ & T).
      destruct (T p) as [A|[(A & B & C & _)|(A & B & C & m & D & _)]]; [now left|right; now left|right; right; eauto 6].
  Qed.

  Lemma build_frame c i fs now ca c1 objs s : build_of canon kind other_if partial c i fs now ca c1 objs s ->
    (forall j, in_cone canon c i j -> kind j <> MOther) ->
    forall p, w_fs (s_world s) p <> fs p ->
      exists j, in_cone canon c i j /\
        ((p = t_name (obj c j) /\ (exists f b, kind j = MFile f b) /\ t_need (obj c1 j) = Some true) \/
         (kind j = MDir /\ fs p = None /\ (p = t_name (obj c j) \/ In p (ancestors (t_name (obj c j)))))).
  Proof.
    intros Hb Hk p.
    destruct (build_facts canon kind other_if partial c i fs now ca c1 objs s Hb)
      as (_ & _ & S & _ & _ & _ & ca1 & l & _ & Pa & _ & Hc & _).
    change fs with (w_fs (WD fs ca1 now now [])) at 1 2.
    assert (G : forall w0 w, task_path (obj_task canon kind partial c1) l w0 w -> w_fs w p <> w_fs w0 p ->
      exists j, in_cone canon c i j /\
        ((p = t_name (obj c j) /\ (exists f b, kind j = MFile f b) /\ t_need (obj c1 j) = Some true) \/
         (kind j = MDir /\ w_fs w0 p = None /\ (p = t_name (obj c j) \/ In p (ancestors (t_name (obj c j))))))).
    { clear Pa. intros w0 w H. induction H as [w|l t r w0 w w' H IH T]; intros Hd; [congruence|].
      assert (Ht : in_cone canon c i t) by (apply (Hc t r), in_app_iff; right; now left).
      destruct (obj_task_frame c1 t w r w' p (Hk t Ht) T) as [A|[A|(A & B & C & _)]].
      - apply IH; [intros j r' Hj; apply (Hc j r'), in_app_iff; now left|congruence].
      - exists t. split; [exact Ht|]. left. now rewrite (static_name c c1 t S).
      - destruct (w_fs w0 p) as [e|] eqn:E0.
        + destruct IH as (j & Hj & Hjj); [intros j r' Hj; apply (Hc j r'), in_app_iff; now left|congruence|]. eauto.
        + exists t. split; [exact Ht|]. right. rewrite (static_name c c1 t S). auto. }
    intros Hd. exact (G _ _ Pa Hd).
  Qed.
End Frame.

(** ** clean (C34) *)
Section Clean.
  Variable canon : string -> string.
  Variable kind : nat -> mkind.

  Definition current (D : nat -> Prop) (c : core) (s : fsys * cache) : Prop :=
    forall j, D j -> on_disk (kind j) -> view (fst s) (snd s) (t_name (obj c j)) = stat (fst s) (t_name (obj c j)).

  Lemma clean_loop_spec (D : nat -> Prop) c l : (forall j, In j l -> D j) ->
    forall s, current D c s ->
    let s' := clean_loop kind c l s in
    current D c s' /\
    (forall j f b, In j l -> kind j = MFile f b -> is_reg (fst s) (t_name (obj c j)) = true -> fst s' (t_name (obj c j)) = None) /\
    (forall p, fst s' p = fst s p \/ fst s' p = None /\ is_reg (fst s) p = true /\
       exists j f b, In j l /\ kind j = MFile f b /\ t_name (obj c j) = p).
  Proof.
    induction l as [|i l IH]; intros HD s Hs; cbn [clean_loop].
    - split; [exact Hs|]. split; [intros j f b []|auto].
    - destruct (if_file_and_exist kind c i s) as [b s1] eqn:E1.
      set (s2 := if b && has_clr kind i then clr kind c i s1 else s1).
      assert (X : current D c s1 /\ fst s1 = fst s /\ (forall f b', kind i = MFile f b' -> is_reg (fst s) (t_name (obj c i)) = true -> b = true)).
      { unfold if_file_and_exist in E1.
        assert (N : (false, s) = (b, s1) -> (forall f b', kind i <> MFile f b') ->
          current D c s1 /\ fst s1 = fst s /\ (forall f b', kind i = MFile f b' -> is_reg (fst s) (t_name (obj c i)) = true -> b = true)).
        { intros [= <- <-] Hn. split; [exact Hs|]. split; [reflexivity|]. intros f b' A. now apply Hn in A. }
        assert (N' : (let '(x, ca') := get_info (fst s) (snd s) (t_name (obj c i)) in (fi_exist x, (fst s, ca'))) = (b, s1) ->
          on_disk (kind i) -> current D c s1 /\ fst s1 = fst s /\ (forall f b', kind i = MFile f b' -> is_reg (fst s) (t_name (obj c i)) = true -> b = true)).
        { clear E1. destruct (get_info (fst s) (snd s) (t_name (obj c i))) as [x ca'] eqn:Eg. intros [= <- <-] Hod.
          apply get_info_view in Eg. destruct Eg as (-> & [V _] & _). simpl. split; [|split; [reflexivity|]].
          - intros j Hj Hk. simpl. rewrite V. now apply Hs.
          - intros f b' A Hreg. rewrite (Hs i (HD i (or_introl eq_refl)) Hod). apply stat_exists.
            unfold is_reg in Hreg. destruct (fst s (t_name (obj c i))); congruence. }
        destruct (kind i) eqn:Ek; try (apply N; [exact E1|congruence]); apply N'; auto; exact I. }
      destruct X as (C1 & F1 & B1).
      assert (Y : current D c s2 /\
        (forall f b', kind i = MFile f b' -> is_reg (fst s) (t_name (obj c i)) = true -> fst s2 (t_name (obj c i)) = None) /\
        (forall p, fst s2 p = fst s p \/ fst s2 p = None /\ is_reg (fst s) p = true /\
           exists f b', kind i = MFile f b' /\ t_name (obj c i) = p)).
      { assert (Z : s2 = s1 -> (forall f b', kind i = MFile f b' -> b = false) -> current D c s2 /\
          (forall f b', kind i = MFile f b' -> is_reg (fst s) (t_name (obj c i)) = true -> fst s2 (t_name (obj c i)) = None) /\
          (forall p, fst s2 p = fst s p \/ fst s2 p = None /\ is_reg (fst s) p = true /\
             exists f b', kind i = MFile f b' /\ t_name (obj c i) = p)).
        { intros -> Hb. split; [exact C1|]. split.
          - intros f b' A B. rewrite (Hb f b' A) in B1. specialize (B1 f b' A B). discriminate.
          - intros p. left. now rewrite F1. }
        destruct b; [|apply Z; auto]. subst s2. unfold clr, has_clr in *. destruct (kind i) as [f0 b0| | | |] eqn:Ek;
          try (apply Z; [reflexivity|congruence]).
        cbn [andb]. cbn [fst snd]. rewrite F1 in *.
        set (p0 := t_name (obj c i)) in *.
        assert (O : forall q, q <> p0 -> (if is_reg (fst s) p0 then fs_set (fst s) p0 None else fst s) q = fst s q).
        { intros q Hq. destruct (is_reg (fst s) p0); [|reflexivity]. unfold fs_set.
          apply String.eqb_neq in Hq. now rewrite Hq. }
        split; [|split].
        - intros j Hj Hk. cbn [fst snd]. rewrite view_update_info.
          destruct (String.eqb_spec (t_name (obj c j)) p0) as [->|n]; [reflexivity|].
          unfold view, stat. rewrite (O _ n). specialize (C1 j Hj Hk). unfold view, stat in C1. now rewrite F1 in C1.
        - intros _ _ _ Hreg. rewrite Hreg. unfold fs_set. now rewrite String.eqb_refl.
        - intros p. destruct (String.eqb_spec p p0) as [->|n]; [|left; now apply O].
          destruct (is_reg (fst s) p0) eqn:Er; [|now left]. right.
          split; [unfold fs_set; now rewrite String.eqb_refl|]. split; [reflexivity|]. eauto. }
      destruct Y as (C2 & R2 & O2).
      destruct (IH (fun j Hj => HD j (or_intror Hj)) s2 C2) as (C3 & R3 & O3). fold s2.
      split; [exact C3|]. split.
      + intros j f b' [<-|Hj] Hk Hreg.
        * destruct (O3 (t_name (obj c i))) as [->|[-> _]]; [eauto|reflexivity].
        * destruct (O2 (t_name (obj c j))) as [A|[A _]].
          -- apply (R3 j f b' Hj Hk). unfold is_reg in *. now rewrite A.
          -- destruct (O3 (t_name (obj c j))) as [->|[-> _]]; [exact A|reflexivity].
      + intros p. destruct (O3 p) as [A|(A & B & j & f & b' & Hj & Hk & Hn)].
        * destruct (O2 p) as [A'|(A' & B & f & b' & Hk & Hn)]; [left; congruence|].
          right. rewrite A. split; [exact A'|]. split; [exact B|]. exists i, f, b'. split; [now left|auto].
        * right. split; [exact A|]. split.
          -- destruct (O2 p) as [A'|(A' & B' & _)]; [unfold is_reg in *; now rewrite A' in B|exact B'].
          -- exists j, f, b'. split; [now right|auto].
  Qed.

  Lemma clean_spec c i fs (ca : cache) : process_core canon kind c -> coherent canon c ->
    (exists nm, In (nm, i) (c_targets c)) -> cone_registered canon c i -> cache_current canon kind c i fs ca ->
    exists fs' ca', clean canon kind c i (fs, ca) = Ok (fs', ca') /\ cache_current canon kind c i fs' ca' /\
      (forall j f b, in_cone canon c i j -> kind j = MFile f b ->
         is_reg fs (t_name (obj c j)) = true -> fs' (t_name (obj c j)) = None) /\
      (forall p, fs' p <> fs p -> is_reg fs p = true /\
         exists j f b, in_cone canon c i j /\ kind j = MFile f b /\ t_name (obj c j) = p).
  Proof.
    intros Hpc Hco [nm0 Hi] Hreg Hcur.
    pose proof (process_ready canon kind c Hpc) as (Hw & _ & _ & _ & Hnp).
    assert (Hir : resolves canon c (t_name (obj c i)) i) by (eapply Hco; eauto).
    pose proof (proj1 (cone_registered_names canon c Hw i Hir) Hreg) as Hn.
    unfold clean.
    destruct (depends_as_set_spec canon c Hw (ByName (t_name (obj c i))) true Hnp) as [[_ (l & c' & E & _ & Hl)]|(x & Hx & Hx' & _)].
    2: { exfalso. apply Hx'. now apply Hn. }
    simpl in Hl. rewrite E. cbn [bind].
    pose proof (depends_shape canon _ _ _ _ _ E) as (E1 & E2 & _).
    assert (Hs : forall nm, core_get canon c' nm = core_get canon c nm) by (intros nm; unfold core_get; now rewrite E1).
    assert (Hl' : forall x, In x l <-> clos_refl_trans string (name_dep canon c) (t_name (obj c i)) x).
    { intros x. rewrite Hl. split.
      - intros [[_ ->]|H]; [apply rt_refl|]. clear - H.
        induction H as [a b H|a b d _ I1 _ I2]; [now apply rt_step|now apply rt_trans with b].
      - intros H. apply rt_cases in H. destruct H as [<-|H]; [left; auto|now right]. }
    destruct (mapM_ok (core_get canon c') l) as [ids Hids].
    { intros x Hx. rewrite Hs. apply Hl' in Hx. destruct (Hn x Hx) as [j Hj]. exists j. now apply get_resolves. }
    rewrite Hids. cbn [bind].
    assert (Hin : forall j, In j ids <-> in_cone canon c i j).
    { intros j. apply mapM_In in Hids. destruct Hids as [Hids _]. rewrite Hids. split.
      - intros (x & Hx & Hg). rewrite Hs in Hg. apply get_resolves in Hg; [|exact Hw].
        apply (names_to_cone canon c Hw i Hir x); [now apply Hl'|exact Hg].
      - intros Hj. destruct (cone_to_names canon c i Hir j Hj) as (x & Hx & Hxj). exists x.
        split; [now apply Hl'|]. rewrite Hs. now apply get_resolves. }
    assert (Ho : forall j, obj c' j = obj c j) by (intros j; unfold obj; now rewrite E2).
    pose proof (current_view canon kind c i fs ca Hcur) as Hv.
    destruct (clean_loop_spec (in_cone canon c i) c' ids (fun j => proj1 (Hin j)) (fs, ca)) as (A & B & C).
    { intros j Hj Hk. rewrite Ho. now apply Hv. }
    destruct (clean_loop kind c' ids (fs, ca)) as [fs' ca'] eqn:El. simpl in A, B, C.
    exists fs', ca'. split; [reflexivity|]. split; [|split].
    - intros j x Hj Hk Hx. specialize (A j Hj Hk). rewrite Ho in A. simpl in A. unfold view in A. now rewrite Hx in A.
    - intros j f b Hj Hk Hr. rewrite <- Ho. apply (B j f b); [now apply Hin|exact Hk|now rewrite Ho].
    - intros p Hp. destruct (C p) as [H|(_ & H & j & f & b & Hj & Hk & Hnm)]; [congruence|].
      split; [exact H|]. exists j, f, b. rewrite <- Ho. split; [now apply Hin|auto].
  Qed.

  (** What the cache knows about any other target stays true as well. *)
  Lemma clean_known (D : nat -> Prop) c i s s' : (forall x j, core_get canon c x = Ok j -> D j) ->
    current D c s -> clean canon kind c i s = Ok s' -> current D c s'.
  Proof.
    intros HD Hs. unfold clean. destruct (depends_as_set _ _ _ _) as [[names c']| |] eqn:E; cbn [bind]; try discriminate.
    destruct (mapM (core_get canon c') names) as [ids| |] eqn:Ei; cbn [bind]; try discriminate. intros [= <-].
    pose proof (depends_shape canon _ _ _ _ _ E) as (E1 & E2 & _).
    assert (Ho : forall j, obj c' j = obj c j) by (intros j; unfold obj; now rewrite E2).
    destruct (clean_loop_spec D c' ids) with (s := s) as (A & _).
    - intros j Hj. apply mapM_In in Ei. destruct Ei as [Ei _]. apply Ei in Hj. destruct Hj as (x & _ & Hg). apply (HD x).
      unfold core_get in *. now rewrite E1 in Hg.
    - intros j Hj Hk. rewrite Ho. now apply Hs.
    - intros j Hj Hk. rewrite <- Ho. now apply A.
  Qed.
End Clean.
