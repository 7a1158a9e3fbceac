(** Lemmas: what a build has done to the files at any point of its execution. *)
From Coq Require Import Permutation.
From Verif Require Import PyBase PyPath SolverModel SpecGraph InvokerModel SpecTrace InvokerProofs InvokerInv
  InvokerThms InvokerPath CoreModel SpecCore CoreProofs NeedProofs RuProofs CoreThms MakeModel MakeEval SpecMake
  MakeProofs MakeFacts.

Lemma static_name c c' j : same_static c c' -> t_name (obj c j) = t_name (obj c' j).
Proof. intros (_ & _ & _ & H). destruct (H j) as (-> & _). reflexivity. Qed.
Lemma static_implements canon kind P c c' i : same_static c c' ->
  implements canon kind P c i -> implements canon kind P c' i.
Proof.
  intros S H j Hj. apply (static_cone canon c' c) in Hj; [|now apply static_sym].
  destruct (H j Hj) as [Hc Hk].
  assert (HF : forall ds, file_deps canon kind c j ds -> file_deps canon kind c' j ds).
  { intros ds (js & F & ->). exists js. split.
    - assert (E : t_deps (obj c' j) = t_deps (obj c j)).
      { destruct S as (_ & _ & _ & S4). destruct (S4 j) as (_ & -> & _). reflexivity. }
      rewrite E. clear E. induction F as [|a b la lb Hab _ IH]; constructor; [|exact IH].
      now apply (static_resolves canon c c').
    - apply map_ext. intros k. now apply static_name. }
  rewrite <- (static_name c c' j S).
  split; [destruct S as (_ & _ & _ & S4); destruct (S4 j) as (_ & _ & <-); exact Hc|].
  destruct (kind j) as [f b| | | |].
  - destruct Hk as (ds & ? & ?). eauto.
  - destruct Hk. auto.
  - destruct Hk. auto.
  - destruct Hk as (ds & ? & ?). eauto.
  - exact Hk.
Qed.

Section Build.
  Variable canon : string -> string.
  Variable kind : nat -> mkind.
  Variable other_if : nat -> res bool.
  Variable partial : bool.
  Variable P : project.

  (** What is known about a build: everything is said about the evaluated registry. *)
  Record run_of (c : core) (i : nat) (fs : fsys) (now : nat) (l : list (nat * tres)) (w0 w : world) : Prop := RUN {
    ro_wf : wf_core c;
    ro_co : coherent canon c;
    ro_reg : exists nm, In (nm, i) (c_targets c);
    ro_imp : implements canon kind P c i;
    ro_need : forall j, in_cone canon c i j -> exists b, t_need (obj c j) = Some b /\
      (b = true <-> (kind j <> MDir /\ needs_update P fs (t_name (obj c j))) \/ dir_missing canon kind c fs j);
    ro_start : w_fs w0 = fs /\ w_base w0 = now /\ w_now w0 = now /\ w_ran w0 = [];
    ro_view : forall j, in_cone canon c i j -> on_disk (kind j) -> view fs (w_cache w0) (t_name (obj c j)) = stat fs (t_name (obj c j));
    ro_path : task_path (obj_task canon kind partial c) l w0 w;
    ro_nodup : NoDup (map fst l);
    ro_cone : forall j r, In (j, r) l -> in_cone canon c i j;
    ro_deps : deps_before canon c l }.

  Lemma build_run_world c i fs now ca c1 objs s :
    implements canon kind P c i -> build_of canon kind other_if partial c i fs now ca c1 objs s ->
    same_static c c1 /\ exists w0 l, run_of c1 i fs now l w0 (s_world s) /\
      (succeeded objs s -> forall j, in_cone canon c1 i j -> In (j, RNotFalse) l) /\
      (forall k, In (EStart k) (s_log s) ->
         in_cone canon c1 i (nth k objs (List.length (c_heap c1))) /\
         forall d, obj_dep canon c1 (nth k objs (List.length (c_heap c1))) d -> In (d, RNotFalse) l) /\
      l = map (fun x => (nth (fst x) objs (List.length (c_heap c1)), snd x)) (ended (s_log s)) /\
      (forall p, view fs (w_cache w0) p = view fs ca p).
  Proof.
    intros Him Hb.
    destruct (build_facts_log canon kind other_if partial c i fs now ca c1 objs s Hb)
      as (Hr & Hr1 & S & Hco & [nm Hi] & Hn & ca1 & l & V & Pa & Nd & Hc & Hd & Hs & Hst & El & Vw).
    split; [exact S|]. exists (WD fs ca1 now now []), l.
    assert (Back : forall j, in_cone canon c1 i j -> in_cone canon c i j)
      by (intros j; apply static_cone; now apply static_sym).
    assert (Him1 : implements canon kind P c1 i) by (eapply static_implements; eauto).
    assert (Hco1 : coherent canon c1) by (eapply coherent_static; eauto).
    assert (Hi1 : exists nm, In (nm, i) (c_targets c1)) by (exists nm; destruct S as (<- & _); exact Hi).
    split; [|split; [|split; [|split; [exact El|exact Vw]]]].
    - constructor; auto.
      + apply Hr1.
      + intros j Hj. destruct (Him1 j Hj) as [Hcl _].
        assert (Hcl' : t_class (obj c j) = Updatable).
        { destruct S as (_ & _ & _ & S4). destruct (S4 j) as (_ & _ & ->). exact Hcl. }
        destruct (Hn j (Back j Hj) Hcl') as (_ & b & Eb & E). exists b. split; [exact Eb|].
        rewrite E. rewrite <- (below_outdated canon kind other_if P c1 i (proj1 Hr1) Him1 fs j Hj).
        * rewrite (ood_static canon _ c c1 j S). unfold out_of_date_below.
          split; intros (k & Hk & Hu); exists k; (split; [exact Hk|]).
          -- now rewrite <- (puif_static canon kind other_if c c1 _ k S).
          -- now rewrite (puif_static canon kind other_if c c1 _ k S).
        * intros k Hk. destruct (Him1 k Hk) as [Hck _].
          assert (Hck' : t_class (obj c k) = Updatable).
          { destruct S as (_ & _ & _ & S4). destruct (S4 k) as (_ & _ & ->). exact Hck. }
          destruct (Hn k (Back k Hk) Hck') as [[u Hu] _]. exists u.
          now rewrite <- (puif_static canon kind other_if c c1 _ k S).
      + intros j Hj Hk. rewrite <- (static_name c c1 j S). apply V; auto.
      + intros j r Hj. apply (static_cone canon c c1); eauto.
      + intros l1 j r l2 E d Hjd. apply (Hd l1 j r l2 E). apply (static_obj_dep canon c1 c); [now apply static_sym|exact Hjd].
    - intros Hok j Hj. now apply Hs, Back.
    - intros k Hk. destruct (Hst k Hk) as [K1 K2]. split; [now apply (static_cone canon c c1)|].
      intros d Hd'. apply K2. apply (static_obj_dep canon c1 c); [now apply static_sym|exact Hd'].
  Qed.
  Lemma build_run_log c i fs now ca c1 objs s :
    implements canon kind P c i -> build_of canon kind other_if partial c i fs now ca c1 objs s ->
    same_static c c1 /\ exists w0 l, run_of c1 i fs now l w0 (s_world s) /\
      (succeeded objs s -> forall j, in_cone canon c1 i j -> In (j, RNotFalse) l) /\
      (forall k, In (EStart k) (s_log s) ->
         in_cone canon c1 i (nth k objs (List.length (c_heap c1))) /\
         forall d, obj_dep canon c1 (nth k objs (List.length (c_heap c1))) d -> In (d, RNotFalse) l) /\
      l = map (fun x => (nth (fst x) objs (List.length (c_heap c1)), snd x)) (ended (s_log s)).
  Proof.
    intros H1 H2. destruct (build_run_world c i fs now ca c1 objs s H1 H2) as (Hs & w0 & l & R & K & Hst & El & _).
    split; [exact Hs|]. exists w0, l. auto.
  Qed.
  Lemma build_run c i fs now ca c1 objs s :
    implements canon kind P c i -> build_of canon kind other_if partial c i fs now ca c1 objs s ->
    same_static c c1 /\ exists w0 l, run_of c1 i fs now l w0 (s_world s) /\
      (succeeded objs s -> forall j, in_cone canon c1 i j -> In (j, RNotFalse) l).
  Proof.
    intros H1 H2. destruct (build_run_log c i fs now ca c1 objs s H1 H2) as (Hs & w0 & l & R & K & _).
    split; [exact Hs|]. exists w0, l. auto.
  Qed.

  Lemma run_prefix c i fs now l t w0 w : run_of c i fs now (l ++ [t]) w0 w ->
    exists w1, run_of c i fs now l w0 w1 /\ obj_task canon kind partial c (fst t) w1 (snd t) w /\
      in_cone canon c i (fst t) /\ ~ In (fst t) (map fst l) /\
      (forall d, obj_dep canon c (fst t) d -> In (d, RNotFalse) l).
  Proof.
    intros [H1 H2 H3 H4 H5 H6 H7 Hp Hn Hc Hd].
    assert (G : forall l' w', task_path (obj_task canon kind partial c) l' w0 w' -> l' = l ++ [t] ->
      exists w1, task_path (obj_task canon kind partial c) l w0 w1 /\ obj_task canon kind partial c (fst t) w1 (snd t) w').
    { intros l' w' Hp'. destruct Hp' as [w'|l0 t0 r0 wa wb wc Hp' Ht]; intros E.
      - destruct l; discriminate.
      - apply app_inj_tail in E. destruct E as [-> <-]. exists wb. auto. }
    destruct (G _ _ Hp eq_refl) as (w1 & Pw & T). exists w1.
    rewrite map_app in Hn. simpl in Hn. apply NoDup_remove in Hn. rewrite app_nil_r in Hn. destruct Hn as [Hn Hx].
    split; [|split; [exact T|split; [|split; [exact Hx|]]]].
    - constructor; auto.
      + intros j r Hj. apply (Hc j r). apply in_app_iff. now left.
      + intros l1 j r l2 E d Hjd. apply (Hd l1 j r (l2 ++ [t])); [|exact Hjd]. rewrite E, <- app_assoc. reflexivity.
    - apply (Hc (fst t) (snd t)). apply in_app_iff. right. left. now destruct t.
    - intros d Hjd. apply (Hd l (fst t) (snd t) []); [|exact Hjd]. now destruct t.
  Qed.

  (** Induction over the calls of a build. *)
  Lemma run_ind c i fs now w0 (Q : list (nat * tres) -> world -> Prop) :
    (run_of c i fs now [] w0 w0 -> Q [] w0) ->
    (forall l w1 j r w, run_of c i fs now l w0 w1 -> Q l w1 -> run_of c i fs now (l ++ [(j, r)]) w0 w ->
       obj_task canon kind partial c j w1 r w -> in_cone canon c i j -> ~ In j (map fst l) ->
       (forall d, obj_dep canon c j d -> In (d, RNotFalse) l) -> Q (l ++ [(j, r)]) w) ->
    forall l w, run_of c i fs now l w0 w -> Q l w.
  Proof.
    intros H0 HS l. induction l as [|[j r] l IH] using rev_ind; intros w H.
    - assert (E : w = w0).
      { destruct H as [_ _ _ _ _ _ _ Hp _ _ _]. remember [] as l eqn:El.
        destruct Hp; [reflexivity|]. symmetry in El. now apply app_cons_not_nil in El. }
      subst w. now apply H0.
    - destruct (run_prefix _ _ _ _ _ _ _ _ H) as (w1 & H1 & T & C & N & D). simpl in *. eauto.
  Qed.

  Section Frame.
    Variables (c : core) (i : nat) (fs : fsys) (now : nat) (w0 : world).
    Local Notation nm j := (t_name (obj c j)).
    Local Notation cone := (in_cone canon c i).

    (** What one call may change. *)
    Lemma task_touches j w r w' : t_class (obj c j) = Updatable -> kind j <> MOther ->
      obj_task canon kind partial c j w r w' ->
      w_base w' = w_base w /\ w_now w <= w_now w' /\
      forall p, w_fs w' p = w_fs w p \/
        (p = nm j /\ (exists f b, kind j = MFile f b) /\ t_need (obj c j) = Some true /\
           (w_fs w' p = None \/ exists m v, w_fs w' p = Some (m, Reg v) /\ w_base w < m <= w_now w')) \/
        (kind j = MDir /\ w_fs w p = None /\ (p = nm j \/ In p (ancestors (nm j))) /\
           exists m, w_fs w' p = Some (m, Dir) /\ w_base w < m <= w_now w').
    Proof.
      unfold obj_task. intros Hc Ho H.
      assert (D : mk_dir c j w r w' -> kind j = MDir ->
        w_base w' = w_base w /\ w_now w <= w_now w' /\
        forall p, w_fs w' p = w_fs w p \/
         (kind j = MDir /\ w_fs w p = None /\ (p = nm j \/ In p (ancestors (nm j))) /\
           exists m, w_fs w' p = Some (m, Dir) /\ w_base w < m <= w_now w')).
      { clear H. intros H Hk. destruct H as [x ca' Hg He|x ca' m p Hg He Hf Ha Hm fs'|x ca' p Hg He Hf]; simpl.
        - auto.
        - split; [reflexivity|]. split; [lia|]. intros q. unfold fs', makedirs.
          destruct (String.eqb_spec q p) as [->|n].
          + right. split; [exact Hk|]. split; [exact Hf|]. split; [now left|].
            exists m. split; [reflexivity|lia].
          + destruct (w_fs w q) as [e|] eqn:Eq; [now left|].
            destruct (smem String.eqb q (ancestors p)) eqn:Em; [|now left].
            right. split; [exact Hk|]. split; [reflexivity|]. split.
            * right. now apply (smem_In String.eqb string_eqb_spec') in Em.
            * exists m. split; [reflexivity|lia].
        - auto. }
      assert (U : t_need (obj c j) = Some true -> mk_update canon kind partial c j w r w' ->
        w_base w' = w_base w /\ w_now w <= w_now w' /\
        forall p, w_fs w' p = w_fs w p \/
        (p = nm j /\ (exists f b, kind j = MFile f b) /\ t_need (obj c j) = Some true /\
           (w_fs w' p = None \/ exists m v, w_fs w' p = Some (m, Reg v) /\ w_base w < m <= w_now w'))).
      { clear H. intros Hn H.
        destruct H as [force b v m Hk Hb Hm Hi p fs'|force b fs' now' r ca' Hk Hb p Hf Hr|Hk p|Hk|r w' Hk]; simpl.
        - split; [reflexivity|]. split; [lia|]. intros q. unfold fs', fs_set.
          destruct (String.eqb_spec q p) as [->|n]; [|now left]. right.
          split; [reflexivity|]. split; [eauto|]. split; [exact Hn|]. right. exists m, v. split; [reflexivity|lia].
        - split; [reflexivity|]. destruct Hf as [[-> ->]|[[-> ->]|(Hpo & m & v & Hm & -> & ->)]].
          + auto.
          + split; [lia|]. intros q. unfold fs_set. destruct (String.eqb_spec q p) as [->|n]; [|now left]. right.
            split; [reflexivity|]. split; [eauto|]. split; [exact Hn|]. now left.
          + split; [lia|]. intros q. unfold fs_set. destruct (String.eqb_spec q p) as [->|n]; [|now left]. right.
            split; [reflexivity|]. split; [eauto|]. split; [exact Hn|]. right. exists m, v. split; [reflexivity|lia].
        - auto.
        - auto.
        - contradiction. }
      assert (U' : match t_class (obj c j) with
           | Plain => r = RExn /\ w' = w
           | Updatable =>
               match t_need (obj c j) with
               | None => r = RExn /\ w' = w
               | Some true => mk_update canon kind partial c j w r w'
               | Some false => r = RNotFalse /\ w' = w
               end
           end -> w_base w' = w_base w /\ w_now w <= w_now w' /\
        forall p, w_fs w' p = w_fs w p \/
        (p = nm j /\ (exists f b, kind j = MFile f b) /\ t_need (obj c j) = Some true /\
           (w_fs w' p = None \/ exists m v, w_fs w' p = Some (m, Reg v) /\ w_base w < m <= w_now w'))).
      { rewrite Hc. destruct (t_need (obj c j)) as [[|]|] eqn:En; [now apply U| |]; intros [_ ->]; auto. }
      destruct (kind j) as [f b| | | |] eqn:Ek.
      - destruct (U' H) as (A & B & C). split; [exact A|]. split; [exact B|].
        intros p. destruct (C p) as [E|E]; [now left|right; left; exact E].
      - destruct (U' H) as (A & B & C). split; [exact A|]. split; [exact B|].
        intros p. destruct (C p) as [E|E]; [now left|right; left; exact E].
      - destruct (D H eq_refl) as (A & B & C). split; [exact A|]. split; [exact B|].
        intros p. destruct (C p) as [E|E]; [now left|right; right; exact E].
      - destruct (U' H) as (A & B & C). split; [exact A|]. split; [exact B|].
        intros p. destruct (C p) as [E|E]; [now left|right; left; exact E].
      - congruence.
    Qed.

    Lemma run_touches l w j r w' : run_of c i fs now l w0 w -> cone j -> obj_task canon kind partial c j w r w' ->
      w_base w' = w_base w /\ w_now w <= w_now w' /\
      forall p, w_fs w' p = w_fs w p \/
        (p = nm j /\ (exists f b, kind j = MFile f b) /\ t_need (obj c j) = Some true /\
           (w_fs w' p = None \/ exists m v, w_fs w' p = Some (m, Reg v) /\ w_base w < m <= w_now w')) \/
        (kind j = MDir /\ w_fs w p = None /\ (p = nm j \/ In p (ancestors (nm j))) /\
           exists m, w_fs w' p = Some (m, Dir) /\ w_base w < m <= w_now w').
    Proof.
      intros R Hj. destruct (ro_imp _ _ _ _ _ _ _ R j Hj) as [Hc Hk]. apply task_touches; [exact Hc|].
      intros E. now rewrite E in Hk.
    Qed.

    Lemma run_times l w : run_of c i fs now l w0 w -> w_base w = now /\ now <= w_now w /\
      (dated fs now -> dated (w_fs w) (w_now w)).
    Proof.
      intros R. pattern l, w. revert l w R. apply run_ind; cbv beta.
      - intros R. destruct (ro_start _ _ _ _ _ _ _ R) as (-> & -> & -> & _). auto.
      - intros l w1 j r w R (IB & IN & ID) _ T Hj _ _.
        destruct (run_touches l w1 j r w R Hj T) as (B & N & F).
        split; [congruence|]. split; [lia|]. intros Hd p m n E. specialize (ID Hd).
        destruct (F p) as [G|[(_ & _ & _ & [G|(m' & v & G & L)])|(_ & _ & _ & m' & G & L)]]; rewrite G in E.
        + specialize (ID p m n E). lia.
        + discriminate.
        + injection E as -> _. lia.
        + injection E as -> _. lia.
    Qed.

    (** C29. *)
    Lemma run_frame l w : run_of c i fs now l w0 w -> forall p,
      w_fs w p = fs p \/
      (exists j, In j (map fst l) /\ cone j /\ p = nm j /\ (exists f b, kind j = MFile f b) /\
         t_need (obj c j) = Some true) \/
      (fs p = None /\ (exists j, In j (map fst l) /\ cone j /\ kind j = MDir /\ (p = nm j \/ In p (ancestors (nm j)))) /\
         exists m, w_fs w p = Some (m, Dir)).
    Proof.
      intros R. pattern l, w. revert l w R. apply run_ind; cbv beta.
      - intros R p. destruct (ro_start _ _ _ _ _ _ _ R) as (-> & _). now left.
      - intros l w1 j r w R IH _ T Hj _ _ p.
        destruct (run_touches l w1 j r w R Hj T) as (B & N & F). rewrite map_app. simpl.
        specialize (IH p).
        assert (IH' : w_fs w1 p = fs p \/
            (exists j0, In j0 (map fst l ++ [j]) /\ cone j0 /\ p = nm j0 /\ (exists f b, kind j0 = MFile f b) /\
               t_need (obj c j0) = Some true) \/
            (fs p = None /\ (exists j0, In j0 (map fst l ++ [j]) /\ cone j0 /\ kind j0 = MDir /\ (p = nm j0 \/ In p (ancestors (nm j0)))) /\
               exists m, w_fs w1 p = Some (m, Dir))).
        { destruct IH as [E|[(k & Hk & H)|(E & (k & Hk & H) & M)]]; [now left|right; left|right; right].
          - exists k. rewrite in_app_iff. auto.
          - split; [exact E|]. split; [|exact M]. exists k. rewrite in_app_iff. auto. }
        clear IH. destruct (F p) as [G|[(Ep & Hk & Hn & _)|(Hk & En & Ep & m & G & _)]].
        + rewrite G. exact IH'.
        + right. left. exists j. rewrite in_app_iff. split; [right; now left|auto].
        + destruct IH' as [E|[IH'|(_ & _ & m' & IH')]].
          * right. right. split; [congruence|]. split; [|eauto]. exists j. rewrite in_app_iff.
            split; [right; now left|auto].
          * right. now left.
          * congruence.
    Qed.

    (** A project file changes only in the call of its own target. *)
    Lemma run_own l w j r w' p : run_of c i fs now l w0 w -> cone j -> obj_task canon kind partial c j w r w' ->
      is_file P p -> p <> nm j -> w_fs w' p = w_fs w p.
    Proof.
      intros R Hj T Hp Hn. destruct (run_touches l w j r w' R Hj T) as (_ & _ & F).
      destruct (F p) as [G|[(Ep & _)|(Hk & _ & Ep & _)]]; [exact G|contradiction|].
      destruct (ro_imp _ _ _ _ _ _ _ R j Hj) as [_ HI]. rewrite Hk in HI. destruct HI as [HI _].
      exfalso. now apply (HI p).
    Qed.
    Lemma run_other_file l w : run_of c i fs now l w0 w -> forall p, is_file P p ->
      (forall j, In j (map fst l) -> p <> nm j) -> w_fs w p = fs p.
    Proof.
      intros R p Hp Hn. destruct (run_frame l w R p) as [E|[(j & Hj & _ & Ep & _)|(_ & (j & Hj & Hcj & Hk & Ep) & _)]].
      - exact E.
      - now destruct (Hn j Hj).
      - exfalso. destruct (ro_imp _ _ _ _ _ _ _ R j Hcj) as [_ HI]. rewrite Hk in HI.
        now apply (proj1 HI p).
    Qed.
    Lemma run_source l w : run_of c i fs now l w0 w -> forall p, P p = Some DSource -> w_fs w p = fs p.
    Proof.
      intros R p Hp. destruct (run_frame l w R p) as [E|[(j & Hj & Hcj & Ep & (f & b & Hk) & _)|(_ & (j & Hj & Hcj & Hk & Ep) & _)]].
      - exact E.
      - exfalso. destruct (ro_imp _ _ _ _ _ _ _ R j Hcj) as [_ HI]. rewrite Hk in HI.
        destruct HI as (ds & HI & _). subst p. congruence.
      - exfalso. destruct (ro_imp _ _ _ _ _ _ _ R j Hcj) as [_ HI]. rewrite Hk in HI.
        apply (proj1 HI p Ep). now left.
    Qed.
    Lemma run_dir_kept l w : run_of c i fs now l w0 w -> forall j, cone j -> kind j = MDir ->
      fs (nm j) <> None -> w_fs w (nm j) = fs (nm j).
    Proof.
      intros R j Hj Hk He. destruct (run_frame l w R (nm j)) as [E|[(k & Hk1 & Hck & Ep & (f & b & Hkk) & _)|(E & _)]].
      - exact E.
      - exfalso. assert (E : j = k).
        { apply (cone_inj canon c i (ro_wf _ _ _ _ _ _ _ R) (ro_co _ _ _ _ _ _ _ R) (ro_reg _ _ _ _ _ _ _ R)); auto. }
        congruence.
      - congruence.
    Qed.
  End Frame.
End Build.
