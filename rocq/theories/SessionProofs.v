(** Lemmas: several builds and cleanings in one process (C97). *)
From Coq Require Import Permutation.
From Verif Require Import PyBase PyPath PathProofs SolverModel SpecGraph InvokerModel SpecTrace InvokerProofs InvokerInv InvokerThms InvokerPath
  CoreModel SpecCore CoreProofs NeedProofs RuProofs CoreThms MakeModel MakeEval SpecMake MakeProofs MakeFacts MakeTimes MakeBuild MakeThms MakeClean MakeClaims
  RegModel CliModel SpecUtil UtilProofs SpecReg RegProofs RegScript RegBuild RegTotal BuildSafe SpecProject ProjectProofs CliProofs ProjectBuild SpecSession.
Local Open Scope string_scope.
Local Open Scope list_scope.

(** ** The cache and the files of other cones during a build. *)
Section Known.
  Variables (canon : string -> string) (kind : nat -> mkind) (P : project).
  Variables (c : core) (i : nat) (fs : fsys) (now : nat) (w0 : world).
  Notation run_of := (run_of canon kind false P c i fs now).
  Notation cone := (in_cone canon c i).
  Notation nm j := (t_name (obj c j)).
  Hypothesis closed : forall j a, cone j -> kind j = MDir -> In a (ancestors (nm j)) -> fs a = None ->
    exists d, clos_trans nat (obj_dep canon c) j d /\ kind d = MDir /\ nm d = a.

  (** What the cache says about targets is true. *)
  Definition known (w : world) : Prop := forall x j, In (x, j) (c_targets c) -> on_disk (kind j) ->
    view (w_fs w) (w_cache w) (nm j) = stat (w_fs w) (nm j).

  Lemma run_known l w : run_of l w0 w -> known w0 -> (forall j r, In (j, r) l -> r <> RExn) ->
    known w /\ forall d, In (d, RNotFalse) l -> kind d = MDir -> w_fs w (nm d) <> None.
  Proof.
    intros R K0. pattern l, w. revert l w R. apply run_ind; cbv beta.
    - intros R _. split; [exact K0|]. intros d [].
    - intros l w1 k r w R IH R' T Hk Hnk Hdk Hall.
      destruct IH as [IK ID]; [intros j r0 H; apply (Hall j r0); apply in_app_iff; now left|].
      assert (Hr : r <> RExn) by (apply (Hall k r); apply in_app_iff; right; now left).
      pose proof (ro_wf _ _ _ _ _ _ _ _ _ _ _ R) as Hw. pose proof (ro_co _ _ _ _ _ _ _ _ _ _ _ R) as Hco.
      pose proof (ro_reg _ _ _ _ _ _ _ _ _ _ _ R) as Hreg.
      destruct (cone_registered_name canon c i k Hreg Hk) as [xk Hxk].
      destruct (ro_imp _ _ _ _ _ _ _ _ _ _ _ R k Hk) as [Hcl Hik].
      assert (Hko : kind k <> MOther) by (intros E; now rewrite E in Hik).
      destruct (run_touches canon kind false P c i fs now w0 l w1 k r w R Hk T) as (_ & _ & F).
      assert (Inj : forall x j, In (x, j) (c_targets c) -> nm j = nm k -> j = k).
      { intros x j Hj E. apply (resolves_fun canon c (nm k)); [exact Hw| |now apply (Hco xk)]. rewrite <- E. now apply (Hco x). }
      (* makedirs creates no directory above the one that was asked for *)
      assert (Anc : kind k = MDir -> forall a, In a (ancestors (nm k)) -> w_fs w1 a <> None).
      { intros Ek a Ha Hn. rewrite Ek in Hik. destruct Hik as [Hik _].
        assert (N : fs a = None).
        { destruct (run_frame canon kind false P c i fs now w0 l w1 R a) as [E|[(j & _ & Hj & Ep & (f & b0 & Hkj) & _)|(E & _)]]; [congruence| |exact E].
          exfalso. apply (Hik a (or_intror Ha)). destruct (ro_imp _ _ _ _ _ _ _ _ _ _ _ R j Hj) as [_ HI]. rewrite Hkj in HI.
          destruct HI as (ds & HI & _). right. exists f, ds, b0. congruence. }
        destruct (closed k a Hk Ek Ha N) as (d & D1 & D2 & D3).
        assert (Hd : In (d, RNotFalse) l) by exact (below_ended canon kind false P c i fs now w0 l w1 R k d Hdk D1).
        apply (ID d Hd D2). congruence. }
      assert (Same : forall p, p <> nm k -> w_fs w p = w_fs w1 p).
      { intros p Hp. destruct (F p) as [E|[(E & _)|(Ek & E1 & [E|Ha] & _)]]; [exact E|contradiction|contradiction|].
        exfalso. now apply (Anc Ek p Ha). }
      assert (Kk : on_disk (kind k) -> view (w_fs w) (w_cache w) (nm k) = stat (w_fs w) (nm k)).
      { intros Hdsk. pose proof (IK xk k Hxk Hdsk) as V1. unfold obj_task in T. rewrite Hcl in T.
        destruct (ro_need _ _ _ _ _ _ _ _ _ _ _ R k Hk) as (b & Eb & _). rewrite Eb in T.
        destruct (kind k) as [f bf| | | |] eqn:Ek; [destruct b|destruct b| |destruct Hdsk..].
        - inversion T; subst; try congruence.
          + cbn [w_fs w_cache]. now rewrite view_update_info, String.eqb_refl.
          + cbn [w_fs w_cache]. match goal with [H : _ \/ r = RExn /\ _ |- _] => destruct H as [[_ ->]|[-> _]] end; [|congruence].
            now rewrite view_update_info, String.eqb_refl.
        - destruct T as [_ ->]. exact V1.
        - inversion T; subst; try congruence. cbn [w_fs w_cache]. now rewrite view_update_info, String.eqb_refl.
        - destruct T as [_ ->]. exact V1.
        - destruct T as [x ca' Hg He|x ca' m p Hg He Hf Ha Hm fs'|x ca' p Hg He Hf]; cbn [w_fs w_cache].
          + destruct (get_info_view _ _ _ _ _ Hg) as (_ & [V _] & _). now rewrite V.
          + now rewrite view_update_info, String.eqb_refl.
          + congruence. }
      split.
      + intros x j Hj Hd. destruct (String.eqb_spec (nm j) (nm k)) as [E|N].
        * apply Inj with (x := x) in E; [|exact Hj]. subst j. now apply Kk.
        * rewrite (stat_other _ _ _ (Same _ N)). rewrite <- (IK x j Hj Hd). unfold view.
          rewrite (task_cache canon kind false c k w1 r w (nm j) T Hko N), (stat_other _ _ _ (Same _ N)). reflexivity.
      + intros d Hd Ed. apply in_app_iff in Hd. destruct Hd as [Hd|[Hd|[]]].
        * pose proof (ID d Hd Ed) as Hn. destruct (String.eqb_spec (nm d) (nm k)) as [E|N]; [|now rewrite (Same _ N)].
          exfalso. apply Hnk. apply in_map_iff. exists (d, RNotFalse). split; [|exact Hd]. cbn [fst].
          destruct (cone_registered_name canon c i d Hreg (ro_cone _ _ _ _ _ _ _ _ _ _ _ R d _ Hd)) as [xd Hxd]. now apply (Inj xd).
        * injection Hd as -> ->. unfold obj_task in T. rewrite Ed in T.
          destruct T as [x ca' Hg He|x ca' m p Hg He Hf Ha Hm fs'|x ca' p Hg He Hf]; cbn [w_fs].
          -- destruct (get_info_view _ _ _ _ _ Hg) as (Ex & _). rewrite Ex in He. rewrite (IK xk d Hxk) in He; [|now rewrite Ed].
             now apply stat_exists.
          -- unfold fs', makedirs. rewrite String.eqb_refl. discriminate.
          -- congruence.
  Qed.

  (** Files that were right stay right. *)
  Lemma run_keeps_right (Hro : reads_only P) l w : run_of l w0 w -> forall Q : string -> Prop,
    (forall p q, Q p -> p_input P p q -> Q q) -> (forall p, Q p -> is_file P p -> right_content P (contents fs) p (contents fs p)) ->
    forall p, Q p -> is_file P p -> right_content P (contents (w_fs w)) p (contents (w_fs w) p).
  Proof.
    intros R Q Hq H0.
    assert (Src : forall p, P p = Some DSource -> contents (w_fs w) p = contents fs p).
    { intros p Hp. unfold contents. now rewrite (run_source canon kind false P c i fs now w0 l w R p Hp). }
    assert (G : forall p v, right_content P (contents fs) p v -> right_content P (contents (w_fs w)) p v).
    { induction 1 as [p HP|p f ds b s v HP _ IH Hb]; [rewrite <- Src by exact HP; now apply rc_source|]. eapply rc_rule; eauto. }
    assert (E : forall l' w', run_of l' w0 w' -> forall p, Q p -> is_file P p -> contents (w_fs w') p = contents fs p).
    { intros l' w' R'. pattern l', w'. revert l' w' R'. apply run_ind; cbv beta.
      - intros R' p _ _. destruct (ro_start _ _ _ _ _ _ _ _ _ _ _ R') as (-> & _). reflexivity.
      - intros l1 w1 k r w2 R1 IH R2 T Hk _ _ p HQ Hf.
        destruct (String.eqb_spec p (nm k)) as [->|N].
        2:{ rewrite <- (IH p HQ Hf). unfold contents. now rewrite (run_own canon kind false P c i fs now w0 l1 w1 k r w2 p R1 Hk T Hf N). }
        destruct (ro_imp _ _ _ _ _ _ _ _ _ _ _ R1 k Hk) as [Hcl Hik]. unfold obj_task in T. rewrite Hcl in T.
        destruct (ro_need _ _ _ _ _ _ _ _ _ _ _ R1 k Hk) as (bb & Eb & _). rewrite Eb in T.
        destruct (kind k) as [f b| | | |] eqn:Ek; [| |destruct Hik as [Hik _]; elim (Hik (nm k)); auto| |destruct Hik].
        + destruct Hik as (ds & HP & _). destruct bb; [|destruct T as [_ ->]; auto].
          pose proof (H0 _ HQ Hf) as Hrc. inversion Hrc as [p' HP'|p' f' ds' b' s v HP' Hin Hb]; subst p'; [congruence|].
          rewrite HP in HP'. injection HP' as <- <- <-.
          assert (Eb' : b (contents (w_fs w1)) = Some v).
          { rewrite <- Hb. apply (Hro _ _ _ _ HP). intros q Hqi.
            assert (Fq : is_file P q) by (clear - Hqi; induction Hqi; auto).
            rewrite (IH q (Hq _ _ HQ Hqi) Fq). exact (right_content_fun P Hro (contents fs) (contents fs) q (contents fs q) (H0 q (Hq _ _ HQ Hqi) Fq) (fun _ _ _ => eq_refl) (s q) (Hin q Hqi)). }
          inversion T; subst; try congruence. cbn [w_fs]. unfold contents at 1, fs', p, fs_set. rewrite String.eqb_refl. congruence.
        + destruct bb; [|destruct T as [_ ->]; auto]. inversion T; subst; try congruence. cbn [w_fs]. auto.
        + destruct bb; [|destruct T as [_ ->]; auto]. inversion T; subst; try congruence. auto. }
    intros p HQ Hf. rewrite (E l w R p HQ Hf). auto.
  Qed.
End Known.

Lemma input_dep P p q : p_input P p q -> clos_refl_trans string (p_dep P) p q.
Proof.
  induction 1 as [p q H _|p s ds q H _ _ IH]; [now apply rt_step|]. eapply rt_trans; [apply rt_step; exact H|exact IH].
Qed.

Lemma same_entry (a b : option (nat * node)) : a = b \/ a <> b.
Proof. destruct a as [[m [u|]]|], b as [[n [v|]]|]; try (right; congruence); try (now left);
  destruct (Nat.eq_dec m n) as [->|]; try (right; congruence); [|now left]. destruct (string_dec u v) as [->|]; [now left|right; congruence]. Qed.
Lemma list_rev_cases {A} (k : list A) : k = [] \/ exists k' e, k = k' ++ [e].
Proof. induction k as [|e k _] using rev_ind; [now left|right; eauto]. Qed.

(** ** A script and the builds of one process. *)
Section Session.
  Variables (cwd home : string) (fs0 : fsys) (exists_ : string -> bool) (glob_ : string -> list string) (l : list stmt).
  Hypothesis disk : disk_ok cwd (present fs0) exists_.
  Hypothesis ok : in_order cwd home glob_ exists_ l.
  Notation canon := (realpath cwd).
  Notation P := (project_of cwd home glob_ l).
  Notation makes := (makes cwd home glob_).
  Variables (fuel : nat) (st : regs) (th : Z).
  Hypothesis read : mrun canon exists_ glob_ home fuel 0 (map op_of l) [empty_reg] = Ok st.
  Notation kind := (kind_of (reg st 0)).
  Notation c0 := (set_threads (fst (reg st 0)) th).
  Notation rg := (set_threads (fst (reg st 0)) th, snd (reg st 0)).

  (** Between two builds. *)
  Record between (c : core) (ca : cache) (fs : fsys) : Prop := {
    be_static : same_static c0 c;
    be_process : process_core canon kind c;
    be_known : forall x j, In (x, j) (c_targets c) -> on_disk (kind j) -> view fs ca (t_name (obj c j)) = stat fs (t_name (obj c j));
    be_there : forall p, ~ is_file P p -> fs0 p <> None -> fs p = fs0 p;
    be_new : forall p m v, ~ is_file P p -> fs p = Some (m, Reg v) -> fs0 p = Some (m, Reg v) }.

  Lemma between_read : between c0 [] fs0.
  Proof.
    constructor; auto; [apply static_refl|]. destruct (script_process cwd home exists_ glob_ l fuel st read th) as (_ & _ & Pc). exact Pc.
  Qed.

  Lemma session_inv : inv cwd home (present fs0) exists_ glob_ l l rg.
  Proof. apply threads_inv. eapply script_inv; eauto. Qed.
  Lemma between_coherent c ca fs : between c ca fs -> coherent canon c.
  Proof.
    intros B. eapply coherent_static; [exact (be_static _ _ _ B)|]. exact (whole_coherent cwd home (present fs0) exists_ glob_ l rg session_inv).
  Qed.
  Lemma between_registered c ca fs x i : between c ca fs -> In (x, i) (c_targets (fst (reg st 0))) -> In (x, i) (c_targets c).
  Proof. intros B H. destruct (be_static _ _ _ B) as (<- & _). exact H. Qed.

  Lemma between_get c ca fs x : between c ca fs -> In x (flat_map makes l) -> exists i, core_get canon c x = Ok i /\
    t_name (obj c i) = x /\ kind i <> MDir /\ implements canon kind P c i /\ exists nm, In (nm, i) (c_targets c).
  Proof.
    intros B Hx. destruct (made_get cwd home fs0 exists_ glob_ l disk ok fuel st read x Hx) as (i & Hg & Hn & Hk & Hko & nm & Hi).
    exists i. split; [rewrite <- (static_get canon c0 c x (be_static _ _ _ B)); exact Hg|].
    split; [rewrite <- (static_name c0 c i (be_static _ _ _ B)); exact Hn|]. split; [exact Hk|].
    split; [|exists nm; eapply between_registered; eauto]. eapply static_implements; [exact (be_static _ _ _ B)|].
    exact (whole_implements cwd home (present fs0) exists_ glob_ disk l ok rg session_inv i (ex_intro _ nm Hi) Hko).
  Qed.

  Lemma making_of partial c ca fs x now c1 objs sv s : between c ca fs -> In x (flat_map makes l) ->
    making cwd partial kind c ca x fs now c1 objs sv s ->
    exists i other_if, core_get canon c x = Ok i /\ t_name (obj c i) = x /\ kind i <> MDir /\ implements canon kind P c i /\
      build_of canon kind other_if partial c i fs now ca c1 objs s.
  Proof.
    intros B Hx (i & other_if & fuel' & ca1 & order & so & Hg & He & Ho & Hso & Hru & Hex).
    destruct (between_get c ca fs x B Hx) as (i' & Hg' & Hn & Hk & Him & Hi). rewrite Hg in Hg'. injection Hg' as <-.
    exists i, other_if. split; [exact Hg|]. split; [exact Hn|]. split; [exact Hk|]. split; [exact Him|].
    split; [exact (be_process _ _ _ B)|]. split; [exact (between_coherent _ _ _ B)|]. split; [exact Hi|]. split.
    - intros j y Hj Hd Hs. destruct (cone_registered_name canon c i j Hi Hj) as [nm' Hn'].
      pose proof (be_known _ _ _ B nm' j Hn' Hd) as V. unfold view in V. now rewrite Hs in V.
    - exists fuel', ca1, order, so, None, th, sv. split; [exact He|]. split; [exact Ho|]. split; [exact Hso|]. split; [|auto].
      destruct (mevaluate_right canon kind other_if fs fuel' c ca c1 ca1 (process_ready canon kind c (be_process _ _ _ B)) He) as (_ & S & _).
      unfold ru_threads. destruct S as (_ & <- & _). destruct (be_static _ _ _ B) as (_ & <- & _). reflexivity.
  Qed.

  Lemma between_closed c ca fs i : between c ca fs -> implements canon kind P c i -> (exists nm, In (nm, i) (c_targets c)) ->
    forall j a, in_cone canon c i j -> kind j = MDir -> In a (ancestors (t_name (obj c j))) -> fs a = None ->
    exists d, clos_trans nat (obj_dep canon c) j d /\ kind d = MDir /\ t_name (obj c d) = a.
  Proof.
    intros B Him Hi j a Hj Hk Ha Hn. destruct (Him j Hj) as [_ Hik]. rewrite Hk in Hik. destruct Hik as [Hik _].
    destruct (cone_registered_name canon c i j Hi Hj) as [nm Hnm]. pose proof (be_static _ _ _ B) as S.
    assert (Hnm0 : In (nm, j) (c_targets (fst rg))) by (destruct S as (E & _); cbn [fst] in *; rewrite E; exact Hnm).
    assert (Nm : forall k, t_name (obj c k) = nm_of rg k) by (intros k; symmetry; exact (static_name (fst rg) c k S)).
    destruct (fs0 a) as [y|] eqn:E0.
    { exfalso. rewrite (be_there _ _ _ B a) in Hn; [congruence|apply Hik; now right|congruence]. }
    rewrite Nm in Ha.
    destruct (whole_dirs cwd home (present fs0) exists_ glob_ disk l ok rg session_inv a _ nm j Hnm0 Hk Ha) as (d & D1 & D2 & D3).
    { unfold present. now rewrite E0. }
    exists d. split; [exact (static_path canon (fst rg) c j d S D1)|]. split; [exact D2|]. now rewrite Nm.
  Qed.

  (** One build. *)
  Section Made.
    Variables (c : core) (ca : cache) (fs : fsys) (x : string) (now : nat) (c1 : core) (objs : list nat) (sv : solver) (s : state world).
    Hypothesis B : between c ca fs.
    Hypothesis Hx : In x (flat_map makes l).

    Lemma making_run partial : making cwd partial kind c ca x fs now c1 objs sv s -> exists i w0 calls, same_static c c1 /\ between c1 ca fs /\
      implements canon kind P c1 i /\ (exists nm, In (nm, i) (c_targets c1)) /\
      run_of canon kind partial P c1 i fs now calls w0 (s_world s) /\
      calls = map (fun y => (nth (fst y) objs (List.length (c_heap c1)), snd y)) (ended (s_log s)) /\
      (forall p, view fs (w_cache w0) p = view fs ca p).
    Proof.
      intros Hm. destruct (making_of partial c ca fs x now c1 objs sv s B Hx Hm) as (i & other_if & Hg & Hn & Hk & Him & Hb).
      destruct (build_run_world canon kind other_if partial P c i fs now ca c1 objs s Him Hb) as (S & w0 & calls & R & _ & _ & El & V).
      exists i, w0, calls. split; [exact S|]. split; [|split; [eapply static_implements; eauto|split; [apply R|auto]]].
      destruct B as [B1 B2 B3 B4 B5]. constructor; auto.
      - eapply static_trans; eauto.
      - destruct Hm as (i' & oi & fuel' & ca1 & order & so & _ & He & _). eapply pc_evaluated; eauto.
      - intros y j Hj Hd. rewrite <- (static_name c c1 j S). apply (B3 y); [|exact Hd]. destruct S as (-> & _). exact Hj.
    Qed.

    (** What was right before is right throughout. *)
    Lemma making_keeps y : reads_only P -> making cwd false kind c ca x fs now c1 objs sv s ->
      (forall p, is_file P p -> p_cone P y p -> right_content P (contents fs) p (contents fs p)) ->
      forall p, is_file P p -> p_cone P y p -> right_content P (contents (w_fs (s_world s))) p (contents (w_fs (s_world s)) p).
    Proof.
      intros Hro Hm H p Hp Hc. destruct (making_run false Hm) as (i & w0 & calls & S & B1 & Him & Hi & R & El & V).
      apply (run_keeps_right canon kind P c1 i fs now w0 Hro calls (s_world s) R (p_cone P y)); auto.
      intros q q' Hq Hq'. eapply rt_trans; [exact Hq|]. now apply input_dep.
    Qed.

    Lemma making_history now' : making cwd false kind c ca x fs now' c1 objs sv s -> history canon P fs now -> now <= now' ->
      history canon P fs now' /\ history canon P (w_fs (s_world s)) (w_now (s_world s)).
    Proof.
      intros Hm Hh Hle. assert (Hh' : history canon P fs now').
      { eapply h_outside; [exact Hh|]. split; [exact Hle|]. intros p. now left. }
      split; [exact Hh'|]. destruct (making_of false c ca fs x now' c1 objs sv s B Hx Hm) as (i & other_if & _ & _ & _ & Him & Hb).
      eapply h_build; eauto.
    Qed.
    Lemma making_right now' : making cwd false kind c ca x fs now' c1 objs sv s -> succeeded objs s -> reads_only P -> history canon P fs now' ->
      forall p, is_file P p -> p_cone P x p -> right_content P (contents (w_fs (s_world s))) p (contents (w_fs (s_world s)) p).
    Proof.
      intros Hm Hs Hro Hh p Hp Hc. destruct (making_of false c ca fs x now' c1 objs sv s B Hx Hm) as (i & other_if & _ & Hn & Hk & Him & Hb).
      eapply success_right; eauto. now rewrite Hn.
    Qed.

    Lemma making_calls partial : dirs_free cwd home l fs0 -> making cwd partial kind c ca x fs now c1 objs sv s -> no_rule_failed P (s_world s) ->
      forall k r, In (k, r) (ended (s_log s)) -> r = RNotFalse.
    Proof.
      intros Hfree Hm Hnf k r Hk. destruct (making_run partial Hm) as (i & w0 & calls & S & B1 & Him & Hi & R & El & V).
      destruct (run_safe canon kind partial P c1 i fs now w0) with (l := calls) (w := s_world s) as [F _].
      - exact (between_closed c1 ca fs i B1 Him Hi).
      - intros j a m v Hj Hkd Hn Ha. destruct (cone_registered_name canon c1 i j Hi Hj) as [nm Hnm].
        destruct (Him j Hj) as [_ Hik]. rewrite Hkd in Hik. destruct Hik as [Hik _].
        pose proof (be_static _ _ _ B1) as S1.
        assert (Hnm0 : In (nm, j) (c_targets (fst rg))) by (destruct S1 as (E & _); cbn [fst] in *; rewrite E; exact Hnm).
        destruct (whole_desc cwd home (present fs0) exists_ glob_ l rg session_inv nm j Hnm0) as (_ & _ & _ & C).
        change (kind_of rg j) with (kind j) in C. rewrite Hkd in C. destruct C as (C1 & _ & (_ & s' & p & Hs & Hp & Hab) & _).
        rewrite <- (static_name (fst rg) c1 j S1) in Ha.
        intros Hr. apply (Hfree s' p a m v Hs Hp).
        + eapply above_trans; [eapply ancestors_above; exact Ha|]. rewrite C1. exact Hab.
        + apply (be_new _ _ _ B1); [|exact Hr]. apply Hik. right. rewrite <- (static_name (fst rg) c1 j S1). exact Ha.
      - exact R.
      - assert (Hin : In (nth k objs (List.length (c_heap c1)), r) calls).
        { rewrite El. apply in_map_iff. exists (k, r). auto. }
        destruct (F _ Hin) as [Hr'|[(f & b & Hkd) Hran]]; [exact Hr'|]. exfalso. cbn [fst] in *.
        pose proof (ro_cone _ _ _ _ _ _ _ _ _ _ _ R _ _ Hin) as Hj.
        destruct (Him _ Hj) as [_ HI]. rewrite Hkd in HI. destruct HI as (ds & HI & _).
        apply (Hnf (t_name (obj c1 (nth k objs (List.length (c_heap c1)))))); [|exact Hran]. exists f, ds, b. exact HI.
    Qed.

    Lemma making_solver partial : making cwd partial kind c ca x fs now c1 objs sv s -> exists so dts, fair_order so /\
      solver_init so dts (Some th) = inr sv /\ List.length dts = List.length objs /\
      exists w0, exec_reaches sv (mk_task canon kind partial c1 objs) w0 s.
    Proof.
      intros (i & other_if & fuel' & ca1 & order & so & Hg & He & Ho & Hso & Hru & Hex).
      destruct (between_get c ca fs x B Hx) as (i' & Hg' & Hn & Hk & Him & nm & Hi). rewrite Hg in Hg'. injection Hg' as <-.
      destruct (mevaluate_right canon kind other_if fs fuel' c ca c1 ca1 (process_ready canon kind c (be_process _ _ _ B)) He) as ((Hw & _ & _ & _ & Hnp) & S & _).
      pose proof (coherent_static canon c c1 S (between_coherent c ca fs B)) as Hco.
      assert (Hi1 : resolves canon c1 (t_name (obj c1 i)) i).
      { apply (Hco nm). destruct S as (<- & _). exact Hi. }
      assert (Hth : ru_threads c1 None = Some th).
      { unfold ru_threads. destruct S as (_ & <- & _). destruct (be_static _ _ _ B) as (_ & <- & _). reflexivity. }
      destruct (ru_exec_facts canon c1 Hw Hco Hnp i Hi1 order Ho so Hso None th Hth objs sv Hru) as (dts & _ & _ & _ & Hs & Hlen & _).
      exists so, dts. split; [exact Hso|]. split; [exact Hs|]. split; [exact Hlen|]. eexists. exact Hex.
    Qed.
    Lemma making_between : making cwd false kind c ca x fs now c1 objs sv s -> s_main s = MReturned ->
      between c1 (w_cache (s_world s)) (w_fs (s_world s)).
    Proof.
      intros Hm Hret.
      assert (Hne : forall k, ~ In (k, RExn) (ended (s_log s))).
      { intros k Hk. destruct (making_solver false Hm) as (so & dts & Hso & Hs & _ & w0 & Hex).
        assert (E : s_main s = MJoin); [|congruence].
        pose (run := mk_task canon kind false c1 objs). assert (Hre : reach run sv s) by (eexists; exact Hex).
        apply (raise_never_returns run so dts th sv Hso Hs s k Hre).
        apply ended_In in Hk. destruct Hk as [Hk|[_ Hk]]; [|exact Hk].
        exfalso. exact (c_kind _ _ _ _ _ _ _ _ (v_core _ _ _ (reach_Inv run so dts th sv Hso Hs s Hre)) k RExn Hk eq_refl). }
      destruct (making_run false Hm) as (i & w0 & calls & S & B1 & Him & Hi & R & El & V).
      destruct (run_known canon kind P c1 i fs now w0) with (l := calls) (w := s_world s) as [K _].
      - exact (between_closed c1 ca fs i B1 Him Hi).
      - exact R.
      - intros y j Hj Hd. destruct (ro_start _ _ _ _ _ _ _ _ _ _ _ R) as (E & _). rewrite E, V. now apply (be_known _ _ _ B1 y).
      - intros j r Hj ->. rewrite El in Hj. apply in_map_iff in Hj. destruct Hj as ([k r] & E & Hj). cbn [fst snd] in E.
        injection E as _ ->. exact (Hne k Hj).
      - assert (F : forall p, ~ is_file P p -> w_fs (s_world s) p = fs p \/ fs p = None /\ exists m, w_fs (s_world s) p = Some (m, Dir)).
        { intros p Hp. destruct (run_frame canon kind false P c1 i fs now w0 calls (s_world s) R p) as [E|[(j & _ & Hj & Ep & (f & b & Ek) & _)|(E & _ & E')]]; auto.
          exfalso. apply Hp. destruct (Him j Hj) as [_ HI]. rewrite Ek in HI. destruct HI as (ds & HI & _). right. exists f, ds, b. congruence. }
        destruct B1 as [B2 B3 B4 B5 B6]. constructor; auto.
        + intros p Hp H0. pose proof (B5 p Hp H0) as E5. destruct (F p Hp) as [E|[E _]]; congruence.
        + intros p m v Hp E. apply B6; [exact Hp|]. destruct (F p Hp) as [E'|[_ [m' E']]]; congruence.
    Qed.

    Lemma making_goes_on partial : dirs_free cwd home l fs0 -> (1 <= th)%Z ->
      making cwd partial kind c ca x fs now c1 objs sv s -> no_rule_failed P (s_world s) ->
      succeeded objs s \/ s_main s = MJoin /\ exists s', step (inv_of (sv_inv sv)) (mk_task canon kind partial c1 objs) s s'.
    Proof.
      intros Hfree Ht Hm Hnf. pose proof (making_calls partial Hfree Hm Hnf) as E.
      destruct (making_run partial Hm) as (i & w0' & calls & S & B1 & Him & Hi & _).
      destruct (making_solver partial Hm) as (so & dts & Hso & Hs & Hlen & w0 & Hex).
      set (run := mk_task canon kind partial c1 objs) in *.
      assert (Hreach : reach run sv s) by (eexists; exact Hex).
      destruct (s_main s) eqn:Em.
      - right. split; [reflexivity|].
        apply (progress run so dts th sv Hso Hs s); [|exact Ht|exact Hreach|exact Em|].
        + apply mk_tasks_end. apply (process_ready canon kind c1 (be_process _ _ _ B1)).
        + destruct (raised (s_log s)) as [|k rest] eqn:Er; [reflexivity|]. exfalso.
          assert (Hin : In (k, RExn) (ended (s_log s))).
          { apply ended_In. right. split; [reflexivity|]. apply raised_In. rewrite Er. now left. }
          apply E in Hin. discriminate.
      - left. split; [exact Em|]. rewrite <- Hlen.
        destruct (exec_result_cases run so dts th sv Hso Hs s Hreach Em) as [[F _]|(_ & F & _)]; [|exact F]. exfalso.
        destruct F as [k F]. assert (Hin : In (k, RFalse) (ended (s_log s))) by (apply ended_In; now left).
        apply E in Hin. discriminate.
    Qed.
    Lemma making_bounded partial n w0 : making cwd partial kind c ca x fs now c1 objs sv s ->
      nsteps (inv_of (sv_inv sv)) (mk_task canon kind partial c1 objs) n (init_state sv w0) s -> n <= 2 * List.length objs + 1.
    Proof.
      intros Hm Hn. destruct (making_solver partial Hm) as (so & dts & Hso & Hs & Hlen & _).
      rewrite <- Hlen. exact (steps_bounded _ so dts th sv Hso Hs n w0 s Hn).
    Qed.
  End Made.

  (** The next build can always start. *)
  Lemma making_starts partial c ca fs x now order so other_if : between c ca fs -> In x (flat_map makes l) ->
    (forall i, exists b, other_if i = Ok b) -> (forall k, Permutation k (order k)) -> fair_order so ->
    exists f1, forall fuel', f1 <= fuel' -> exists i c1 ca1 objs sv,
      core_get canon c x = Ok i /\ mevaluate canon kind other_if fs fuel' (c, ca) = Ok (c1, ca1) /\
      recurse_update canon c1 order so i None = RuExec objs sv /\
      making cwd partial kind c ca x fs now c1 objs sv (init_state sv (WD fs ca1 now now [])).
  Proof.
    intros B Hx Hoi Ho Hso. pose proof (process_ready canon kind c (be_process _ _ _ B)) as (Hw & Hf & Hu & Hp & Hnp).
    pose proof (be_static _ _ _ B) as S0.
    exists (Datatypes.S (List.length (c_heap c))). intros fuel' Hl.
    pose proof (whole_healthy cwd home (present fs0) exists_ glob_ disk l ok rg session_inv other_if (view fs ca) Hoi) as Hh.
    change (kind_of rg) with kind in Hh. cbn [fst] in Hh.
    apply (static_healthy canon _ c0 c S0) in Hh.
    assert (Hh' : healthy canon (puif canon kind other_if (view fs ca) c) c).
    { destruct Hh as (A & A2 & A3 & A4). split; [exact A|]. split; [exact A2|]. split; [exact A3|].
      intros nm i Hi Hc. destruct (A4 nm i Hi Hc) as [b Hb]. exists b. rewrite <- Hb. symmetry. now apply puif_static. }
    destruct (evaluation_total canon (puif canon kind other_if (view fs ca) c) c fuel' Hw Hh' Hf Hu Hp) as [c' Ec]; [lia|].
    pose proof (mevaluate_sim canon kind other_if fs fuel' c ca Hf) as M. rewrite Ec in M. destruct M as (c1 & ca1 & He & _).
    destruct (between_get c ca fs x B Hx) as (i & Hg & Hn & Hk & Him & nm & Hi).
    destruct (mevaluate_right canon kind other_if fs fuel' c ca c1 ca1 (process_ready canon kind c (be_process _ _ _ B)) He) as ((Hw1 & _ & _ & _ & Hnp1) & S & _).
    pose proof (coherent_static canon c c1 S (between_coherent c ca fs B)) as Hco.
    assert (Hi1 : resolves canon c1 (t_name (obj c1 i)) i).
    { apply (Hco nm). destruct S as (<- & _). exact Hi. }
    assert (Hth : ru_threads c1 None = Some th).
    { unfold ru_threads. destruct S as (_ & <- & _). destruct S0 as (_ & <- & _). reflexivity. }
    assert (S1 : same_static c0 c1) by (eapply static_trans; eauto).
    assert (Hi0 : exists nm, In (nm, i) (c_targets (fst rg))) by (exists nm; destruct S0 as (E & _); change (In (nm, i) (c_targets c0)); rewrite E; exact Hi).
    destruct (whole_cone cwd home (present fs0) exists_ glob_ disk l ok rg session_inv i Hi0) as (_ & A & A').
    assert (R : exists objs sv, recurse_update canon c1 order so i None = RuExec objs sv).
    { destruct (ru_cases canon c1 Hw1 Hco Hnp1 i Hi1 order Ho so Hso None th Hth)
        as [(y & _ & _ & Hn' & _)|(_ & o & dts & _ & _ & _ & [(e & _ & _ & Hc)|(sv & E & _)])].
      - elim Hn'. intros j d Hj Hd. apply (static_cone canon c1) with (c' := fst rg) in Hj; [|now apply static_sym].
        assert (Ed : t_deps (obj c1 j) = t_deps (obj (fst rg) j)).
        { destruct S1 as (_ & _ & _ & S4). destruct (S4 j) as (_ & E4 & _). symmetry. exact E4. }
        rewrite Ed in Hd. destruct (A j d Hj Hd) as [k Hk']. exists k. now apply (static_resolves canon (fst rg) c1).
      - elim Hc. intros j Hj Hl'. apply (static_cone canon c1) with (c' := fst rg) in Hj; [|now apply static_sym].
        apply (A' j Hj). apply (static_path canon c1 (fst rg)); [now apply static_sym|exact Hl'].
      - eauto. }
    destruct R as (objs & sv & Hru). exists i, c1, ca1, objs, sv. split; [exact Hg|]. split; [exact He|]. split; [exact Hru|].
    exists i, other_if, fuel', ca1, order, so. repeat (split; [assumption|]). constructor.
  Qed.

  (** One cleaning. *)
  Section Swept.
    Variables (c : core) (ca : cache) (fs : fsys) (x : string) (c2 : core) (ca2 : cache) (fs2 : fsys).
    Hypothesis B : between c ca fs.
    Hypothesis Hx : In x (flat_map makes l).

    (** A registry after an evaluation. *)
    Lemma evaluated_between other_if fuel' c1 ca1 : mevaluate canon kind other_if fs fuel' (c, ca) = Ok (c1, ca1) ->
      same_static c c1 /\ between c1 ca1 fs.
    Proof.
      intros He. destruct (mevaluate_right canon kind other_if fs fuel' c ca c1 ca1 (process_ready canon kind c (be_process _ _ _ B)) He) as (_ & S & V & _).
      split; [exact S|]. destruct B as [B1 B2 B3 B4 B5]. constructor; auto.
      - eapply static_trans; eauto.
      - eapply pc_evaluated; eauto.
      - intros y j Hj Hd. rewrite <- (static_name c c1 j S). rewrite V. apply (B3 y); [|exact Hd]. destruct S as (-> & _). exact Hj.
    Qed.

    Lemma between_cone_registered c' ca' i : between c' ca' fs -> (exists nm, In (nm, i) (c_targets c')) -> cone_registered canon c' i.
    Proof.
      intros B' Hi j d Hj Hd. pose proof (be_static _ _ _ B') as S0.
      assert (Hi0 : exists nm, In (nm, i) (c_targets (fst rg))).
      { destruct Hi as [nm Hi]. exists nm. destruct S0 as (E & _). change (In (nm, i) (c_targets c0)). rewrite E. exact Hi. }
      destruct (whole_cone cwd home (present fs0) exists_ glob_ disk l ok rg session_inv i Hi0) as (_ & A & _).
      apply (static_cone canon c') with (c' := fst rg) in Hj; [|now apply static_sym].
      assert (Ed : t_deps (obj c' j) = t_deps (obj (fst rg) j)).
      { destruct S0 as (_ & _ & _ & S4). destruct (S4 j) as (_ & E4 & _). symmetry. exact E4. }
      rewrite Ed in Hd. destruct (A j d Hj Hd) as [k Hk']. exists k. now apply (static_resolves canon (fst rg) c').
    Qed.

    Lemma cleaning_spec : cleaning cwd kind c ca x fs c2 ca2 fs2 ->
      same_static c c2 /\ between c2 ca2 fs2 /\
      (forall p, is_rule P p -> p_cone P x p -> is_reg fs p = true -> fs2 p = None) /\
      (forall p, fs2 p <> fs p -> fs2 p = None /\ is_rule P p /\ p_cone P x p).
    Proof.
      intros (i & other_if & fuel' & c1 & ca1 & names & Hg & He & Ha & Hcl).
      destruct (evaluated_between other_if fuel' c1 ca1 He) as [S B1].
      destruct (between_get c1 ca1 fs x B1 Hx) as (i' & Hg' & Hn & Hk & Him & Hi).
      rewrite (static_get canon c c1 x S), Hg' in Hg. injection Hg as ->.
      pose proof (proj1 (process_ready canon kind c1 (be_process _ _ _ B1))) as Hw.
      destruct (clean_spec canon kind c1 i fs ca1 (be_process _ _ _ B1) (between_coherent _ _ _ B1) Hi (between_cone_registered c1 ca1 i B1 Hi))
        as (fs' & ca' & Hcl' & _ & C1 & C2).
      { intros j y Hj Hd Hs. destruct (cone_registered_name canon c1 i j Hi Hj) as [nm' Hn'].
        pose proof (be_known _ _ _ B1 nm' j Hn' Hd) as V. unfold view in V. now rewrite Hs in V. }
      rewrite Hcl in Hcl'. injection Hcl' as <- <-.
      pose proof (depends_shape canon _ _ _ _ _ Ha) as (E1 & E2 & E3).
      assert (Ho : forall j, obj c2 j = obj c1 j) by (intros j; unfold obj; now rewrite E2).
      assert (S2 : same_static c1 c2).
      { split; [symmetry; exact E1|]. split; [symmetry; exact E3|]. split; [now rewrite E2|]. intros j. now rewrite Ho. }
      assert (Fr : forall p, fs2 p <> fs p -> fs2 p = None /\ is_rule P p /\ p_cone P x p).
      { intros p Hp. destruct (C2 p Hp) as (Hreg & j & f & b & Hj & Ek & <-). split; [now apply (C1 j f b)|].
        destruct (Him j Hj) as [_ HI]. rewrite Ek in HI. destruct HI as (ds & HI & _). split; [exists f, ds, b; exact HI|].
        rewrite <- Hn. apply (cone_p canon kind P c1 i Hw Him i j (rt_refl _ _ _) Hj). now rewrite Ek. }
      split; [eapply static_trans; eauto|]. split; [|split; [|exact Fr]].
      - assert (Nf : forall p, ~ is_file P p -> fs2 p = fs p).
        { intros p Hp. destruct (same_entry (fs2 p) (fs p)) as [E|N]; [exact E|]. exfalso. apply Hp. right. now apply (Fr p). }
        pose proof (clean_known canon kind (fun j => exists nm, In (nm, j) (c_targets c1)) c1 i (fs, ca1) (fs2, ca2)) as K.
        destruct B1 as [A1 A2 A3 A4 A5]. constructor.
        + eapply static_trans; eauto.
        + eapply pc_asked; eauto.
        + intros y j Hj Hd. rewrite Ho. rewrite E1 in Hj. apply K; [| |exact Hcl|now exists y|exact Hd].
          * intros z k Hz. apply get_resolves in Hz; [|exact Hw]. destruct Hz as [Hz|[_ Hz]]; eauto.
          * intros k [z Hz] Hkd. exact (A3 z k Hz Hkd).
        + intros p Hp H0. rewrite (Nf p Hp). auto.
        + intros p m v Hp. rewrite (Nf p Hp). auto.
      - intros p Hr Hc Hreg. rewrite <- Hn in Hc. destruct (p_cone_obj canon kind P c1 i Hw Him i p (rt_refl _ _ _) Hk Hc) as (j & Hj & Hkj & <-).
        destruct (Him j Hj) as [_ HI]. destruct Hr as (f & ds & b & Hr).
        destruct (kind j) as [f' b'| | | |] eqn:Ek; [eapply C1; eauto|..]; exfalso.
        + destruct HI as [HI _]. congruence.
        + now apply Hkj.
        + destruct HI as (ds' & HI & _). congruence.
        + exact HI.
    Qed.

    (** A cleaning can always be done. *)
    Lemma cleaning_starts other_if : (forall i, exists b, other_if i = Ok b) ->
      exists f1, forall fuel', f1 <= fuel' -> exists i c1 ca1 names c2' ca2' fs2',
        core_get canon c x = Ok i /\ mevaluate canon kind other_if fs fuel' (c, ca) = Ok (c1, ca1) /\
        depends_as_set canon c1 (ByName (t_name (obj c1 i))) true = Ok (names, c2') /\
        clean canon kind c1 i (fs, ca1) = Ok (fs2', ca2').
    Proof.
      intros Hoi. destruct (making_starts false c ca fs x 0 (fun k => k) id_order other_if B Hx Hoi) as [f1 Hf].
      { intros k. apply Permutation_refl. } { split; intros; apply Permutation_refl. }
      exists f1. intros fuel' Hl. destruct (Hf fuel' Hl) as (i & c1 & ca1 & objs & sv & Hg & He & _).
      destruct (evaluated_between other_if fuel' c1 ca1 He) as [S B1].
      destruct (between_get c1 ca1 fs x B1 Hx) as (i' & Hg' & Hn & Hk & Him & Hi).
      pose proof Hg as Hg1. rewrite (static_get canon c c1 x S), Hg' in Hg1. injection Hg1 as ->.
      destruct (clean_spec canon kind c1 i fs ca1 (be_process _ _ _ B1) (between_coherent _ _ _ B1) Hi (between_cone_registered c1 ca1 i B1 Hi))
        as (fs' & ca' & Hcl & _).
      { intros j y Hj Hd Hs. destruct (cone_registered_name canon c1 i j Hi Hj) as [nm' Hn'].
        pose proof (be_known _ _ _ B1 nm' j Hn' Hd) as V. unfold view in V. now rewrite Hs in V. }
      pose proof Hcl as Hcl'. unfold clean in Hcl'.
      destruct (depends_as_set canon c1 (ByName (t_name (obj c1 i))) true) as [[names c2']| |] eqn:Ea; cbn [bind] in Hcl'; try discriminate.
      exists i, c1, ca1, names, c2', ca', fs'. auto.
    Qed.
  End Swept.

  (** ** Any number of builds and cleanings. *)
  Notation in_turn := (in_turn cwd home glob_ l kind c0 fs0).
  Lemma turn_between now0 c ca fs now done : in_turn now0 c ca fs now done -> between c ca fs.
  Proof.
    induction 1 as [|c ca fs now done x now' c1 objs sv s b _ IH Hx Hle Hm Hr Hb|c ca fs now done x c2 ca2 fs2 _ IH Hx Hc]; [apply between_read| |].
    - eapply making_between; eauto.
    - eapply cleaning_spec; eauto.
  Qed.
  Lemma cleaning_outside c ca fs x c2 ca2 fs2 now : between c ca fs -> In x (flat_map makes l) ->
    cleaning cwd kind c ca x fs c2 ca2 fs2 -> outside_step P fs now fs2 now.
  Proof.
    intros B Hx Hc. destruct (cleaning_spec c ca fs x c2 ca2 fs2 B Hx Hc) as (_ & _ & _ & Fr). split; [apply le_n|].
    intros p. destruct (same_entry (fs2 p) (fs p)) as [E|N]; [now left|]. right. left. now apply Fr.
  Qed.
  Lemma turn_history_ok now0 c ca fs now done : in_turn now0 c ca fs now done -> history canon P fs0 now0 -> history canon P fs now.
  Proof.
    induction 1 as [|c ca fs now done x now' c1 objs sv s b T IH Hx Hle Hm Hr Hb|c ca fs now done x c2 ca2 fs2 T IH Hx Hc]; intros Hh; [exact Hh| |].
    - eapply (making_history c ca fs x now c1 objs sv s (turn_between _ _ _ _ _ _ T) Hx now'); eauto.
    - eapply h_outside; [now apply IH|]. eapply cleaning_outside; eauto. eapply turn_between; eauto.
  Qed.
  Lemma turn_sources now0 c ca fs now done : in_turn now0 c ca fs now done -> forall p, P p = Some DSource -> fs p = fs0 p.
  Proof.
    induction 1 as [|c ca fs now done x now' c1 objs sv s b T IH Hx Hle Hm Hr Hb|c ca fs now done x c2 ca2 fs2 T IH Hx Hc]; intros p Hp; [reflexivity| |].
    - destruct (making_run c ca fs x now' c1 objs sv s (turn_between _ _ _ _ _ _ T) Hx false Hm) as (i & w0 & calls & _ & _ & _ & _ & R & _).
      rewrite (run_source canon kind false P c1 i fs now' w0 calls (s_world s) R p Hp). auto.
    - rewrite <- (IH p Hp). destruct (same_entry (fs2 p) (fs p)) as [E|N]; [exact E|]. exfalso.
      destruct (cleaning_spec c ca fs x c2 ca2 fs2 (turn_between _ _ _ _ _ _ T) Hx Hc) as (_ & _ & _ & Fr).
      destruct (Fr p N) as (_ & (f & ds & b & E) & _). congruence.
  Qed.
  Lemma stands_last x done e : stands P x (done ++ [e]) ->
    e = (x, Made true) \/ stands P x done /\ forall y, e = (y, Cleaned) -> forall p, is_rule P p -> p_cone P x p -> ~ p_cone P y p.
  Proof.
    intros (d1 & d2 & E & H). destruct (list_rev_cases d2) as [->|(d3 & e' & ->)].
    - apply app_inj_tail in E. left. apply E.
    - change (d1 ++ (x, Made true) :: d3 ++ [e']) with (d1 ++ ((x, Made true) :: d3) ++ [e']) in E. rewrite app_assoc in E. apply app_inj_tail in E. destruct E as [-> ->]. right. split.
      + exists d1, d3. split; [reflexivity|]. intros y Hy. apply H. apply in_app_iff. now left.
      + intros y ->. apply H. apply in_app_iff. right. now left.
  Qed.
  Lemma turn_right now0 c ca fs now done : reads_only P -> history canon P fs0 now0 -> in_turn now0 c ca fs now done ->
    forall x, stands P x done -> forall p, is_file P p -> p_cone P x p -> right_content P (contents fs) p (contents fs p).
  Proof.
    intros Hro Hh. induction 1 as [|c ca fs now done x now' c1 objs sv s b T IH Hx Hle Hm Hr Hb|c ca fs now done x c2 ca2 fs2 T IH Hx Hc]; intros y Hy.
    - destruct Hy as ([|] & d2 & E & _); discriminate.
    - pose proof (turn_between _ _ _ _ _ _ T) as B. apply stands_last in Hy. destruct Hy as [Hy|[Hy _]].
      + injection Hy as -> ->. apply (making_right c ca fs y c1 objs sv s B Hx now' Hm); [split; assumption|exact Hro|].
        eapply (making_history c ca fs y now c1 objs sv s B Hx now' Hm); [|exact Hle]. eapply turn_history_ok; eauto.
      + intros p Hp Hc. exact (making_keeps c ca fs x now' c1 objs sv s B Hx y Hro Hm (IH y Hy) p Hp Hc).
    - pose proof (turn_between _ _ _ _ _ _ T) as B. apply stands_last in Hy. destruct Hy as [Hy|[Hy Hdis]]; [discriminate|].
      destruct (cleaning_spec c ca fs x c2 ca2 fs2 B Hx Hc) as (_ & _ & _ & Fr).
      assert (Src : forall p, P p = Some DSource -> contents fs2 p = contents fs p).
      { intros p Hp. unfold contents. destruct (same_entry (fs2 p) (fs p)) as [->|N]; [reflexivity|].
        exfalso. destruct (Fr p N) as (_ & (f & ds & b & E) & _). congruence. }
      assert (G : forall p v, right_content P (contents fs) p v -> right_content P (contents fs2) p v).
      { induction 1 as [p HP|p f ds b s v HP _ IHr Hb]; [rewrite <- Src by exact HP; now apply rc_source|]. eapply rc_rule; eauto. }
      intros p Hp Hcp. assert (E : fs2 p = fs p).
      { destruct (same_entry (fs2 p) (fs p)) as [E|N]; [exact E|]. exfalso. destruct (Fr p N) as (_ & Hrule & Hcx). now apply (Hdis x eq_refl p). }
      unfold contents at 2. rewrite E. apply G. exact (IH y Hy p Hp Hcp).
  Qed.

  (** ** Targets that have been made are at rest. *)
  Definition rest (c : core) (fs : fsys) (i : nat) : Prop :=
    (forall j, in_cone canon c i j -> kind j <> MDir -> ~ needs_update P fs (t_name (obj c j))) /\
    (forall j, in_cone canon c i j -> kind j = MDir -> fs (t_name (obj c j)) <> None).

  Lemma rest_static c c' fs i : same_static c c' -> rest c fs i -> rest c' fs i.
  Proof.
    intros S [U D]. split; intros j Hj Hk; rewrite <- (static_name c c' j S).
    - apply U; [|exact Hk]. apply (static_cone canon c' c); [now apply static_sym|exact Hj].
    - apply D; [|exact Hk]. apply (static_cone canon c' c); [now apply static_sym|exact Hj].
  Qed.

  Lemma run_rest c i i' fs now calls w0 w : run_of canon kind false P c i' fs now calls w0 w ->
    implements canon kind P c i -> (exists nm, In (nm, i) (c_targets c)) -> kind i <> MDir -> rest c fs i ->
    (forall p, is_file P p -> p_cone P (t_name (obj c i)) p -> w_fs w p = fs p) /\ rest c (w_fs w) i.
  Proof.
    intros R Him Hi Hki [U D].
    pose proof (ro_wf _ _ _ _ _ _ _ _ _ _ _ R) as Hw. pose proof (ro_co _ _ _ _ _ _ _ _ _ _ _ R) as Hco.
    assert (Inj : forall j j', in_cone canon c i j -> in_cone canon c i' j' -> t_name (obj c j') = t_name (obj c j) -> j' = j).
    { intros j j' Hj Hj' E. destruct (cone_registered_name canon c i j Hi Hj) as [x Hx].
      destruct (cone_registered_name canon c i' j' (ro_reg _ _ _ _ _ _ _ _ _ _ _ R) Hj') as [x' Hx'].
      apply (resolves_fun canon c (t_name (obj c j))); [exact Hw| |now apply (Hco x)]. rewrite <- E. now apply (Hco x'). }
    assert (Same : forall p, is_file P p -> p_cone P (t_name (obj c i)) p -> w_fs w p = fs p).
    { intros p Hp Hc. destruct (p_cone_obj canon kind P c i Hw Him i p (rt_refl _ _ _) Hki Hc) as (j & Hj & Hkj & <-).
      destruct (run_frame canon kind false P c i' fs now w0 calls w R (t_name (obj c j))) as [E|[(j' & _ & Hj' & E & _ & Hn)|(E & _)]]; [exact E| |].
      - exfalso. symmetry in E. apply (Inj j j' Hj Hj') in E. subst j'.
        destruct (ro_need _ _ _ _ _ _ _ _ _ _ _ R j Hj') as (b & Eb & E). rewrite Hn in Eb. injection Eb as <-.
        destruct (proj1 E eq_refl) as [[_ A]|(k & Hk & A & A')]; [now apply (U j)|]. apply (D k); auto. eapply rt_trans; eauto.
      - exfalso. apply (U j Hj Hkj). exists (t_name (obj c j)). split; [apply rt_refl|]. left. auto. }
    split; [exact Same|]. split.
    - intros j Hj Hkj (q & Hq & Ho). apply (U j Hj Hkj). exists q. split; [exact Hq|].
      destruct (cone_p canon kind P c i Hw Him i j (rt_refl _ _ _) Hj Hkj) as [_ Hc].
      assert (Hcq : p_cone P (t_name (obj c i)) q) by (eapply rt_trans; eauto).
      destruct Ho as [[Hf Hn]|[Ho|[Hr (q' & Hin & mq & nq & mp & np & E1 & E2 & L)]]]; [left|right; now left|right; right].
      + split; [exact Hf|]. now rewrite <- (Same q Hf Hcq).
      + split; [exact Hr|]. exists q'. split; [exact Hin|].
        assert (Fq' : is_file P q') by (clear - Hin; induction Hin; auto).
        assert (Hc' : p_cone P (t_name (obj c i)) q') by (eapply rt_trans; [exact Hcq|now apply input_dep]).
        exists mq, nq, mp, np. rewrite <- (Same q' Fq' Hc'), <- (Same q (or_intror Hr) Hcq). auto.
    - intros j Hj Hkj Hn. apply (D j Hj Hkj).
      destruct (run_frame canon kind false P c i' fs now w0 calls w R (t_name (obj c j))) as [E|[(j' & _ & Hj' & E & (f & b & Ek) & _)|(E & _)]]; [congruence| |exact E].
      exfalso. destruct (Him j Hj) as [_ HI]. rewrite Hkj in HI. destruct HI as [HI _]. apply (HI _ (or_introl eq_refl)).
      destruct (ro_imp _ _ _ _ _ _ _ _ _ _ _ R j' Hj') as [_ HI']. rewrite Ek in HI'. destruct HI' as (ds & HI' & _).
      right. exists f, ds, b. congruence.
  Qed.

  Lemma making_rest c ca fs x now c1 objs sv s y : between c ca fs -> In x (flat_map makes l) -> In y (flat_map makes l) ->
    making cwd false kind c ca x fs now c1 objs sv s -> forall i, core_get canon c y = Ok i -> rest c fs i ->
    (forall p, is_file P p -> p_cone P y p -> w_fs (s_world s) p = fs p) /\ rest c1 (w_fs (s_world s)) i.
  Proof.
    intros B Hx Hy Hm i Hg Hre.
    destruct (making_run c ca fs x now c1 objs sv s B Hx false Hm) as (i' & w0 & calls & S & B1 & _ & _ & R & _).
    destruct (between_get c1 ca fs y B1 Hy) as (i2 & Hg2 & Hn & Hk & Him & Hi).
    rewrite (static_get canon c c1 y S), Hg2 in Hg. injection Hg as ->.
    rewrite <- Hn. eapply run_rest; eauto. eapply rest_static; eauto.
  Qed.

  Lemma cleaning_rest c ca fs x c2 ca2 fs2 y : between c ca fs -> In x (flat_map makes l) -> In y (flat_map makes l) ->
    cleaning cwd kind c ca x fs c2 ca2 fs2 -> (forall p, is_rule P p -> p_cone P y p -> ~ p_cone P x p) ->
    forall i, core_get canon c y = Ok i -> rest c fs i -> rest c2 fs2 i.
  Proof.
    intros B Hx Hy Hc Hdis i Hg [U D]. destruct (cleaning_spec c ca fs x c2 ca2 fs2 B Hx Hc) as (S & _ & _ & Fr). apply (rest_static c c2 _ _ S).
    destruct (between_get c ca fs y B Hy) as (i2 & Hg2 & Hn & Hk & Him & Hi). rewrite Hg in Hg2. injection Hg2 as <-.
    pose proof (proj1 (process_ready canon kind c (be_process _ _ _ B))) as Hw.
    assert (Same : forall p, is_file P p -> p_cone P y p -> fs2 p = fs p).
    { intros p Hp Hcp. destruct (same_entry (fs2 p) (fs p)) as [E|N]; [exact E|]. exfalso. destruct (Fr p N) as (_ & Hrule & Hcx). now apply (Hdis p). }
    split.
    - intros j Hj Hkj (q & Hq & Ho). apply (U j Hj Hkj). exists q. split; [exact Hq|].
      destruct (cone_p canon kind P c i Hw Him i j (rt_refl _ _ _) Hj Hkj) as [_ Hcj]. rewrite Hn in Hcj.
      assert (Hcq : p_cone P y q) by (eapply rt_trans; eauto).
      destruct Ho as [[Hf Hno]|[Ho|[Hr (q' & Hin & mq & nq & mp & np & E1 & E2 & L)]]]; [left|right; now left|right; right].
      + split; [exact Hf|]. now rewrite <- (Same q Hf Hcq).
      + split; [exact Hr|]. exists q'. split; [exact Hin|].
        assert (Fq' : is_file P q') by (clear - Hin; induction Hin; auto).
        assert (Hc' : p_cone P y q') by (eapply rt_trans; [exact Hcq|now apply input_dep]).
        exists mq, nq, mp, np. rewrite <- (Same q' Fq' Hc'), <- (Same q (or_intror Hr) Hcq). auto.
    - intros j Hj Hkj Hno. destruct (same_entry (fs2 (t_name (obj c j))) (fs (t_name (obj c j)))) as [E|N]; [rewrite E in Hno; now apply (D j Hj Hkj)|].
      destruct (Fr _ N) as (_ & Hrule & _). destruct (Him j Hj) as [_ HI]. rewrite Hkj in HI. destruct HI as [HI _].
      apply (HI _ (or_introl eq_refl)). now right.
  Qed.

  Lemma turn_rest now0 c ca fs now done : in_turn now0 c ca fs now done ->
    forall x, stands P x done -> steady P fs0 x -> In x (flat_map makes l) /\ forall i, core_get canon c x = Ok i -> rest c fs i.
  Proof.
    induction 1 as [|c ca fs now done x now' c1 objs sv s b T IH Hx Hle Hm Hr Hb|c ca fs now done x c2 ca2 fs2 T IH Hx Hc]; intros y Hy Hst.
    - destruct Hy as ([|] & d2 & E & _); discriminate.
    - pose proof (turn_between _ _ _ _ _ _ T) as B.
      destruct (making_run c ca fs x now' c1 objs sv s B Hx false Hm) as (_ & _ & _ & S & _).
      apply stands_last in Hy. destruct Hy as [Hy|[Hy _]].
      2:{ destruct (IH y Hy Hst) as [Hy' IHr]. split; [exact Hy'|]. intros i Hg. rewrite <- (static_get canon c c1 y S) in Hg.
          eapply (making_rest c ca fs x now' c1 objs sv s y); eauto. }
      injection Hy as -> ->. split; [exact Hx|]. intros i Hg. rewrite <- (static_get canon c c1 y S) in Hg.
      destruct (making_of false c ca fs y now' c1 objs sv s B Hx Hm) as (i' & other_if & Hg' & Hn & Hk & Him & Hbo).
      rewrite Hg in Hg'. injection Hg' as <-. apply (rest_static c c1 _ _ S).
      pose proof (proj1 (process_ready canon kind c (be_process _ _ _ B))) as Hw. destruct Hst as [St1 St2].
      apply (success_up_to_date canon P kind other_if c i fs now' ca c1 objs s Him Hbo); [split; assumption|..].
      + intros j f b Hj Ek. destruct f; [exfalso|reflexivity]. destruct (Him j Hj) as [_ HI]. rewrite Ek in HI. destruct HI as (ds & HI & _).
        apply (St1 _ ds b) in HI; [exact HI|]. rewrite <- Hn. apply (cone_p canon kind P c i Hw Him i j (rt_refl _ _ _) Hj). now rewrite Ek.
      + intros j Hj Ek. destruct (Him j Hj) as [_ HI]. rewrite Ek in HI. destruct HI as [HI _].
        rewrite (turn_sources _ _ _ _ _ _ T _ HI). apply St2; [|exact HI]. rewrite <- Hn. apply (cone_p canon kind P c i Hw Him i j (rt_refl _ _ _) Hj). now rewrite Ek.
    - pose proof (turn_between _ _ _ _ _ _ T) as B. apply stands_last in Hy. destruct Hy as [Hy|[Hy Hdis]]; [discriminate|].
      destruct (IH y Hy Hst) as [Hy' IHr]. split; [exact Hy'|]. intros i Hg.
      destruct (cleaning_spec c ca fs x c2 ca2 fs2 B Hx Hc) as (S & _). rewrite <- (static_get canon c c2 y S) in Hg.
      eapply (cleaning_rest c ca fs x c2 ca2 fs2 y); eauto.
  Qed.

  Lemma turn_idle now0 c ca fs now done x : in_turn now0 c ca fs now done -> stands P x done -> steady P fs0 x ->
    (forall y now' c1 objs sv s, In y (flat_map makes l) -> making cwd false kind c ca y fs now' c1 objs sv s ->
       forall p, is_file P p -> p_cone P x p -> w_fs (s_world s) p = fs p) /\
    forall now' c1 objs sv s, making cwd false kind c ca x fs now' c1 objs sv s ->
      w_fs (s_world s) = fs /\ w_ran (s_world s) = [].
  Proof.
    intros T Hd Hst. destruct (turn_rest _ _ _ _ _ _ T x Hd Hst) as [Hx Hre]. pose proof (turn_between _ _ _ _ _ _ T) as B.
    destruct (between_get c ca fs x B Hx) as (i & Hg & _). split.
    - intros y now' c1 objs sv s Hy Hm. eapply (making_rest c ca fs y now' c1 objs sv s x B Hy Hx Hm); eauto.
    - intros now' c1 objs sv s Hm.
      destruct (making_of false c ca fs x now' c1 objs sv s B Hx Hm) as (i' & other_if & Hg' & _ & _ & Him & Hb). destruct (Hre i' Hg') as [U D].
      exact (proj2 (nothing_to_do canon P kind other_if c i' fs now' ca c1 objs s Him Hb U D)).
  Qed.
End Session.

Lemma turn_histories cwd home glob_ l fs now : turn_history cwd home glob_ l fs now ->
  history (realpath cwd) (project_of cwd home glob_ l) fs now.
Proof.
  induction 1 as [fs now A B C|fs now fs' now' _ IH O|fs0 now0 exists_ fuel st th c ca fs now done _ IH D K Hr T|fs0 now0 exists_ fuel st th c ca fs now done x now' c1 objs sv s _ IH D K Hr T Hx Hle Hm].
  - now apply h_start.
  - eapply h_outside; eauto.
  - eapply turn_history_ok; eauto.
  - pose proof (turn_between cwd home fs0 exists_ glob_ l D K fuel st th Hr now0 c ca fs now done T) as B.
    apply (making_history cwd home fs0 exists_ glob_ l D K fuel st th Hr c ca fs x now c1 objs sv s B Hx now' Hm); [|exact Hle].
    eapply turn_history_ok; eauto.
Qed.
