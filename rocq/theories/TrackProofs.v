(** Lemmas: builds whose rules read files that only earlier builds have made known. *)
From Coq Require Import Permutation.
From Verif Require Import PyBase PyPath SolverModel SpecGraph InvokerModel SpecTrace InvokerProofs InvokerInv
  InvokerThms InvokerPath CoreModel SpecCore CoreProofs NeedProofs RuProofs CoreThms MakeModel MakeEval SpecMake
  MakeProofs MakeFacts MakeBuild SpecTrack.

Section Run.
  Variable canon : string -> string.
  Variable kind : nat -> mkind.
  Variable partial : bool.
  Variable P : project.
  Variables (c : core) (i : nat) (fs : fsys) (now : nat) (w0 : world).
  Local Notation nm j := (t_name (obj c j)).
  Local Notation cone := (in_cone canon c i).
  Local Notation run := (run_of canon kind partial P c i fs now).

  Lemma done_inputs l w : run l w0 w -> forall j k, input canon kind c j k ->
    forall l1 l2 r, l = l1 ++ (j, r) :: l2 -> In (k, RNotFalse) l1.
  Proof.
    intros R j k Hk'. pose proof (ro_wf _ _ _ _ _ _ _ _ _ _ _ R) as Hw.
    induction Hk' as [j d k Hdd Hg Hkk|j d s k Hdd Hg Hkk Hin IH]; intros l1 l2 r El.
    - apply (ro_deps _ _ _ _ _ _ _ _ _ _ _ R l1 j r l2 El). exists d. split; [exact Hdd|]. now apply get_resolves.
    - assert (Ds : In (s, RNotFalse) l1).
      { apply (ro_deps _ _ _ _ _ _ _ _ _ _ _ R l1 j r l2 El). exists d. split; [exact Hdd|now apply get_resolves]. }
      apply in_split in Ds. destruct Ds as (a & b & ->). apply in_app_iff. left.
      rewrite <- app_assoc in El. simpl in El. apply (IH a (b ++ (j, r) :: l2) RNotFalse El).
  Qed.

  (** The ways the call of a file with a rule can end. *)
  Lemma rule_call l w j r w' f b : run l w0 w -> cone j -> kind j = MFile f b -> obj_task canon kind partial c j w r w' ->
    (t_need (obj c j) = Some false /\ r = RNotFalse /\ w' = w) \/
    (r = RNotFalse /\ exists v m, b (contents (w_fs w)) = Some v /\ now < m /\
       w_fs w' = fs_set (w_fs w) (nm j) (Some (m, Reg v))) \/
    (r <> RNotFalse /\ In (nm j, false) (w_ran w') /\
       (w_fs w' = w_fs w \/ w_fs w' = fs_set (w_fs w) (nm j) None \/
        exists m v, now < m /\ w_fs w' = fs_set (w_fs w) (nm j) (Some (m, Reg v)))).
  Proof.
    intros R Hj Hk T. destruct (run_times canon kind partial P c i fs now w0 l w R) as (Hb & _).
    destruct (ro_imp _ _ _ _ _ _ _ _ _ _ _ R j Hj) as [Hc _].
    destruct (ro_need _ _ _ _ _ _ _ _ _ _ _ R j Hj) as (need & Hn & _).
    unfold obj_task in T. rewrite Hk, Hc, Hn in T. destruct need.
    - destruct T as [force b0 v m Ek E Hm Hi p fs'|force b0 fs' now' r ca' Ek E p Hf Hr|Ek p|Ek|r w' Ek];
        try congruence; rewrite Hk in Ek; injection Ek as <- <-.
      + right. left. split; [reflexivity|]. exists v, m. split; [exact E|]. split; [lia|reflexivity].
      + right. right. cbn [w_fs w_ran]. split; [destruct Hr as [[-> _]|[-> _]]; discriminate|].
        split; [apply in_app_iff; right; now left|].
        destruct Hf as [[-> _]|[[-> _]|(_ & m & v & Hm & -> & _)]]; [now left|right; now left|right; right].
        exists m, v. split; [lia|reflexivity].
    - left. destruct T as [-> ->]. auto.
  Qed.

  Lemma task_ran l w j r w' : run l w0 w -> cone j -> obj_task canon kind partial c j w r w' -> incl (w_ran w) (w_ran w').
  Proof.
    intros R Hj T. destruct (ro_imp _ _ _ _ _ _ _ _ _ _ _ R j Hj) as [Hc HI]. unfold obj_task in T.
    assert (D : mk_dir c j w r w' -> incl (w_ran w) (w_ran w')).
    { clear T. intros T. destruct T; cbn [w_ran]; intros z Hz; rewrite ?in_app_iff; auto. }
    assert (U : kind j <> MOther ->
      match t_class (obj c j) with
           | Plain => r = RExn /\ w' = w
           | Updatable =>
               match t_need (obj c j) with
               | None => r = RExn /\ w' = w
               | Some true => mk_update canon kind partial c j w r w'
               | Some false => r = RNotFalse /\ w' = w
               end
           end -> incl (w_ran w) (w_ran w')).
    { clear T. intros Ho T. rewrite Hc in T. destruct (t_need (obj c j)) as [[|]|]; [|destruct T as [_ ->]; apply incl_refl..].
      destruct T as [force b0 v m Ek E Hm Hi p fs'|force b0 fs' now' r ca' Ek E p Hf Hr|Ek p|Ek|r w' Ek]; cbn [w_ran];
        intros z Hz; rewrite ?in_app_iff; auto; contradiction. }
    destruct (kind j); auto; try (apply U; [discriminate|exact T]).
  Qed.

  (** Contents change in the calls of rules only. *)
  Lemma task_contents l w j r w' q : run l w0 w -> cone j -> obj_task canon kind partial c j w r w' ->
    (forall f b, kind j = MFile f b -> q <> nm j) -> contents (w_fs w') q = contents (w_fs w) q.
  Proof.
    intros R Hj T Hq. destruct (run_touches canon kind partial P c i fs now w0 l w j r w' R Hj T) as (_ & _ & F).
    unfold contents. destruct (F q) as [->|[(Ep & (f & b & Hk) & _)|(_ & -> & _ & m & -> & _)]]; [reflexivity| |reflexivity].
    now destruct (Hq f b Hk).
  Qed.

  (** Below a target that needs no update nothing changes. *)
  Lemma idle_kept l w : run l w0 w -> forall j, cone j -> kind j <> MDir -> t_need (obj c j) = Some false ->
    ~ needs_update P fs (nm j) /\ forall q, p_cone P (nm j) q -> is_file P q -> w_fs w q = fs q /\ fs q <> None.
  Proof.
    intros R j Hj Hk Hn. destruct (ro_need _ _ _ _ _ _ _ _ _ _ _ R j Hj) as (b & Eb & E). rewrite Hn in Eb. injection Eb as <-.
    assert (N : ~ needs_update P fs (nm j)).
    { intros H. assert (X : false = true) by (apply E; left; auto). discriminate. }
    split; [exact N|]. intros q Hc Hq.
    assert (Ex : fs q <> None) by (intros Eq; apply N; exists q; split; [exact Hc|left; auto]).
    split; [|exact Ex].
    destruct (run_frame canon kind partial P c i fs now w0 l w R q) as [G|[(k & _ & Hck & -> & (f & b & Hkk) & Hnk)|(G & _)]]; [exact G| |contradiction].
    exfalso. destruct (ro_need _ _ _ _ _ _ _ _ _ _ _ R k Hck) as (b' & Eb' & E'). rewrite Hnk in Eb'. injection Eb' as <-.
    destruct (proj1 E' eq_refl) as [[_ (x & Hx & Ho)]|(d & Hd & Hkd & Hm)].
    - apply N. exists x. split; [eapply rt_trans; eauto|exact Ho].
    - (* a missing directory below [k] is also below [j] *)
      assert (X : false = true); [|discriminate]. apply E. right. exists d. split; [|auto].
      pose proof (ro_wf _ _ _ _ _ _ _ _ _ _ _ R) as Hw. pose proof (ro_imp _ _ _ _ _ _ _ _ _ _ _ R) as Him.
      destruct (p_cone_obj canon kind P c i Hw Him j (nm k) Hj Hk Hc) as (k' & Hk' & _ & En).
      assert (k' = k).
      { apply (cone_inj canon c i Hw (ro_co _ _ _ _ _ _ _ _ _ _ _ R) (ro_reg _ _ _ _ _ _ _ _ _ _ _ R)); [|exact Hck|exact En].
        exact (rt_trans _ _ _ _ _ Hj Hk'). }
      subst k'. eapply rt_trans; eauto.
  Qed.
End Run.

Section Track.
  Variable canon : string -> string.
  Variable rules : string -> option buildfun.
  Variable reads : string -> ctx -> string -> Prop.
  Variable junk : string -> string -> Prop.
  Variable proj : ctx -> project.
  Hypothesis tr : tracking rules reads junk proj.
  Local Notation right_now := (right_now rules).

  (** Each file made by a rule is junk, or what the rule made of earlier contents [s0], and
      files read then are still the same, or gone, or later than it. *)
  Definition tfaithful (fs : fsys) : Prop :=
    forall p b m v, rules p = Some b -> fs p = Some (m, Reg v) ->
      junk p v \/
      exists s0, b s0 = Some v /\ (forall q, reads p s0 q -> right_now s0 q) /\
        forall q, reads p s0 q -> contents fs q = s0 q \/ fs q = None \/ exists mq nq, fs q = Some (mq, nq) /\ m < mq.
  Definition rules_no_dirs (fs : fsys) : Prop := forall p m, rules p <> None -> fs p <> Some (m, Dir).

  Lemma is_rule_rules s p : is_rule (proj s) p <-> rules p <> None.
  Proof.
    split.
    - intros (f & ds & b & H). assert (E : rules p = Some b) by (apply (tr_rules _ _ _ _ tr s); eauto). congruence.
    - intros H. destruct (rules p) as [b|] eqn:E; [|congruence]. apply (tr_rules _ _ _ _ tr s) in E.
      destruct E as (f & ds & E). now exists f, ds, b.
  Qed.

  Section Run.
    Variable kind : nat -> mkind.
    Variables (c : core) (i : nat) (fs : fsys) (now : nat) (w0 : world).
    Local Notation nm j := (t_name (obj c j)).
    Local Notation cone := (in_cone canon c i).
    Local Notation P := (proj (contents fs)).
    Local Notation run := (run_of canon kind true P c i fs now).
    Hypothesis Hd : dated fs now.
    Hypothesis Hf : tfaithful fs.
    Hypothesis Hnd : rules_no_dirs fs.

    Lemma kind_rules l w j f b : run l w0 w -> cone j -> kind j = MFile f b ->
      rules (nm j) = Some b /\ exists ds, P (nm j) = Some (DRule f ds b).
    Proof.
      intros R Hj Hk. destruct (ro_imp _ _ _ _ _ _ _ _ _ _ _ R j Hj) as [_ H]. rewrite Hk in H.
      destruct H as (ds & H & _). split; [|eauto]. apply (tr_rules _ _ _ _ tr (contents fs)). eauto.
    Qed.
    Lemma rules_kind l w j b : run l w0 w -> cone j -> rules (nm j) = Some b -> exists f, kind j = MFile f b.
    Proof.
      intros R Hj E. pose proof (ro_imp _ _ _ _ _ _ _ _ _ _ _ R) as Him.
      assert (Hr : is_rule P (nm j)) by (apply is_rule_rules; congruence).
      destruct (rule_kind canon kind P c i Him j Hj Hr) as (f & b' & ds & Hk & _).
      destruct (kind_rules l w j f b' R Hj Hk) as [E' _]. exists f. congruence.
    Qed.

    Definition settled (l : list (nat * tres)) (w : world) (j : nat) (b : buildfun) : Prop :=
      exists m v, w_fs w (nm j) = Some (m, Reg v) /\ b (contents (w_fs w)) = Some v /\
        forall q, reads (nm j) (contents (w_fs w)) q -> rules q <> None -> exists k, In (k, RNotFalse) l /\ nm k = q.
    Definition unsettled (w : world) (j : nat) : Prop :=
      w_fs w (nm j) = fs (nm j) \/ w_fs w (nm j) = None \/
      exists m v, w_fs w (nm j) = Some (m, Reg v) /\ now < m /\ In (nm j, false) (w_ran w).

    Lemma settled_right l w j b : settled l w j b -> rules (nm j) = Some b -> right_now (contents (w_fs w)) (nm j).
    Proof.
      intros (m & v & E & Eb & _) Er b' Eb'. rewrite Er in Eb'. injection Eb' as <-. exists v. split; [exact Eb|].
      unfold contents. now rewrite E.
    Qed.

    Lemma run_settled l w : run l w0 w ->
      (forall j f b, In (j, RNotFalse) l -> kind j = MFile f b -> settled l w j b) /\
      (forall j r f b, In (j, r) l -> r <> RNotFalse -> kind j = MFile f b -> unsettled w j).
    Proof.
      intros R. pattern l, w. revert l w R. apply run_ind; cbv beta.
      - intros _. split; intros; contradiction.
      - intros l w j r w' R [IH1 IH2] R' T Hj Hnew Hdeps.
        pose proof (ro_wf _ _ _ _ _ _ _ _ _ _ _ R) as Hw. pose proof (ro_imp _ _ _ _ _ _ _ _ _ _ _ R) as Him.
        assert (Cone : forall k r0, In (k, r0) l -> cone k) by (intros k r0; apply (ro_cone _ _ _ _ _ _ _ _ _ _ _ R)).
        assert (Diff : forall k r0, In (k, r0) l -> nm k <> nm j).
        { intros k r0 Hk E. apply Hnew. apply in_map_iff. exists (k, r0). split; [|exact Hk].
          apply (cone_inj canon c i Hw (ro_co _ _ _ _ _ _ _ _ _ _ _ R) (ro_reg _ _ _ _ _ _ _ _ _ _ _ R)); eauto. }
        assert (RightDone : forall k, In (k, RNotFalse) l -> right_now (contents (w_fs w)) (nm k)).
        { intros k Hk b Eb. destruct (rules_kind l w k b R (Cone _ _ Hk) Eb) as [f Ek].
          exact (settled_right l w k b (IH1 k f b Hk Ek) Eb b Eb). }
        assert (SameOther : forall q, q <> nm j -> contents (w_fs w') q = contents (w_fs w) q).
        { intros q Hq. eapply task_contents; eauto. }
        assert (SameDone : forall k r0, In (k, r0) l -> (exists f b, kind k = MFile f b) -> w_fs w' (nm k) = w_fs w (nm k)).
        { intros k r0 Hk (f & b & Ek). eapply run_own; [exact R|exact Hj|exact T| |now apply (Diff k r0)].
          right. destruct (kind_rules l w k f b R (Cone _ _ Hk) Ek) as [_ (ds & E)]. now exists f, ds, b. }
        split.
        + intros k f b Hk Ek. apply in_app_iff in Hk. destruct Hk as [Hk|[Hk|[]]].
          * destruct (IH1 k f b Hk Ek) as (m & v & E & Eb & Hr).
            destruct (kind_rules l w k f b R (Cone _ _ Hk) Ek) as [Er _].
            destruct (tr_local _ _ _ _ tr (nm k) b v (contents (w_fs w)) (contents (w_fs w')) Er Eb) as [Eb' Hr'].
            -- intros q Hq bq Ebq. destruct (Hr q Hq) as (x & Hx & <-); [congruence|]. exact (RightDone x Hx bq Ebq).
            -- intros q Hq. destruct (rules q) as [bq|] eqn:Eq.
               ++ destruct (Hr q Hq) as (x & Hx & <-); [congruence|]. apply SameOther. now apply (Diff x RNotFalse).
               ++ eapply task_contents; [exact R|exact Hj|exact T|]. intros f' b' Ej ->.
                  destruct (kind_rules l w j f' b' R Hj Ej). congruence.
            -- exists m, v. split; [rewrite (SameDone k RNotFalse Hk); eauto|]. split; [exact Eb'|].
               intros q Hq Hn. destruct (Hr q (Hr' q Hq) Hn) as (x & Hx & Ex). exists x. split; [apply in_app_iff; now left|exact Ex].
          * injection Hk as -> ->. destruct (kind_rules l w k f b R Hj Ek) as [Er (ds & EP)].
            assert (Nd : kind k <> MDir) by congruence.
            assert (InDone : forall q, p_input P (nm k) q -> exists x, In (x, RNotFalse) l /\ nm x = q).
            { intros q Hq. destruct (p_input_obj canon kind P c i Hw Him _ _ Hq k Hj Nd eq_refl) as (x & Hx & <-).
              exists x. split; [|reflexivity]. exact (done_inputs canon kind true P c i fs now w0 _ _ R' k x Hx l [] RNotFalse eq_refl). }
            assert (InRight : forall q, p_input P (nm k) q -> right_now (contents (w_fs w)) q).
            { intros q Hq. destruct (InDone q Hq) as (x & Hx & <-). now apply RightDone. }
            destruct (rule_call canon kind true P c i fs now w0 l w k RNotFalse w' f b R Hj Ek T)
              as [(Hn & _ & ->)|[(_ & v & m & Eb & Hm & Ew)|(Hx & _)]]; [| |congruence].
            -- destruct (idle_kept canon kind true P c i fs now w0 l w R k Hj Nd Hn) as [N Keep].
               assert (Hfile : is_file P (nm k)) by (right; now exists f, ds, b).
               destruct (Keep (nm k) (rt_refl _ _ _) Hfile) as [Ew Ex].
               destruct (fs (nm k)) as [[m [v|]]|] eqn:Efs; [| |congruence].
               2:{ exfalso. apply (Hnd (nm k) m); [congruence|exact Efs]. }
               assert (Ef : f = false).
               { destruct f; [|reflexivity]. exfalso. apply N. exists (nm k). split; [apply rt_refl|]. right. left. eauto. }
               subst f. assert (Ec : contents fs (nm k) = Some v) by (unfold contents; now rewrite Efs).
               destruct (Hf (nm k) b m v Er Efs) as [J|(s0 & E0 & Rt0 & Same0)].
               { exfalso. exact (tr_junk _ _ _ _ tr _ _ _ ds b J Ec EP). }
               assert (Agree : forall q, reads (nm k) s0 q -> p_input P (nm k) q -> contents fs q = s0 q).
               { intros q Hq Hi. assert (Hqf := p_input_file P _ _ Hi).
                 destruct (Same0 q Hq) as [E|[E|(mq & nq & E & L)]]; [exact E| |]; exfalso; apply N.
                 - exists q. split; [now apply p_input_below|]. left. auto.
                 - exists (nm k). split; [apply rt_refl|]. right. right. split; [now exists false, ds, b|].
                   exists q. split; [exact Hi|]. exists mq, nq, m, (Reg v). auto. }
               pose proof (tr_tracked _ _ _ _ tr (nm k) b v s0 (contents fs) ds Er E0 Rt0 Ec EP Agree) as All.
               destruct (tr_local _ _ _ _ tr (nm k) b v s0 (contents (w_fs w)) Er E0 Rt0) as [Eb Hr].
               { intros q Hq. rewrite <- (Agree q Hq (All q Hq)). unfold contents.
                 destruct (Keep q) as [-> _]; [now apply p_input_below, All|now apply (p_input_file P (nm k)), All|reflexivity]. }
               exists m, v. split; [congruence|]. split; [exact Eb|]. intros q Hq _.
               destruct (InDone q (All q (Hr q Hq))) as (x & Hx & Ex'). exists x. split; [apply in_app_iff; now left|exact Ex'].
            -- set (s := contents (w_fs w)) in *.
               assert (Dec : forall q, reads (nm k) s q -> rules q <> None -> p_input P (nm k) q).
               { intros q Hq Hn. apply (tr_declared _ _ _ _ tr (nm k) s (contents fs) q); [congruence|exact InRight|exact Hq|exact Hn]. }
               destruct (tr_local _ _ _ _ tr (nm k) b v s (contents (w_fs w')) Er Eb) as [Eb' Hr].
               { intros q Hq bq Ebq. apply (InRight q); [apply Dec; [exact Hq|congruence]|exact Ebq]. }
               { intros q Hq. apply SameOther. intros ->.
                 destruct (InDone (nm k)) as (x & Hx & Ex); [apply Dec; [exact Hq|congruence]|].
                 exact (Diff x RNotFalse Hx Ex). }
               exists m, v. split; [rewrite Ew; unfold fs_set; now rewrite String.eqb_refl|]. split; [exact Eb'|].
               intros q Hq Hn. destruct (InDone q (Dec q (Hr q Hq) Hn)) as (x & Hx & Ex). exists x. split; [apply in_app_iff; now left|exact Ex].
        + intros k r0 f b Hk Hr0 Ek. apply in_app_iff in Hk. destruct Hk as [Hk|[Hk|[]]].
          * unfold unsettled. rewrite (SameDone k r0 Hk) by eauto.
            destruct (IH2 k r0 f b Hk Hr0 Ek) as [E|[E|(m & v & E & L & I)]]; [now left|right; now left|right; right].
            exists m, v. split; [exact E|]. split; [exact L|]. now apply (task_ran canon kind true P c i fs now w0 l w j r w' R Hj T).
          * injection Hk as -> ->.
            assert (Old : w_fs w (nm k) = fs (nm k)).
            { eapply run_other_file; [exact R| |].
              - right. destruct (kind_rules l w k f b R Hj Ek) as [_ (ds & E)]. now exists f, ds, b.
              - intros x Hx E. apply in_map_iff in Hx. destruct Hx as ((y & ry) & <- & Hy). exact (Diff y ry Hy (eq_sym E)). }
            unfold unsettled. rewrite <- Old.
            destruct (rule_call canon kind true P c i fs now w0 l w k r0 w' f b R Hj Ek T)
              as [(_ & Hx & _)|[(Hx & _)|(_ & Hran & [E|[E|(m & v & L & E)]])]]; [congruence|congruence|..]; rewrite E.
            -- now left.
            -- right. left. unfold fs_set. now rewrite String.eqb_refl.
            -- right. right. exists m, v. unfold fs_set. rewrite String.eqb_refl. auto.
    Qed.

    Lemma run_tracked l w fs' now' : run l w0 w -> leaves_junk junk w -> w_now w <= now' ->
      (forall p, fs' p = w_fs w p \/
         (rules p <> None /\ (forall j r, In (j, r) l -> nm j <> p) /\
          exists m v, fs' p = Some (m, Reg v) /\ now < m <= now' /\ junk p v)) ->
      dated fs' now' /\ tfaithful fs' /\ rules_no_dirs fs'.
    Proof.
      intros R J Hle K. destruct (run_times canon kind true P c i fs now w0 l w R) as (Eb & _ & Dt). specialize (Dt Hd).
      destruct (run_settled l w R) as [S U].
      assert (Touch : forall q, w_fs w q = fs q \/ w_fs w q = None \/ exists m n, w_fs w q = Some (m, n) /\ now < m).
      { clear S U J Eb Dt K Hle. pattern l, w. revert l w R. apply run_ind; cbv beta.
        - intros R q. destruct (ro_start _ _ _ _ _ _ _ _ _ _ _ R) as (-> & _). now left.
        - intros l w j r w' R IH _ T Hj _ _ q.
          destruct (run_touches canon kind true P c i fs now w0 l w j r w' R Hj T) as (_ & _ & F).
          destruct (run_times canon kind true P c i fs now w0 l w R) as (Eb & _ & _).
          destruct (F q) as [->|[(_ & _ & _ & [E|(m & v & E & L)])|(_ & _ & _ & m & E & L)]]; [apply IH|right; now left|..];
            right; right; rewrite E.
          + exists m, (Reg v). split; [reflexivity|lia].
          + exists m, Dir. split; [reflexivity|lia]. }
      assert (NoDirs : rules_no_dirs (w_fs w)).
      { clear S U J Touch Dt Eb K Hle. pattern l, w. revert l w R. apply run_ind; cbv beta.
        - intros R. destruct (ro_start _ _ _ _ _ _ _ _ _ _ _ R) as (-> & _). exact Hnd.
        - intros l w j r w' R IH _ T Hj _ _ p m Hr E.
          destruct (run_touches canon kind true P c i fs now w0 l w j r w' R Hj T) as (_ & _ & F).
          destruct (F p) as [G|[(_ & _ & _ & [G|(m' & v & G & _)])|(Hk & _ & Ep & _)]]; [|congruence|congruence|].
          + rewrite G in E. now apply (IH p m Hr).
          + destruct (ro_imp _ _ _ _ _ _ _ _ _ _ _ R j Hj) as [_ HI]. rewrite Hk in HI. apply (proj1 HI p Ep).
            right. now apply is_rule_rules. }
      split; [|split].
      - intros p m n E. destruct (K p) as [G|(_ & _ & m' & v & G & L & _)]; rewrite G in E.
        + specialize (Dt p m n E). lia.
        + injection E as -> _. lia.
      - intros p b m v Hr E.
        destruct (K p) as [G|(_ & _ & m' & v' & G & _ & Jk)]; [|left; congruence].
        rewrite G in E.
        assert (Hfile : is_file P p) by (right; apply is_rule_rules; congruence).
        assert (Old : w_fs w p = fs p -> junk p v \/ exists s0, b s0 = Some v /\ (forall q, reads p s0 q -> right_now s0 q) /\
          forall q, reads p s0 q -> contents fs' q = s0 q \/ fs' q = None \/ exists mq nq, fs' q = Some (mq, nq) /\ m < mq).
        { intros Eo. rewrite Eo in E. destruct (Hf p b m v Hr E) as [Jk|(s0 & A & B & C)]; [now left|right].
          exists s0. split; [exact A|]. split; [exact B|]. intros q Hq. pose proof (Hd p m (Reg v) E) as L.
          destruct (K q) as [Gq|(_ & _ & mq & vq & Gq & Lq & _)].
          - destruct (Touch q) as [T|[T|(mq & nq & T & Lq)]].
            + unfold contents. rewrite Gq, T. exact (C q Hq).
            + right. left. congruence.
            + right. right. exists mq, nq. split; [congruence|lia].
          - right. right. exists mq, (Reg vq). split; [exact Gq|lia]. }
        destruct (in_dec string_dec p (map (fun x => nm (fst x)) l)) as [Hin|Hout].
        + apply in_map_iff in Hin. destruct Hin as ((j & r) & En & Hj). cbn [fst] in En.
          assert (Hcj : cone j) by (eapply ro_cone; eauto).
          rewrite <- En in Hr. destruct (rules_kind l w j b R Hcj Hr) as [f Ek]. rewrite En in Hr.
          assert (Un : r <> RNotFalse -> junk p v \/ exists s0, b s0 = Some v /\ (forall q, reads p s0 q -> right_now s0 q) /\
            forall q, reads p s0 q -> contents fs' q = s0 q \/ fs' q = None \/ exists mq nq, fs' q = Some (mq, nq) /\ m < mq).
          { intros Hne. destruct (U j r f b Hj Hne Ek) as [E'|[E'|(m' & v' & E' & L & I)]]; rewrite En in *; [now apply Old|congruence|].
            left. rewrite E in E'. injection E' as <- <-. eapply J; eauto. lia. }
          destruct r; [|apply Un; discriminate..].
          destruct (S j f b Hj Ek) as (m' & v' & E' & Eb' & Hrd). rewrite En in *. rewrite E in E'. injection E' as <- <-.
          right. exists (contents (w_fs w)). split; [exact Eb'|]. split.
          * intros q Hq bq Ebq. destruct (Hrd q Hq) as (k & Hk & <-); [congruence|].
            assert (Hck : cone k) by (eapply ro_cone; eauto).
            destruct (rules_kind l w k bq R Hck Ebq) as [fk Ekk].
            exact (settled_right l w k bq (S k fk bq Hk Ekk) Ebq bq Ebq).
          * intros q Hq. left. destruct (K q) as [Gq|(Hrq & Nq & _)]; [unfold contents; now rewrite Gq|].
            exfalso. destruct (Hrd q Hq Hrq) as (k & Hk & Ek'). exact (Nq k RNotFalse Hk Ek').
        + apply Old. eapply run_other_file; [exact R|exact Hfile|]. intros j Hj ->. apply Hout.
          apply in_map_iff in Hj. destruct Hj as (x & <- & Hx). apply in_map_iff. now exists x.
      - intros p m Hr E. destruct (K p) as [G|(_ & _ & m' & v & G & _)]; [|congruence].
        rewrite G in E. exact (NoDirs p m Hr E).
    Qed.
  End Run.

  Lemma track_history_ok fs now : track_history rules junk proj canon fs now -> dated fs now /\ tfaithful fs /\ rules_no_dirs fs.
  Proof.
    induction 1 as [fs now Hd Hn|fs now fs' now' _ (Hd & Hf & Hnd) [Hle Ho]
                   |fs now kind other_if c i ca c1 objs s fs' now' _ (Hd & Hf & Hnd) Him Hb J [Hle K]].
    - split; [exact Hd|]. split.
      + intros p b m v Hr E. rewrite Hn in E by congruence. discriminate.
      + intros p m Hr. rewrite Hn by exact Hr. discriminate.
    - split; [|split].
      + intros p m n E. destruct (Ho p) as [G|[G|(_ & m' & n' & G & L)]]; rewrite G in E.
        * specialize (Hd p m n E). lia.
        * discriminate.
        * injection E as -> _. lia.
      + intros p b m v Hr E. destruct (Ho p) as [G|[G|(Hx & _)]]; [|congruence|congruence].
        rewrite G in E. destruct (Hf p b m v Hr E) as [Jk|(s0 & A & B & C)]; [now left|]. right. exists s0. split; [exact A|]. split; [exact B|].
        intros q Hq. pose proof (Hd p m (Reg v) E) as L.
        destruct (Ho q) as [G'|[G'|(_ & mq & nq & G' & Lq)]].
        * unfold contents. rewrite G'. exact (C q Hq).
        * right. now left.
        * right. right. exists mq, nq. split; [exact G'|lia].
      + intros p m Hr E. destruct (Ho p) as [G|[G|(Hx & _)]]; [|congruence|congruence].
        rewrite G in E. exact (Hnd p m Hr E).
    - destruct (build_run_log canon kind other_if true (proj (contents fs)) c i fs now ca c1 objs s Him Hb) as (_ & w0 & l & R & _ & _ & El).
      destruct (run_times _ _ _ _ _ _ _ _ _ _ _ R) as (Eb & _).
      apply (run_tracked kind c1 i fs now w0 Hd Hf Hnd l (s_world s) fs' now' R J Hle).
      intros p. destruct (K p) as [G|(Hr & [_ Hrun] & m & v & G & L & Jk)]; [now left|right]. split; [exact Hr|]. split.
      + intros j r Hj. rewrite El in Hj. apply in_map_iff in Hj. destruct Hj as ((k & r') & E & Hk). injection E as <- <-.
        apply Hrun. apply ended_In in Hk. destruct Hk as [Hk|[-> Hk]]; [left; apply finished_In; eauto|right; now apply raised_In].
      + exists m, v. rewrite Eb in L. auto.
  Qed.

  (** After success every file of the cone is what its rule makes of the files now. *)
  Lemma track_success fs now kind other_if c i ca c1 objs s : track_history rules junk proj canon fs now ->
    implements canon kind (proj (contents fs)) c i -> kind i <> MDir ->
    build_of canon kind other_if true c i fs now ca c1 objs s -> succeeded objs s ->
    forall p, p_cone (proj (contents fs)) (t_name (obj c i)) p -> right_now (contents (w_fs (s_world s))) p.
  Proof.
    intros Hh Him Hk Hb Hs p Hp b Eb. destruct (track_history_ok fs now Hh) as (Hd & Hf & Hnd).
    destruct (build_run canon kind other_if true (proj (contents fs)) c i fs now ca c1 objs s Him Hb) as (S & w0 & l & R & Hall).
    specialize (Hall Hs). destruct (run_settled kind c1 i fs now w0 Hf Hnd l (s_world s) R) as [Se _].
    pose proof (ro_wf _ _ _ _ _ _ _ _ _ _ _ R) as Hw. pose proof (ro_imp _ _ _ _ _ _ _ _ _ _ _ R) as Him1.
    rewrite (static_name c c1 i S) in Hp.
    destruct (p_cone_obj canon kind _ c1 i Hw Him1 i p (rt_refl _ _ _) Hk Hp) as (j & Hj & _ & <-).
    destruct (rules_kind kind c1 i fs now w0 l (s_world s) j b R Hj Eb) as [f Ek].
    exact (settled_right c1 l (s_world s) j b (Se j f b (Hall j Hj) Ek) Eb b Eb).
  Qed.
End Track.
