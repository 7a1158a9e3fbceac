(** Lemmas: builds of scripts whose rules look at more than they declare (C104). *)
From Coq Require Import Permutation.
From Verif Require Import PyBase PyPath PathProofs SolverModel SpecGraph InvokerModel SpecTrace InvokerProofs InvokerInv InvokerThms InvokerPath
  CoreModel SpecCore CoreProofs NeedProofs RuProofs CoreThms MakeModel MakeEval SpecMake MakeProofs MakeFacts MakeTimes MakeBuild MakeThms MakeClaims BuildSafe
  RegModel CliModel SpecUtil SpecReg SpecProject ProjectProofs ProjectBuild SpecTrack TrackProofs SpecCxxTrack CxxTrack FineModel SpecFine FineProofs FineBuild SpecCrowd CrowdProofs
  SpecElsewhere ElsewhereProofs ElsewhereBuild SpecCxxFine CxxFine SpecAround.
Local Open Scope string_scope.
Local Open Scope list_scope.

Lemma also_amid canon R kind partial sv c objs w0 s : amid_also canon R kind partial sv c objs w0 s -> amid canon kind partial sv c objs w0 s.
Proof.
  induction 1 as [|s s' _ IH St|s fs' now' _ IH K]; [apply am_start|eapply am_moves; eauto|]. apply am_others; [exact IH|apply K].
Qed.
Lemma around_amid cwd home exists_ glob_ R partial l x th fs now kind c1 objs sv s :
  around_building cwd home exists_ glob_ R partial l x th fs now kind c1 objs sv s -> amid_building cwd home exists_ glob_ partial l x th fs now kind c1 objs sv s.
Proof. intros (ca1 & Hp & Ha). exists ca1. split; [exact Hp|eapply also_amid; exact Ha]. Qed.

Section Around.
  Variable canon : string -> string.
  Variable R : string -> Prop.
  Variable kind : nat -> mkind.
  Variable partial : bool.
  Variable P : project.
  Variables (c : core) (i : nat) (objs : list nat) (sv : solver).
  Hypothesis Hw : wf_core c.
  Hypothesis Him : implements canon kind P c i.
  Hypothesis Hobjs : forall j, In j objs <-> in_cone canon c i j.
  Local Notation o t := (nth t objs (List.length (c_heap c))).
  Local Notation nm j := (t_name (obj c j)).
  Local Notation task := (mk_task canon kind partial c objs).
  Variables (so : set_order) (dts : list dtarget) (th : Z).
  Hypothesis Hso : fair_order so.
  Hypothesis Hs : solver_init so dts (Some th) = inr sv.
  Hypothesis Hlen : List.length dts = List.length objs.
  Variable w0 : world.
  Hypothesis Hlook : forall a p, exec_reaches sv task w0 a -> calls c objs a p -> looks_at R P p (contents (w_fs (s_world a))).
  Local Notation amid' s := (amid_also canon R kind partial sv c objs w0 s).

  Lemma own_input (fs fs' : fsys) j q : keeps_off kind c objs fs fs' -> In j objs -> kind j <> MDir -> p_input P (nm j) q -> fs' q = fs q.
  Proof.
    intros K Hj Hd Hq. destruct (p_input_obj canon kind P c i Hw Him _ _ Hq j (proj1 (Hobjs j) Hj) Hd eq_refl) as (k & Hin & <-).
    destruct (input_cone canon kind c i Hw _ k (proj1 (Hobjs j) Hj) Hin) as [Ck Fk].
    apply (proj1 K). exists k. split; [now apply Hobjs|]. split; [|reflexivity]. destruct Fk as [Fk|(f' & b' & Fk)]; rewrite Fk; exact Logic.I.
  Qed.
  Lemma step_around s a s' : amid' s -> exec_reaches sv task w0 a -> as_if_also R kind c objs s a -> step (inv_of (sv_inv sv)) task s s' ->
    exists a', step (inv_of (sv_inv sv)) task a a' /\ as_if_also R kind c objs s' a'.
  Proof.
    intros Hs' Ha ((Ea & A) & AR) St. specialize (Hlook a). set (x := s_world a) in *. clearbody x. subst a.
    destruct St as [v s Hm Hwk Hq|v s Hm Hwk Hq|v t r world' order s Hm Hwk T HP|s Hm Hrel].
    - assert (E : s_world (loop_head v s) = s_world s) by (rewrite <- (set_world_same s) at 1; now rewrite loop_world).
      exists (loop_head v (set_world x s)). split; [now apply step_get|]. rewrite loop_world.
      split; [split; [reflexivity|]|]; cbn [s_world set_world]; rewrite E; [exact A|exact AR].
    - assert (E : s_world (release_queue v s) = s_world s) by (rewrite <- (set_world_same s) at 1; now rewrite release_world).
      exists (release_queue v (set_world x s)). split; [now apply step_drain|]. rewrite release_world.
      split; [split; [reflexivity|]|]; cbn [s_world set_world]; rewrite E; [exact A|exact AR].
    - assert (Ht : In (o t) objs) by (eapply (amid_running canon kind partial c objs sv so dts th Hso Hs Hlen w0 s v t); [eapply also_amid; exact Hs'|exact Hwk]).
      destruct (task_same canon kind partial P c i objs Hw Him Hobjs t (s_world s) r world' x Ht A) with (2 := T) as (x' & T' & A' & C').
      { intros f b Ek En. destruct (Him _ (proj1 (Hobjs _) Ht)) as [_ Hk]. rewrite Ek in Hk. destruct Hk as (ds & HPk & _).
        eapply (Hlook (nm (o t)) Ha); [split; [exact Hm|]; exists v, t; auto|exact HPk|].
        destruct A as (_ & _ & _ & K). intros q [Hq|Hq]; [|now apply AR]. unfold contents.
        rewrite (own_input _ _ (o t) q K Ht); [reflexivity|congruence|exact Hq]. }
      exists (after_task v t r order (set_world x' s)). split.
      + apply (step_finish _ task v t r x' order (set_world x s)); auto.
      + rewrite !after_world. split; [split; [reflexivity|exact A']|]. cbn [s_world set_world]. intros q Hq. apply C'. now apply AR.
    - eexists. split; [now apply step_join|]. split; [split; [reflexivity|exact A]|exact AR].
  Qed.
  Lemma around_alone s : amid' s -> exists a, exec_reaches sv task w0 a /\ as_if_also R kind c objs s a.
  Proof.
    induction 1 as [|s s' Hs' IH St|s fs' now' Hs' IH K].
    - exists (init_state sv w0). split; [apply steps_refl|]. split; [|reflexivity]. split; [reflexivity|]. repeat split.
    - destruct IH as (a & Ha & A). destruct (step_around s a s' Hs' Ha A St) as (a' & St' & A').
      exists a'. split; [eapply steps_snoc; eauto|exact A'].
    - destruct IH as (a & Ha & (Ea & E1 & E2 & E3 & K') & AR). exists a. split; [exact Ha|]. destruct K as [[K1 K2] KR], K' as [K1' K2'].
      split; [|intros q Hq; cbn; rewrite KR, AR; auto]. split; [rewrite Ea at 1; reflexivity|].
      cbn. split; [exact E1|]. split; [exact E2|]. split; [exact E3|].
      split; intros q Hq; [now rewrite K1, K1'|now rewrite K2, K2'].
  Qed.
  (** What a step leaves alone. *)
  Lemma step_spares R' kind' c' objs' s s' : apart kind c objs kind' c' objs' -> spares kind c objs R' -> amid' s -> step (inv_of (sv_inv sv)) task s s' ->
    keeps_also R' kind' c' objs' (w_fs (s_world s)) (w_fs (s_world s')).
  Proof.
    intros Ap Sp Hs' St. split; [eapply (step_apart canon kind partial P c i objs sv Him Hobjs so dts th Hso Hs Hlen w0); eauto; eapply also_amid; exact Hs'|].
    intros q Hq. apply Sp in Hq. unfold contents.
    destruct St as [v s Hm Hwk _|v s Hm Hwk _|v t r world' order s Hm Hwk T HP|s Hm Hrel].
    - replace (s_world (loop_head v s)) with (s_world s); [reflexivity|]. rewrite <- (set_world_same s) at 2. now rewrite loop_world.
    - replace (s_world (release_queue v s)) with (s_world s); [reflexivity|]. rewrite <- (set_world_same s) at 2. now rewrite release_world.
    - rewrite after_world. cbn [s_world set_world].
      destruct (task_keeps canon kind partial P c i objs Him Hobjs t _ _ _ ltac:(eapply (amid_running canon kind partial c objs sv so dts th Hso Hs Hlen w0 s v t); [eapply also_amid; exact Hs'|exact Hwk]) T) as [T1 _].
      now rewrite T1.
    - reflexivity.
  Qed.
End Around.

Section Script.
  Variables (cwd home : string) (fs : fsys) (exists_ : string -> bool) (glob_ : string -> list string) (l : list stmt).
  Hypothesis disk : disk_ok cwd (present fs) exists_.
  Hypothesis ok : in_order cwd home glob_ exists_ l.
  Local Notation P := (project_of cwd home glob_ l).
  Local Notation canon := (realpath cwd).
  Variables (R : string -> Prop) (partial : bool) (x : string) (th : Z) (now : nat) (kind : nat -> mkind) (c1 : core) (objs : list nat) (sv : solver).
  Hypothesis Hx : In x (flat_map (makes cwd home glob_) l).
  Hypothesis Hlook : forall a p, building cwd home exists_ glob_ partial l x th fs now kind c1 objs sv a -> calls c1 objs a p ->
    looks_at R P p (contents (w_fs (s_world a))).
  Lemma script_around s : around_building cwd home exists_ glob_ R partial l x th fs now kind c1 objs sv s ->
    exists a, building cwd home exists_ glob_ partial l x th fs now kind c1 objs sv a /\ as_if_also R kind c1 objs s a.
  Proof.
    intros (ca1 & Hp & Ha). destruct (prepared cwd home fs exists_ glob_ l disk ok x th kind c1 objs sv ca1 Hx Hp) as (i & so & dts & Hw & Him & Hc & Hso & Hs & Hl & _).
    destruct (around_alone canon R kind partial P c1 i objs sv Hw Him Hc so dts th Hso Hs Hl (WD fs ca1 now now [])) with (2 := Ha) (s := s) as (a & Ra & A).
    { intros a p Ra Ca. apply Hlook; [|exact Ca]. eapply prepared_building; eauto. }
    exists a. split; [|exact A]. eapply prepared_building; eauto.
  Qed.
  (** The files of the cone are the same, and so is what the rules make of them. *)
  Lemma script_own s a : around_building cwd home exists_ glob_ R partial l x th fs now kind c1 objs sv s -> as_if_also R kind c1 objs s a ->
    forall q, p_cone P x q -> is_file P q -> contents (w_fs (s_world s)) q = contents (w_fs (s_world a)) q.
  Proof.
    intros (ca1 & Hp & _) ((_ & _ & _ & _ & K & _) & _) q Hq Fq.
    destruct (prepared cwd home fs exists_ glob_ l disk ok x th kind c1 objs sv ca1 Hx Hp) as (i & so & dts & Hw & Him & Hc & _ & _ & _ & Hn & Hk).
    rewrite <- Hn in Hq. destruct (p_cone_obj canon kind P c1 i Hw Him i q (rt_refl _ _ _) Hk Hq) as (j & Hj & Hkj & <-).
    unfold contents. rewrite K; [reflexivity|]. exists j. split; [now apply Hc|]. split; [|reflexivity].
    destruct (p_file_kind canon kind P c1 i Him j Hj Hkj Fq) as [E|(f & b & E)]; rewrite E; exact Logic.I.
  Qed.
End Script.

Section Cxx.
  Variables (cwd home : string) (glob_ : string -> list string) (its : list item).
  Hypothesis ho : honest cwd home glob_ its.
  Hypothesis hc : compiled_listed its.
  Notation path := (realpath cwd).
  Notation script := (script_at cwd its).
  Notation proj := (project_at cwd home glob_ its).
  Notation rules := (rules_in cwd home glob_ its).

  (** Commands that succeed look at the sources and the headers that are included. *)
  Lemma succeeds_looks (R : string -> Prop) s0 p s : (forall q, included cwd its s q -> R q) ->
    (forall f ds b, proj s0 p = Some (DRule f ds b) -> exists v, b s = Some v) -> looks_at R (proj s0) p s.
  Proof.
    intros HR Hok f ds b HP s' Hs. destruct (Hok f ds b HP) as (v & Ev). rewrite Ev.
    assert (Hb : rules p = Some b) by (apply (rules_at cwd home glob_ its ho s0); eauto).
    destruct (rules_cases cwd home glob_ its ho p b Hb) as [(st & ds' & f' & Hi & Er)|[(u & Hu & -> & ->)|(u & Hu & -> & ->)]].
    - rewrite <- Ev. apply (ho_others _ _ _ _ ho st p ds' f' b Hi Er). intros q Hq. apply Hs. left. now apply (p_input_mono cwd home glob_ its ho).
    - apply (ho_list _ _ _ _ ho u s s' v Hu Ev); [apply Hs; left; now apply (dep_src cwd home glob_ its ho)|].
      intros h Hin. apply Hs. right. apply HR. exists u, v, h. auto.
    - destruct (hc u s v Hu Ev) as (v' & Ev'). apply (ho_compile _ _ _ _ ho u s s' v' v Hu Ev' Ev); [apply Hs; left; now apply (obj_src cwd home glob_ its ho)|].
      intros h Hin. apply Hs. right. apply HR. exists u, v', h. auto.
  Qed.

  Variables (fs : fsys) (exists_ : string -> bool).
  Hypothesis Hdisk : disk_ok cwd (present fs) exists_.
  Hypothesis Hord : in_order cwd home glob_ exists_ (script (contents fs)).
  Variables (R : string -> Prop) (partial : bool) (x : string) (th : Z) (now : nat) (kind : nat -> mkind) (c1 : core) (objs : list nat) (sv : solver).
  Hypothesis Hx : In x (flat_map (makes cwd home glob_) (script (contents fs))).
  Notation build := (building cwd home exists_ glob_ partial (script (contents fs)) x th fs now kind c1 objs sv).

  (** A command that is called can fail if there is nothing that it makes of the files. *)
  Lemma called_succeeds : (forall a, build a -> no_rule_failed (proj (contents fs)) (s_world a)) ->
    forall a p, build a -> calls c1 objs a p -> forall f ds b, proj (contents fs) p = Some (DRule f ds b) -> exists v, b (contents (w_fs (s_world a))) = Some v.
  Proof.
    intros Hn a p Ba (Hm & v & t & Hwk & En & Ep) f ds b HP.
    destruct (b (contents (w_fs (s_world a)))) as [y|] eqn:Eb; [now exists y|exfalso].
    pose proof Ba as (fuel & st & i0 & oi & fuel' & ca1 & order & so0 & A1 & A2 & A3 & A4 & A5 & A6 & A7 & Ra).
    assert (Hp : prepares cwd home exists_ glob_ (script (contents fs)) x th fs kind c1 objs sv ca1)
      by (exists fuel, st, i0, oi, fuel', order, so0; auto 10).
    destruct (prepared cwd home fs exists_ glob_ _ Hdisk Hord x th kind c1 objs sv ca1 Hx Hp) as (i & so & dts & Hw & Him & Hc & Hso & Hs & Hl & _).
    assert (Am : amid path kind partial sv c1 objs (WD fs ca1 now now []) a).
    { clear - Ra. remember (init_state sv (WD fs ca1 now now [])) as s0 eqn:E0. unfold exec_reaches in Ra. rewrite <- E0 in Ra.
      induction Ra as [|s1 s2 s3 _ IH St]; [subst; apply am_start|]. eapply am_moves; [now apply IH|exact St]. }
    set (j := nth t objs (List.length (c_heap c1))) in *.
    assert (Ht : In j objs) by exact (amid_running path kind partial c1 objs sv so dts th Hso Hs Hl _ a v t Am Hwk).
    destruct (Him j (proj1 (Hc j) Ht)) as [Hcl Hk]. rewrite <- Ep in Hk.
    destruct (kind j) as [f' b'| | | |] eqn:Ek.
    - destruct Hk as (ds' & HP' & _). assert (b' = b) as -> by (unfold project_at in HP; congruence).
      assert (T : mk_task path kind partial c1 objs t (s_world a) RExn
        (WD (w_fs (s_world a)) (w_cache (s_world a)) (w_base (s_world a)) (w_now (s_world a)) (w_ran (s_world a) ++ [(p, false)]))).
      { unfold mk_task. fold j. rewrite Ek. unfold task_behaviour. fold j. rewrite Hcl, En, Ep.
        apply (up_rule_fails path kind partial c1 j (s_world a) f' b (w_fs (s_world a)) (w_now (s_world a)) RExn (w_cache (s_world a)) Ek Eb); auto. }
      assert (Bb : build (after_task v t RExn (inv_of (sv_inv sv) t)
        (set_world (WD (w_fs (s_world a)) (w_cache (s_world a)) (w_base (s_world a)) (w_now (s_world a)) (w_ran (s_world a) ++ [(p, false)])) a))).
      { exists fuel, st, i0, oi, fuel', ca1, order, so0. repeat (split; [assumption|]). eapply steps_snoc; [exact Ra|].
        eapply step_finish; eauto. }
      apply Hn in Bb. apply (Bb p); [now exists f, ds, b|]. rewrite after_world. cbn. apply in_or_app. right. now left.
    - destruct Hk as [Hk _]. unfold project_at in HP. congruence.
    - destruct Hk as [Hk _]. apply (Hk p); [now left|]. right. now exists f, ds, b.
    - destruct Hk as (ds' & Hk & _). unfold project_at in HP. congruence.
    - contradiction.
  Qed.
  Lemma headers_look : (forall a, build a -> no_rule_failed (proj (contents fs)) (s_world a)) ->
    (forall a q, build a -> included cwd its (contents (w_fs (s_world a))) q -> R q) ->
    forall a p, build a -> calls c1 objs a p -> looks_at R (proj (contents fs)) p (contents (w_fs (s_world a))).
  Proof. intros Hn Hi a p Ba Ca. apply succeeds_looks; [intros q; now apply Hi|]. now apply (called_succeeds Hn a p). Qed.

  Section Success.
    Variable s : state world.
    Hypothesis Hh : cxx_history cwd home glob_ (empty_list cwd its) its fs now.
    Hypothesis Hp : partial = true.
    Hypothesis Hlook : forall a p, build a -> calls c1 objs a p -> looks_at R (proj (contents fs)) p (contents (w_fs (s_world a))).
    Hypothesis Hinc : forall a q, build a -> included cwd its (contents (w_fs (s_world a))) q -> R q.
    Hypothesis Hs : around_building cwd home exists_ glob_ R partial (script (contents fs)) x th fs now kind c1 objs sv s.
    Hypothesis Hsu : succeeded objs s.

    Theorem around_cxx_right p b : p_cone (proj (contents fs)) x p -> rules p = Some b ->
      exists v, b (contents (w_fs (s_world s))) = Some v /\ contents (w_fs (s_world s)) p = Some v.
    Proof.
      subst partial. intros Hc Hr. destruct (script_around cwd home fs exists_ glob_ _ Hdisk Hord R true x th now kind c1 objs sv Hx Hlook s Hs) as (a & Ba & A).
      assert (Sa : succeeded objs a) by (apply (as_if_result kind c1 objs s a (proj1 A)); exact Hsu).
      destruct (cxx_success cwd home glob_ its ho fs now exists_ x th kind c1 objs sv a Hh Hdisk Hord Hx Ba Sa p Hc b Hr) as (v & E1 & E2).
      pose proof (script_own cwd home fs exists_ glob_ _ Hdisk Hord R true x th now kind c1 objs sv Hx s a Hs A) as Own.
      destruct (proj1 (rules_at cwd home glob_ its ho (contents fs) p b) Hr) as (f & ds & HP).
      exists v. split; [|rewrite (Own p Hc); [exact E2|right; now exists f, ds, b]].
      assert (L : looks_at R (proj (contents fs)) p (contents (w_fs (s_world a)))).
      { apply succeeds_looks; [intros q; now apply Hinc|]. intros f' ds' b' HP'. exists v. unfold project_at in *. congruence. }
      rewrite <- E1. apply (L f ds b HP). intros q [Hq|Hq]; [|now apply (proj2 A)].
      apply Own; [eapply rt_trans; [exact Hc|now apply p_input_below]|now apply (p_input_file (proj (contents fs)) p)].
    Qed.
    Theorem around_cxx_unit u : In (IUnit u) its -> p_cone (proj (contents fs)) x (path (u_obj u)) ->
      let s' := contents (w_fs (s_world s)) in
      exists l o, s' (path (u_dep u)) = Some l /\ u_list u s' = Some l /\ s' (path (u_obj u)) = Some o /\ u_comp u s' = Some o.
    Proof.
      intros Hu Hpo s'. destruct (around_cxx_right _ _ Hpo (obj_rule cwd home glob_ its ho u Hu)) as (o & Eo & So).
      assert (Hpd : p_cone (proj (contents fs)) x (path (u_dep u))).
      { eapply rt_trans; [exact Hpo|]. apply p_input_below. now apply (CxxTrack.obj_dep cwd home glob_ its ho). }
      destruct (around_cxx_right _ _ Hpd (dep_rule cwd home glob_ its ho u Hu)) as (l & El & Sl).
      exists l, o. auto.
    Qed.
  End Success.
End Cxx.

(** Two processes that are apart. *)
Section Two.
  Variables (cwd home : string) (fs : fsys) (now : nat).
  Variables (there1 there2 : string -> bool) (glob1 glob2 : string -> list string) (l1 l2 : list stmt).
  Hypothesis disk1 : disk_ok cwd (present fs) there1.
  Hypothesis disk2 : disk_ok cwd (present fs) there2.
  Hypothesis ok1 : in_order cwd home glob1 there1 l1.
  Hypothesis ok2 : in_order cwd home glob2 there2 l2.
  Local Notation canon := (realpath cwd).
  Lemma beside_around (R1 R2 : string -> Prop) partial x1 th1 x2 th2 p1 p2 s1 s2 :
    In x1 (flat_map (makes cwd home glob1) l1) -> In x2 (flat_map (makes cwd home glob2) l2) ->
    begins_alone cwd home there1 glob1 l1 x1 th1 fs now p1 -> begins_alone cwd home there2 glob2 l2 x2 th2 fs now p2 ->
    apart (pr_kind p1) (pr_core p1) (pr_objs p1) (pr_kind p2) (pr_core p2) (pr_objs p2) -> spares (pr_kind p1) (pr_core p1) (pr_objs p1) R2 ->
    apart (pr_kind p2) (pr_core p2) (pr_objs p2) (pr_kind p1) (pr_core p1) (pr_objs p1) -> spares (pr_kind p2) (pr_core p2) (pr_objs p2) R1 ->
    beside canon partial p1 p2 s1 s2 ->
    around_building cwd home there1 glob1 R1 partial l1 x1 th1 fs now (pr_kind p1) (pr_core p1) (pr_objs p1) (pr_solver p1) s1 /\
    around_building cwd home there2 glob2 R2 partial l2 x2 th2 fs now (pr_kind p2) (pr_core p2) (pr_objs p2) (pr_solver p2) s2.
  Proof.
    intros Hx1 Hx2 (ca1 & Hp1 & E1) (ca2 & Hp2 & E2) A12 S12 A21 S21 H.
    destruct (prepared cwd home fs there1 glob1 l1 disk1 ok1 x1 th1 _ _ _ _ ca1 Hx1 Hp1) as (i1 & so1 & dts1 & Hw1 & Him1 & Hc1 & Hso1 & Hs1 & Hl1 & _).
    destruct (prepared cwd home fs there2 glob2 l2 disk2 ok2 x2 th2 _ _ _ _ ca2 Hx2 Hp2) as (i2 & so2 & dts2 & Hw2 & Him2 & Hc2 & Hso2 & Hs2 & Hl2 & _).
    assert (G : w_fs (s_world s1) = w_fs (s_world s2) /\
      amid_also canon R1 (pr_kind p1) partial (pr_solver p1) (pr_core p1) (pr_objs p1) (WD fs ca1 now now []) s1 /\
      amid_also canon R2 (pr_kind p2) partial (pr_solver p2) (pr_core p2) (pr_objs p2) (WD fs ca2 now now []) s2).
    { induction H as [|s1 s2 s1' _ (E & IH1 & IH2) St|s1 s2 s2' _ (E & IH1 & IH2) St].
      - rewrite E1, E2. split; [reflexivity|]. split; constructor.
      - split; [reflexivity|]. split; [eapply aa_moves; eauto|]. apply aa_others; [exact IH2|]. rewrite <- E.
        eapply (step_spares canon R1 (pr_kind p1) partial (project_of cwd home glob1 l1) (pr_core p1) i1 (pr_objs p1) (pr_solver p1) Him1 Hc1 so1 dts1 th1); eauto.
      - split; [reflexivity|]. split; [|eapply aa_moves; eauto]. apply aa_others; [exact IH1|]. rewrite E.
        eapply (step_spares canon R2 (pr_kind p2) partial (project_of cwd home glob2 l2) (pr_core p2) i2 (pr_objs p2) (pr_solver p2) Him2 Hc2 so2 dts2 th2); eauto. }
    destruct G as (_ & G1 & G2). split; [exists ca1|exists ca2]; auto.
  Qed.
End Two.

(** C101 is the case where rules look at their declared inputs only. *)
Lemma reads_looks (R : string -> Prop) P : reads_only P -> forall p s, looks_at R P p s.
Proof. intros H p s f ds b HP s' Hs. apply (H p f ds b HP). intros q Hq. apply Hs. now left. Qed.

(** Rules that can make something of any files do not fail. *)
Lemma total_never_fails cwd home exists_ glob_ partial l x th fs now kind c1 objs sv a :
  disk_ok cwd (present fs) exists_ -> in_order cwd home glob_ exists_ l -> In x (flat_map (makes cwd home glob_) l) ->
  (forall p f ds b s, project_of cwd home glob_ l p = Some (DRule f ds b) -> b s <> None) ->
  building cwd home exists_ glob_ partial l x th fs now kind c1 objs sv a -> no_rule_failed (project_of cwd home glob_ l) (s_world a).
Proof.
  intros Hd Ho Hx Ht (fuel & st & i0 & oi & fuel' & ca1 & order & so0 & A1 & A2 & A3 & A4 & A5 & A6 & A7 & Ra).
  assert (Hp : prepares cwd home exists_ glob_ l x th fs kind c1 objs sv ca1) by (exists fuel, st, i0, oi, fuel', order, so0; auto 10).
  destruct (prepared cwd home fs exists_ glob_ _ Hd Ho x th kind c1 objs sv ca1 Hx Hp) as (i & so & dts & Hw & Him & Hc & Hso & Hs & Hl & _).
  clear - Ra Him Hc Hso Hs Hl Ht.
  remember (init_state sv (WD fs ca1 now now [])) as s0 eqn:E0. unfold exec_reaches in Ra. rewrite <- E0 in Ra.
  assert (G : amid (realpath cwd) kind partial sv c1 objs (WD fs ca1 now now []) a /\ no_rule_failed (project_of cwd home glob_ l) (s_world a)); [|apply G].
  induction Ra as [|s1 s2 s3 _ IH St]; [subst; split; [apply am_start|intros p _ []]|]. destruct (IH E0) as [Am Nf]. split; [eapply am_moves; eauto|].
  destruct St as [v s Hm Hwk Hq|v s Hm Hwk Hq|v t r world' order s Hm Hwk T HP|s Hm Hrel].
  - replace (s_world (loop_head v s)) with (s_world s); [exact Nf|]. rewrite <- (set_world_same s) at 2. now rewrite loop_world.
  - replace (s_world (release_queue v s)) with (s_world s); [exact Nf|]. rewrite <- (set_world_same s) at 2. now rewrite release_world.
  - rewrite after_world. cbn [s_world set_world].
    pose proof (amid_running (realpath cwd) kind partial c1 objs sv so dts th Hso Hs Hl _ s v t Am Hwk) as Hin.
    set (j := nth t objs (List.length (c_heap c1))) in *. destruct (Him j (proj1 (Hc j) Hin)) as [Hcl Hk].
    assert (Old : forall w, w_ran w = w_ran (s_world s) -> no_rule_failed (project_of cwd home glob_ l) w) by (intros w E p Hp; rewrite E; now apply Nf).
    assert (New : forall w p, w_ran w = w_ran (s_world s) ++ [(p, true)] -> no_rule_failed (project_of cwd home glob_ l) w).
    { intros w p E q Hq H. rewrite E in H. apply in_app_or in H. destruct H as [H|[H|[]]]; [now apply (Nf q)|discriminate H]. }
    unfold mk_task in T. fold j in T. destruct (kind j) as [f b| | | |] eqn:Ek;
      try (unfold task_behaviour in T; fold j in T; rewrite Hcl in T;
        destruct (t_need (obj c1 j)) as [[|]|]; try (destruct T as [_ ->]; now apply Old);
        destruct T as [f' b' v' m Hkj Hb Hlt Hin' p fs'|f' b' fs' now' r ca' Hkj Hb p Hf' Hr|Hkj p|Hkj|r w' Hkj]; try congruence; try (now apply Old)).
    + now apply (New _ (t_name (obj c1 j))).
    + destruct Hk as (ds & HP' & _). exfalso. rewrite Ek in Hkj. injection Hkj as <- <-. exact (Ht _ _ _ _ _ HP' Hb).
    + now apply (New _ (t_name (obj c1 j))).
    + destruct T as [y ca' Hg Hx|y ca' m p Hg Hx Hn Hr Hlt fs'|y ca' p Hg Hx Hn]; [now apply Old|now apply (New _ (t_name (obj c1 j)))|].
      intros q Hq H. cbn in H. apply in_app_or in H. destruct H as [H|[H|[]]]; [now apply (Nf q)|]. injection H as <-.
      destruct Hk as [Hk _]. apply (Hk (t_name (obj c1 j))); [now left|now right].
  - exact Nf.
Qed.
