(** Lemmas: builds that are not alone (C100). *)
From Coq Require Import Permutation.
From Verif Require Import PyBase PyPath SolverModel SpecGraph InvokerModel SpecTrace InvokerProofs InvokerInv InvokerThms InvokerPath
  CoreModel SpecCore CoreProofs NeedProofs RuProofs CoreThms MakeModel MakeEval SpecMake MakeProofs MakeFacts MakeTimes MakeBuild MakeThms MakeClaims
  RegModel CliModel SpecUtil SpecReg SpecProject FineModel SpecFine FineProofs SpecCrowd.
Local Open Scope string_scope.
Local Open Scope list_scope.

Definition any_task (k : nat) (w : world) (r : tres) (w' : world) : Prop := True.

(** The scheduler of a process goes on as if it were alone. *)
Definition scheduled (sv : solver) (s : state world) : Prop :=
  exists w0 w, exec_reaches sv any_task w0 (set_world w s).
Lemma scheduled_init sv w : scheduled sv (init_state sv w).
Proof. exists w, w. replace (set_world w (init_state sv w)) with (init_state sv w) by reflexivity. apply steps_refl. Qed.
Lemma set_set_world (x y : world) s : set_world x (set_world y s) = set_world x s.
Proof. reflexivity. Qed.
Lemma any_step inv (run : nat -> world -> tres -> world -> Prop) w x s s' : step inv run (set_world w s) s' ->
  exists w', step inv any_task (set_world x s) (set_world w' s').
Proof.
  intros St. remember (set_world w s) as a eqn:Ea.
  destruct St as [v a Hm Hw Hq|v a Hm Hw Hq|v t r world' order a Hm Hw Hr HP|a Hm Hrel]; subst a.
  - exists x. rewrite <- loop_world, set_set_world. now apply step_get.
  - exists x. rewrite <- release_world, set_set_world. now apply step_drain.
  - exists world'. rewrite <- after_world, !set_set_world.
    apply (step_finish inv any_task v t r world' order (set_world x s)); auto. exact Logic.I.
  - exists x. now apply (step_join inv any_task (set_world x s)).
Qed.
Lemma scheduled_step sv run w s s' : scheduled sv s -> step (inv_of (sv_inv sv)) run (set_world w s) s' -> scheduled sv s'.
Proof.
  intros (w0 & x & R) St. destruct (any_step _ run w x s s' St) as (w' & St').
  exists w0, w'. unfold exec_reaches in *. eapply steps_snoc; eauto.
Qed.

(** ** What is known about a process. *)
Record proc_ok canon (P : project) (p : proc) (i : nat) : Prop := POK {
  po_wf : wf_core (pr_core p);
  po_co : coherent canon (pr_core p);
  po_reg : exists x, In (x, i) (c_targets (pr_core p));
  po_imp : implements canon (pr_kind p) P (pr_core p) i;
  po_cone : forall j, In j (pr_objs p) -> in_cone canon (pr_core p) i j;
  po_acyclic : acyclic_cone canon (pr_core p) i;
  po_solver : exists so dts th, fair_order so /\ solver_init so dts (Some th) = inr (pr_solver p) /\
                List.length dts = List.length (pr_objs p);
  po_sched : scheduled (pr_solver p) (pr_state p) }.

Lemma begins_ok canon P fs now p : begins canon P fs now p -> exists i, proc_ok canon P p i.
Proof.
  intros (c & i & other_if & fs' & fuel & ca & ca1 & order & so & threads & th & Him & Hpc & Hco & (x & Hx) & He & Hord & Hso & Hth & Hru & Es).
  pose proof (process_ready canon _ c Hpc) as Hr.
  destruct (mevaluate_right canon _ other_if fs' fuel c ca _ ca1 Hr He) as (Hr1 & S & _).
  assert (Hco1 : coherent canon (pr_core p)) by (eapply coherent_static; eauto).
  assert (Hx1 : In (x, i) (c_targets (pr_core p))) by (destruct S as (<- & _); exact Hx).
  assert (Hi1 : resolves canon (pr_core p) (t_name (obj (pr_core p) i)) i) by (now apply (Hco1 x)).
  destruct (ru_exec_facts canon _ (proj1 Hr1) Hco1 ltac:(apply Hr1) i Hi1 order Hord so Hso threads th Hth _ _ Hru)
    as (dts & Hnd & Hc & _ & Hs & Hl & _).
  exists i. constructor.
  - apply Hr1.
  - exact Hco1.
  - eauto.
  - eapply static_implements; eauto.
  - intros j. apply Hc.
  - eapply (ru_runs canon (pr_core p)); eauto; apply Hr1.
  - exists so, dts, th. auto.
  - rewrite Es. apply scheduled_init.
Qed.
Lemma acts_ok canon P fs now p p' i : proc_ok canon P p i -> acts canon fs now p p' -> proc_ok canon P p' i.
Proof.
  intros [H1 H2 H3 H4 H5 H6 H7 H8] A. destruct A as [k c objs sv s s' St]. cbn in *. constructor; cbn; auto.
  eapply scheduled_step; eauto.
Qed.

(** The running calls are calls of targets of the cone. *)
Lemma scheduled_bound so dts th sv s v t : fair_order so -> solver_init so dts (Some th) = inr sv -> scheduled sv s ->
  nth_error (s_workers s) v = Some (WRun t) -> t < List.length dts.
Proof.
  intros Hso Hs (w0 & w & R) Hv.
  pose proof (reach_Inv any_task so dts th sv Hso Hs _ (ex_intro (fun w' => exec_reaches sv any_task w' (set_world w s)) w0 R)) as HI.
  assert (Ht : In t (running (s_workers (set_world w s)))) by (apply running_In; eauto).
  apply (started_bound any_task so dts th sv Hso Hs _ t (ex_intro (fun w' => exec_reaches sv any_task w' (set_world w s)) w0 R)).
  apply started_In. apply (Permutation_in t (Permutation_sym (c_perm _ _ _ _ _ _ _ _ (v_core _ _ _ HI)))). apply in_app_iff. now left.
Qed.

Lemma input_trans canon kind c : wf_core c -> forall x y, input canon kind c x y -> clos_trans nat (obj_dep canon c) x y.
Proof.
  intros Hw x y H. induction H as [x d y Hx Hg Hy|x d s y Hx Hg Hy Hs IH].
  - apply t_step. exists d. split; [exact Hx|]. apply get_resolves; [exact Hw|exact Hg].
  - eapply t_trans; [apply t_step|exact IH]. exists d. split; [exact Hx|]. apply get_resolves; [exact Hw|exact Hg].
Qed.

(** ** What one call does to the files. *)
Inductive changed (P : project) (fs : fsys) (now : nat) (fs' : fsys) (now' : nat) : Prop :=
| ch_same : (forall q, fs' q = fs q) -> now <= now' -> changed P fs now fs' now'
| ch_rule p f ds b m v : P p = Some (DRule f ds b) -> ~ p_input P p p -> b (contents fs) = Some v -> now < m ->
    fs' = fs_set fs p (Some (m, Reg v)) -> now' = m -> changed P fs now fs' now'
| ch_gone p : fs' = fs_set fs p None -> now' = now -> changed P fs now fs' now'
| ch_dir m : now <= now' -> (forall q, fs' q = fs q \/ ~ is_file P q /\ fs' q = Some (m, Dir)) -> m <= now' -> changed P fs now fs' now'.

Lemma task_changes canon kind P c i objs t w r w' : wf_core c -> coherent canon c -> (exists x, In (x, i) (c_targets c)) -> implements canon kind P c i -> acyclic_cone canon c i ->
  in_cone canon c i (nth t objs (List.length (c_heap c))) ->
  ticking (mk_task canon kind false c objs) t w r w' -> changed P (w_fs w) (w_now w) (w_fs w') (w_now w').
Proof.
  intros Hw Hco (x0 & Hx0) Him Hac Hc [T Tick]. set (j := nth t objs (List.length (c_heap c))) in *. unfold mk_task in T. fold j in T.
  destruct (Him j Hc) as [Hcl Hk].
  assert (G : forall fb, kind j = fb -> fb <> MDir -> fb <> MOther -> task_behaviour c (mk_update canon kind false c) objs t w r w' ->
    changed P (w_fs w) (w_now w) (w_fs w') (w_now w')).
  { intros fb Ek Nd No B. unfold task_behaviour in B. fold j in B. rewrite Hcl in B.
    destruct (t_need (obj c j)) as [[|]|]; [|destruct B as [_ ->]; apply ch_same; [reflexivity|auto]|destruct B as [_ ->]; apply ch_same; [reflexivity|auto]].
    destruct B as [force b v m Hkj Hb Hlt Hin p fs'|force b fs' now' r ca' Hkj Hb p Hf' Hr|Hkj p|Hkj|r w' Hkj]; cbn in *.
    - rewrite Hkj in Hk. destruct Hk as (ds & HP & _).
      assert (Hn : ~ p_input P p p).
      { intros Hp. destruct (p_input_obj canon kind P c i Hw Him _ _ Hp j Hc ltac:(congruence) eq_refl) as (k & Hi & Ek').
        destruct (input_cone canon kind c i Hw j k Hc Hi) as [Ck _].
        assert (k = j) by (apply (cone_inj canon c i Hw Hco (ex_intro _ x0 Hx0)); auto). subst k.
        exact (Hac j Hc (input_trans canon kind c Hw _ _ Hi)). }
      assert (Hm : w_now w < m \/ fs' p = w_fs w p).
      { destruct (Tick p m (Reg v)) as [E|E]; auto. unfold fs', fs_set. now rewrite String.eqb_refl. }
      destruct Hm as [Hm|E].
      + eapply (ch_rule P _ _ _ _ p force ds b m v); eauto; lia.
      + apply ch_same; [|lia]. intros q. unfold fs' in *. unfold fs_set in *. destruct (String.eqb_spec q p) as [->|n]; [|reflexivity].
        now rewrite String.eqb_refl in E.
    - destruct Hf' as [[-> ->]|[[-> ->]|[? _]]]; [apply ch_same; [reflexivity|auto]|now apply (ch_gone _ _ _ _ _ p)|discriminate].
    - apply ch_same; [reflexivity|auto].
    - apply ch_same; [reflexivity|auto].
    - congruence. }
  destruct (kind j) eqn:Ek; try (eapply G; eauto; congruence).
  destruct T as [x ca' Hg Hx|x ca' m p Hg Hx Hn Hr Hlt fs'|x ca' p Hg Hx Hn]; cbn.
  - apply ch_same; [reflexivity|auto].
  - apply (ch_dir _ _ _ _ _ m); [lia| |lia]. intros q. unfold fs', makedirs.
    destruct (String.eqb_spec q p) as [->|n].
    + right. split; [|reflexivity]. apply (proj1 Hk). now left.
    + destruct (w_fs w q) eqn:E; [now left|]. destruct (smem String.eqb q (ancestors p)) eqn:E2; [|now left].
      right. split; [|reflexivity]. apply (proj1 Hk). right. now apply (smem_In String.eqb string_eqb_spec') in E2.
  - apply ch_same; [reflexivity|auto].
Qed.

Section Crowd.
  Variable canon : string -> string.
  Variable P : project.
  Hypothesis Hro : reads_only P.
  Definition sound (fs : fsys) (now : nat) : Prop := dated fs now /\ faithful P fs /\ no_dirs P fs.

  Lemma changed_ok fs now fs' now' : sound fs now -> changed P fs now fs' now' -> sound fs' now'.
  Proof.
    intros (Hd & Hf & Hn) C. split; [|split].
    - intros q m n E. destruct C as [Es Hle|p f ds b m' v HP Hs Hb Hm Ef En|p Ef En|m' Hle Es Hm]; subst.
      + rewrite Es in E. specialize (Hd _ _ _ E). lia.
      + unfold fs_set in E. destruct (String.eqb_spec q p) as [->|]; [injection E as <- <-; lia|]. specialize (Hd _ _ _ E). lia.
      + unfold fs_set in E. destruct (String.eqb_spec q p) as [->|]; [discriminate|]. exact (Hd _ _ _ E).
      + destruct (Es q) as [E'|[_ E']]; rewrite E' in E; [specialize (Hd _ _ _ E); lia|injection E as <- <-; lia].
    - (* a target that is not older than its inputs, before and after *)
      assert (Kept : forall q f ds b m v, P q = Some (DRule f ds b) -> fs' q = fs q -> fs' q = Some (m, Reg v) ->
        (forall x, p_input P q x -> fs' x = fs x) -> (forall x, p_input P q x -> exists mx nx, fs' x = Some (mx, nx) /\ mx <= m) ->
        b (contents fs') = Some v).
      { intros q f ds b m v HP Eq E Ei Hin. rewrite (Hro q f ds b HP (contents fs') (contents fs)).
        - apply (Hf q f ds b m v HP); [congruence|]. intros x Hx. rewrite <- (Ei x Hx). auto.
        - intros x Hx. unfold contents. now rewrite (Ei x Hx). }
      intros q f ds b m v HP E Hin. destruct C as [Es Hle|p f' ds' b' m' v' HP' Hs Hb Hm Ef En|p Ef En|m' Hle Es Hm].
      + eapply Kept; eauto.
      + destruct (String.eqb_spec q p) as [->|n].
        * assert (b' = b /\ v' = v /\ m' = m) as (-> & -> & ->).
          { rewrite Ef in E. unfold fs_set in E. rewrite String.eqb_refl in E. split; [congruence|]. split; congruence. }
          rewrite (Hro p f ds b HP (contents fs') (contents fs)); [exact Hb|].
          intros x Hx. unfold contents. rewrite Ef. unfold fs_set. destruct (String.eqb_spec x p) as [->|]; [contradiction|reflexivity].
        * assert (Eq : fs' q = fs q) by (rewrite Ef; unfold fs_set; apply String.eqb_neq in n; now rewrite n).
          assert (Hmq : m <= now) by (apply (Hd q m (Reg v)); congruence).
          eapply Kept; eauto. intros x Hx. rewrite Ef. unfold fs_set. destruct (String.eqb_spec x p) as [->|]; [|reflexivity].
          exfalso. destruct (Hin p Hx) as (mx & nx & Ex & Hmx). rewrite Ef in Ex. unfold fs_set in Ex. rewrite String.eqb_refl in Ex.
          injection Ex as <- _. lia.
      + assert (Same : forall x m n, fs' x = Some (m, n) -> fs' x = fs x).
        { intros x mx nx Ex. rewrite Ef in *. unfold fs_set in *. destruct (String.eqb_spec x p); [discriminate|reflexivity]. }
        eapply Kept; eauto. intros x Hx. destruct (Hin x Hx) as (mx & nx & Ex & _). eauto.
      + assert (Same : forall x, is_file P x -> fs' x = fs x) by (intros x Hx; destruct (Es x) as [E'|[E' _]]; [exact E'|contradiction]).
        eapply Kept; eauto.
        * apply Same. right. exists f, ds, b. exact HP.
        * intros x Hx. apply Same. eapply p_input_file; eauto.
    - intros q m Hq E. destruct C as [Es Hle|p f ds b m' v HP Hs Hb Hm Ef En|p Ef En|m' Hle Es Hm].
      + rewrite Es in E. exact (Hn q m Hq E).
      + rewrite Ef in E. unfold fs_set in E. destruct (String.eqb_spec q p); [discriminate|]. exact (Hn q m Hq E).
      + rewrite Ef in E. unfold fs_set in E. destruct (String.eqb_spec q p); [discriminate|]. exact (Hn q m Hq E).
      + destruct (Es q) as [E'|[E' _]]; [rewrite E' in E; exact (Hn q m Hq E)|contradiction].
  Qed.

  Lemma acts_changes fs now p p' i : proc_ok canon P p i -> acts canon fs now p p' ->
    changed P fs now (w_fs (s_world (pr_state p'))) (w_now (s_world (pr_state p'))).
  Proof.
    intros [Hw Hco Hreg Him Hc Hac (so & dts & th & Hso & Hs & Hl) Hsch] A. destruct A as [k c objs sv s s' St]. cbn in *.
    assert (Fr : forall s1 s2 : state world, frame s1 s2 -> w_fs (s_world s2) = w_fs (s_world s1) /\ w_now (s_world s2) = w_now (s_world s1)).
    { intros s1 s2 (_ & -> & _). auto. }
    remember (at_now fs now s) as a eqn:Ea.
    destruct St as [v a Hm Hv Hq|v a Hm Hv Hq|v t r world' order a Hm Hv Hr HP|a Hm Hrel]; subst a.
    - destruct (Fr _ _ (frame_loop v (at_now fs now s))) as [E1 E2]. rewrite E1, E2. apply ch_same; [reflexivity|auto].
    - destruct (Fr _ _ (frame_release v (at_now fs now s))) as [E1 E2]. rewrite E1, E2. apply ch_same; [reflexivity|auto].
    - assert (Ht : t < List.length objs) by (rewrite <- Hl; eapply scheduled_bound; eauto).
      rewrite after_world. cbn [s_world set_world].
      change (changed P (w_fs (s_world (at_now fs now s))) (w_now (s_world (at_now fs now s))) (w_fs world') (w_now world')).
      apply (task_changes canon k P c i objs t _ r world' Hw Hco Hreg Him Hac); [|exact Hr]. apply Hc. now apply nth_In.
    - apply ch_same; [reflexivity|auto].
  Qed.

  Lemma crowd_ok fs now ps : project_crowd canon P fs now ps -> sound fs now /\ forall p, In p ps -> exists i, proc_ok canon P p i.
  Proof.
    induction 1 as [fs now Hd Hr Hn|fs now ps fs' now' _ [IH IP] Ho|fs now ps p _ [IH IP] Hb|fs now a p p' b _ [IH IP] Ha|fs now a p b _ [IH IP]
                   |fs now ps s _ [IH IP] (kind & other_if & c & i & ca & c1 & objs & Him & Hb)].
    - split; [|intros p []]. split; [exact Hd|]. split; [|exact Hn]. intros p f ds b m v HP E. rewrite Hr in E; [discriminate|].
      exists f, ds, b. exact HP.
    - split; [|exact IP]. destruct IH as (Hd & Hf & Hn). eapply outside_ok; eauto.
    - split; [exact IH|]. intros q [<-|Hq]; [|auto]. eapply begins_ok; eauto.
    - destruct (IP p) as [i Hp]; [apply in_app_iff; right; now left|]. split.
      + eapply changed_ok; [exact IH|]. eapply acts_changes; eauto.
      + intros q Hq. apply in_app_iff in Hq. destruct Hq as [Hq|[<-|Hq]].
        * apply IP. apply in_app_iff. now left.
        * exists i. eapply acts_ok; eauto.
        * apply IP. apply in_app_iff. right. now right.
    - split; [exact IH|]. intros q Hq. apply IP. apply in_app_iff in Hq. apply in_app_iff. destruct Hq; [now left|right; now right].
    - split; [|exact IP]. destruct IH as (Hd & Hf & Hn).
      destruct (build_run canon kind other_if false P c i fs now ca c1 objs s Him Hb) as (_ & w0 & l & R & _).
      split; [now apply (run_times canon kind false P c1 i fs now w0 l (s_world s) R)|]. split.
      + eapply run_faithful; eauto.
      + eapply run_no_dirs; eauto.
  Qed.

  Lemma crowd_right kind other_if c i fs now ps ca c1 objs s : project_crowd canon P fs now ps ->
    implements canon kind P c i -> build_of canon kind other_if false c i fs now ca c1 objs s -> succeeded objs s -> kind i <> MDir ->
    forall p, is_file P p -> p_cone P (t_name (obj c i)) p ->
      right_content P (contents (w_fs (s_world s))) p (contents (w_fs (s_world s)) p).
  Proof.
    intros Hcr Him Hb Hok Hki p Hp Hc. destruct (crowd_ok fs now ps Hcr) as ((Hd & Hf & Hn) & _).
    destruct (build_run canon kind other_if false P c i fs now ca c1 objs s Him Hb) as (S & w0 & l & R & Hs).
    pose proof (ro_imp _ _ _ _ _ _ _ _ _ _ _ R) as Him1. pose proof (ro_wf _ _ _ _ _ _ _ _ _ _ _ R) as Hw.
    rewrite (static_name c c1 i S) in Hc.
    destruct (p_cone_obj canon kind P c1 i Hw Him1 i p (rt_refl _ _ _) Hki Hc) as (j & Hj & Hkj & <-).
    apply (success_contents canon P Hro kind c1 i fs now l w0 _ Hd Hf Hn R (Hs Hok) j Hj).
    exact (p_file_kind canon kind P c1 i Him1 j Hj Hkj Hp).
  Qed.
End Crowd.

Lemma crowd_mono canon P (bg bg' : fsys -> nat -> proc -> Prop) (al al' : fsys -> nat -> state world -> Prop) : (forall fs now p, bg fs now p -> bg' fs now p) ->
  (forall fs now s, al fs now s -> al' fs now s) ->
  forall fs now ps, crowd canon P bg al fs now ps -> crowd canon P bg' al' fs now ps.
Proof.
  intros Hb Ha fs now ps H. induction H.
  - now apply cr_start.
  - eapply cr_outside; eauto.
  - apply cr_begins; auto.
  - eapply cr_acts; eauto.
  - eapply cr_gone; eauto.
  - apply cr_alone with (fs := fs) (now := now); auto.
Qed.

(** Every task can end with the dates of its files later than all before. *)
Lemma ticking_end canon kind c objs t w : wf_core c -> dated (w_fs w) (w_now w) ->
  exists r w', ticking (mk_task canon kind false c objs) t w r w'.
Proof.
  intros Hw Hd. unfold ticking, mk_task, task_behaviour. set (j := nth t objs (List.length (c_heap c))).
  assert (Same : forall w', w_fs w' = w_fs w -> forall q m n, w_fs w' q = Some (m, n) -> w_fs w' q = w_fs w q \/ w_now w < m).
  { intros w' E q m n _. left. now rewrite E. }
  set (m := S (Nat.max (w_base w) (w_now w))).
  assert (U : kind j <> MDir -> exists r w', mk_update canon kind false c j w r w' /\ forall q m n, w_fs w' q = Some (m, n) -> w_fs w' q = w_fs w q \/ w_now w < m).
  { intros Nd. destruct (kind j) as [f b| | | |] eqn:Ek.
    - destruct (b (contents (w_fs w))) as [v|] eqn:Eb.
      + do 2 eexists. split.
        * apply (up_rule canon kind false c j w f b v m Ek Eb); [lia|]. intros x mx nx _ E. specialize (Hd _ _ _ E). lia.
        * intros q m' n. cbn [w_fs]. unfold fs_set. destruct (String.eqb q _); [intros [= <- <-]; right; lia|now left].
      + do 2 eexists. split; [eapply (up_rule_fails canon kind false c j w f b); [exact Ek|exact Eb|left; split; reflexivity|left; split; reflexivity]|].
        apply Same. reflexivity.
    - do 2 eexists. split; [now apply up_source|]. now apply Same.
    - now elim Nd.
    - do 2 eexists. split; [now apply up_set|]. now apply Same.
    - exists RNotFalse, w. split; [now apply up_other|]. now apply Same. }
  assert (T : kind j <> MDir -> exists r w', match t_class (obj c j) with
     | Plain => r = RExn /\ w' = w
     | Updatable => match t_need (obj c j) with
                    | None => r = RExn /\ w' = w
                    | Some true => mk_update canon kind false c j w r w'
                    | Some false => r = RNotFalse /\ w' = w
                    end end /\ forall q m n, w_fs w' q = Some (m, n) -> w_fs w' q = w_fs w q \/ w_now w < m).
  { intros Nd. destruct (t_class (obj c j)); [exists RExn, w; auto|]. destruct (t_need (obj c j)) as [[|]|]; [auto|exists RNotFalse, w; auto|exists RExn, w; auto]. }
  destruct (kind j) eqn:Ek; try (apply T; discriminate).
  destruct (get_info (w_fs w) (w_cache w) (t_name (obj c j))) as [x ca'] eqn:Eg. destruct (fi_exist x) eqn:Ex.
  - do 2 eexists. split; [eapply dir_exists; eauto|]. now apply Same.
  - destruct (w_fs w (t_name (obj c j))) as [e|] eqn:Ef.
    + do 2 eexists. split; [eapply dir_raises; [exact Eg|exact Ex|left; congruence]|]. now apply Same.
    + destruct (existsb (is_reg (w_fs w)) (ancestors (t_name (obj c j)))) eqn:Ea.
      * do 2 eexists. split; [eapply dir_raises; [exact Eg|exact Ex|now right]|]. now apply Same.
      * do 2 eexists. split; [eapply (dir_created c j w x ca' m); eauto; lia|].
        intros q m' n. cbn [w_fs]. unfold makedirs. destruct (String.eqb q _); [intros [= <- <-]; right; lia|].
        destruct (w_fs w q); [now left|]. destruct (smem _ _ _); [intros [= <- <-]; right; lia|now left].
Qed.

(** A process that nothing has been raised in is done or can go on, whatever the others do. *)
Lemma goes_on canon P fs now p i : proc_ok canon P p i -> dated fs now -> (1 <= sv_threads (pr_solver p))%Z -> raised (s_log (pr_state p)) = [] ->
  s_main (pr_state p) = MReturned \/ exists p', acts canon fs now p p'.
Proof.
  intros [Hw Hco Hreg Him Hc Hac (so & dts & th & Hso & Hs & Hl) (w0 & w & R)] Hd Hth Hx. destruct p as [kind c objs sv s]. cbn in *.
  destruct (s_main s) eqn:Em; [right|now left].
  assert (Et : sv_threads sv = th) by (destruct (sv_good so dts th sv Hso Hs) as (_ & _ & _ & G); exact (SolverProofs.sf_threads _ _ _ G)). rewrite Et in Hth.
  destruct (progress any_task so dts th sv Hso Hs (set_world w s)) as (s' & St); auto.
  - intros t x. exists RNotFalse, x. exact Logic.I.
  - exists w0. exact R.
  - assert (exists s', step (inv_of (sv_inv sv)) (ticking (mk_task canon kind false c objs)) (at_now fs now s) s') as (s1 & St1).
    { remember (set_world w s) as a eqn:Ea. destruct St as [v a Hm Hwk Hq|v a Hm Hwk Hq|v t r world' order a Hm Hwk Hr HP|a Hm Hrel]; subst a.
      - eexists. now apply (step_get _ _ v).
      - eexists. now apply (step_drain _ _ v).
      - destruct (ticking_end canon kind c objs t (s_world (at_now fs now s)) Hw Hd) as (r' & w' & T).
        eexists. eapply (step_finish _ _ v t r' w' order); eauto.
      - eexists. now apply step_join. }
    eexists. econstructor. exact St1.
Qed.
