(** Lemmas: builds while files elsewhere change (C101). *)
From Coq Require Import Permutation.
From Verif Require Import PyBase PyPath SolverModel SpecGraph InvokerModel SpecTrace InvokerProofs InvokerInv InvokerThms InvokerPath
  CoreModel SpecCore CoreProofs NeedProofs RuProofs CoreThms MakeModel MakeEval SpecMake MakeProofs MakeFacts MakeTimes MakeBuild MakeThms MakeClaims BuildSafe
  RegModel CliModel SpecUtil SpecReg SpecProject FineModel SpecFine FineProofs SpecCrowd CrowdProofs SpecElsewhere.
Local Open Scope string_scope.
Local Open Scope list_scope.

Lemma makedirs_reg fs p m q : fs p = None -> is_reg (makedirs fs p m) q = is_reg fs q.
Proof.
  intros E. unfold is_reg, makedirs. destruct (String.eqb_spec q p) as [->|]; [now rewrite E|].
  destruct (fs q); [reflexivity|]. now destruct (smem _ _ _).
Qed.
Lemma existsb_same {A} (f g : A -> bool) l : (forall x, In x l -> f x = g x) -> existsb f l = existsb g l.
Proof. induction l as [|x l IH]; intros H; [reflexivity|]. cbn. rewrite (H x), IH; auto; [intros; apply H; now right|now left]. Qed.

Section Elsewhere.
  Variable canon : string -> string.
  Variable kind : nat -> mkind.
  Variable partial : bool.
  Variable P : project.
  Hypothesis Hro : reads_only P.
  Variables (c : core) (i : nat) (objs : list nat) (sv : solver).
  Hypothesis Hw : wf_core c.
  Hypothesis Him : implements canon kind P c i.
  Hypothesis Hobjs : forall j, In j objs <-> in_cone canon c i j.
  Local Notation o t := (nth t objs (List.length (c_heap c))).
  Local Notation nm j := (t_name (obj c j)).
  Local Notation task := (mk_task canon kind partial c objs).

  Definition agrees (w x : world) : Prop :=
    w_cache w = w_cache x /\ w_base w = w_base x /\ w_ran w = w_ran x /\ keeps_off kind c objs (w_fs x) (w_fs w).

  Lemma stat_agrees w x j : keeps_off kind c objs x w -> In j objs -> on_disk (kind j) -> w (nm j) = x (nm j).
  Proof. intros [H _] Hj Hd. apply H. exists j. auto. Qed.
  Lemma info_same w x ca p : w p = x p -> get_info w ca p = get_info x ca p.
  Proof. intros E. unfold get_info, update_info, stat. now rewrite E. Qed.
  Lemma update_same w x ca p : w p = x p -> update_info w ca p = update_info x ca p.
  Proof. intros E. unfold update_info, stat. now rewrite E. Qed.
  Lemma set_keeps w x p e : keeps_off kind c objs x w -> keeps_off kind c objs (fs_set x p e) (fs_set w p e).
  Proof.
    intros [H1 H2]. split; intros q Hq; unfold fs_set, is_reg; destruct (String.eqb q p); auto. exact (H2 q Hq).
  Qed.

  Lemma set_contents (w x : fsys) p e q : contents w q = contents x q -> contents (fs_set w p e) q = contents (fs_set x p e) q.
  Proof. unfold contents, fs_set. now destruct (String.eqb q p). Qed.
  Lemma makedirs_contents (w : fsys) p m q : w p = None -> contents (makedirs w p m) q = contents w q.
  Proof.
    intros E. unfold contents, makedirs. destruct (String.eqb_spec q p) as [->|]; [now rewrite E|].
    destruct (w q); [reflexivity|]. now destruct (smem _ _ _).
  Qed.

  (** A call goes the same way if the rule makes the same of the files. *)
  Lemma task_same t w r w' x : In (o t) objs -> agrees w x ->
    (forall f b, kind (o t) = MFile f b -> t_need (obj c (o t)) = Some true -> b (contents (w_fs w)) = b (contents (w_fs x))) ->
    task t w r w' -> exists x', task t x r x' /\ agrees w' x' /\
    forall q, contents (w_fs w) q = contents (w_fs x) q -> contents (w_fs w') q = contents (w_fs x') q.
  Proof.
    intros Ht (E1 & E2 & E3 & K) Same T. destruct w as [wf wc wb wn wr], x as [xf xc xb xn xr]. cbn in E1, E2, E3, K. cbn [w_fs] in Same |- *. subst xc xb xr.
    set (j := o t) in *. assert (Hc : in_cone canon c i j) by now apply Hobjs. destruct (Him j Hc) as [Hcl Hk].
    unfold mk_task in *. fold j in T |- *.
    assert (S : agrees (WD wf wc wb wn wr) (WD xf wc wb xn wr) /\
      forall q, contents wf q = contents xf q -> contents (w_fs (WD wf wc wb wn wr)) q = contents (w_fs (WD xf wc wb xn wr)) q)
      by (split; [repeat split; cbn; try apply K|auto]).
    destruct (kind j) as [f b| | | |] eqn:Ek; [| |clear Hk| |contradiction].
    4: unfold task_behaviour in *; fold j in T |- *; rewrite Hcl in *; destruct (t_need (obj c j)) as [[|]|] eqn:En;
      [|destruct T as [-> ->]; eexists; split; [split; reflexivity|exact S]|destruct T as [-> ->]; eexists; split; [split; reflexivity|exact S]].
    1,2: unfold task_behaviour in *; fold j in T |- *; rewrite Hcl in *; destruct (t_need (obj c j)) as [[|]|] eqn:En;
      [|destruct T as [-> ->]; eexists; split; [split; reflexivity|exact S]|destruct T as [-> ->]; eexists; split; [split; reflexivity|exact S]].
    - destruct Hk as (ds & HP & _).
      assert (Ep : wf (nm j) = xf (nm j)) by (apply (stat_agrees _ _ j K Ht); rewrite Ek; exact Logic.I).
      pose proof (Same f b eq_refl eq_refl) as Eb. clear Same.
      inversion T as [force b' v m Hkj Hb Hlt Hin p fs1 Er Ew|force b' fs' now' r' ca' Hkj Hb p Hf' Hr Er Ew|Hkj p Er Ew|Hkj Er Ew|r' w2 Hkj Er Ew]; try congruence; cbn in *.
      + rewrite Ek in Hkj. injection Hkj as <- <-. subst r w' fs1 p. eexists. split.
        * eapply (up_rule canon kind partial c j (WD xf wc wb xn wr) f b v m); cbn; [exact Ek|now rewrite <- Eb|exact Hlt|].
          intros k mk nk Hik. destruct (input_cone canon kind c i Hw j k Hc Hik) as [Ck Fk].
          rewrite <- (stat_agrees _ _ k K); [|now apply Hobjs|destruct Fk as [Fk|(f' & b' & Fk)]; rewrite Fk; exact Logic.I].
          now apply Hin.
        * split; [|intros q; apply set_contents].
          split; [cbn [w_cache w_fs]; apply update_same; unfold fs_set; now rewrite !String.eqb_refl|]. split; [reflexivity|]. split; [reflexivity|]. now apply set_keeps.
      + rewrite Ek in Hkj. injection Hkj as <- <-. subst r' w' p.
        assert (G : exists xf' xn', (xf' = xf /\ xn' = xn \/ xf' = fs_set xf (nm j) None /\ xn' = xn \/
             partial = true /\ (exists m v, wb < m /\ xf' = fs_set xf (nm j) (Some (m, Reg v)) /\ xn' = Nat.max xn m)) /\
             fs' (nm j) = xf' (nm j) /\ keeps_off kind c objs xf' fs' /\ forall q, contents wf q = contents xf q -> contents fs' q = contents xf' q).
        { destruct Hf' as [[-> _]|[[-> _]|(Hp & m & v & Hm & -> & _)]].
          - exists xf, xn. auto.
          - exists (fs_set xf (nm j) None), xn. split; [auto|]. split; [unfold fs_set; now rewrite String.eqb_refl|split; [now apply set_keeps|intros q; apply set_contents]].
          - exists (fs_set xf (nm j) (Some (m, Reg v))), (Nat.max xn m). split; [right; right; split; [exact Hp|]; exists m, v; auto|].
            split; [unfold fs_set; now rewrite String.eqb_refl|split; [now apply set_keeps|intros q; apply set_contents]]. }
        destruct G as (xf' & xn' & G1 & G2 & G3 & G4).
        assert (Hr' : r = RFalse /\ ca' = update_info xf' wc (nm j) \/ r = RExn /\ ca' = wc).
        { destruct Hr as [[-> ->]|Hr]; [left|now right]. split; [reflexivity|now apply update_same]. }
        exists (WD xf' ca' wb xn' (wr ++ [(nm j, false)])). split; [|split; [repeat split; cbn; apply G3|exact G4]].
        apply (up_rule_fails canon kind partial c j (WD xf wc wb xn wr) f b xf' xn' r ca'); cbn; [exact Ek|now rewrite <- Eb|exact G1|exact Hr'].
    - assert (Ep : wf (nm j) = xf (nm j)) by (apply (stat_agrees _ _ j K Ht); rewrite Ek; exact Logic.I).
      inversion T as [force b' v m Hkj Hb Hlt Hin p fs1 Er Ew|force b' fs' now' r' ca' Hkj Hb p Hf' Hr Er Ew|Hkj p Er Ew|Hkj Er Ew|r' w2 Hkj Er Ew]; try congruence; cbn in *.
      eexists. split; [now apply up_source|]. split; [|auto]. split; [|repeat split; cbn; apply K]. cbn. rewrite (info_same wf xf) by exact Ep. now apply update_same.
    - assert (Ep : wf (nm j) = xf (nm j)) by (apply (stat_agrees _ _ j K Ht); rewrite Ek; exact Logic.I).
      assert (Er : existsb (is_reg wf) (ancestors (nm j)) = existsb (is_reg xf) (ancestors (nm j))).
      { apply existsb_same. intros q Hq. apply (proj2 K). exists j. auto. }
      inversion T as [y ca' Hg Hx E1 E2|y ca' m p Hg Hx Hn Hr Hlt fs' E1 E2|y ca' p Hg Hx Hn E1 E2]; cbn in *.
      + eexists. split; [eapply dir_exists; cbn; [rewrite <- (info_same wf xf) by exact Ep; exact Hg|exact Hx]|]. split; [|auto]. repeat split; cbn; apply K.
      + eexists. split; [eapply (dir_created c j (WD xf wc wb xn wr) y ca' m); cbn;
          [rewrite <- (info_same wf xf) by exact Ep; exact Hg|exact Hx|rewrite <- Ep; exact Hn|rewrite <- Er; exact Hr|exact Hlt]|].
        assert (Em : forall q, wf q = xf q -> makedirs wf (nm j) m q = makedirs xf (nm j) m q) by (intros q E; unfold makedirs; now rewrite E).
        split; [|intros q Hq; cbn; unfold fs', p; rewrite !makedirs_contents; [exact Hq|rewrite <- Ep; exact Hn|exact Hn]].
        split; [cbn; apply update_same; now apply Em|]. split; [reflexivity|]. split; [reflexivity|]. cbn. split; intros q Hq.
        * apply Em. now apply (proj1 K).
        * unfold fs', p. rewrite !makedirs_reg; [now apply (proj2 K)|rewrite <- Ep; exact Hn|exact Hn].
      + eexists. split; [eapply (dir_raises c j (WD xf wc wb xn wr) y ca'); cbn;
          [rewrite <- (info_same wf xf) by exact Ep; exact Hg|exact Hx|rewrite <- Er, <- Ep; exact Hn]|]. split; [|auto]. repeat split; cbn; apply K.
    - inversion T as [force b' v m Hkj Hb Hlt Hin p fs1 Er Ew|force b' fs' now' r' ca' Hkj Hb p Hf' Hr Er Ew|Hkj p Er Ew|Hkj Er Ew|r' w2 Hkj Er Ew]; try congruence; cbn in *.
      eexists. split; [now apply up_set|exact S].
  Qed.

  Lemma task_elsewhere t w r w' x : In (o t) objs -> agrees w x -> task t w r w' -> exists x', task t x r x' /\ agrees w' x'.
  Proof.
    intros Ht A T. destruct (task_same t w r w' x Ht A) as (x' & T' & A' & _); [|exact T|now exists x'].
    intros f b Ek _. destruct A as (_ & _ & _ & K). assert (Hc : in_cone canon c i (o t)) by now apply Hobjs.
    destruct (Him _ Hc) as [_ Hk]. rewrite Ek in Hk. destruct Hk as (ds & HP & _).
    apply (Hro _ _ _ _ HP). intros q Hq.
    destruct (p_input_obj canon kind P c i Hw Him _ _ Hq (o t) Hc ltac:(congruence) eq_refl) as (k & Hin & <-).
    destruct (input_cone canon kind c i Hw _ k Hc Hin) as [Ck Fk]. unfold contents.
    rewrite (stat_agrees _ _ k K); [reflexivity|now apply Hobjs|]. destruct Fk as [Fk|(f' & b' & Fk)]; rewrite Fk; exact Logic.I.
  Qed.

  (** What a call does not change. *)
  Lemma task_keeps t w r w' : In (o t) objs -> task t w r w' ->
    (forall q, ~ may_change kind c objs q -> w_fs w' q = w_fs w q) /\
    (forall q, (forall j f b, In j objs -> kind j = MFile f b -> q <> nm j) -> is_reg (w_fs w') q = is_reg (w_fs w) q).
  Proof.
    intros Ht T. set (j := o t) in *. assert (Hc : in_cone canon c i j) by now apply Hobjs. destruct (Him j Hc) as [Hcl Hk].
    unfold mk_task in T. fold j in T.
    assert (Sa : forall x : fsys, x = w_fs w -> (forall q, ~ may_change kind c objs q -> x q = w_fs w q) /\
      (forall q, (forall j f b, In j objs -> kind j = MFile f b -> q <> nm j) -> is_reg x q = is_reg (w_fs w) q)) by (intros x ->; auto).
    assert (Fs : forall f b e, kind j = MFile f b -> (forall q, ~ may_change kind c objs q -> fs_set (w_fs w) (nm j) e q = w_fs w q) /\
      (forall q, (forall j f b, In j objs -> kind j = MFile f b -> q <> nm j) -> is_reg (fs_set (w_fs w) (nm j) e) q = is_reg (w_fs w) q)).
    { intros f b e Ek. split; intros q Hq; unfold fs_set, is_reg; destruct (String.eqb_spec q (nm j)) as [->|]; auto.
      - exfalso. apply Hq. exists j. split; [exact Ht|]. left. split; [exists f, b; exact Ek|reflexivity].
      - exfalso. exact (Hq j f b Ht Ek eq_refl). }
    assert (G : task_behaviour c (mk_update canon kind partial c) objs t w r w' -> (forall q, ~ may_change kind c objs q -> w_fs w' q = w_fs w q) /\
      (forall q, (forall j f b, In j objs -> kind j = MFile f b -> q <> nm j) -> is_reg (w_fs w') q = is_reg (w_fs w) q)).
    { intros B. unfold task_behaviour in B. fold j in B. rewrite Hcl in B.
      destruct (t_need (obj c j)) as [[|]|]; [|destruct B as [_ ->]; now apply Sa|destruct B as [_ ->]; now apply Sa].
      destruct B as [force b v m Hkj Hb Hlt Hin p fs'|force b fs' now' r ca' Hkj Hb p Hf' Hr|Hkj p|Hkj|r w' Hkj]; cbn [w_fs].
      - eapply Fs; eauto.
      - destruct Hf' as [[-> _]|[[-> _]|(Hp & m & v & Hm & -> & _)]]; [now apply Sa|eapply Fs; eauto|eapply Fs; eauto].
      - now apply Sa.
      - now apply Sa.
      - rewrite Hkj in Hk. contradiction. }
    destruct (kind j) eqn:Ek; try (now apply G). clear G.
    destruct T as [y ca' Hg Hx|y ca' m p Hg Hx Hn Hr Hlt fs'|y ca' p Hg Hx Hn]; cbn [w_fs]; try (now apply Sa).
    split; intros q Hq.
    - apply makedirs_other.
      + intros ->. apply Hq. exists j. split; [exact Ht|]. right. split; [exact Ek|now left].
      + intros H. apply Hq. exists j. split; [exact Ht|]. right. split; [exact Ek|now right].
    - now apply makedirs_reg.
  Qed.

  Variables (so : set_order) (dts : list dtarget) (th : Z).
  Hypothesis Hso : fair_order so.
  Hypothesis Hs : solver_init so dts (Some th) = inr sv.
  Hypothesis Hlen : List.length dts = List.length objs.
  Variable w0 : world.
  Local Notation amid' s := (amid canon kind partial sv c objs w0 s).
  Lemma amid_scheduled s : amid' s -> scheduled sv s.
  Proof.
    induction 1 as [|s s' _ IH St|s fs' now' _ IH _].
    - apply scheduled_init.
    - assert (St' : step (inv_of (sv_inv sv)) task (set_world (s_world s) s) s') by (rewrite set_world_same; exact St).
      exact (scheduled_step sv task (s_world s) s s' IH St').
    - destruct IH as (x & y & R). exists x, y. exact R.
  Qed.
  Lemma amid_running s v t : amid' s -> nth_error (s_workers s) v = Some (WRun t) -> In (o t) objs.
  Proof.
    intros H Hv. apply nth_In. rewrite <- Hlen. eapply (scheduled_bound so dts th sv s v t); eauto. now apply amid_scheduled.
  Qed.

  Lemma step_elsewhere s a s' : amid' s -> as_if kind c objs s a -> step (inv_of (sv_inv sv)) task s s' ->
    exists a', step (inv_of (sv_inv sv)) task a a' /\ as_if kind c objs s' a'.
  Proof.
    intros Hs' (Ea & A) St. set (x := s_world a) in *. clearbody x. subst a.
    destruct St as [v s Hm Hwk Hq|v s Hm Hwk Hq|v t r world' order s Hm Hwk T HP|s Hm Hrel].
    - exists (loop_head v (set_world x s)). split; [now apply step_get|]. rewrite loop_world. split; [reflexivity|].
      cbn [s_world set_world]. replace (s_world (loop_head v s)) with (s_world s); [exact A|].
      rewrite <- (set_world_same s) at 2. now rewrite loop_world.
    - exists (release_queue v (set_world x s)). split; [now apply step_drain|]. rewrite release_world. split; [reflexivity|].
      cbn [s_world set_world]. replace (s_world (release_queue v s)) with (s_world s); [exact A|].
      rewrite <- (set_world_same s) at 2. now rewrite release_world.
    - destruct (task_elsewhere t _ _ _ x (amid_running s v t Hs' Hwk) A T) as (x' & T' & A').
      exists (after_task v t r order (set_world x' s)). split.
      + apply (step_finish _ task v t r x' order (set_world x s)); auto.
      + rewrite !after_world. split; [reflexivity|]. cbn [s_world set_world]. exact A'.
    - eexists. split; [now apply step_join|]. split; [reflexivity|]. exact A.
  Qed.
  Lemma amid_alone s : amid' s -> exists a, exec_reaches sv task w0 a /\ as_if kind c objs s a.
  Proof.
    induction 1 as [|s s' Hs' IH St|s fs' now' Hs' IH K].
    - exists (init_state sv w0). split; [apply steps_refl|]. split; [reflexivity|]. repeat split.
    - destruct IH as (a & Ha & A). destruct (step_elsewhere s a s' Hs' A St) as (a' & St' & A').
      exists a'. split; [eapply steps_snoc; eauto|exact A'].
    - destruct IH as (a & Ha & Ea & E1 & E2 & E3 & K'). exists a. split; [exact Ha|]. split; [rewrite Ea at 1; reflexivity|].
      cbn. split; [exact E1|]. split; [exact E2|]. split; [exact E3|]. destruct K as [K1 K2], K' as [K1' K2'].
      split; intros q Hq; [now rewrite K1, K1'|now rewrite K2, K2'].
  Qed.

  (** A step of the process keeps off the things of processes that are apart. *)
  Lemma step_apart kind' c' objs' s s' : apart kind c objs kind' c' objs' -> amid' s -> step (inv_of (sv_inv sv)) task s s' ->
    keeps_off kind' c' objs' (w_fs (s_world s)) (w_fs (s_world s')).
  Proof.
    intros [A1 A2] Hs' St.
    destruct St as [v s Hm Hwk Hq|v s Hm Hwk Hq|v t r world' order s Hm Hwk T HP|s Hm Hrel].
    - replace (s_world (loop_head v s)) with (s_world s); [split; reflexivity|]. rewrite <- (set_world_same s) at 2. now rewrite loop_world.
    - replace (s_world (release_queue v s)) with (s_world s); [split; reflexivity|]. rewrite <- (set_world_same s) at 2. now rewrite release_world.
    - rewrite after_world. cbn [s_world set_world]. destruct (task_keeps t _ _ _ (amid_running s v t Hs' Hwk) T) as [T1 T2].
      split; intros q Hq; [apply T1; now apply A1|apply T2; now apply A2].
    - split; reflexivity.
  Qed.
  Lemma amid_goes_on s a : as_if kind c objs s a -> (exists a', step (inv_of (sv_inv sv)) task a a') -> exists s', step (inv_of (sv_inv sv)) task s s'.
  Proof.
    intros (Ea & _) (a' & St). set (x := s_world a) in *. clearbody x. subst a. remember (set_world x s) as a eqn:E.
    destruct St as [v a Hm Hwk Hq|v a Hm Hwk Hq|v t r world' order a Hm Hwk T HP|a Hm Hrel]; subst a.
    - eexists. now apply (step_get _ _ v).
    - eexists. now apply (step_drain _ _ v).
    - destruct (mk_tasks_end canon kind partial c objs Hw t (s_world s)) as (r' & w' & T').
      eexists. eapply (step_finish _ _ v t r' w' order s); eauto.
    - eexists. now apply step_join.
  Qed.
End Elsewhere.
