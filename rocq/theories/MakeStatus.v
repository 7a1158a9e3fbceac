(** Lemmas: what has become of each file of the cone during a build whose rules write
    their outputs only when they succeed. *)
From Coq Require Import Permutation.
From Verif Require Import PyBase PyPath SolverModel SpecGraph InvokerModel SpecTrace InvokerProofs InvokerInv
  InvokerThms InvokerPath CoreModel SpecCore CoreProofs NeedProofs RuProofs CoreThms MakeModel MakeEval SpecMake
  MakeProofs MakeFacts MakeBuild.

Section Status.
  Variable canon : string -> string.
  Variable kind : nat -> mkind.
  Variable P : project.
  Variables (c : core) (i : nat) (fs : fsys) (now : nat) (w0 : world).
  Local Notation nm j := (t_name (obj c j)).
  Local Notation cone := (in_cone canon c i).
  Local Notation task := (obj_task canon kind false c).
  Local Notation run_of := (run_of canon kind false P c i fs now).

  (** The ways a call of [update_if_need] can end. *)
  Inductive call (j : nat) (w : world) (r : tres) (w' : world) : Prop :=
  | call_idle : kind j <> MDir -> t_need (obj c j) = Some false -> r = RNotFalse -> w' = w -> call j w r w'
  | call_built f b v m : kind j = MFile f b -> t_need (obj c j) = Some true -> r = RNotFalse ->
      b (contents (w_fs w)) = Some v -> w_base w < m ->
      (forall k mk nk, input canon kind c j k -> w_fs w (nm k) = Some (mk, nk) -> mk <= m) ->
      w_fs w' = fs_set (w_fs w) (nm j) (Some (m, Reg v)) ->
      w_cache w' = update_info (w_fs w') (w_cache w) (nm j) ->
      w_ran w' = w_ran w ++ [(nm j, true)] -> call j w r w'
  | call_failed f b : kind j = MFile f b -> t_need (obj c j) = Some true -> r <> RNotFalse ->
      (w_fs w' = w_fs w \/ w_fs w' = fs_set (w_fs w) (nm j) None) ->
      w_ran w' = w_ran w ++ [(nm j, false)] -> call j w r w'
  | call_source : kind j = MSource -> t_need (obj c j) = Some true -> r = RNotFalse ->
      w_fs w' = w_fs w -> view (w_fs w) (w_cache w') (nm j) = stat (w_fs w) (nm j) ->
      (forall p, p <> nm j -> view (w_fs w) (w_cache w') p = view (w_fs w) (w_cache w) p) ->
      w_ran w' = w_ran w ++ [(nm j, true)] -> call j w r w'
  | call_set : kind j = MSet -> t_need (obj c j) = Some true -> r = RNotFalse -> w' = w -> call j w r w'
  | call_dir_there : kind j = MDir -> r = RNotFalse -> w_fs w' = w_fs w -> w_ran w' = w_ran w ->
      (forall p, view (w_fs w) (w_cache w') p = view (w_fs w) (w_cache w) p) ->
      fi_exist (view (w_fs w) (w_cache w) (nm j)) = true -> call j w r w'
  | call_dir_made m ca' : kind j = MDir -> r = RNotFalse -> w_fs w (nm j) = None ->
      w_fs w' = makedirs (w_fs w) (nm j) m -> w_base w < m ->
      fi_exist (view (w_fs w) (w_cache w) (nm j)) = false ->
      (forall p, view (w_fs w) ca' p = view (w_fs w) (w_cache w) p) ->
      (forall p x, sget (w_cache w) p = Some x -> sget ca' p = Some x) ->
      w_cache w' = update_info (w_fs w') ca' (nm j) ->
      w_ran w' = w_ran w ++ [(nm j, true)] -> call j w r w'
  | call_dir_raises : kind j = MDir -> r = RExn -> w_fs w' = w_fs w ->
      fi_exist (view (w_fs w) (w_cache w) (nm j)) = false ->
      w_ran w' = w_ran w ++ [(nm j, false)] -> call j w r w'.

  Lemma task_call l w j r w' : run_of l w0 w -> cone j -> task j w r w' -> call j w r w'.
  Proof.
    intros R Hj T. destruct (ro_imp _ _ _ _ _ _ _ _ _ _ _ R j Hj) as [Hc Hk].
    destruct (ro_need _ _ _ _ _ _ _ _ _ _ _ R j Hj) as (need & Hn & _).
    assert (D : mk_dir c j w r w' -> kind j = MDir -> call j w r w').
    { clear T. intros H Ek. destruct H as [x ca' Hg He|x ca' m p Hg He Hf Ha Hm fs'|x ca' p Hg He Hf];
        destruct (get_info_view _ _ _ _ _ Hg) as (-> & [V1 V2] & _).
      - apply call_dir_there; auto.
      - apply (call_dir_made _ _ _ _ m ca'); auto.
      - apply call_dir_raises; auto. }
    assert (U : kind j <> MDir -> kind j <> MOther ->
      match t_class (obj c j) with
           | Plain => r = RExn /\ w' = w
           | Updatable =>
               match t_need (obj c j) with
               | None => r = RExn /\ w' = w
               | Some true => mk_update canon kind false c j w r w'
               | Some false => r = RNotFalse /\ w' = w
               end
           end -> call j w r w').
    { clear T. intros Ed Eo. rewrite Hc, Hn. destruct need.
      - intros H. destruct H as [force b v m Ek Hb Hm Hi p fs'|force b fs' now' r ca' Ek Hb p Hf Hr|Ek p|Ek|r w' Ek].
        + apply (call_built _ _ _ _ force b v m); auto.
        + apply (call_failed _ _ _ _ force b); auto.
          * destruct Hr as [[-> _]|[-> _]]; discriminate.
          * destruct Hf as [[-> _]|[[-> _]|[Hf _]]]; [now left|now right|discriminate].
        + destruct (get_info (w_fs w) (w_cache w) p) as [x ca'] eqn:Eg.
          destruct (get_info_view _ _ _ _ _ Eg) as (_ & [V1 V2] & _).
          apply call_source; simpl; auto.
          * rewrite view_update_info. fold p. now rewrite String.eqb_refl.
          * intros q Hq. rewrite view_update_info. apply String.eqb_neq in Hq. fold p in Hq. now rewrite Hq, V1.
        + now apply call_set.
        + contradiction.
      - intros [-> ->]. now apply call_idle. }
    unfold obj_task in T. destruct (kind j) as [f b| | | |] eqn:Ek; try (apply U; congruence); auto.
  Qed.

  Lemma ran_names l w : run_of l w0 w -> forall p b, In (p, b) (w_ran w) -> exists j, In j (map fst l) /\ p = nm j.
  Proof.
    intros R. pattern l, w. revert l w R. apply run_ind; cbv beta.
    - intros R p b. destruct (ro_start _ _ _ _ _ _ _ _ _ _ _ R) as (_ & _ & _ & ->). intros [].
    - intros l w1 j r w R IH _ T Hj _ _ p b Hp. rewrite map_app. simpl.
      assert (G : In (p, b) (w_ran w1) \/ p = nm j).
      { destruct (task_call l w1 j r w R Hj T) as
          [? ? ? ->|f b' v m ? ? ? ? ? ? ? ? E|f b' ? ? ? ? E|? ? ? ? ? ? E|? ? ? ->|? ? ? E ? ?|m ca' ? ? ? ? ? ? ? ? ? E|? ? ? ? E];
          try (left; exact Hp); rewrite E in Hp; try (left; exact Hp);
          apply in_app_iff in Hp; (destruct Hp as [Hp|[Hp|[]]]; [now left|injection Hp as <- _; now right]). }
      destruct G as [G| ->].
      + destruct (IH p b G) as (k & Hk & ->). exists k. rewrite in_app_iff. auto.
      + exists j. rewrite in_app_iff. split; [right; now left|reflexivity].
  Qed.

  Inductive status (l : list (nat * tres)) (w : world) (j : nat) : Prop :=
  | st_before : ~ In j (map fst l) -> w_fs w (nm j) = fs (nm j) ->
      (forall b, ~ In (nm j, b) (w_ran w)) -> status l w j
  | st_idle : In (j, RNotFalse) l -> t_need (obj c j) = Some false -> w_fs w (nm j) = fs (nm j) ->
      (forall b, ~ In (nm j, b) (w_ran w)) -> status l w j
  | st_built m v : In (j, RNotFalse) l -> t_need (obj c j) = Some true -> w_fs w (nm j) = Some (m, Reg v) ->
      now < m -> In (nm j, true) (w_ran w) -> ~ In (nm j, false) (w_ran w) -> status l w j
  | st_failed r : In (j, r) l -> r <> RNotFalse -> t_need (obj c j) = Some true ->
      (w_fs w (nm j) = fs (nm j) \/ w_fs w (nm j) = None) ->
      ~ In (nm j, true) (w_ran w) -> In (nm j, false) (w_ran w) -> status l w j.

  Lemma fs_set_eq g p e : fs_set g p e p = e.
  Proof. unfold fs_set. now rewrite String.eqb_refl. Qed.
  Lemma fs_set_neq g p e q : q <> p -> fs_set g p e q = g q.
  Proof. unfold fs_set. intros H. apply String.eqb_neq in H. now rewrite H. Qed.

  Lemma run_inj l w j k : run_of l w0 w -> cone j -> cone k -> nm j = nm k -> j = k.
  Proof.
    intros R. apply (cone_inj canon c i (ro_wf _ _ _ _ _ _ _ _ _ _ _ R) (ro_co _ _ _ _ _ _ _ _ _ _ _ R)
                       (ro_reg _ _ _ _ _ _ _ _ _ _ _ R)).
  Qed.

  Lemma run_status l w : run_of l w0 w -> forall j f b, cone j -> kind j = MFile f b -> status l w j.
  Proof.
    intros R. pattern l, w. revert l w R. apply run_ind; cbv beta.
    - intros R j f b Hj Hk. destruct (ro_start _ _ _ _ _ _ _ _ _ _ _ R) as (E0 & _ & _ & E).
      apply st_before; [intros []|now rewrite E0|]. rewrite E. intros b0 [].
    - intros l w1 k r w R IH R' T Hk Hnk _ j f b Hj Ek.
      assert (Hfile : is_file P (nm j)).
      { apply (file_kind_p canon kind P c i (ro_imp _ _ _ _ _ _ _ _ _ _ _ R) j Hj). right. eauto. }
      specialize (IH j f b Hj Ek). pose proof (task_call l w1 k r w R Hk T) as C.
      destruct (Nat.eq_dec k j) as [->|Hne].
      + assert (Hb : w_fs w1 (nm j) = fs (nm j) /\ forall b, ~ In (nm j, b) (w_ran w1)).
        { destruct IH as [_ A B|A|? ? A|? A]; auto; exfalso; apply Hnk; apply in_map_iff; eexists; (split; [|exact A]); reflexivity. }
        destruct Hb as [Hb1 Hb2].
        assert (Hin : forall r0, r0 = r -> In (j, r0) (l ++ [(j, r)])) by (intros r0 ->; apply in_app_iff; right; now left).
        destruct C as [_ Hn -> ->|f' b' v m _ Hn -> _ Hm _ Ef _ Er|f' b' _ Hn Hr Ef Er|E|E|E|m ca' E|E]; try congruence.
        * apply st_idle; auto.
        * apply (st_built _ _ _ m v); auto.
          -- now rewrite Ef, fs_set_eq.
          -- destruct (run_times canon kind false P c i fs now w0 l w1 R) as (<- & _). exact Hm.
          -- rewrite Er. apply in_app_iff. right. now left.
          -- rewrite Er. intros H. apply in_app_iff in H. destruct H as [H|[H|[]]]; [now apply (Hb2 false)|discriminate].
        * apply (st_failed _ _ _ r); auto.
          -- destruct Ef as [-> | ->]; [now left|right; apply fs_set_eq].
          -- rewrite Er. intros H. apply in_app_iff in H. destruct H as [H|[H|[]]]; [now apply (Hb2 true)|discriminate].
          -- rewrite Er. apply in_app_iff. right. now left.
      + assert (Hnm : nm j <> nm k) by (intros E; apply Hne; symmetry; now apply (run_inj l w1 j k R)).
        assert (Ef : w_fs w (nm j) = w_fs w1 (nm j))
          by (apply (run_own canon kind false P c i fs now w0 l w1 k r w (nm j) R Hk T Hfile Hnm)).
        assert (Er : forall b, In (nm j, b) (w_ran w) <-> In (nm j, b) (w_ran w1)).
        { intros b0. destruct C as
          [? ? ? ->|f0 b' v m ? ? ? ? ? ? ? ? E|f0 b' ? ? ? ? E|? ? ? ? ? ? E|? ? ? ->|? ? ? E ? ?|m ca' ? ? ? ? ? ? ? ? ? E|? ? ? ? E];
          try reflexivity; rewrite E; try reflexivity; rewrite in_app_iff; simpl; intuition congruence. }
        destruct IH as [A B D|A B D F|m v A B D F G H|r0 A B D F G H].
        * apply st_before; [|congruence|].
          -- rewrite map_app, in_app_iff. simpl. intros [H|[H|[]]]; auto.
          -- intros b0. rewrite Er. apply D.
        * apply st_idle; [apply in_app_iff; now left|exact B|congruence|]. intros b0. rewrite Er. apply F.
        * apply (st_built _ _ _ m v); auto; [apply in_app_iff; now left|congruence|now apply Er|]. now rewrite Er.
        * apply (st_failed _ _ _ r0); auto; [apply in_app_iff; now left|now rewrite Ef|now rewrite Er|now apply Er].
  Qed.

  (** The inputs of a target have ended before it. *)
  Lemma inputs_ended l w : run_of l w0 w -> forall j k, cone j ->
    (forall d, obj_dep canon c j d -> In (d, RNotFalse) l) -> input canon kind c j k -> In (k, RNotFalse) l.
  Proof.
    intros R j k Hj Hd H. revert Hj Hd. induction H as [j d k Hd Hg Hk|j d s k Hd Hg Hk Hin IH]; intros Hj Hde.
    - apply Hde. exists d. split; [exact Hd|]. apply get_resolves; [apply R|exact Hg].
    - assert (D : obj_dep canon c j s) by (exists d; split; [exact Hd|apply get_resolves; [apply R|exact Hg]]).
      apply IH; [eapply rt_trans; [exact Hj|apply rt_step; exact D]|].
      intros x Hx. specialize (Hde s D). apply in_split in Hde. destruct Hde as (l1 & l2 & ->).
      apply in_app_iff. left. now apply (ro_deps _ _ _ _ _ _ _ _ _ _ _ R l1 s RNotFalse l2).
  Qed.

  (** A file that was built has the content and the date that its inputs ask for. *)
  Lemma run_contents l w : run_of l w0 w -> forall j f b, cone j -> kind j = MFile f b ->
    In (j, RNotFalse) l -> t_need (obj c j) = Some true ->
    exists m v, w_fs w (nm j) = Some (m, Reg v) /\ now < m /\ (reads_only P -> b (contents (w_fs w)) = Some v) /\
      (forall k mk nk, input canon kind c j k -> w_fs w (nm k) = Some (mk, nk) -> mk <= m) /\
      (forall k, input canon kind c j k -> In (k, RNotFalse) l).
  Proof.
    intros R. pattern l, w. revert l w R. apply run_ind; cbv beta; [intros _ j f b _ _ []|].
    intros l w1 k r w R IH R' T Hk Hnk Hdk j f b Hj Ek Hin Hn.
    pose proof (ro_imp _ _ _ _ _ _ _ _ _ _ _ R) as Him.
    pose proof (ro_wf _ _ _ _ _ _ _ _ _ _ _ R) as Hw.
    assert (Hrule : exists ds, P (nm j) = Some (DRule f ds b)).
    { destruct (Him j Hj) as [_ H]. rewrite Ek in H. destruct H as (ds & H & _). eauto. }
    destruct Hrule as [ds Hrule].
    assert (Hfile : is_file P (nm j)) by (right; exists f, ds, b; exact Hrule).
    assert (Hkd : kind j <> MDir) by congruence.
    (* inputs of [j], as long as they have ended before [k], stay as they are *)
    assert (Keep : (forall x, input canon kind c j x -> In (x, RNotFalse) l) ->
              forall x, input canon kind c j x -> w_fs w (nm x) = w_fs w1 (nm x)).
    { intros He x Hx. destruct (input_cone canon kind c i Hw j x Hj Hx) as [Hcx Hfx].
      apply (run_own canon kind false P c i fs now w0 l w1 k r w (nm x) R Hk T).
      - now apply (file_kind_p canon kind P c i Him x Hcx).
      - intros E. apply (run_inj l w1 x k R Hcx Hk) in E. subst x. apply Hnk.
        apply in_map_iff. exists (k, RNotFalse). split; [reflexivity|now apply He]. }
    assert (Same : (forall x, input canon kind c j x -> w_fs w (nm x) = w_fs w1 (nm x)) ->
              reads_only P -> b (contents (w_fs w)) = b (contents (w_fs w1))).
    { intros Hs Hro. apply (Hro (nm j) f ds b Hrule). intros q Hq.
      destruct (p_input_obj canon kind P c i Hw Him _ _ Hq j Hj Hkd eq_refl) as (x & Hx & <-).
      unfold contents. now rewrite (Hs x Hx). }
    apply in_app_iff in Hin. destruct Hin as [Hin|[[= -> ->]|[]]].
    - destruct (IH j f b Hj Ek Hin Hn) as (m & v & Ef & Hm & Hb & Ht & He).
      assert (Hs := Keep He).
      exists m, v. split; [|split; [exact Hm|split; [|split]]].
      + rewrite <- Ef. apply (run_own canon kind false P c i fs now w0 l w1 k r w (nm j) R Hk T Hfile).
        intros E. apply (run_inj l w1 j k R Hj Hk) in E. subst k. apply Hnk.
        apply in_map_iff. now exists (j, RNotFalse).
      + intros Hro. rewrite (Same Hs Hro). auto.
      + intros x mx nx Hx. rewrite (Hs x Hx). now apply Ht.
      + intros x Hx. apply in_app_iff. left. now apply He.
    - assert (He : forall x, input canon kind c j x -> In (x, RNotFalse) l).
      { intros x. now apply (inputs_ended l w1 R). }
      assert (Hs := Keep He). pose proof (task_call l w1 j RNotFalse w R Hk T) as C.
      destruct C as [_ Hn' _ _|f' b' v m Ek' _ _ Hb Hm Ht Ef _ _|f' b' _ _ Hr _ _|E|E|E|m ca' E|E]; try congruence.
      rewrite Ek in Ek'. injection Ek' as <- <-.
      exists m, v. split; [now rewrite Ef, fs_set_eq|]. split; [|split; [|split]].
      + destruct (run_times canon kind false P c i fs now w0 l w1 R) as (<- & _). exact Hm.
      + intros Hro. rewrite (Same Hs Hro). exact Hb.
      + intros x mx nx Hx. rewrite (Hs x Hx). now apply Ht.
      + intros x Hx. apply in_app_iff. left. now apply He.
  Qed.

  (** ** Killed and failed builds (C31, C32) *)
  Lemma unfinished_still_outdated l w : dated fs now -> run_of l w0 w ->
    forall p, is_file P p -> (exists j, cone j /\ nm j = p) -> needs_update P fs p -> ~ In (p, true) (w_ran w) ->
    needs_update P (w_fs w) p.
  Proof.
    intros Hda R p Hp (jp & Hjp & <-) (q & Hq & Ho) Hnr.
    pose proof (ro_imp _ _ _ _ _ _ _ _ _ _ _ R) as Him.
    pose proof (ro_wf _ _ _ _ _ _ _ _ _ _ _ R) as Hw.
    pose proof (not_dir_file canon kind P c i Him jp Hjp Hp) as Hkp.
    (* nodes of the project below [p] belong to targets of the cone *)
    assert (Obj : forall x, p_cone P (nm jp) x -> exists j, cone j /\ kind j <> MDir /\ nm j = x).
    { intros x Hx. destruct (p_cone_obj canon kind P c i Hw Him jp x Hjp Hkp Hx) as (j & Hj & Hk & E).
      exists j. split; [eapply rt_trans; eauto|auto]. }
    set (made := fun x => is_rule P x /\ exists m v, w_fs w x = Some (m, Reg v) /\ now < m).
    (* what became of a rule file below [p] *)
    assert (St : forall x, p_cone P (nm jp) x -> is_rule P x ->
              made x \/ ((w_fs w x = fs x \/ w_fs w x = None) /\ ~ In (x, true) (w_ran w))).
    { intros x Hx Hr. destruct (Obj x Hx) as (j & Hj & Hk & <-).
      destruct (rule_kind canon kind P c i Him j Hj Hr) as (f & b & ds & Ek & _).
      destruct (run_status l w R j f b Hj Ek) as [_ A B|_ _ A B|m v _ _ A B _ _|r _ _ _ A B _].
      - right. auto.
      - right. auto.
      - left. split; [exact Hr|]. eauto.
      - right. auto. }
    assert (Hfs : forall x m n, w_fs w x = Some (m, n) -> w_fs w x = fs x -> m <= now).
    { intros x m n E E'. rewrite E in E'. symmetry in E'. eauto. }
    (* a file that was not made, but has an input that was, is out of date *)
    assert (Old : forall x y, p_cone P (nm jp) x -> is_rule P x -> ~ made x -> p_input P x y -> made y ->
              outdated P (w_fs w) x).
    { intros x y Hx Hr Hm Hi (_ & m & v & E & Hlt). destruct (St x Hx Hr) as [|[Hs _]]; [contradiction|].
      destruct (w_fs w x) as [[mx nx]|] eqn:Ex; [|left; split; [now right|exact Ex]].
      right. right. split; [exact Hr|]. exists y. split; [exact Hi|].
      exists m, (Reg v), mx, nx. split; [exact E|]. split; [exact Ex|].
      assert (mx <= now); [|lia]. destruct Hs as [Hs|Hs]; [|congruence]. apply (Hda x mx nx). congruence. }
    destruct (Obj q Hq) as (jq & Hjq & Hkq & Eq).
    assert (G : forall x, p_cone P (nm jp) x -> p_cone P x q -> made q ->
              needs_update P (w_fs w) x \/ made x \/ (exists ds, P x = Some (DSet ds)) /\ exists y, p_input P x y /\ made y).
    { intros x Hx Hxq Hmq. apply Operators_Properties.clos_rt_rt1n in Hxq.
      induction Hxq as [|x y z Hxy Hyz IH]; [right; now left|].
      assert (Hy : p_cone P (nm jp) y) by (eapply rt_trans; [exact Hx|apply rt_step; exact Hxy]).
      destruct (IH Hq Ho Eq Hy Hmq) as [(o & Hyo & Hoo)|IH'].
      { left. exists o. split; [|exact Hoo]. eapply rt_trans; [apply rt_step; exact Hxy|exact Hyo]. }
      assert (Hin : exists o, p_input P x o /\ made o).
      { destruct IH' as [Hm|((ds & Hds) & o & Hyo & Hm)].
        - exists y. split; [|exact Hm]. apply pi_file; [exact Hxy|]. right. apply Hm.
        - exists o. split; [|exact Hm]. eapply pi_set; eauto. }
      destruct Hin as (o & Hin & Hm). destruct Hxy as (ds & _ & [Hds|(f & b & Hr)]).
      - right. right. split; [eauto|]. eauto.
      - assert (Hrx : is_rule P x) by (exists f, ds, b; exact Hr).
        destruct (St x Hx Hrx) as [Hmx|Hmx]; [right; now left|]. left. exists x. split; [apply rt_refl|].
        apply (Old x o Hx Hrx); auto. intros (_ & m & v & E & Hlt). destruct Hmx as [[Hs|Hs] _]; [|congruence].
        assert (m <= now) by (now apply (Hfs x m (Reg v))). lia. }
    assert (Out : forall x, p_cone P (nm jp) x -> outdated P (w_fs w) x -> needs_update P (w_fs w) (nm jp))
      by (intros x; exists x; auto).
    assert (Src : forall x, P x = Some DSource -> w_fs w x = fs x)
      by (apply (run_source canon kind false P c i fs now w0 l w R)).
    assert (Hpm : made (nm jp) -> False).
    { intros [Hr (m & v & E & Hlt)].
      destruct (rule_kind canon kind P c i Him jp Hjp Hr) as (f & b & ds & Ek & _).
      destruct (run_status l w R jp f b Hjp Ek) as [_ A B|_ _ A B|m' v' _ _ A B C _|r _ _ _ A B _].
      - specialize (Hfs _ _ _ E A). lia.
      - specialize (Hfs _ _ _ E A). lia.
      - contradiction.
      - destruct A as [A|A]; [|congruence]. specialize (Hfs _ _ _ E A). lia. }
    assert (Made : made q -> needs_update P (w_fs w) (nm jp)).
    { intros Hm. destruct (G (nm jp) (rt_refl _ _ _) Hq Hm) as [H|[H|((ds & Hds) & _)]]; [exact H|contradiction|].
      destruct Hp as [Hp|(f & ds' & b & Hp)]; congruence. }
    destruct Ho as [[Hf Hno]|[(ds & b & Hr)|(Hr & y & Hin & Hnew)]].
    - destruct Hf as [Hf|Hf].
      + apply (Out q Hq). left. split; [now left|]. now rewrite (Src q Hf).
      + destruct (St q Hq Hf) as [Hm|[[E|E] _]]; [now apply Made| |]; apply (Out q Hq); left; (split; [now right|congruence]).
    - apply (Out q Hq). right. left. eauto.
    - destruct (St q Hq Hr) as [Hm|[Es _]]; [now apply Made|].
      destruct (w_fs w q) as [[mq nq]|] eqn:Ew; [|apply (Out q Hq); left; split; [now right|exact Ew]].
      destruct Es as [Es|Es]; [|discriminate].
      assert (Hy : p_cone P (nm jp) y) by (eapply rt_trans; [exact Hq|now apply p_input_below]).
      destruct Hnew as (my & ny & mq' & nq' & Ey & Eq' & Hlt).
      assert (mq' = mq) by congruence. subst mq'.
      assert (Hkeep : w_fs w y = fs y -> needs_update P (w_fs w) (nm jp)).
      { intros E. apply (Out q Hq). right. right. split; [exact Hr|]. exists y. split; [exact Hin|].
        exists my, ny, mq, nq. split; [congruence|]. auto. }
      destruct (p_input_file P q y Hin) as [Hs|Hs].
      + now apply Hkeep, Src.
      + destruct (St y Hy Hs) as [Hm|[[E|E] _]].
        * apply (Out q Hq). apply (Old q y Hq Hr); auto. intros (_ & m & v & E & Hl).
          rewrite Ew in E. injection E as -> _. assert (m <= now) by (eapply Hda; eauto). lia.
        * now apply Hkeep.
        * apply (Out y Hy). left. split; [now right|exact E].
  Qed.
End Status.
