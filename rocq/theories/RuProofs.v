(** Lemmas about recurse_update (core.py:364-395). *)
From Coq Require Import Permutation.
From Verif Require Import PyBase SolverModel SpecGraph SolverProofs InvokerModel SpecTrace InvokerThms
  InvokerPath CoreModel SpecCore CoreProofs NeedProofs.

Lemma mapM_nth {A B} (f : A -> res B) l ys : mapM f l = Ok ys ->
  List.length ys = List.length l /\
  (forall k x, nth_error l k = Some x -> exists y, nth_error ys k = Some y /\ f x = Ok y).
Proof.
  revert ys; induction l as [|x l IH]; intros ys; simpl.
  - intros [= <-]. split; [reflexivity|]. intros [|k] x; discriminate.
  - destruct (f x) as [y| |] eqn:E; simpl; try discriminate.
    fold (mapM f l). destruct (mapM f l) as [ys'| |]; simpl; try discriminate.
    intros [= <-]. destruct (IH ys' eq_refl) as [I1 I2]. split; [simpl; now rewrite I1|].
    intros [|k] z; simpl; [intros [= <-]; eauto|apply I2].
Qed.

Lemma clos_trans_map {A B} (R : A -> A -> Prop) (S : B -> B -> Prop) (m : A -> B -> Prop) :
  (forall a b x, R a b -> m a x -> exists y, m b y /\ S x y) ->
  forall a b x, clos_trans A R a b -> m a x -> exists y, m b y /\ clos_trans B S x y.
Proof.
  intros H a b x Hc. apply Operators_Properties.clos_trans_tn1 in Hc. intros Hm.
  induction Hc as [b Hb|b d Hbd _ IH].
  - destruct (H _ _ _ Hb Hm) as (y & H1 & H2). exists y. split; [exact H1|now apply t_step].
  - destruct IH as (y & H1 & H2). destruct (H _ _ _ Hbd H1) as (z & H3 & H4).
    exists z. split; [exact H3|]. eapply t_trans; [exact H2|now apply t_step].
Qed.

Lemma clos_trans_first {A} (R : A -> A -> Prop) a b : clos_trans A R a b -> exists y, R a y.
Proof. intros H. apply Operators_Properties.clos_trans_t1n in H. destruct H; eauto. Qed.

Section Ru.
  Variable canon : string -> string.
  Variable c : core.
  Hypothesis Hw : wf_core c.
  Hypothesis Hco : coherent canon c.
  Hypothesis Hnp : no_pair_keys c.
  Variable i : nat.
  Hypothesis Hi : resolves canon c (t_name (obj c i)) i.

  Notation ndep := (name_dep canon c).
  Notation root := (t_name (obj c i)).

  Lemma names_to_cone x : clos_refl_trans string ndep root x ->
    forall j, resolves canon c x j -> in_cone canon c i j.
  Proof.
    intros H. apply Operators_Properties.clos_rt_rtn1 in H. induction H as [|y z Hyz _ IH]; intros j Hj.
    - rewrite (resolves_fun canon c root j i Hw Hj Hi). apply rt_refl.
    - destruct Hyz as (k & Hk & Hz). eapply rt_trans; [apply (IH k Hk)|]. apply rt_step. now exists z.
  Qed.

  Lemma cone_to_names j : in_cone canon c i j ->
    exists x, clos_refl_trans string ndep root x /\ resolves canon c x j.
  Proof.
    intros H. apply Operators_Properties.clos_rt_rtn1 in H. induction H as [|y z Hyz _ IH].
    - exists root. split; [apply rt_refl|exact Hi].
    - destruct IH as (x & Hx & Hxy). destruct Hyz as (d & Hd & Hdz). exists d. split; [|exact Hdz].
      eapply rt_trans; [exact Hx|]. apply rt_step. now exists y.
  Qed.

  Lemma cone_registered_names :
    cone_registered canon c i <-> forall x, clos_refl_trans string ndep root x -> registered canon c x.
  Proof.
    split.
    - intros H x Hx. apply Operators_Properties.clos_rt_rtn1 in Hx. destruct Hx as [|y z Hyz Hy].
      + now exists i.
      + destruct Hyz as (k & Hk & Hz). apply (H k z); [|exact Hz].
        apply (names_to_cone y); [|exact Hk]. now apply Operators_Properties.clos_rtn1_rt.
    - intros H j d Hj Hd. destruct (cone_to_names j Hj) as (x & Hx & Hxj).
      apply H. eapply rt_trans; [exact Hx|]. apply rt_step. now exists j.
  Qed.

  Lemma cone_resolved j : in_cone canon c i j -> resolves canon c (t_name (obj c j)) j.
  Proof.
    intros H. destruct (cone_to_names j H) as (x & _ & Hx).
    destruct (resolves_value canon c x j Hx) as [k Hk]. eapply Hco; eauto.
  Qed.

  Lemma cone_name_inj j k : in_cone canon c i j -> in_cone canon c i k ->
    t_name (obj c j) = t_name (obj c k) -> j = k.
  Proof.
    intros Hj Hk E. apply cone_resolved in Hj, Hk. rewrite E in Hj.
    eapply resolves_fun; eauto.
  Qed.

  Variable order : list nat -> list nat.
  Hypothesis Hord : forall l, Permutation l (order l).

  Lemma ru_objects_spec :
    (cone_registered canon c i /\ exists objs, ru_objects canon c order i = Ok objs /\ NoDup objs /\
       forall j, In j objs <-> in_cone canon c i j) \/
    (exists x, clos_refl_trans string ndep root x /\ ~ registered canon c x /\
       ru_objects canon c order i = Raise (exit_unregistered x)).
  Proof.
    destruct (depends_as_set_spec canon c Hw (ByObj i) true Hnp) as [[Hreg (l & c' & E & _ & Hl)]|(x & Hx & Hn & E)].
    - left. simpl in Hreg, Hl. split; [now apply cone_registered_names|].
      unfold ru_objects. rewrite E. simpl.
      assert (Hs : forall nm, core_get canon c' nm = core_get canon c nm).
      { intros nm. apply depends_shape in E. destruct E as (E1 & _). unfold core_get. now rewrite E1. }
      assert (Hl' : forall x, In x l <-> clos_refl_trans string ndep root x).
      { intros x. rewrite Hl. split.
        - intros [[_ ->]|H]; [apply rt_refl|]. clear - H.
          induction H as [a b H|a b d _ I1 _ I2]; [now apply rt_step|now apply rt_trans with b].
        - intros H. apply rt_cases in H. destruct H as [<-|H]; [left; auto|now right]. }
      destruct (mapM_ok (core_get canon c') l) as [ids Hids].
      { intros x Hx. rewrite Hs. apply Hl' in Hx. destruct (Hreg x Hx) as [j Hj]. exists j. now apply get_resolves. }
      rewrite Hids. simpl. eexists. split; [reflexivity|]. split.
      + eapply Permutation_NoDup; [apply Hord|apply NoDup_nodup].
      + intros j. rewrite <- (Permutation_in' eq_refl (Hord _)), nodup_In.
        apply mapM_In in Hids. destruct Hids as [Hids _]. rewrite Hids. split.
        * intros (x & Hx & Hg). rewrite Hs in Hg. apply get_resolves in Hg; [|exact Hw].
          apply (names_to_cone x); [now apply Hl'|exact Hg].
        * intros Hj. destruct (cone_to_names j Hj) as (x & Hx & Hxj). exists x. split; [now apply Hl'|].
          rewrite Hs. now apply get_resolves.
    - right. exists x. split; [exact Hx|]. split; [exact Hn|]. unfold ru_objects. now rewrite E.
  Qed.

  Section Targets.
    Variable objs : list nat.
    Hypothesis Hnd : NoDup objs.
    Hypothesis Hobjs : forall j, In j objs <-> in_cone canon c i j.
    Variable dts : list dtarget.
    Hypothesis Hdts : mapM (ru_dtarget canon c) objs = Ok dts.

    Lemma dts_length : List.length dts = List.length objs.
    Proof. now apply mapM_nth in Hdts. Qed.

    Lemma dts_nth k x : nth_error objs k = Some x ->
      exists ds, mapM (core_get canon c) (t_deps (obj c x)) = Ok ds /\
        nth_error dts k = Some (DT (t_name (obj c x)) (map (fun j => t_name (obj c j)) ds)).
    Proof.
      intros H. apply mapM_nth in Hdts. destruct Hdts as [_ Hn]. destruct (Hn k x H) as (y & H1 & H2).
      unfold ru_dtarget in H2. destruct (mapM (core_get canon c) (t_deps (obj c x))) as [ds| |]; try discriminate.
      simpl in H2. injection H2 as <-. eauto.
    Qed.

    Lemma dts_nth_inv k t : nth_error dts k = Some t -> exists x, nth_error objs k = Some x.
    Proof.
      intros H. destruct (nth_error objs k) eqn:E; [eauto|]. apply nth_error_None in E.
      rewrite <- dts_length in E. apply nth_error_None in E. congruence.
    Qed.

    Lemma name_nth k x : nth_error objs k = Some x -> nth_error (map dt_name dts) k = Some (t_name (obj c x)).
    Proof.
      intros H. destruct (dts_nth k x H) as (ds & _ & E). now rewrite (map_nth_error _ _ _ E).
    Qed.

    Lemma name_nth_inv k nm : nth_error (map dt_name dts) k = Some nm ->
      exists x, nth_error objs k = Some x /\ nm = t_name (obj c x).
    Proof.
      intros H. destruct (nth_error dts k) as [t|] eqn:E.
      - destruct (dts_nth_inv k t E) as [x Hx]. exists x. split; [exact Hx|].
        rewrite (name_nth k x Hx) in H. congruence.
      - apply nth_error_None in E. assert (k < List.length (map dt_name dts)) by (apply nth_error_Some; congruence).
        rewrite map_length in H0. lia.
    Qed.

    Lemma objs_inj k k' x : nth_error objs k = Some x -> nth_error objs k' = Some x -> k = k'.
    Proof.
      intros H1 H2. pose proof (proj1 (NoDup_nth_error objs) Hnd). apply H; [|congruence].
      apply nth_error_Some. congruence.
    Qed.

    Lemma denotes_objs k x : nth_error objs k = Some x -> denotes dts (t_name (obj c x)) k.
    Proof.
      intros H. split; [now apply name_nth|]. intros k' Hk' E.
      destruct (name_nth_inv k' _ E) as (y & Hy & En).
      assert (x = y).
      { apply cone_name_inj; auto; apply Hobjs; eapply nth_error_In; eauto. }
      subst y. rewrite (objs_inj k k' x H Hy) in Hk'. lia.
    Qed.

    Lemma depends_on_objs a b : depends_on dts a b <->
      exists x y, nth_error objs a = Some x /\ nth_error objs b = Some y /\ obj_dep canon c x y.
    Proof.
      split.
      - intros (t & nm & Ht & Hnm & Hd). destruct (dts_nth_inv a t Ht) as [x Hx].
        destruct (dts_nth a x Hx) as (ds & Hds & E). rewrite E in Ht. injection Ht as <-. simpl in Hnm.
        apply in_map_iff in Hnm. destruct Hnm as (y & <- & Hy).
        assert (Hdep : obj_dep canon c x y) by (eapply deplist_dep; eauto).
        assert (Hin : In y objs).
        { apply Hobjs. eapply rt_trans; [apply Hobjs; eapply nth_error_In; exact Hx|now apply rt_step]. }
        apply In_nth_error in Hin. destruct Hin as [k Hk].
        rewrite (denotes_unique dts _ b k Hd (denotes_objs k y Hk)). eauto 6.
      - intros (x & y & Hx & Hy & Hdep). destruct (dts_nth a x Hx) as (ds & Hds & E).
        eexists _, (t_name (obj c y)). split; [exact E|]. simpl. split; [|now apply denotes_objs].
        apply in_map_iff. exists y. split; [reflexivity|]. eapply deplist_dep; eauto.
    Qed.

    Lemma dts_known : all_known dts.
    Proof.
      intros t nm Ht Hnm. apply In_nth_error in Ht. destruct Ht as [a Ha].
      destruct (dts_nth_inv a t Ha) as [x Hx].
      destruct (dts_nth a x Hx) as (ds & Hds & E). rewrite E in Ha. injection Ha as <-. simpl in Hnm.
      apply in_map_iff in Hnm. destruct Hnm as (y & <- & Hy).
      assert (Hdep : obj_dep canon c x y) by (eapply deplist_dep; eauto).
      assert (Hin : In y objs).
      { apply Hobjs. eapply rt_trans; [apply Hobjs; eapply nth_error_In; exact Hx|now apply rt_step]. }
      apply In_nth_error in Hin. destruct Hin as [k Hk]. eapply nth_error_In. eapply name_nth; eauto.
    Qed.

    Lemma dts_nonempty : dts <> [].
    Proof.
      intros E. assert (H : In i objs) by (apply Hobjs, rt_refl).
      pose proof dts_length as L. rewrite E in L. destruct objs; [destruct H|discriminate].
    Qed.

    Lemma dts_cycle : no_cycle dts <-> acyclic_cone canon c i.
    Proof.
      split.
      - intros H j Hj Hc. apply Hobjs in Hj. apply In_nth_error in Hj. destruct Hj as [k Hk].
        destruct (clos_trans_map (obj_dep canon c) (depends_on dts) (fun x k => nth_error objs k = Some x)) with (a:=j) (b:=j) (x:=k) as (k' & Hk' & Hc'); auto.
        + intros a b x Hab Hx. assert (Hin : In b objs).
          { apply Hobjs. eapply rt_trans; [apply Hobjs; eapply nth_error_In; exact Hx|now apply rt_step]. }
          apply In_nth_error in Hin. destruct Hin as [y Hy]. exists y. split; [exact Hy|].
          apply depends_on_objs. eauto.
        + rewrite (objs_inj k' k j Hk' Hk) in Hc'. now apply (H k).
      - intros H k Hc.
        assert (Hk : exists x, nth_error objs k = Some x).
        { apply clos_trans_first in Hc. destruct Hc as [y Hy].
          apply depends_on_objs in Hy. destruct Hy as (x & _ & Hx & _). now exists x. }
        destruct Hk as [x Hx].
        destruct (clos_trans_map (depends_on dts) (obj_dep canon c) (fun k x => nth_error objs k = Some x)) with (a:=k) (b:=k) (x:=x) as (y & Hy & Hc'); auto.
        + intros a b u Hab Hu. apply depends_on_objs in Hab. destruct Hab as (u' & v & Hu' & Hv & Hd).
          exists v. split; [exact Hv|]. congruence.
        + apply (H x); [apply Hobjs; eapply nth_error_In; eauto|congruence].
    Qed.
  End Targets.

  Variable so : set_order.
  Hypothesis Hso : fair_order so.
  Variables (threads : option Z) (th : Z).
  Hypothesis Hth : ru_threads c threads = Some th.

  Lemma ru_cases :
    (exists x, clos_refl_trans string ndep root x /\ ~ registered canon c x /\ ~ cone_registered canon c i /\
       recurse_update canon c order so i threads = RuExn (exit_unregistered x)) \/
    (cone_registered canon c i /\ exists objs dts, NoDup objs /\ (forall j, In j objs <-> in_cone canon c i j) /\
       mapM (ru_dtarget canon c) objs = Ok dts /\
       ((exists e, recurse_update canon c order so i threads = RuRejected e /\
          solver_init so dts (Some th) = inl e /\ ~ acyclic_cone canon c i) \/
        (exists sv, recurse_update canon c order so i threads = RuExec objs sv /\
          solver_init so dts (Some th) = inr sv /\ acyclic_cone canon c i))).
  Proof.
    unfold recurse_update. destruct ru_objects_spec as [[Hreg (objs & E & Hnd & Hobjs)]|(x & Hx & Hn & E)].
    - right. split; [exact Hreg|]. rewrite E. simpl.
      destruct (mapM_ok (ru_dtarget canon c) objs) as [dts Hdts].
      { intros x Hx. apply Hobjs in Hx. unfold ru_dtarget.
        destruct (mapM_ok (core_get canon c) (t_deps (obj c x))) as [ds Hds].
        - intros d Hd. destruct (Hreg x d Hx Hd) as [j Hj]. exists j. now apply get_resolves.
        - rewrite Hds. simpl. eauto. }
      rewrite Hdts. simpl. exists objs, dts. split; [exact Hnd|]. split; [exact Hobjs|]. split; [exact Hdts|].
      rewrite Hth. pose proof (solver_accepts so Hso dts th) as A.
      rewrite (dts_cycle objs Hnd Hobjs dts Hdts) in A.
      destruct (solver_init so dts (Some th)) as [e|sv].
      + left. exists e. split; [reflexivity|]. split; [reflexivity|]. intros Hac.
        destruct A as [_ A]. destruct A as [sv Hsv]; [|discriminate].
        split; [eapply dts_nonempty; eauto|]. split; [eapply dts_known; eauto|exact Hac].
      + right. exists sv. split; [reflexivity|]. split; [reflexivity|]. apply A. now exists sv.
    - left. exists x. split; [exact Hx|]. split; [exact Hn|]. split; [|now rewrite E].
      intros H. apply Hn. now apply cone_registered_names.
  Qed.

  (** C23 *)
  Lemma ru_exits :
    (exists e, recurse_update canon c order so i threads = RuExn e) <-> ~ cone_registered canon c i.
  Proof.
    destruct ru_cases as [(x & _ & _ & Hn & ->)|(Hr & objs & dts & _ & _ & _ & [(e & -> & _)|(sv & -> & _)])].
    - split; eauto.
    - split; [intros [? [=]]|contradiction].
    - split; [intros [? [=]]|contradiction].
  Qed.
  Lemma ru_exit_kind e : recurse_update canon c order so i threads = RuExn e ->
    exists x, e = exit_unregistered x /\ ~ registered canon c x.
  Proof.
    destruct ru_cases as [(x & _ & Hx & Hn & ->)|(Hr & objs & dts & _ & _ & _ & [(e' & -> & _)|(sv & -> & _)])];
      [|discriminate|discriminate]. intros [= <-]. eauto.
  Qed.
  Lemma ru_rejects :
    (exists e, recurse_update canon c order so i threads = RuRejected e) <->
    cone_registered canon c i /\ ~ acyclic_cone canon c i.
  Proof.
    destruct ru_cases as [(x & _ & _ & Hn & ->)|(Hr & objs & dts & _ & _ & _ & [(e & -> & _ & Hc)|(sv & -> & _ & Hc)])].
    - split; [intros [? [=]]|intros [? _]; contradiction].
    - split; eauto.
    - split; [intros [? [=]]|intros [_ ?]; contradiction].
  Qed.
  Lemma ru_reject_kind e : recurse_update canon c order so i threads = RuRejected e ->
    match e with NoOneNonDependableTarget | CircularDependencyError _ | ConnectivityError _ => True | _ => False end.
  Proof.
    destruct ru_cases as [(x & _ & _ & Hn & ->)|(Hr & objs & dts & Hnd & Ho & Hd & [(e' & -> & E & Hc)|(sv & -> & _ & Hc)])];
      [discriminate| |discriminate]. intros [= <-].
    pose proof (verdict_no_other so Hso dts th e' E) as V. destruct e'; auto.
    assert (Hk : ~ all_known dts) by (apply (verdict_unknown so Hso dts th); eauto).
    apply Hk. eapply dts_known; eauto.
  Qed.
  Lemma ru_runs :
    (exists objs sv, recurse_update canon c order so i threads = RuExec objs sv) <->
    cone_registered canon c i /\ acyclic_cone canon c i.
  Proof.
    destruct ru_cases as [(x & _ & _ & Hn & ->)|(Hr & objs & dts & _ & _ & _ & [(e & -> & _ & Hc)|(sv & -> & _ & Hc)])].
    - split; [intros (? & ? & [=])|intros [? _]; contradiction].
    - split; [intros (? & ? & [=])|intros [_ ?]; contradiction].
    - split; eauto.
  Qed.
End Ru.

(** ** C22: recording the calls of the update methods. *)
Section C22.
  Variable canon : string -> string.
  Variable c : core.
  Hypothesis Hw : wf_core c.
  Hypothesis Hco : coherent canon c.
  Hypothesis Hnp : no_pair_keys c.
  Variable i : nat.
  Hypothesis Hi : resolves canon c (t_name (obj c i)) i.
  Variable order : list nat -> list nat.
  Hypothesis Hord : forall l, Permutation l (order l).
  Variable so : set_order.
  Hypothesis Hso : fair_order so.
  Variables (threads : option Z) (th : Z).
  Hypothesis Hth : ru_threads c threads = Some th.
  Variables (objs : list nat) (sv : solver).
  Hypothesis Hru : recurse_update canon c order so i threads = RuExec objs sv.
  (** All targets of the cone are updatable and have been evaluated. *)
  Hypothesis Hupd : forall j, in_cone canon c i j ->
    t_class (obj c j) = Updatable /\ t_need (obj c j) <> None.

  Context {W : Type}.
  Variable upd : nat -> W -> tres -> W -> Prop.
  Notation run := (task_behaviour c (recording upd) objs).

  Lemma ru_exec_facts : exists dts, NoDup objs /\ (forall j, In j objs <-> in_cone canon c i j) /\
     mapM (ru_dtarget canon c) objs = Ok dts /\ solver_init so dts (Some th) = inr sv /\
     List.length dts = List.length objs /\
     forall a b, depends_on dts a b <->
       exists x y, nth_error objs a = Some x /\ nth_error objs b = Some y /\ obj_dep canon c x y.
  Proof.
    destruct (ru_cases canon c Hw Hco Hnp i Hi order Hord so Hso threads th Hth)
      as [(x & _ & _ & Hn & E)|(Hr & o & dts & Hnd & Ho & Hd & [(e & E & _ & Hc)|(s & E & Hs & Hc)])];
      rewrite Hru in E; try discriminate.
    injection E as <- <-. exists dts. split; [exact Hnd|]. split; [exact Ho|]. split; [exact Hd|].
    split; [exact Hs|]. split; [eapply dts_length; eauto|].
    intros a b. eapply depends_on_objs; eauto.
  Qed.

  (** Which of the ended calls were calls of an update method. *)
  Definition needy (k : nat) : bool :=
    match t_need (obj c (nth k objs (List.length (c_heap c)))) with Some true => true | _ => false end.
  Definition at_obj (k : nat) : nat := nth k objs (List.length (c_heap c)).

  Lemma calls_of_path l w0 w : (forall k r, In (k, r) l -> k < List.length objs) ->
    task_path run l w0 w ->
    fst w = fst w0 ++ map at_obj (filter needy (map fst l)) /\
    forall k r, In (k, r) l -> needy k = false -> r = RNotFalse.
  Proof.
    intros Hl H. destruct ru_exec_facts as (dts & _ & Ho & _).
    induction H as [w0|l k r w0 w1 w2 Hp IH Hr].
    - simpl. rewrite app_nil_r. split; [reflexivity|intros k r []].
    - destruct IH as [IH1 IH2]; [intros k' r' Hk; eapply Hl; apply in_app_iff; left; exact Hk|].
      assert (Hk : k < List.length objs) by (eapply Hl; apply in_app_iff; right; left; reflexivity).
      assert (Hc : in_cone canon c i (at_obj k)) by (apply Ho; apply nth_In; exact Hk).
      destruct (Hupd _ Hc) as [Hcl Hne].
      unfold task_behaviour in Hr. fold (at_obj k) in Hr. rewrite Hcl in Hr.
      rewrite map_app, filter_app, map_app. simpl. unfold needy at 2. fold (at_obj k).
      destruct (t_need (obj c (at_obj k))) as [[|]|] eqn:En; [| |now elim Hne].
      + destruct Hr as [Hr _]. rewrite Hr, IH1. simpl. rewrite app_assoc. split; [reflexivity|].
        intros k' r' Hk' Hf. apply in_app_iff in Hk'. destruct Hk' as [Hk'|[[= <- <-]|[]]]; [eauto|].
        unfold needy in Hf. fold (at_obj k) in Hf. rewrite En in Hf. discriminate.
      + destruct Hr as [-> ->]. simpl. rewrite app_nil_r. split; [exact IH1|].
        intros k' r' Hk' Hf. apply in_app_iff in Hk'. destruct Hk' as [Hk'|[[= <- <-]|[]]]; eauto.
  Qed.

  Lemma filter_split {A} (p : A -> bool) l a x b : filter p l = a ++ x :: b ->
    exists l1 l2, l = l1 ++ x :: l2 /\ filter p l1 = a /\ filter p l2 = b.
  Proof.
    revert a; induction l as [|y l IH]; intros a; simpl; [destruct a; discriminate|].
    destruct (p y) eqn:E.
    - destruct a as [|z a]; simpl; intros [= -> H].
      + exists [], l. auto.
      + destruct (IH a H) as (l1 & l2 & -> & H1 & H2). exists (z :: l1), l2. simpl. rewrite E, H1. auto.
    - intros H. destruct (IH a H) as (l1 & l2 & -> & H1 & H2). exists (y :: l1), l2. simpl. rewrite E. auto.
  Qed.

  Lemma map_split {A B} (f : A -> B) l a x b : map f l = a ++ x :: b ->
    exists l1 y l2, l = l1 ++ y :: l2 /\ map f l1 = a /\ f y = x /\ map f l2 = b.
  Proof.
    revert a; induction l as [|y l IH]; intros a; simpl; [destruct a; discriminate|].
    destruct a as [|z a]; simpl; intros [= E H].
    - exists [], y, l. auto.
    - destruct (IH a H) as (l1 & u & l2 & -> & H1 & H2 & H3). exists (y :: l1), u, l2. simpl. rewrite H1, E. auto.
  Qed.

  Lemma updates_exact w0 s : exec_reaches sv run ([], w0) s ->
    let calls := fst (s_world s) in
    NoDup calls /\
    (forall j, In j calls -> in_cone canon c i j /\ t_need (obj c j) = Some true) /\
    (forall l1 j l2, calls = l1 ++ j :: l2 -> forall d, obj_dep canon c j d ->
       t_need (obj c d) = Some true -> In d l1) /\
    (s_main s = MReturned -> exec_result (List.length objs) s = Ok true ->
       forall j, in_cone canon c i j -> t_need (obj c j) = Some true -> In j calls).
  Proof.
    intros H calls. destruct ru_exec_facts as (dts & Hnd & Ho & Hd & Hs & Hlen & Hdep).
    destruct (exec_path run so dts th sv Hso Hs ([], w0) s H) as (P & N & B & D).
    assert (B' : forall k r, In (k, r) (ended (s_log s)) -> k < List.length objs).
    { intros k r Hk. rewrite <- Hlen. eapply B; eauto. }
    destruct (calls_of_path _ _ _ B' P) as [C1 C2]. simpl in C1. fold calls in C1.
    assert (Hinj : forall k k', k < List.length objs -> k' < List.length objs -> at_obj k = at_obj k' -> k = k').
    { intros k k' Hk Hk'. unfold at_obj. now apply (proj1 (NoDup_nth objs (List.length (c_heap c))) Hnd). }
    assert (Hcalls : forall j, In j calls <-> exists k, In k (map fst (ended (s_log s))) /\ needy k = true /\ at_obj k = j).
    { intros j. rewrite C1, in_map_iff. split.
      - intros (k & E & Hk). apply filter_In in Hk. exists k. tauto.
      - intros (k & H1 & H2 & H3). exists k. rewrite filter_In. tauto. }
    assert (Hneedy : forall k, needy k = true <-> t_need (obj c (at_obj k)) = Some true).
    { intros k. unfold needy. fold (at_obj k). destruct (t_need (obj c (at_obj k))) as [[|]|]; intuition congruence. }
    split; [|split; [|split]].
    - rewrite C1.
      assert (Hb : forall k, In k (map fst (ended (s_log s))) -> k < List.length objs).
      { intros k Hk. apply in_map_iff in Hk. destruct Hk as ([k' r] & <- & Hk). eauto. }
      clear - N Hb Hinj. induction (map fst (ended (s_log s))) as [|k l IH]; simpl; [constructor|].
      inversion N as [|? ? N1 N2]; subst. assert (IH' := IH N2 ltac:(intros; apply Hb; now right)).
      destruct (needy k); simpl; [|exact IH']. constructor; [|exact IH'].
      intros Hin. apply in_map_iff in Hin. destruct Hin as (k' & E & Hk'). apply filter_In in Hk'.
      apply N1. rewrite <- (Hinj k' k); [tauto|apply Hb; right; tauto|apply Hb; now left|exact E].
    - intros j Hj. apply Hcalls in Hj. destruct Hj as (k & Hk & Hn & <-). split; [|now apply Hneedy].
      apply Ho, nth_In. apply in_map_iff in Hk. destruct Hk as ([k' r] & <- & Hk). eauto.
    - intros l1 j l2 E d Hjd Hnd'. rewrite C1 in E.
      destruct (map_split _ _ _ _ _ E) as (m1 & k & m2 & E2 & <- & <- & _).
      destruct (filter_split _ _ _ _ _ E2) as (p1 & p2 & E3 & <- & _).
      destruct (map_split _ _ _ _ _ E3) as (q1 & [k0 r] & q2 & E4 & <- & E5 & _). simpl in E5. subst k0.
      assert (Hk : k < List.length objs) by (apply (B' k r); rewrite E4; apply in_app_iff; right; now left).
      assert (Hdin : In d objs).
      { apply Ho. eapply rt_trans; [apply Ho; apply nth_In; exact Hk|apply rt_step; exact Hjd]. }
      apply (In_nth _ _ (List.length (c_heap c))) in Hdin. destruct Hdin as (kd & Hkd & Ekd).
      assert (Hdo : depends_on dts k kd).
      { apply Hdep. exists (at_obj k), d. split; [now apply nth_error_nth'|]. split; [|exact Hjd].
        rewrite <- Ekd. now apply nth_error_nth'. }
      specialize (D q1 k r q2 E4 kd Hdo). apply in_map_iff. exists kd. split; [exact Ekd|].
      apply filter_In. split; [apply in_map_iff; now exists (kd, RNotFalse)|].
      apply Hneedy. unfold at_obj. now rewrite Ekd.
    - intros Hm Hr j Hj Hn. apply Hcalls.
      apply Ho in Hj. apply (In_nth _ _ (List.length (c_heap c))) in Hj. destruct Hj as (k & Hk & Ek).
      exists k. split; [|split; [apply Hneedy; unfold at_obj; now rewrite Ek|exact Ek]].
      apply in_map_iff. exists (k, RNotFalse). split; [reflexivity|]. apply ended_In. left.
      apply (true_all_ran run so dts th sv Hso Hs s); [now exists ([], w0)|exact Hm|now rewrite Hlen|lia].
  Qed.

  (** The update method of a target is entered only after those of its dependencies have
      returned. *)
  Lemma updates_start_order w0 s : exec_reaches sv run ([], w0) s ->
    forall l1 k l2, s_log s = l1 ++ EStart k :: l2 -> forall j d, nth_error objs k = Some j ->
    obj_dep canon c j d -> exists kd, nth_error objs kd = Some d /\ In (EFinish kd RNotFalse) l1.
  Proof.
    intros H l1 k l2 E j d Hk Hjd. destruct ru_exec_facts as (dts & Hnd & Ho & Hd & Hs & Hlen & Hdep).
    assert (Hdin : In d objs).
    { apply Ho. eapply rt_trans; [apply Ho; eapply nth_error_In; exact Hk|apply rt_step; exact Hjd]. }
    apply In_nth_error in Hdin. destruct Hdin as [kd Hkd]. exists kd. split; [exact Hkd|].
    eapply (deps_first run so dts th sv Hso Hs s); [now exists ([], w0)|exact E|].
    apply Hdep. eauto.
  Qed.
End C22.
