(** Lemmas about builds (licant/make.py on top of recurse_update). *)
From Coq Require Import Permutation.
From Verif Require Import PyBase PyPath SolverModel SpecGraph InvokerModel SpecTrace InvokerProofs InvokerInv
  InvokerThms InvokerPath CoreModel SpecCore CoreProofs NeedProofs RuProofs CoreThms MakeModel MakeEval SpecMake.

(** ** Evaluation *)
Section Evaluation.
  Variable canon : string -> string.
  Variable update_if : nat -> res bool.

  Lemma eval_one_asks fuel c i c' : eval_one canon update_if fuel c i = Ok c' ->
    t_class (obj c i) = Updatable -> t_need (obj c i) = None -> exists b, update_if i = Ok b.
  Proof.
    unfold eval_one. intros H Hc Hn. rewrite Hc in H.
    destruct (rec_need canon update_if fuel c i) as [[b c1]| |] eqn:E; simpl in H; try discriminate.
    destruct fuel as [|fuel]; simpl in E; [discriminate|]. rewrite Hc, Hn in E.
    destruct (update_if i); simpl in E; [eauto|discriminate|discriminate].
  Qed.

  Lemma rec_need_frame : forall fuel c i b c', rec_need canon update_if fuel c i = Ok (b, c') ->
    same_static c c' /\ forall k, t_need (obj c' k) = t_need (obj c k).
  Proof.
    induction fuel as [|fuel IH]; intros c i b c'; [discriminate|]. simpl.
    destruct (t_class (obj c i)); [discriminate|].
    destruct (t_need (obj c i)) as [b0|].
    { intros [= <- <-]. split; [apply static_refl|auto]. }
    destruct (update_if i) as [[|]| |]; simpl; try discriminate.
    { intros [= <- <-]. split; [apply static_refl|auto]. }
    destruct (get_deplist canon c i) as [[l c1]| |] eqn:Eg; simpl; try discriminate.
    assert (G : same_static c c1 /\ forall k, t_need (obj c1 k) = t_need (obj c k)).
    { unfold get_deplist in Eg. destruct (t_cached (obj c i)).
      - injection Eg as <- <-. split; [apply static_refl|auto].
      - destruct (mapM _ _); simpl in Eg; try discriminate. injection Eg as <- <-.
        split; [apply static_set_cached|apply need_set_cached]. }
    match goal with |- ?L l c1 = _ -> _ => set (loop := L) end.
    revert c1 Eg G. intros c1 _. revert c1.
    induction l as [|j l IHl]; intros c1 G H; simpl in H.
    - injection H as <- <-. exact G.
    - destruct (rec_need canon update_if fuel c1 j) as [[b1 c2]| |] eqn:Er; simpl in H; try discriminate.
      destruct (IH _ _ _ _ Er) as [S N]. destruct G as [GS GN].
      assert (G2 : same_static c c2 /\ forall k, t_need (obj c2 k) = t_need (obj c k)).
      { split; [exact (static_trans _ _ _ GS S)|]. intros k. now rewrite N, GN. }
      destruct b1; [injection H as <- <-; exact G2|]. now apply IHl with c2.
  Qed.

  Lemma eval_all_asks fuel ids : forall c c', eval_all canon update_if fuel ids c = Ok c' ->
    forall i, In i ids -> t_class (obj c i) = Updatable -> t_need (obj c i) = None ->
    exists b, update_if i = Ok b.
  Proof.
    induction ids as [|x ids IH]; intros c c' H i Hi Hc Hn; [destruct Hi|]. simpl in H.
    destruct (eval_one canon update_if fuel c x) as [c1| |] eqn:E; simpl in H; try discriminate.
    destruct (Nat.eq_dec x i) as [->|n]; [now apply (eval_one_asks fuel c i c1)|].
    destruct Hi as [Hi|Hi]; [contradiction|].
    assert (F : t_class (obj c1 i) = t_class (obj c i) /\ t_need (obj c1 i) = t_need (obj c i)).
    { unfold eval_one in E. destruct (t_class (obj c x)); [injection E as <-; auto|].
      destruct (rec_need canon update_if fuel c x) as [[b c2]| |] eqn:Er; simpl in E; try discriminate.
      injection E as <-. apply rec_need_frame in Er. destruct Er as [S N].
      pose proof (static_trans _ _ _ S (static_set_need c2 x (Some b))) as (_ & _ & _ & S2).
      destruct (S2 i) as (_ & _ & <-). split; [reflexivity|].
      rewrite need_set_need. apply Nat.eqb_neq in n. rewrite Nat.eqb_sym in n. rewrite n. apply N. }
    destruct F as [F1 F2]. apply (IH c1 c' H i Hi); congruence.
  Qed.

  Lemma evaluation_asks fuel c c' : wf_core c -> unregistered_idle c -> plain_idle c ->
    update_update_needity canon update_if fuel c = Ok c' ->
    forall nm i, In (nm, i) (c_targets c) -> t_class (obj c i) = Updatable -> exists b, update_if i = Ok b.
  Proof.
    intros Hw Hu Hp He nm i Hi Hc. unfold update_update_needity in He.
    destruct (nullify_fold (dvalues (c_targets c)) c) as (S & _). fold (nullify c) in S.
    apply (eval_all_asks _ _ _ _ He).
    - apply values_In. exists nm. destruct S as (<- & _). exact Hi.
    - destruct S as (_ & _ & _ & S). destruct (S i) as (_ & _ & <-). exact Hc.
    - now apply nullified.
  Qed.
End Evaluation.

(** ** The registry of a process *)
Lemma no_pair_static2 c c' : c_lazy c' = c_lazy c -> no_pair_keys c -> no_pair_keys c'.
Proof. unfold no_pair_keys. now intros ->. Qed.

Section Lazy.
  Variable canon : string -> string.
  Variable kind : nat -> mkind.
  Variable other_if : nat -> res bool.

  Lemma lazy_deplist c i l c' : get_deplist canon c i = Ok (l, c') -> c_lazy c' = c_lazy c.
  Proof.
    unfold get_deplist. destruct (t_cached (obj c i)); [intros [= <- <-]; reflexivity|].
    destruct (mapM _ _); simpl; intros [= <- <-]. reflexivity.
  Qed.
  Lemma lazy_file_if fs force s i b s' : file_update_if canon kind fs force s i = Ok (b, s') ->
    c_lazy (fst s') = c_lazy (fst s).
  Proof.
    unfold file_update_if. destruct s as [c ca]. destruct force; [intros [= <- <-]; reflexivity|].
    destruct (get_info fs ca _) as [x ca1]. destruct (negb _); [intros [= <- <-]; reflexivity|].
    destruct (get_deplist canon c i) as [[l c1]| |] eqn:E; simpl; try discriminate.
    destruct (max_mtime _ _ _ _ _ _ _) as [[m ca2]| |]; simpl; try discriminate.
    destruct (get_info fs ca2 _) as [y ca3]. intros [= <- <-]. simpl. eapply lazy_deplist; eauto.
  Qed.
  Lemma lazy_update_if fs s i b s' : mk_update_if canon kind other_if fs s i = Ok (b, s') ->
    c_lazy (fst s') = c_lazy (fst s).
  Proof.
    unfold mk_update_if. destruct (kind i) as [f bb| | | |].
    - apply lazy_file_if.
    - apply lazy_file_if.
    - destruct (get_info fs _ _). intros [= <- <-]. reflexivity.
    - intros [= <- <-]. reflexivity.
    - destruct (other_if i); simpl; [intros [= <- <-]; reflexivity|discriminate|discriminate].
  Qed.
  Lemma lazy_rec_need fs : forall fuel s i b s', mrec_need canon kind other_if fs fuel s i = Ok (b, s') ->
    c_lazy (fst s') = c_lazy (fst s).
  Proof.
    induction fuel as [|fuel IH]; intros s i b s'; [discriminate|]. simpl.
    destruct (t_class (obj (fst s) i)); [discriminate|].
    destruct (t_need (obj (fst s) i)); [intros [= <- <-]; reflexivity|].
    destruct (mk_update_if canon kind other_if fs s i) as [[u s1]| |] eqn:Eu; simpl; try discriminate.
    apply lazy_update_if in Eu. destruct u; [intros [= <- <-]; exact Eu|].
    destruct (get_deplist canon (fst s1) i) as [[l c2]| |] eqn:Ed; simpl; try discriminate.
    apply lazy_deplist in Ed. rewrite <- Eu, <- Ed.
    match goal with |- ?L l (c2, snd s1) = _ -> _ => set (loop := L) end.
    change c2 with (fst (c2, snd s1)) at 2. generalize (c2, snd s1). clear - IH.
    induction l as [|j l IHl]; intros s0 H; simpl in H; [injection H as <- <-; reflexivity|].
    destruct (mrec_need canon kind other_if fs fuel s0 j) as [[b1 s2]| |] eqn:Er; simpl in H; try discriminate.
    apply IH in Er. destruct b1; [injection H as <- <-; exact Er|]. apply IHl in H. now rewrite H.
  Qed.
  Lemma lazy_evaluate fs fuel s s' : mevaluate canon kind other_if fs fuel s = Ok s' ->
    c_lazy (fst s') = c_lazy (fst s).
  Proof.
    unfold mevaluate.
    assert (N : c_lazy (nullify (fst s)) = c_lazy (fst s)).
    { unfold nullify. generalize (dvalues (c_targets (fst s))). intros l. generalize (fst s).
      induction l as [|i l IH]; intros c; [reflexivity|]. simpl. rewrite IH. unfold nullify_one.
      destruct (t_class (obj c i)); reflexivity. }
    rewrite <- N. change (nullify (fst s)) with (fst (nullify (fst s), snd s)) at 3.
    generalize (nullify (fst s), snd s). generalize (dvalues (c_targets (nullify (fst s)))).
    clear. induction l as [|i l IH]; intros s0; simpl; [intros [= <-]; reflexivity|].
    destruct (meval_one canon kind other_if fs fuel s0 i) as [s1| |] eqn:E; simpl; try discriminate.
    intros H. apply IH in H. rewrite H. unfold meval_one in E.
    destruct (t_class (obj (fst s0) i)); [injection E as <-; reflexivity|].
    destruct (mrec_need canon kind other_if fs fuel s0 i) as [[b s2]| |] eqn:Er; simpl in E; try discriminate.
    injection E as <-. simpl. now apply lazy_rec_need in Er.
  Qed.

  Definition ready (c : core) : Prop :=
    wf_core c /\ caches_fresh canon c /\ unregistered_idle c /\ plain_idle c /\ no_pair_keys c.

  Lemma mevaluate_right fs fuel c ca c1 ca1 : ready c ->
    mevaluate canon kind other_if fs fuel (c, ca) = Ok (c1, ca1) ->
    ready c1 /\ same_static c c1 /\ (forall p, view fs ca1 p = view fs ca p) /\
    forall nm i, In (nm, i) (c_targets c) -> t_class (obj c i) = Updatable ->
      (exists b, puif canon kind other_if (view fs ca) c i = Ok b) /\
      exists b, t_need (obj c1 i) = Some b /\
        (b = true <-> out_of_date_below canon (puif canon kind other_if (view fs ca) c) c i).
  Proof.
    intros (Hw & Hf & Hu & Hp & Hn) He.
    pose proof (mevaluate_sim canon kind other_if fs fuel c ca Hf) as M.
    destruct (update_update_needity canon (puif canon kind other_if (view fs ca) c) fuel c) as [c'| |] eqn:E;
      [|rewrite M in He; discriminate|rewrite M in He; discriminate].
    destruct M as (c2 & ca2 & E2 & S & N & F & V). rewrite He in E2. injection E2 as <- <-.
    destruct (evaluation_right canon _ fuel c c' Hw Hf Hu Hp E) as (S' & F' & _ & N').
    destruct (evaluation_idle canon _ fuel c c' Hw Hf Hu Hp E) as [U' P'].
    pose proof (static_trans _ _ _ S' S) as S1.
    split; [|split; [exact S1|split; [exact V|]]].
    - split; [now apply (static_wf c)|]. split; [exact F|]. split; [|split].
      + intros k Hk. rewrite N. apply U'. intros nm. destruct S as (-> & _). apply Hk.
      + intros k Hk. rewrite N. apply P'. destruct S as (_ & _ & _ & S). destruct (S k) as (_ & _ & ->). exact Hk.
      + apply (no_pair_static2 c); [|exact Hn]. now apply lazy_evaluate in He.
    - intros nm i Hi Hc. split; [exact (evaluation_asks canon _ fuel c c' Hw Hu Hp E nm i Hi Hc)|].
      destruct (N' nm i Hi Hc) as (b & Hb & Eb). exists b. rewrite N. auto.
  Qed.

  Lemma current_view c i fs ca : cache_current canon kind c i fs ca ->
    forall j, in_cone canon c i j -> on_disk (kind j) -> view fs ca (t_name (obj c j)) = stat fs (t_name (obj c j)).
  Proof.
    intros H j Hj Hk. unfold view. destruct (sget ca (t_name (obj c j))) as [x|] eqn:E; [|reflexivity].
    now apply H.
  Qed.

  Lemma pmtime_on c v v' i : wf_core c -> (forall j, in_cone canon c i j -> on_disk (kind j) -> v (t_name (obj c j)) = v' (t_name (obj c j))) ->
    forall fuel j, in_cone canon c i j -> pmtime canon kind v fuel c j = pmtime canon kind v' fuel c j.
  Proof.
    intros Hw Hv. induction fuel as [|fuel IH]; intros j Hj; [reflexivity|]. simpl.
    destruct (kind j) eqn:Ek; try reflexivity; try (rewrite Hv; [reflexivity|exact Hj|now rewrite Ek]).
    assert (G : forall d k, In d (t_deps (obj c j)) -> core_get canon c d = Ok k -> in_cone canon c i k).
    { intros d k Hd Hk. eapply rt_trans; [exact Hj|]. apply rt_step. exists d. split; [exact Hd|].
      now apply get_resolves. }
    generalize 0 at 1 2. revert G. generalize (t_deps (obj c j)).
    induction l as [|d ds IHd]; intros G m; [reflexivity|].
    destruct (core_get canon c d) as [k| |] eqn:E; simpl; try reflexivity.
    rewrite (IH k (G d k (or_introl eq_refl) E)).
    destruct (pmtime canon kind v' fuel c k); simpl; try reflexivity. apply IHd.
    intros d' k' Hd'. apply G. now right.
  Qed.
  Lemma puif_on c v v' i : wf_core c ->
    (forall j, in_cone canon c i j -> on_disk (kind j) -> v (t_name (obj c j)) = v' (t_name (obj c j))) ->
    forall j, in_cone canon c i j -> puif canon kind other_if v c j = puif canon kind other_if v' c j.
  Proof.
    intros Hw Hv j Hj.
    assert (M : forall l m, (forall k, In k l -> in_cone canon c i k) ->
              pmax canon kind v c l m = pmax canon kind v' c l m).
    { induction l as [|k l IH]; intros m Hl; [reflexivity|]. cbn [pmax].
      rewrite (pmtime_on c v v' i Hw Hv _ k (Hl k (or_introl eq_refl))).
      destruct (pmtime canon kind v' (mt_fuel c) c k); cbn [bind]; try reflexivity.
      apply IH. intros k' Hk'. apply Hl. now right. }
    unfold puif, pfile_if.
    destruct (kind j) as [force b| | | |] eqn:Ek; try reflexivity;
      (rewrite (Hv j Hj); [|now rewrite Ek]); try reflexivity;
      destruct (mapM (core_get canon c) (t_deps (obj c j))) as [l| |] eqn:E; simpl; try reflexivity;
      rewrite (M l 0); try reflexivity; intros k Hk; (eapply rt_trans; [exact Hj|]); apply rt_step;
      now apply (deplist_dep canon c j l Hw E).
  Qed.
End Lazy.

(** ** An execution as a sequence of target updates *)
Lemma asked_ready canon c a b l c' : depends_as_set canon c a b = Ok (l, c') -> ready canon c -> ready canon c'.
Proof.
  intros E (H1 & H2 & H3 & H4 & H5). pose proof (depends_shape canon c a b l c' E) as (E1 & E2 & _).
  assert (Eo : forall i, obj c' i = obj c i) by (intros i; unfold obj; now rewrite E2).
  assert (N : no_pair_keys c').
  { pose proof (no_pair_step canon c (OpDepends a b) H5) as N. cbn [cstep] in N. now rewrite E in N. }
  split; [unfold wf_core in *; now rewrite E1, E2|]. split; [|split; [|split; [|exact N]]].
  - intros i k. rewrite Eo. intros H. specialize (H2 i k H). rewrite <- H2. apply mapM_ext. intros x _. unfold core_get. now rewrite E1.
  - intros i. rewrite E1, Eo. apply H3.
  - intros i. rewrite Eo. apply H4.
Qed.
Lemma process_ready canon kind c : process_core canon kind c -> ready canon c.
Proof.
  induction 1 as [ops th|c oi ca fs fuel c' ca' _ IH He|c a b l c' _ IH Ha].
  - destruct (session_ok canon ops th _ (ses_registered canon ops th)) as (H1 & H2 & H3 & H4 & _).
    split; [exact H1|]. split; [exact H2|]. split; [exact H3|]. split; [exact H4|].
    apply no_pair_run. intros k b l [].
  - now destruct (mevaluate_right canon kind oi fs fuel c ca c' ca' IH He).
  - eapply asked_ready; eauto.
Qed.

Section Exec.
  Variable canon : string -> string.
  Variable kind : nat -> mkind.
  Variable other_if : nat -> res bool.
  Variable partial : bool.

  (** [update_if_need] of target [j]. *)
  Definition obj_task (c : core) (j : nat) (w : world) (r : tres) (w' : world) : Prop :=
    match kind j with
    | MDir => mk_dir c j w r w'
    | _ => match t_class (obj c j) with
           | Plain => r = RExn /\ w' = w
           | Updatable =>
               match t_need (obj c j) with
               | None => r = RExn /\ w' = w
               | Some true => mk_update canon kind partial c j w r w'
               | Some false => r = RNotFalse /\ w' = w
               end
           end
    end.

  Lemma mk_task_obj c objs k w r w' : mk_task canon kind partial c objs k w r w' ->
    obj_task c (nth k objs (List.length (c_heap c))) w r w'.
  Proof.
    unfold mk_task, obj_task, task_behaviour.
    destruct (kind (nth k objs (List.length (c_heap c)))); auto.
  Qed.

  Definition deps_before (c : core) (l : list (nat * tres)) : Prop :=
    forall l1 j r l2, l = l1 ++ (j, r) :: l2 -> forall d, obj_dep canon c j d -> In (d, RNotFalse) l1.

  Lemma task_path_map {W} (run run' : nat -> W -> tres -> W -> Prop) (f : nat -> nat) l w w' :
    (forall k w r w', run k w r w' -> run' (f k) w r w') ->
    task_path run l w w' -> task_path run' (map (fun x => (f (fst x), snd x)) l) w w'.
  Proof.
    intros H. induction 1 as [w|l t r w w1 w2 _ IH Hr]; [constructor|].
    rewrite map_app. simpl. econstructor; eauto.
  Qed.

  Lemma build_facts_log c i fs now ca c1 objs s : build_of canon kind other_if partial c i fs now ca c1 objs s ->
    ready canon c /\ ready canon c1 /\ same_static c c1 /\ coherent canon c /\
    (exists nm, In (nm, i) (c_targets c)) /\
    (forall j, in_cone canon c i j -> t_class (obj c j) = Updatable ->
       (exists b, puif canon kind other_if (stat fs) c j = Ok b) /\
       exists b, t_need (obj c1 j) = Some b /\
         (b = true <-> out_of_date_below canon (puif canon kind other_if (stat fs) c) c j)) /\
    exists ca1 l, (forall j, in_cone canon c i j -> on_disk (kind j) -> view fs ca1 (t_name (obj c j)) = stat fs (t_name (obj c j))) /\
      task_path (obj_task c1) l (WD fs ca1 now now []) (s_world s) /\
      NoDup (map fst l) /\ (forall j r, In (j, r) l -> in_cone canon c i j) /\
      deps_before c l /\
      (succeeded objs s -> forall j, in_cone canon c i j -> In (j, RNotFalse) l) /\
      (forall k, In (EStart k) (s_log s) ->
         in_cone canon c i (nth k objs (List.length (c_heap c1))) /\
         forall d, obj_dep canon c (nth k objs (List.length (c_heap c1))) d -> In (d, RNotFalse) l) /\
      l = map (fun x => (nth (fst x) objs (List.length (c_heap c1)), snd x)) (ended (s_log s)) /\
      (forall p, view fs ca1 p = view fs ca p).
  Proof.
    intros (Hpc & Hco & [nm Hi] & Hcur & fuel & ca1 & order & so & threads & th & sv & He & Hord & Hso & Hth & Hru & Hex).
    pose proof (process_ready canon kind c Hpc) as Hr.
    destruct (mevaluate_right canon kind other_if fs fuel c ca c1 ca1 Hr He) as (Hr1 & S & V & N).
    pose proof (current_view canon kind c i fs ca Hcur) as Hv.
    pose proof (puif_on canon kind other_if c _ _ i (proj1 Hr) Hv) as Hpu.
    split; [exact Hr|]. split; [exact Hr1|]. split; [exact S|]. split; [exact Hco|]. split; [eauto|]. split.
    - intros j Hj Hcl.
      assert (Hreg : exists nm', In (nm', j) (c_targets c)).
      { apply Operators_Properties.clos_rt_rtn1 in Hj. destruct Hj as [|y z (d & _ & [Hd|[_ Hd]]) _]; eauto. }
      destruct Hreg as [nm' Hreg]. destruct (N nm' j Hreg Hcl) as [[b Hb] (b' & Hb' & E)].
      rewrite (Hpu j Hj) in Hb. split; [eauto|]. exists b'. split; [exact Hb'|].
      rewrite E. unfold out_of_date_below.
      assert (Hjk : forall k, in_cone canon c j k -> in_cone canon c i k)
        by (intros k Hk; eapply rt_trans; [exact Hj|exact Hk]).
      split; intros (k & Hk & Hu); exists k; (split; [exact Hk|]).
      + now rewrite (Hpu k (Hjk k Hk)) in Hu.
      + now rewrite (Hpu k (Hjk k Hk)).
    - destruct Hr1 as (Hw1 & _ & _ & _ & Hnp1).
      assert (Hco1 : coherent canon c1) by (eapply coherent_static; eauto).
      assert (Hres : resolves canon c1 (t_name (obj c1 i)) i).
      { apply (Hco1 nm). destruct S as (<- & _). exact Hi. }
      destruct (ru_exec_facts canon c1 Hw1 Hco1 Hnp1 i Hres order Hord so Hso threads th Hth objs sv Hru)
        as (dts & Hnd & Ho & Hd & Hs & Hlen & Hdep).
      destruct (exec_path _ so dts th sv Hso Hs _ s Hex) as (P & Nd & B & D).
      set (at_ := fun k => nth k objs (List.length (c_heap c1))).
      exists ca1, (map (fun x => (at_ (fst x), snd x)) (ended (s_log s))).
      assert (Hb : forall k r, In (k, r) (ended (s_log s)) -> k < List.length objs).
      { intros k r Hk. rewrite <- Hlen. eapply B; eauto. }
      assert (Hcone : forall k, k < List.length objs -> in_cone canon c i (at_ k)).
      { intros k Hk. apply (static_cone canon c1); [now apply static_sym|]. apply Ho. now apply nth_In. }
      assert (Hat : forall j, in_cone canon c i j -> exists k, k < List.length objs /\ at_ k = j).
      { intros j Hj. apply (static_cone canon c c1) in Hj; [|exact S]. apply Ho in Hj.
        apply (In_nth _ _ (List.length (c_heap c1))) in Hj. exact Hj. }
      assert (Hinj : forall k k', k < List.length objs -> k' < List.length objs -> at_ k = at_ k' -> k = k').
      { intros k k' Hk Hk'. now apply (proj1 (NoDup_nth objs (List.length (c_heap c1))) Hnd). }
      split; [intros j Hj Hk; now rewrite V, Hv|]. split; [|split; [|split; [|split; [|split; [|split; [|split; [reflexivity|exact V]]]]]]].
      + apply (task_path_map (mk_task canon kind partial c1 objs) (obj_task c1) at_); [|exact P].
        intros k w r w'. apply mk_task_obj.
      + rewrite map_map. simpl.
        assert (Hb' : forall k, In k (map fst (ended (s_log s))) -> k < List.length objs).
        { intros k Hk. apply in_map_iff in Hk. destruct Hk as ([k' r] & <- & Hk). eauto. }
        rewrite <- (map_map fst at_). clear - Nd Hb' Hinj.
        induction (map fst (ended (s_log s))) as [|k l IH]; simpl; [constructor|].
        inversion Nd as [|? ? N1 N2]; subst. constructor; [|apply IH; auto; intros; apply Hb'; now right].
        intros Hin. apply in_map_iff in Hin. destruct Hin as (k' & E & Hk').
        apply N1. rewrite <- (Hinj k' k); auto; apply Hb'; simpl; auto.
      + intros j r Hj. apply in_map_iff in Hj. destruct Hj as ([k r'] & [= <- <-] & Hk). eauto.
      + intros l1 j r l2 E d Hjd.
        destruct (map_split _ _ _ _ _ E) as (m1 & [k r'] & m2 & E2 & <- & [= <- <-] & _).
        assert (Hk : k < List.length objs) by (apply (Hb k r'); rewrite E2; apply in_app_iff; right; now left).
        destruct (Hat d) as (kd & Hkd & Ekd).
        { eapply rt_trans; [apply Hcone; exact Hk|apply rt_step; exact Hjd]. }
        assert (Hdo : depends_on dts k kd).
        { apply Hdep. exists (at_ k), d. split; [now apply nth_error_nth'|]. split.
          - rewrite <- Ekd. now apply nth_error_nth'.
          - now apply (static_obj_dep canon c c1). }
        apply in_map_iff. exists (kd, RNotFalse). simpl. rewrite Ekd. split; [reflexivity|].
        eapply D; eauto.
      + intros [Hm Hres'] j Hj. destruct (Hat j Hj) as (k & Hk & <-).
        apply in_map_iff. exists (k, RNotFalse). split; [reflexivity|]. apply ended_In. left.
        apply (true_all_ran (mk_task canon kind partial c1 objs) so dts th sv Hso Hs s);
          [eexists; exact Hex|exact Hm|now rewrite Hlen|lia].
      + intros k Hk.
        assert (Hr2 : reach (mk_task canon kind partial c1 objs) sv s) by (eexists; exact Hex).
        assert (Hlt : k < List.length objs).
        { rewrite <- Hlen. apply (started_bound (mk_task canon kind partial c1 objs) so dts th sv Hso Hs s k Hr2 Hk). }
        split; [now apply Hcone|]. intros d Hjd. destruct (Hat d) as (kd & Hkd & Ekd).
        { eapply rt_trans; [apply Hcone; exact Hlt|apply rt_step; exact Hjd]. }
        assert (Hdo : depends_on dts k kd).
        { apply Hdep. exists (at_ k), d. split; [now apply nth_error_nth'|]. split.
          - rewrite <- Ekd. now apply nth_error_nth'.
          - now apply (static_obj_dep canon c c1). }
        apply in_map_iff. exists (kd, RNotFalse). simpl. rewrite Ekd. split; [reflexivity|]. apply ended_In. left.
        apply in_split in Hk. destruct Hk as (l1 & l2 & El).
        destruct (deps_first_full (mk_task canon kind partial c1 objs) so dts th sv Hso Hs s l1 k l2 Hr2 El kd Hdo) as [Hf _].
        rewrite El. apply in_app_iff. now left.
  Qed.
  Lemma build_facts c i fs now ca c1 objs s : build_of canon kind other_if partial c i fs now ca c1 objs s ->
    ready canon c /\ ready canon c1 /\ same_static c c1 /\ coherent canon c /\
    (exists nm, In (nm, i) (c_targets c)) /\
    (forall j, in_cone canon c i j -> t_class (obj c j) = Updatable ->
       (exists b, puif canon kind other_if (stat fs) c j = Ok b) /\
       exists b, t_need (obj c1 j) = Some b /\
         (b = true <-> out_of_date_below canon (puif canon kind other_if (stat fs) c) c j)) /\
    exists ca1 l, (forall j, in_cone canon c i j -> on_disk (kind j) -> view fs ca1 (t_name (obj c j)) = stat fs (t_name (obj c j))) /\
      task_path (obj_task c1) l (WD fs ca1 now now []) (s_world s) /\
      NoDup (map fst l) /\ (forall j r, In (j, r) l -> in_cone canon c i j) /\
      deps_before c l /\
      (succeeded objs s -> forall j, in_cone canon c i j -> In (j, RNotFalse) l).
  Proof.
    intros H. destruct (build_facts_log c i fs now ca c1 objs s H) as (H1 & H2 & H3 & H4 & H5 & H6 & ca1 & l & K1 & K2 & K3 & K4 & K5 & K6 & _).
    do 6 (split; [assumption|]). exists ca1, l. auto 10.
  Qed.
End Exec.
