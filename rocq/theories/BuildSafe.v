(** Lemmas: the only thing that can go wrong in a build is a rule that fails (C80). *)
From Coq Require Import Permutation.
From Verif Require Import PyBase PyPath SolverModel SpecGraph InvokerModel SpecTrace InvokerProofs InvokerInv
  InvokerThms InvokerPath CoreModel SpecCore CoreProofs NeedProofs RuProofs CoreThms MakeModel MakeEval SpecMake
  MakeProofs MakeFacts MakeBuild MakeClean RegBuild.
Local Open Scope string_scope.
Local Open Scope list_scope.

Section Safe.
  Variables (canon : string -> string) (kind : nat -> mkind) (partial : bool) (P : project).
  Variables (c : core) (i : nat) (fs : fsys) (now : nat) (w0 : world).
  Notation run_of := (run_of canon kind partial P c i fs now).
  Notation cone := (in_cone canon c i).
  Notation nm j := (t_name (obj c j)).
  (** Missing directories above a directory target have targets below it; no file lies
      above a directory target. *)
  Hypothesis closed : forall j a, cone j -> kind j = MDir -> In a (ancestors (nm j)) -> fs a = None ->
    exists d, clos_trans nat (obj_dep canon c) j d /\ kind d = MDir /\ nm d = a.
  Hypothesis free : forall j a m v, cone j -> kind j = MDir -> fs (nm j) = None -> In a (ancestors (nm j)) -> fs a <> Some (m, Reg v).

  Definition fine (w : world) (x : nat * tres) : Prop :=
    snd x = RNotFalse \/ (exists f b, kind (fst x) = MFile f b) /\ In (nm (fst x), false) (w_ran w).

  Lemma task_ran j w r w' x : obj_task canon kind partial c j w r w' -> kind j <> MOther -> In x (w_ran w) -> In x (w_ran w').
  Proof.
    intros T Ho Hx. unfold obj_task in T. destruct (kind j) eqn:Ek.
    3:{ destruct T; cbn [w_ran]; try rewrite in_app_iff; auto. }
    all: destruct (t_class (obj c j)); [destruct T as [_ ->]; exact Hx|];
      destruct (t_need (obj c j)) as [[|]|]; try (destruct T as [_ ->]; exact Hx);
      destruct T; cbn [w_ran]; try rewrite in_app_iff; auto; congruence.
  Qed.
  Lemma update_info_other g (ca : cache) p q : q <> p -> sget (update_info g ca p) q = sget ca q.
  Proof. intros H. unfold update_info. apply (dget_dset_neq String.eqb string_eqb_spec'). congruence. Qed.
  Lemma task_cache j w r w' q : obj_task canon kind partial c j w r w' -> kind j <> MOther -> q <> nm j ->
    sget (w_cache w') q = sget (w_cache w) q.
  Proof.
    intros T Ho Hq. unfold obj_task in T.
    assert (G : forall x ca', get_info (w_fs w) (w_cache w) (nm j) = (x, ca') -> sget ca' q = sget (w_cache w) q).
    { intros x ca' E. rewrite <- (get_info_other (w_fs w) (w_cache w) (nm j) q Hq), E. reflexivity. }
    destruct (kind j) eqn:Ek.
    3:{ destruct T as [x ca' Hg _|x ca' m p Hg _ _ _ _ fs'|x ca' p Hg _ _]; cbn [w_cache]; rewrite ?update_info_other by exact Hq; eapply G; exact Hg. }
    all: destruct (t_class (obj c j)); [destruct T as [_ ->]; reflexivity|];
      destruct (t_need (obj c j)) as [[|]|]; try (destruct T as [_ ->]; reflexivity);
      destruct T as [fo bb v m Hk Hb Hm Hi p fs'|fo bb fs' now' r' ca' Hk Hb p Hf Hr|Hk p|Hk|r' w'' Hk]; cbn [w_cache]; try congruence.
    all: try (rewrite update_info_other by exact Hq).
    all: try reflexivity.
    all: try (destruct Hr as [[_ ->]|[_ ->]]; [now rewrite update_info_other|reflexivity]).
    all: now rewrite get_info_other.
  Qed.

  Lemma run_safe l w : run_of l w0 w ->
    (forall x, In x l -> fine w x) /\
    forall j, cone j -> kind j = MDir -> ~ In j (map fst l) ->
      w_fs w (nm j) = fs (nm j) /\ forall x, sget (w_cache w) (nm j) = Some x -> x = stat fs (nm j).
  Proof.
    intros R. pattern l, w. revert l w R. apply run_ind; cbv beta.
    - intros R. split; [intros x []|]. intros j Hj Hk _. destruct (ro_start _ _ _ _ _ _ _ _ _ _ _ R) as (-> & _).
      split; [reflexivity|]. intros x Hx. pose proof (ro_view _ _ _ _ _ _ _ _ _ _ _ R j Hj) as V. rewrite Hk in V. specialize (V Logic.I).
      unfold view in V. now rewrite Hx in V.
    - intros l w1 k r w R [IH1 IH2] R' T Hck Hnk Hdk.
      destruct (ro_imp _ _ _ _ _ _ _ _ _ _ _ R k Hck) as [Hcl Hik].
      assert (Hko : kind k <> MOther) by (intros E; now rewrite E in Hik).
      destruct (run_touches canon kind partial P c i fs now w0 l w1 k r w R Hck T) as (_ & _ & F).
      assert (Inj : forall j, cone j -> nm j = nm k -> j = k).
      { intros j Hj E. apply (cone_inj canon c i (ro_wf _ _ _ _ _ _ _ _ _ _ _ R) (ro_co _ _ _ _ _ _ _ _ _ _ _ R) (ro_reg _ _ _ _ _ _ _ _ _ _ _ R)); auto. }
      split.
      + intros x Hx. apply in_app_iff in Hx. destruct Hx as [Hx|[<-|[]]].
        { destruct (IH1 x Hx) as [H|[H1 H2]]; [now left|]. right. split; [exact H1|]. eapply task_ran; eauto. }
        unfold fine. cbn [fst snd]. unfold obj_task in T. destruct (ro_need _ _ _ _ _ _ _ _ _ _ _ R k Hck) as (b & Eb & _).
        rewrite Hcl, Eb in T. destruct (kind k) as [f bf| | | |] eqn:Ek; [destruct b| destruct b| | destruct b|]; try (destruct T as [-> _]; now left).
        * inversion T; subst; try congruence; [now left|]. right. split; [eauto|]. cbn [w_ran]. apply in_app_iff. right. now left.
        * inversion T; subst; try congruence; now left.
        * destruct (IH2 k Hck Ek Hnk) as [Q1 Q2].
          destruct T as [x ca' Hg He|x ca' m p Hg He Hf Ha Hm fs'|x ca' p Hg He Hf]; [now left|now left|]. exfalso. subst p.
          destruct (get_info_view _ _ _ _ _ Hg) as (Ex & _). rewrite Ex in He. unfold view in He.
          assert (N : fs (nm k) = None).
          { destruct (sget (w_cache w1) (nm k)) as [y|] eqn:Ey.
            - rewrite (Q2 y eq_refl) in He. unfold stat in He. destruct (fs (nm k)) as [[? ?]|]; [discriminate|reflexivity].
            - unfold stat in He. rewrite Q1 in He. destruct (fs (nm k)) as [[? ?]|]; [discriminate|reflexivity]. }
          destruct Hf as [Hf|Hf]; [congruence|]. apply existsb_exists in Hf. destruct Hf as (a & Ha & Hreg).
          unfold is_reg in Hreg. destruct (w_fs w1 a) as [[m n]|] eqn:Ea; [|discriminate]. destruct n as [v|]; [|discriminate].
          destruct Hik as [Hik _].
          destruct (run_frame canon kind partial P c i fs now w0 l w1 R a) as [E|[(j & _ & Hj & Ep & (f & b0 & Hkj) & _)|(_ & _ & m' & E)]].
          -- apply (free k a m v Hck Ek N Ha). now rewrite <- E.
          -- apply (Hik a (or_intror Ha)). destruct (ro_imp _ _ _ _ _ _ _ _ _ _ _ R j Hj) as [_ HI]. rewrite Hkj in HI.
             destruct HI as (ds & HI & _). right. exists f, ds, b0. congruence.
          -- congruence.
        * inversion T; subst; try congruence; now left.
        * destruct Hik.
      + intros j Hj Hk Hnj. rewrite map_app, in_app_iff in Hnj. cbn [map fst In] in Hnj.
        assert (Nk : nm j <> nm k) by (intros E; apply Inj in E; [|exact Hj]; subst; tauto).
        destruct (IH2 j Hj Hk) as [Q1 Q2]; [tauto|]. split.
        * destruct (F (nm j)) as [E|[(Ep & _)|(Hkk & E1 & [Ep|Ha] & _)]]; [congruence|congruence|congruence|]. exfalso.
          rewrite Q1 in E1. destruct (closed k (nm j) Hck Hkk Ha E1) as (d & D1 & D2 & D3).
          assert (Hd : In (d, RNotFalse) l) by exact (below_ended canon kind partial P c i fs now w0 l w1 R k d Hdk D1).
          assert (d = j).
          { apply (cone_inj canon c i (ro_wf _ _ _ _ _ _ _ _ _ _ _ R) (ro_co _ _ _ _ _ _ _ _ _ _ _ R) (ro_reg _ _ _ _ _ _ _ _ _ _ _ R)); auto.
            exact (ro_cone _ _ _ _ _ _ _ _ _ _ _ R d _ Hd). }
          subst d. apply Hnj. left. apply in_map_iff. now exists (j, RNotFalse).
        * intros x Hx. apply Q2. rewrite <- Hx. symmetry. eapply task_cache; eauto.
  Qed.
End Safe.

(** Every task has an outcome. *)
Lemma input_lt canon kind c i j : wf_core c -> input canon kind c i j -> j < List.length (c_heap c).
Proof.
  intros Hw H. induction H as [i d j _ Hj _|]; [|assumption]. apply get_resolves in Hj; [|exact Hw]. eapply resolves_lt; eauto.
Qed.
Lemma mk_tasks_end canon kind partial c objs : wf_core c -> tasks_end (mk_task canon kind partial c objs).
Proof.
  intros Hw t w. unfold mk_task, task_behaviour. set (j := nth t objs (List.length (c_heap c))).
  assert (U : kind j <> MDir -> exists r w', mk_update canon kind partial c j w r w').
  { intros Nd. destruct (kind j) as [f b| | | |] eqn:Ek.
    - destruct (b (contents (w_fs w))) as [v|] eqn:Eb.
      + set (ms := map (fun x => match w_fs w (t_name (obj c x)) with Some (m, _) => m | None => 0 end) (seq 0 (List.length (c_heap c)))).
        do 2 eexists. apply (up_rule canon kind partial c j w f b v (S (w_base w) + list_max ms) Ek Eb); [lia|].
        intros x mx nx Hx E. assert (Hl : x < List.length (c_heap c)) by (eapply input_lt; eauto).
        assert (L : list_max ms <= list_max ms) by lia. apply list_max_le in L. rewrite Forall_forall in L.
        assert (mx <= list_max ms).
        { apply L. unfold ms. apply in_map_iff. exists x. rewrite E. split; [reflexivity|]. apply in_seq. lia. }
        lia.
      + do 2 eexists. eapply (up_rule_fails canon kind partial c j w f b); [exact Ek|exact Eb|left; split; reflexivity|left; split; reflexivity].
    - do 2 eexists. now apply up_source.
    - now elim Nd.
    - do 2 eexists. now apply up_set.
    - exists RNotFalse, w. now apply up_other. }
  assert (T : kind j <> MDir -> exists r w', match t_class (obj c j) with
     | Plain => r = RExn /\ w' = w
     | Updatable => match t_need (obj c j) with
                    | None => r = RExn /\ w' = w
                    | Some true => mk_update canon kind partial c j w r w'
                    | Some false => r = RNotFalse /\ w' = w
                    end end).
  { intros Nd. destruct (t_class (obj c j)); [eauto|]. destruct (t_need (obj c j)) as [[|]|]; eauto. }
  destruct (kind j) eqn:Ek; try (apply T; discriminate).
  destruct (get_info (w_fs w) (w_cache w) (t_name (obj c j))) as [x ca'] eqn:Eg. destruct (fi_exist x) eqn:Ex.
  - do 2 eexists. eapply dir_exists; eauto.
  - destruct (w_fs w (t_name (obj c j))) as [e|] eqn:Ef.
    + do 2 eexists. eapply dir_raises; [exact Eg|exact Ex|left; congruence].
    + destruct (existsb (is_reg (w_fs w)) (ancestors (t_name (obj c j)))) eqn:Ea.
      * do 2 eexists. eapply dir_raises; [exact Eg|exact Ex|right; exact Ea].
      * do 2 eexists. eapply (dir_created c j w x ca' (S (w_base w))); [exact Eg|exact Ex|exact Ef|exact Ea|lia].
Qed.
