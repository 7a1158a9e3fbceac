(** Lemmas: directories exist when rules run (C33). *)
From Coq Require Import Permutation.
From Verif Require Import PyBase PyPath PathProofs SolverModel SpecGraph InvokerModel SpecTrace InvokerProofs InvokerInv
  InvokerThms InvokerPath CoreModel SpecCore CoreProofs NeedProofs RuProofs CoreThms MakeModel MakeEval SpecMake
  MakeProofs MakeFacts MakeBuild RegModel SpecUtil UtilProofs SpecReg RegProofs RegScript.
Local Open Scope string_scope.
Local Open Scope list_scope.

(** ** What is registered *)
Section Registered.
  Variables (cwd home : string) (ex exists_ : string -> bool).
  Hypothesis disk : disk_ok cwd ex exists_.
  Variable D : string -> Prop.
  Notation canon := (realpath cwd).

  Lemma good_dir_dep r nm i : good cwd ex D r -> In (nm, i) (c_targets (fst r)) -> makes_file (kind_of r i) ->
    ex (dirname (nm_of r i)) = false -> exists j nm', obj_dep canon (fst r) i j /\ kind_of r j = MDir /\
      nm_of r j = dirname (nm_of r i) /\ In (nm', j) (c_targets (fst r)).
  Proof.
    intros G Hi Hm Hx. destruct (g_chain _ _ _ _ G nm i Hi Hm Hx) as (HD & d & Hd & Cd & K).
    destruct (in_dec string_dec d (keys r)) as [Hk|Hk].
    - apply in_map_iff in Hk. destruct Hk as ([d' j] & E & Hj). cbn in E. subst d'.
      destruct (g_dir _ _ _ _ G d j Hj) as [K1 K2]; [now rewrite Cd|].
      exists j, d. split; [exists d; split; [exact Hd|now left]|]. split; [exact K1|]. split; [congruence|exact Hj].
    - destruct K as [K|K]; [contradiction|]. apply in_map_iff in K. destruct K as ([d' j] & E & Hj). cbn in E. subst d'.
      destruct (g_dir _ _ _ _ G (canon d) j Hj) as [K1 K2]; [now rewrite realpath_idem, Cd|].
      exists j, (canon d). split; [exists d; split; [exact Hd|right; split; [exact Hk|exact Hj]]|].
      split; [exact K1|]. split; [rewrite K2, realpath_idem; exact Cd|exact Hj].
  Qed.
  Lemma good_all_dirs r a p : good cwd ex D r -> above a p -> forall nm i, In (nm, i) (c_targets (fst r)) ->
    makes_file (kind_of r i) -> nm_of r i = p -> ex a = false -> exists j nm', clos_trans nat (obj_dep canon (fst r)) i j /\
      kind_of r j = MDir /\ nm_of r j = a /\ In (nm', j) (c_targets (fst r)).
  Proof.
    intros G Ha. induction Ha as [p Hn|a p Ha IH Hn]; intros nm i Hi Hm <- Hx.
    - destruct (good_dir_dep r nm i G Hi Hm Hx) as (j & nm' & K1 & K2 & K3 & K4). exists j, nm'. split; [now apply t_step|auto].
    - assert (Xa : ex a = false).
      { destruct (ex a) eqn:E; [|reflexivity]. apply (proj1 disk) in E. congruence. }
      destruct (IH nm i Hi Hm eq_refl Xa) as (j & nm' & K1 & K2 & K3 & K4). subst a.
      destruct (good_dir_dep r nm' j G K4) as (j2 & nm2 & L1 & L2 & L3 & L4); [now rewrite K2|exact Hx|].
      exists j2, nm2. split; [eapply t_trans; [exact K1|now apply t_step]|]. auto.
  Qed.
End Registered.

(** ** Registries come from additions and look-ups *)
Section Closed.
  Variables (canon : string -> string) (exists_ : string -> bool) (glob_ : string -> list string) (home : string).
  Variable Q : mreg -> Prop.
  Hypothesis Q0 : Q empty_reg.
  Hypothesis Qhas : forall r nm, Q r -> Q (snd (core_has canon (fst r) nm), snd r).
  Hypothesis Qnew : forall r cls kd nm deps, Q r -> Q (reg_add r cls kd nm deps).
  Definition all_q (st : regs) : Prop := forall k, Q (reg st k).

  Lemma q_put st k r : all_q st -> Q r -> all_q (put st k r).
  Proof.
    intros H Hr j. unfold reg, put. rewrite NeedProofs.lupd_nth.
    destruct (Nat.eqb j k && Nat.ltb k (List.length st)); [exact Hr|apply H].
  Qed.
  Lemma q_has st k nm b st' : rhas canon st k nm = (b, st') -> all_q st -> all_q st'.
  Proof.
    unfold rhas. destruct (core_has canon (fst (reg st k)) nm) as [b' c'] eqn:E. intros [= <- <-] H.
    apply q_put; [exact H|]. change c' with (snd (b', c')). rewrite <- E. apply Qhas, H.
  Qed.
  Lemma q_fnew : forall fuel st k kd name deps dk st', fnew canon exists_ glob_ fuel st k kd name deps dk = Ok st' ->
    all_q st -> all_q st'.
  Proof.
    induction fuel as [|fuel IH]; intros st k kd name deps dk st' E H; [discriminate|]. cbn [fnew] in E.
    set (dirpath := normpath (dirname (canon name))) in *.
    match type of E with bind ?X _ = _ => destruct X as [[st1 deps1]| |] eqn:E1; cbn [bind] in E; try discriminate end.
    assert (H1 : all_q st1).
    { destruct (dk && negb (exists_ dirpath)); [|injection E1 as <- <-; exact H].
      destruct (fnew canon exists_ glob_ fuel st 0 MDir dirpath [] (negb (exists_ (normpath (dirname dirpath))))) as [st0| |] eqn:E2;
        cbn [bind] in E1; try discriminate. injection E1 as <- <-. eauto. }
    clear E1. match type of E with bind ?X _ = _ => destruct X as [st2| |] eqn:E2; cbn [bind] in E; try discriminate end.
    assert (H2 : all_q st2).
    { clear E. revert st1 H1 E2. induction (expand_names glob_ deps1) as [|r l IHl]; intros st1 H1 E2; [injection E2 as <-; exact H1|].
      destruct (exists_ r); [|eauto]. destruct (rhas canon st1 0 r) as [b st3] eqn:E3. apply q_has in E3; [|exact H1].
      destruct b; [eauto|]. destruct (fnew canon exists_ glob_ fuel st3 0 MSource r [] true) as [st4| |] eqn:E4; cbn [bind] in E2; try discriminate.
      eauto. }
    injection E as <-. apply q_put; [exact H2|]. apply Qnew, H2.
  Qed.
  Lemma q_source fuel st p st' : RegModel.source canon exists_ glob_ fuel st p = Ok st' -> all_q st -> all_q st'.
  Proof.
    unfold RegModel.source. destruct (rhas canon st 0 p) as [b st1] eqn:E. intros E1 H. apply q_has in E; [|exact H].
    destruct b; [injection E1 as <-; exact E|]. eapply q_fnew; eauto.
  Qed.
  Lemma q_plain fuel st k cls kd nm deps st' : plain_new canon exists_ glob_ fuel st k cls kd nm deps = Ok st' -> all_q st -> all_q st'.
  Proof.
    unfold plain_new. intros E H.
    destruct (source_existing canon exists_ glob_ fuel (expand_names glob_ deps) st) as [st1| |] eqn:E1; cbn [bind] in E; try discriminate.
    injection E as <-. assert (H1 : all_q st1).
    { revert st H E1. induction (expand_names glob_ deps) as [|r l IH]; intros st H E1; [injection E1 as <-; exact H|].
      cbn [source_existing] in E1. destruct (exists_ r); [|eauto].
      destruct (RegModel.source canon exists_ glob_ fuel st r) as [st2| |] eqn:E2; cbn [bind] in E1; try discriminate.
      apply q_source in E2; eauto. }
    apply q_put; [exact H1|]. apply Qnew, H1.
  Qed.
  Lemma q_dirkeep : forall fuel st k path ds st', mc_dirkeep canon exists_ glob_ fuel st k path = Ok (ds, st') -> all_q st -> all_q st'.
  Proof.
    induction fuel as [|fuel IH]; intros st k path ds st' E H; [discriminate|]. cbn [mc_dirkeep] in E.
    destruct (negb (exists_ (normpath (dirname path)))); [|injection E as <- <-; exact H].
    destruct (mc_dirkeep canon exists_ glob_ fuel st k (normpath (dirname path))) as [[deps st1]| |] eqn:E1; cbn [bind] in E; try discriminate.
    destruct (rhas canon st1 k (normpath (dirname path))) as [b st2] eqn:E2. apply q_has in E2; [|eauto].
    destruct b; cbn [bind] in E; [injection E as <- <-; exact E2|]. unfold mc_makedir in E.
    destruct (fnew canon exists_ glob_ fuel st2 k MDir (normpath (dirname path)) deps false) as [st3| |] eqn:E3; cbn [bind] in E; try discriminate.
    injection E as <- <-. eapply q_fnew; eauto.
  Qed.
  Lemma q_msource fuel st k src st' : mc_source canon exists_ glob_ home fuel st k src = Ok st' -> all_q st -> all_q st'.
  Proof.
    unfold mc_source. destruct (rhas canon st k src) as [b st1] eqn:E. intros E1 H. apply q_has in E; [|exact H].
    destruct b; [injection E1 as <-; exact E|]. eapply q_fnew; eauto.
  Qed.
  Lemma q_step fuel k st o st' : mstep canon exists_ glob_ home fuel k st o = Ok st' -> all_q st -> all_q st'.
  Proof.
    intros E H. destruct o as [tgt b deps|src dst b deps|src|nm ts deps|u nm deps|fc tgt deps b|tgt src deps b|src]; cbn [mstep] in E.
    - unfold mc_ftarget in E. destruct (mc_dirkeep canon exists_ glob_ fuel st k (expanduser home tgt)) as [[dd st1]| |] eqn:E1;
        cbn [bind] in E; try discriminate. apply q_dirkeep in E1; [|exact H]. eapply q_fnew; eauto.
    - unfold mc_copy in E. destruct (mc_dirkeep canon exists_ glob_ fuel st k (expanduser home dst)) as [[dd st1]| |] eqn:E1;
        cbn [bind] in E; try discriminate. apply q_dirkeep in E1; [|exact H].
      destruct (mc_source canon exists_ glob_ home fuel st1 k (expanduser home src)) as [st2| |] eqn:E2; cbn [bind] in E; try discriminate.
      apply q_msource in E2; [|exact E1]. eapply q_fnew; eauto.
    - eapply q_msource; eauto.
    - eapply q_plain; eauto.
    - eapply q_plain; eauto.
    - eapply q_fnew; eauto.
    - unfold copy in E. destruct (RegModel.source canon exists_ glob_ fuel st (expanduser home src)) as [st1| |] eqn:E1; cbn [bind] in E; try discriminate.
      apply q_source in E1; [|exact H]. eapply q_fnew; eauto.
    - eapply q_source; eauto.
  Qed.
  Lemma q_run fuel k ops st st' : mrun canon exists_ glob_ home fuel k ops st = Ok st' -> all_q st -> all_q st'.
  Proof.
    revert st. induction ops as [|o ops IH]; intros st E H; [injection E as <-; exact H|]. cbn [mrun] in E.
    destruct (mstep canon exists_ glob_ home fuel k st o) as [st1| |] eqn:E1; cbn [bind] in E; try discriminate.
    apply q_step in E1; eauto.
  Qed.
  Lemma q_start n : all_q (repeat empty_reg n).
  Proof.
    intros k. unfold reg. assert (H : nth k (repeat empty_reg n) empty_reg = empty_reg).
    { revert k. induction n as [|n IH]; intros [|k]; cbn; auto. }
    rewrite H. exact Q0.
  Qed.
End Closed.

Lemma mrun_history canon exists_ glob_ home fuel k ops n st : mrun canon exists_ glob_ home fuel k ops (repeat empty_reg n) = Ok st ->
  forall j, exists cops, fst (reg st j) = crun canon cops (new_core None).
Proof.
  intros E. apply (q_run canon exists_ glob_ home (fun r => exists cops, fst r = crun canon cops (new_core None))) in E; [exact E| | |].
  - intros r nm [cops H]. exists (cops ++ [OpHas nm]). unfold crun in *. rewrite fold_left_app, <- H. reflexivity.
  - intros r cls kd nm deps [cops H]. exists (cops ++ [OpNew cls nm deps]). unfold crun in *. rewrite fold_left_app, <- H. reflexivity.
  - apply q_start. now exists [].
Qed.

(** ** Directories during a build *)
Section Dirs.
  Variable canon : string -> string.
  Variable kind : nat -> mkind.
  Variable partial : bool.
  Variable P : project.
  Variables (c : core) (i : nat) (fs : fsys) (now : nat) (w0 : world).
  Local Notation nm j := (t_name (obj c j)).
  Local Notation cone := (in_cone canon c i).
  Local Notation run_of := (run_of canon kind partial P c i fs now).
  Local Notation task := (obj_task canon kind partial c).

  Definition seen (g : fsys) (ca : cache) (p : string) : Prop := fi_exist (view g ca p) = true.
  Lemma seen_update g ca p q : seen g (update_info g ca p) q -> g q <> None \/ exists x, sget ca q = Some x /\ fi_exist x = true.
  Proof.
    unfold seen, view, update_info. destruct (string_dec p q) as [->|N].
    - rewrite (dget_dset_eq String.eqb string_eqb_spec'). unfold stat. destruct (g q) as [[m n]|]; [left; discriminate|discriminate].
    - rewrite (dget_dset_neq String.eqb string_eqb_spec') by exact N. destruct (sget ca q) as [x|]; [eauto|].
      unfold stat. destruct (g q) as [[m n]|]; [left; discriminate|discriminate].
  Qed.
  Lemma seen_cases g ca q : seen g ca q -> g q <> None \/ exists x, sget ca q = Some x /\ fi_exist x = true.
  Proof.
    unfold seen, view. destruct (sget ca q) as [x|]; [eauto|].
    unfold stat. destruct (g q) as [[m n]|]; [left; discriminate|discriminate].
  Qed.
  Lemma cached_seen g ca q x : sget ca q = Some x -> fi_exist x = true -> seen g ca q.
  Proof. unfold seen, view. now intros ->. Qed.
  Lemma get_info_cached g ca p x ca' q y : get_info g ca p = (x, ca') -> sget ca' q = Some y -> sget ca q = Some y \/ y = stat g q.
  Proof.
    unfold get_info. destruct (sget ca p) as [z|] eqn:E; intros [= <- <-] H; [now left|].
    unfold update_info in H. destruct (string_dec p q) as [->|N].
    - rewrite (dget_dset_eq String.eqb string_eqb_spec') in H. injection H as <-. now right.
    - rewrite (dget_dset_neq String.eqb string_eqb_spec') in H by exact N. now left.
  Qed.
  Lemma stat_there g q : fi_exist (stat g q) = true -> g q <> None.
  Proof. unfold stat. now destruct (g q) as [[m n]|]. Qed.

  (** What a call makes the cache believe to exist has existed before or exists afterwards. *)
  Lemma task_seen j w r w' q : kind j <> MOther -> task j w r w' -> seen (w_fs w') (w_cache w') q ->
    seen (w_fs w) (w_cache w) q \/ w_fs w q <> None \/ w_fs w' q <> None.
  Proof.
    intros Ho T Ss. unfold obj_task in T.
    assert (G : forall p x ca', get_info (w_fs w) (w_cache w) p = (x, ca') ->
              forall y, sget ca' q = Some y -> fi_exist y = true -> seen (w_fs w) (w_cache w) q \/ w_fs w q <> None).
    { intros p x ca' Hg y Hy He. destruct (get_info_cached _ _ _ _ _ _ _ Hg Hy) as [K| ->].
      - left. eapply cached_seen; eauto.
      - right. now apply stat_there. }
    assert (Hdir : mk_dir c j w r w' -> seen (w_fs w) (w_cache w) q \/ w_fs w q <> None \/ w_fs w' q <> None).
    { clear T. intros T. revert Ss. destruct T as [x ca' Hg He|x ca' m p Hg He Hf Ha Hm fs'|x ca' p Hg He Hf]; intros Ss; cbn [w_fs w_cache] in *.
      - apply seen_cases in Ss. destruct Ss as [Ss|(y & S1 & S2)]; [auto|]. destruct (G _ _ _ Hg y S1 S2); auto.
      - apply seen_update in Ss. destruct Ss as [Ss|(y & S1 & S2)]; [auto|]. destruct (G _ _ _ Hg y S1 S2); auto.
      - apply seen_cases in Ss. destruct Ss as [Ss|(y & S1 & S2)]; [auto|]. destruct (G _ _ _ Hg y S1 S2); auto. }
    assert (Hup : mk_update canon kind partial c j w r w' -> seen (w_fs w) (w_cache w) q \/ w_fs w q <> None \/ w_fs w' q <> None).
    { clear T Hdir. intros T. revert Ss. destruct T as [force b v m Hk Hb Hm Hi p fs'|force b fs' now' r' ca' Hk Hb p Hf Hr|Hk p|Hk|r' w'' Hk]; intros Ss; cbn [w_fs w_cache] in *.
      - apply seen_update in Ss. destruct Ss as [Ss|(y & S1 & S2)]; [auto|]. left. eapply cached_seen; eauto.
      - destruct Hr as [[_ ->]|[_ ->]].
        + apply seen_update in Ss. destruct Ss as [Ss|(y & S1 & S2)]; [auto|]. left. eapply cached_seen; eauto.
        + apply seen_cases in Ss. destruct Ss as [Ss|(y & S1 & S2)]; [auto|]. left. eapply cached_seen; eauto.
      - destruct (get_info (w_fs w) (w_cache w) p) as [x ca'] eqn:Eg. cbn [snd] in Ss.
        apply seen_update in Ss. destruct Ss as [Ss|(y & S1 & S2)]; [auto|]. destruct (G _ _ _ Eg y S1 S2); auto.
      - auto.
      - contradiction. }
    assert (Hp : match t_class (obj c j) with
           | Plain => r = RExn /\ w' = w
           | Updatable =>
               match t_need (obj c j) with
               | None => r = RExn /\ w' = w
               | Some true => mk_update canon kind partial c j w r w'
               | Some false => r = RNotFalse /\ w' = w
               end
           end -> seen (w_fs w) (w_cache w) q \/ w_fs w q <> None \/ w_fs w' q <> None).
    { destruct (t_class (obj c j)); [intros [_ E]; rewrite E in Ss; auto|]. destruct (t_need (obj c j)) as [[|]|]; [exact Hup|intros [_ E]; rewrite E in Ss; auto..]. }
    destruct (kind j); auto.
  Qed.

  Lemma run_dirs l w : run_of l w0 w -> forall j, cone j -> kind j = MDir ->
    (seen (w_fs w) (w_cache w) (nm j) -> w_fs w (nm j) <> None) /\
    (In (j, RNotFalse) l -> w_fs w (nm j) <> None).
  Proof.
    intros R. pattern l, w. revert l w R. apply run_ind; cbv beta.
    - intros R j Hj Hk. destruct (ro_start _ _ _ _ _ _ _ _ _ _ _ R) as (E & _).
      pose proof (ro_view _ _ _ _ _ _ _ _ _ _ _ R j Hj) as V. rewrite Hk, <- E in V. specialize (V Logic.I).
      split; [|intros []]. unfold seen. rewrite V. apply stat_there.
    - intros l w1 k r w R IH _ T Hck Hnk _ j Hj Hk. destruct (IH j Hj Hk) as [IH1 IH2].
      destruct (run_touches canon kind partial P c i fs now w0 l w1 k r w R Hck T) as (_ & _ & F).
      assert (Keep : w_fs w1 (nm j) <> None -> w_fs w (nm j) <> None).
      { intros H. destruct (F (nm j)) as [E|[(Ep & (f & b & Hkk) & _)|(_ & _ & _ & m & E & _)]].
        - congruence.
        - exfalso. assert (E : j = k).
          { apply (cone_inj canon c i (ro_wf _ _ _ _ _ _ _ _ _ _ _ R) (ro_co _ _ _ _ _ _ _ _ _ _ _ R) (ro_reg _ _ _ _ _ _ _ _ _ _ _ R)); auto. }
          congruence.
        - congruence. }
      destruct (ro_imp _ _ _ _ _ _ _ _ _ _ _ R k Hck) as [_ Hik].
      assert (Hko : kind k <> MOther) by (intros E; now rewrite E in Hik).
      split.
      + intros S. destruct (task_seen k w1 r w (nm j) Hko T S) as [H|[H|H]]; auto.
      + intros Hin. apply in_app_iff in Hin. destruct Hin as [Hin|[[= -> ->]|[]]]; [auto|].
        unfold obj_task in T. rewrite Hk in T. inversion T as [x ca' Hg He|x ca' m p Hg He Hf Ha Hm fs' HH HH2|]; subst.
        * cbn [w_fs]. apply IH1. unfold seen. destruct (get_info_view _ _ _ _ _ Hg) as (<- & _). exact He.
        * cbn [w_fs]. unfold fs', makedirs. unfold p. rewrite String.eqb_refl. discriminate.
  Qed.
  Lemma run_existing l w : run_of l w0 w -> forall p, ~ is_file P p -> fs p <> None -> w_fs w p <> None.
  Proof.
    intros R p Hp Hx. destruct (run_frame canon kind partial P c i fs now w0 l w R p) as [E|[(j & _ & Hj & Ep & (f & b & Hk) & _)|(E & _)]].
    - congruence.
    - exfalso. apply Hp. destruct (ro_imp _ _ _ _ _ _ _ _ _ _ _ R j Hj) as [_ HI]. rewrite Hk in HI.
      destruct HI as (ds & HI & _). right. exists f, ds, b. congruence.
    - congruence.
  Qed.
End Dirs.

Lemma below_ended canon kind partial P c i fs now w0 l w : run_of canon kind partial P c i fs now l w0 w ->
  forall j d, (forall d, obj_dep canon c j d -> In (d, RNotFalse) l) ->
  clos_trans nat (obj_dep canon c) j d -> In (d, RNotFalse) l.
Proof.
  intros R j d H Hd. apply Operators_Properties.clos_trans_tn1_iff in Hd. induction Hd as [d Hd|d e Hde Hd IH]; [auto|].
  apply in_split in IH. destruct IH as (l1 & l2 & El).
  pose proof (ro_deps _ _ _ _ _ _ _ _ _ _ _ R l1 d RNotFalse l2 El e Hde) as H1. rewrite El. apply in_app_iff. now left.
Qed.

(** When the rule of target [j] has been started, the directories above its file exist. *)
Lemma dirs_at_start canon kind other_if partial P c i fs now ca c1 objs s t j :
  implements canon kind P c i -> build_of canon kind other_if partial c i fs now ca c1 objs s ->
  In (EStart t) (s_log s) -> nth_error objs t = Some j ->
  (forall d, clos_trans nat (obj_dep canon c) j d -> kind d = MDir -> w_fs (s_world s) (t_name (obj c d)) <> None) /\
  (forall p, ~ is_file P p -> fs p <> None -> w_fs (s_world s) p <> None) /\ in_cone canon c i j.
Proof.
  intros Him Hb Ht Hj. destruct (build_run_log canon kind other_if partial P c i fs now ca c1 objs s Him Hb)
    as (Hs & w0 & l & R & _ & Hst & _).
  destruct (Hst t Ht) as [Hc Hd]. rewrite (nth_error_nth objs t _ Hj) in *.
  split; [|split].
  - intros d Hjd Hk.
    assert (Hjd1 : clos_trans nat (obj_dep canon c1) j d).
    { clear - Hs Hjd. induction Hjd as [x y H|x y z _ IH1 _ IH2]; [apply t_step; now apply (static_obj_dep canon c c1)|eapply t_trans; eauto]. }
    rewrite (static_name c c1 d Hs). apply (run_dirs canon kind partial P c1 i fs now w0 l _ R).
    + eapply rt_trans; [exact Hc|]. clear - Hjd1. induction Hjd1; [now apply rt_step|eapply rt_trans; eauto].
    + exact Hk.
    + exact (below_ended canon kind partial P c1 i fs now w0 l _ R j d Hd Hjd1).
  - intros p. apply (run_existing canon kind partial P c1 i fs now w0 l _ R).
  - apply (static_cone canon c1); [now apply static_sym|exact Hc].
Qed.
