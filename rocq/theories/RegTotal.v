(** Lemmas: registering ends (C33), and the claims of C33 put together. *)
From Verif Require Import PyBase PyPath PathProofs SolverModel SpecGraph InvokerModel CoreModel SpecCore CoreProofs NeedProofs
  MakeModel SpecMake RegModel SpecUtil UtilProofs SpecReg RegProofs RegScript RegBuild.
Local Open Scope string_scope.
Local Open Scope list_scope.

Section Total.
  Variables (cwd home : string) (ex exists_ : string -> bool) (glob_ : string -> list string).
  Hypothesis disk : disk_ok cwd ex exists_.
  Notation canon := (realpath cwd).
  Definition depth (p : string) : nat := List.length (rp_comps cwd p).

  Lemma depth_parent p q : ex (dirname (canon p)) = false -> canon q = dirname (canon p) -> S (depth q) = depth p.
  Proof.
    intros Hx Hq. unfold depth. rewrite !realpath_abs in *.
    pose proof (rp_normal cwd p) as N. pose proof (rp_normal cwd q) as Nq. destruct (rp_comps cwd p) as [|c acc].
    - exfalso. pose proof (root_exists cwd ex exists_ disk) as Hr.
      change (dirname (abs_str [])) with "/" in Hx. rewrite Hx in Hr. discriminate.
    - pose proof (normal_true_proper _ N) as P. inversion P as [|? ? Pc _]. subst.
      assert (Na : normal true acc) by (inversion N; [discriminate|assumption]).
      rewrite dirname_abs in Hq by assumption. cbn. f_equal.
      rewrite <- (rp_abs_str cwd _ Nq), Hq. f_equal. now apply rp_abs_str.
  Qed.
  Lemma dirpath_exists r : exists_ r = true -> exists_ (normpath (dirname (canon r))) = true.
  Proof.
    intros Er. rewrite (exists_dirpath cwd ex exists_ disk). apply disk.
    destruct (String.eqb_spec r "") as [->|N]; [|rewrite <- (exists_canon cwd ex exists_ disk r N); exact Er].
    destruct disk as (_ & Hc & _). rewrite realpath_abs in *. exact Hc.
  Qed.
  Lemma fnew_source_total fuel st r : exists_ r = true -> exists st', fnew canon exists_ glob_ (S fuel) st 0 MSource r [] true = Ok st'.
  Proof. intros Er. cbn [fnew]. rewrite (dirpath_exists r Er). cbn. eauto. Qed.

  Lemma fnew_total : forall fuel st k kd name deps dk, depth name + 2 <= fuel ->
    exists st', fnew canon exists_ glob_ fuel st k kd name deps dk = Ok st'.
  Proof.
    induction fuel as [|fuel IH]; intros st k kd name deps dk Hf; [lia|]. cbn [fnew].
    set (dirpath := normpath (dirname (canon name))).
    assert (E1 : exists st1 deps1, (if dk && negb (exists_ dirpath)
       then do! st1 <- fnew canon exists_ glob_ fuel st 0 MDir dirpath [] (negb (exists_ (normpath (dirname dirpath)))); Ok (st1, deps ++ [dirpath])
       else Ok (st, deps)) = Ok (st1, deps1)).
    { destruct (exists_ dirpath) eqn:Ex; [rewrite andb_false_r; eauto|]. destruct dk; cbn [andb negb]; [|eauto].
      destruct (IH st 0 MDir dirpath [] (negb (exists_ (normpath (dirname dirpath))))) as [st1 E1].
      - unfold dirpath in Ex. rewrite (exists_dirpath cwd ex exists_ disk) in Ex.
        pose proof (depth_parent name dirpath Ex (dirpath_canon cwd name)). lia.
      - rewrite E1. cbn. eauto. }
    destruct E1 as (st1 & deps1 & E1). rewrite E1. cbn [bind]. clear E1.
    match goal with |- exists st', bind ?X _ = _ => assert (E2 : exists st2, X = Ok st2) end.
    { revert st1. induction (expand_names glob_ deps1) as [|r l IHl]; intros st1; [eauto|].
      destruct (exists_ r) eqn:Er; [|apply IHl]. destruct (rhas canon st1 0 r) as [b st2]. destruct b; [apply IHl|].
      destruct fuel as [|fuel]; [lia|]. destruct (fnew_source_total fuel st2 r Er) as [st3 ->]. cbn [bind]. apply IHl. }
    destruct E2 as [st2 ->]. cbn. eauto.
  Qed.
  Lemma source_total fuel st r : exists_ r = true \/ depth r + 2 <= fuel -> 1 <= fuel ->
    exists st', RegModel.source canon exists_ glob_ fuel st r = Ok st'.
  Proof.
    intros H Hf. unfold RegModel.source. destruct (rhas canon st 0 r) as [b st1]. destruct b; [eauto|].
    destruct H as [H|H]; [|now apply fnew_total]. destruct fuel; [lia|]. now apply fnew_source_total.
  Qed.
  Lemma source_existing_total fuel l st : 1 <= fuel -> exists st', source_existing canon exists_ glob_ fuel l st = Ok st'.
  Proof.
    intros Hf. revert st. induction l as [|r l IH]; intros st; cbn [source_existing]; [eauto|].
    destruct (exists_ r) eqn:Er; [|apply IH]. destruct (source_total fuel st r (or_introl Er) Hf) as [st1 ->]. apply IH.
  Qed.
  Lemma plain_total fuel st k cls kd nm deps : 1 <= fuel -> exists st', plain_new canon exists_ glob_ fuel st k cls kd nm deps = Ok st'.
  Proof.
    intros Hf. unfold plain_new. destruct (source_existing_total fuel (expand_names glob_ deps) st Hf) as [st1 ->]. cbn. eauto.
  Qed.
  Lemma dirkeep_total : forall fuel st k path, depth path + 2 <= fuel -> file_name (basename path) ->
    exists x, mc_dirkeep canon exists_ glob_ fuel st k path = Ok x.
  Proof.
    induction fuel as [|fuel IH]; intros st k path Hf Fp; [lia|]. cbn [mc_dirkeep]. set (base := normpath (dirname path)).
    assert (Cb : canon base = dirname (canon path)).
    { unfold base. rewrite realpath_normpath. apply realpath_dirname. now apply file_name_proper. }
    destruct (exists_ base) eqn:Ex; cbn [negb]; [eauto|].
    assert (Nb : normal_form base) by apply normpath_normal.
    assert (Fb : file_name (basename base)) by exact (missing_normal_named cwd ex exists_ disk base Nb Ex).
    assert (Bne : base <> "") by (intros E; rewrite E in Fb; destruct Fb as (Fb & _); now apply Fb).
    assert (Hd : S (depth base) = depth path).
    { apply depth_parent; [|exact Cb]. rewrite <- Cb, <- (exists_canon cwd ex exists_ disk base Bne). exact Ex. }
    destruct (IH st k base) as [[deps st1] ->]; [lia|exact Fb|]. cbn [bind].
    destruct (rhas canon st1 k base) as [b st2]. destruct b; cbn [bind]; [eauto|]. unfold mc_makedir.
    destruct (fnew_total fuel st2 k MDir base deps false) as [st3 ->]; [lia|]. cbn. eauto.
  Qed.
  Lemma msource_total fuel st k src : depth (expanduser home src) + 2 <= fuel ->
    exists st', mc_source canon exists_ glob_ home fuel st k src = Ok st'.
  Proof.
    intros Hf. unfold mc_source. destruct (rhas canon st k src) as [b st1]. destruct b; [eauto|]. now apply fnew_total.
  Qed.

  Lemma mstep_total fuel k st o : (forall p, In p (names home o) -> depth p + 2 <= fuel) -> 1 <= fuel ->
    (forall p, In p (outs home o) -> file_name (basename p)) ->
    exists st', mstep canon exists_ glob_ home fuel k st o = Ok st'.
  Proof.
    intros Hn H1 Ho.
    destruct o as [tgt b deps|src dst b deps|src|nm ts deps|u nm deps|fc tgt deps b|tgt src deps b|src]; cbn [mstep names outs] in *.
    - unfold mc_ftarget. destruct (dirkeep_total fuel st k (expanduser home tgt)) as [[dd st1] ->]; [apply Hn; now left|apply Ho; now left|].
      cbn [bind]. apply fnew_total. apply Hn. now left.
    - unfold mc_copy. destruct (dirkeep_total fuel st k (expanduser home dst)) as [[dd st1] ->]; [apply Hn; right; now left|apply Ho; now left|].
      cbn [bind]. destruct (msource_total fuel st1 k (expanduser home src)) as [st2 ->]; [apply Hn; now left|].
      cbn [bind]. apply fnew_total. apply Hn. right; now left.
    - apply msource_total. apply Hn. now left.
    - now apply plain_total.
    - now apply plain_total.
    - apply fnew_total. apply Hn. now left.
    - unfold copy. destruct (source_total fuel st (expanduser home src)) as [st1 ->]; [right; apply Hn; right; now left|exact H1|].
      cbn [bind]. apply fnew_total. apply Hn. now left.
    - apply source_total; [right; apply Hn; now left|exact H1].
  Qed.
  Lemma mrun_total k ops : (forall o p, In o ops -> In p (outs home o) -> file_name (basename p)) ->
    exists f0, forall fuel st, f0 <= fuel -> exists st', mrun canon exists_ glob_ home fuel k ops st = Ok st'.
  Proof.
    induction ops as [|o ops IH]; intros Ho; [exists 0; cbn; eauto|].
    destruct IH as [f0 IH]; [intros o' p H; apply (Ho o'); now right|].
    exists (f0 + 1 + list_max (map (fun p => depth p + 2) (names home o))). intros fuel st Hf. cbn [mrun].
    destruct (mstep_total fuel k st o) as [st1 ->].
    - intros p Hp. assert (L : list_max (map (fun p => depth p + 2) (names home o)) <= fuel) by lia.
      apply list_max_le in L. rewrite Forall_forall in L. apply L. apply in_map_iff. now exists p.
    - lia.
    - intros p. apply (Ho o). now left.
    - cbn [bind]. apply IH. lia.
  Qed.
End Total.

(** ** C33 *)
Lemma reg_start n k : reg (repeat empty_reg n) k = empty_reg.
Proof. unfold reg. revert k. induction n as [|n IH]; intros [|k]; cbn; auto. Qed.

Section Claims.
  Variables (cwd home : string) (ex exists_ : string -> bool) (glob_ : string -> list string) (ops : list mop).
  Variables (fuel k n : nat) (st : regs).
  Hypothesis disk : disk_ok cwd ex exists_.
  Hypothesis ok : script_ok cwd home ex ops.
  Hypothesis Hk : k < n.
  Hypothesis Hrun : mrun (realpath cwd) exists_ glob_ home fuel k ops (repeat empty_reg n) = Ok st.

  Lemma claim_good : goods cwd ex (missing_dir cwd home ex ops) st /\
    (forall o p, In o ops -> In p (outs home o) -> registered (realpath cwd) (fst (reg st (target_core k o))) p).
  Proof.
    destruct (mrun_good cwd home ex exists_ glob_ disk ops ok fuel k ops _ _ Hrun) as (G & _ & K).
    - intros j. rewrite reg_start. apply good_empty.
    - now rewrite repeat_length.
    - apply incl_refl.
    - split; [exact G|]. intros o p Ho Hp. specialize (K o p Ho Hp). unfold registered, resolves.
      destruct (in_dec string_dec p (keys (reg st (target_core k o)))) as [H|H].
      + apply in_map_iff in H. destruct H as ([q i] & E & H). cbn in E. subst q. exists i. now left.
      + destruct K as [K|K]; [contradiction|]. apply in_map_iff in K. destruct K as ([q i] & E & K). cbn in E. subst q.
        exists i. right. auto.
  Qed.
  Lemma claim_dirs j nm i a : In (nm, i) (c_targets (fst (reg st j))) -> makes_file (kind_of (reg st j) i) ->
    above a (t_name (obj (fst (reg st j)) i)) -> ex a = false ->
    exists d, clos_trans nat (obj_dep (realpath cwd) (fst (reg st j))) i d /\ kind_of (reg st j) d = MDir /\
      t_name (obj (fst (reg st j)) d) = a.
  Proof.
    intros Hi Hm Ha Hx. destruct claim_good as [G _].
    destruct (good_all_dirs cwd ex exists_ disk _ (reg st j) a _ (G j) Ha nm i Hi Hm eq_refl Hx) as (d & nm' & H1 & H2 & H3 & _).
    eauto.
  Qed.
End Claims.

Lemma cone_registered_name canon c i j : (exists nm, In (nm, i) (c_targets c)) -> in_cone canon c i j -> exists nm, In (nm, j) (c_targets c).
Proof.
  intros Hi H. apply Operators_Properties.clos_rt_rtn1 in H. destruct H as [|y z (d & _ & [Hd|[_ Hd]]) _]; eauto.
Qed.

Lemma claim_start cwd home fs exists_ glob_ ops fuel k n st m other_if partial P i now ca c1 objs s :
  disk_ok cwd (present fs) exists_ -> script_ok cwd home (present fs) ops -> k < n ->
  mrun (realpath cwd) exists_ glob_ home fuel k ops (repeat empty_reg n) = Ok st ->
  implements (realpath cwd) (kind_of (reg st m)) P (fst (reg st m)) i ->
  build_of (realpath cwd) (kind_of (reg st m)) other_if partial (fst (reg st m)) i fs now ca c1 objs s ->
  forall t j, In (EStart t) (s_log s) -> nth_error objs t = Some j -> makes_file (kind_of (reg st m) j) ->
  forall a, above a (t_name (obj (fst (reg st m)) j)) -> ~ is_file P a -> w_fs (s_world s) a <> None.
Proof.
  intros disk ok Hk Hrun Him Hb t j Ht Hj Hm a Ha Hf.
  destruct (dirs_at_start _ _ _ _ _ _ _ _ _ _ _ _ _ t j Him Hb Ht Hj) as (D1 & D2 & D3).
  destruct (fs a) as [e|] eqn:E; [apply D2; [exact Hf|congruence]|].
  assert (Hx : present fs a = false) by (unfold present; now rewrite E).
  destruct Hb as (_ & _ & Hi & _). destruct (cone_registered_name _ _ _ _ Hi D3) as [nm Hnm].
  destruct (claim_dirs cwd home _ exists_ glob_ ops fuel k n st disk ok Hk Hrun m nm j a Hnm Hm Ha Hx) as (d & H1 & H2 & H3).
  rewrite <- H3. now apply D1.
Qed.
