(** Lemmas: which registration counts when a file gets two rules (C89). *)
From Verif Require Import PyBase PyPath PathProofs SolverModel SpecGraph InvokerModel CoreModel SpecCore CoreProofs NeedProofs
  MakeModel SpecMake RegModel CliModel CliProofs SpecUtil UtilProofs SpecReg RegProofs RegScript RegBuild RegTotal
  RegCopy SpecProject SpecPrograms ProjectProofs InstallModel SpecInstall InstallProofs.
Local Open Scope string_scope.
Local Open Scope list_scope.

Section Twice.
  Variables (cwd home : string) (ex exists_ : string -> bool) (glob_ : string -> list string).
  Hypothesis disk : disk_ok cwd ex exists_.
  Notation canon := (realpath cwd).
  Notation fnew := (fnew canon exists_ glob_).
  Notation declares := (declares cwd home glob_).
  Notation deps_of := (deps_of home glob_).

  Lemma fnew_split fuel st kd name deps dk st' : fnew (S fuel) st 0 kd name deps dk = Ok st' ->
    exists st1 deps1 st2,
      (if dk && negb (exists_ (dirname (canon name))) then
         fnew fuel st 0 MDir (dirname (canon name)) [] (negb (exists_ (dirname (dirname (canon name))))) = Ok st1 /\ deps1 = deps ++ [dirname (canon name)]
       else st1 = st /\ deps1 = deps) /\
      source_existing canon exists_ glob_ fuel (expand_names glob_ deps1) st1 = Ok st2 /\
      st' = put st2 0 (reg_add (reg st2 0) Updatable kd (canon name) (expand_names glob_ deps1)).
  Proof.
    intros E. cbn [RegModel.fnew] in E. rewrite normpath_dirname_canonical in E.
    assert (N : normpath (dirname (dirname (canon name))) = dirname (dirname (canon name))).
    { rewrite <- (canonical_dirname cwd (canon name)) by apply realpath_idem. apply normpath_dirname_canonical. }
    rewrite N in E.
    match type of E with bind ?X _ = _ => destruct X as [[st1 deps1]| |] eqn:E1; cbn [bind] in E; try discriminate end.
    rewrite (loop_sources cwd exists_ glob_) in E.
    match type of E with bind ?X _ = _ => destruct X as [st2| |] eqn:E2; cbn [bind] in E; try discriminate end. injection E as <-.
    exists st1, deps1, st2. split; [|split; [exact E2|reflexivity]].
    destruct (dk && negb (exists_ (dirname (canon name)))); [|injection E1 as <- <-; auto].
    match type of E1 with bind ?X _ = _ => destruct X as [st0| |] eqn:E0; cbn [bind] in E1; try discriminate end. injection E1 as <- <-. auto.
  Qed.
  Lemma dir_missing name : exists_ (dirname (canon name)) = false -> above (dirname (canon name)) (canon name) /\ canon (dirname (canon name)) = dirname (canon name).
  Proof.
    intros H. split; [|apply canonical_dirname, realpath_idem]. apply (missing_parent_above cwd ex exists_ disk).
    rewrite <- (exists_dirpath cwd ex exists_ disk), normpath_dirname_canonical. exact H.
  Qed.
  Lemma above_up a name : above a (dirname (canon name)) -> exists_ (dirname (canon name)) = false -> above a (canon name).
  Proof.
    intros H Hn. apply above_trans_dir; [|exact H]. intros E. pose proof (dir_missing name Hn) as [A _]. rewrite E in A.
    pose proof (fixed_root cwd name E) as Er. unfold RegModel.source in *.
    assert (X : exists_ (dirname (canon name)) = true); [|congruence].
    pose proof (exists_dirpath cwd ex exists_ disk name) as X. rewrite normpath_dirname_canonical in X. rewrite X, E, Er.
    apply (root_exists cwd ex exists_ disk).
  Qed.

  (** *** An entry that stays *)
  Section Stay.
    Variables (x : string) (i : nat) (o : tobj) (kd : mkind).
    Definition here (r : mreg) : Prop :=
      sget (c_targets (fst r)) x = Some i /\ i < List.length (c_heap (fst r)) /\ kinds_ok r /\ obj (fst r) i = o /\ kind_of r i = kd.
    Lemma here_add r cls k nm deps : here r -> nm <> x -> here (reg_add r cls k nm deps).
    Proof.
      intros (A & B & C & D & E) N. unfold here, kind_of, obj, reg_add. cbn [fst snd]. rewrite core_new_targets, core_new_heap.
      rewrite app_length, !app_nth1; [|unfold kinds_ok in C; lia|exact B]. split.
      - rewrite (dget_dset_neq _ string_eqb_spec') by congruence. exact A.
      - split; [lia|]. split; [now apply kinds_add|]. auto.
    Qed.
    Lemma here_has r nm : here r -> here (snd (core_has canon (fst r) nm), snd r).
    Proof.
      intros (A & B & C & D & E). unfold core_has. destruct (sget (c_targets (fst r)) nm) as [j|] eqn:En; [repeat split; auto|].
      destruct (sget (c_targets (fst r)) (canon nm)) as [j|]; [|repeat split; auto]. cbn [fst snd].
      assert (N : nm <> x) by congruence. split; [|repeat split; auto]. cbn [fst c_targets].
      rewrite (dget_dset_neq _ string_eqb_spec') by congruence. exact A.
    Qed.
    Lemma here_rhas st nm b st' : 0 < List.length st -> here (reg st 0) -> rhas canon st 0 nm = (b, st') ->
      here (reg st' 0) /\ List.length st' = List.length st /\ (b = false -> canon nm <> x).
    Proof.
      intros L H Eh. destruct (keep_rhas cwd here here_has st nm b st' L H Eh) as [H1 L1]. split; [exact H1|]. split; [exact L1|].
      intros -> E. unfold rhas in Eh. destruct H as (A & _). unfold core_has in Eh. rewrite E, A in Eh.
      destruct (sget (c_targets (fst (reg st 0))) nm); discriminate.
    Qed.
    Definition clear_name (name : string) (dk : bool) : Prop :=
      canon name <> x /\ (dk = true -> exists_ (dirname (canon name)) = false -> ~ above x (canon name)).
    Lemma clear_existing r : exists_ r = true -> canon r <> x -> clear_name r true.
    Proof.
      intros He Hx. split; [exact Hx|]. intros _ Hn. exfalso.
      pose proof (dirpath_exists cwd ex exists_ disk r He) as X. rewrite normpath_dirname_canonical in X. congruence.
    Qed.
    Lemma here_fnew : forall fuel st k name deps dk st', fnew fuel st 0 k name deps dk = Ok st' ->
      clear_name name dk -> 0 < List.length st -> here (reg st 0) -> here (reg st' 0) /\ List.length st' = List.length st.
    Proof.
      induction fuel as [|fuel IH]; intros st k name deps dk st' E [Hc Hd] L H; [discriminate|].
      apply fnew_split in E as (st1 & deps1 & st2 & E1 & E2 & ->).
      assert (H1 : here (reg st1 0) /\ List.length st1 = List.length st).
      { destruct (dk && negb (exists_ (dirname (canon name)))) eqn:Eb; [|destruct E1 as [-> _]; auto].
        apply andb_prop in Eb as [-> Eb]. apply negb_true_iff in Eb. destruct E1 as [E1 _]. destruct (dir_missing name Eb) as [Ha Cd].
        apply (IH _ _ _ _ _ _ E1); [|exact L|exact H]. split.
        - rewrite Cd. intros Ex. apply (Hd eq_refl Eb). now rewrite <- Ex.
        - intros _ _. rewrite Cd. intros Hx. apply (Hd eq_refl Eb). now apply above_up. }
      destruct H1 as [H1 L1].
      assert (H2 : here (reg st2 0) /\ List.length st2 = List.length st1).
      { assert (P1 : 0 < List.length st1) by lia. clear - disk IH E2 H1 P1. revert st1 E2 H1 P1.
        induction (expand_names glob_ deps1) as [|r l IHl]; intros st1 E2 H1 P1; [injection E2 as <-; auto|]. cbn [source_existing] in E2.
        destruct (exists_ r) eqn:Er; [|now apply IHl]. unfold RegModel.source in E2. destruct (rhas canon st1 0 r) as [b st3] eqn:E3.
        destruct (here_rhas _ _ _ _ P1 H1 E3) as (H3 & L3 & N3). destruct b; cbn [bind] in E2.
        - destruct (IHl _ E2 H3) as [A B]; [lia|]. split; [exact A|lia].
        - destruct (fnew fuel st3 0 MSource r [] true) as [st4| |] eqn:E4; cbn [bind] in E2; try discriminate.
          destruct (IH _ _ _ _ _ _ E4) as [H4 L4]; [now apply clear_existing, N3|lia|exact H3|]. destruct (IHl _ E2 H4) as [A B]; [lia|]. split; [exact A|lia]. }
      destruct H2 as [H2 L2]. rewrite put_length. split; [|lia]. rewrite reg_put, Nat.eqb_refl by lia. now apply here_add.
    Qed.
    Lemma here_source fuel st p st' : RegModel.source canon exists_ glob_ fuel st p = Ok st' ->
      (exists_ p = true \/ ~ above x (canon p)) -> 0 < List.length st -> here (reg st 0) -> here (reg st' 0) /\ List.length st' = List.length st.
    Proof.
      unfold RegModel.source. intros E Hp L H. destruct (rhas canon st 0 p) as [b st1] eqn:E1.
      destruct (here_rhas _ _ _ _ L H E1) as (H1 & L1 & N1). destruct b; [injection E as <-; auto|].
      destruct (here_fnew _ _ _ _ _ _ _ E) as [A B]; [|lia|exact H1|split; [exact A|lia]].
      specialize (N1 eq_refl). destruct Hp as [Hp|Hp]; [now apply clear_existing|]. split; [exact N1|]. intros _ _. exact Hp.
    Qed.
    Lemma here_existing fuel l : forall st st', source_existing canon exists_ glob_ fuel l st = Ok st' ->
      0 < List.length st -> here (reg st 0) -> here (reg st' 0) /\ List.length st' = List.length st.
    Proof.
      induction l as [|r l IH]; intros st st' E L H; [injection E as <-; auto|]. cbn in E. destruct (exists_ r) eqn:Er; [|now apply IH].
      destruct (RegModel.source canon exists_ glob_ fuel st r) as [st1| |] eqn:E1; cbn [bind] in E; try discriminate.
      destruct (here_source _ _ _ _ E1 (or_introl Er) L H) as [H1 L1]. destruct (IH _ _ E) as [A B]; [lia|exact H1|]. split; [exact A|lia].
    Qed.
    Lemma here_plain fuel st cls k nm deps st' : plain_new canon exists_ glob_ fuel st 0 cls k nm deps = Ok st' ->
      nm <> x -> 0 < List.length st -> here (reg st 0) -> here (reg st' 0) /\ List.length st' = List.length st.
    Proof.
      unfold plain_new. intros E N L H.
      match type of E with bind ?X _ = _ => destruct X as [st1| |] eqn:E1; cbn [bind] in E; try discriminate end.
      destruct (here_existing _ _ _ _ E1 L H) as [H1 L1]. injection E as <-. rewrite put_length, reg_put, Nat.eqb_refl by lia.
      split; [now apply here_add|exact L1].
    Qed.
    Lemma here_step fuel st s st' : mstep canon exists_ glob_ home fuel 0 st (op_of s) = Ok st' ->
      ~ In x (declares s) -> (forall p, In p (places_of home s) -> ~ above x (canon p)) ->
      0 < List.length st -> here (reg st 0) -> here (reg st' 0) /\ List.length st' = List.length st.
    Proof.
      destruct s as [p|f t ds b|t p ds b|nm ds|u nm ds]; cbn [op_of mstep]; intros E Hd Ha L H; cbn in Hd.
      - apply (here_source _ _ _ _ E); auto. right. apply Ha. now left.
      - apply (here_fnew _ _ _ _ _ _ _ E); auto. split; [tauto|]. intros _ _. apply Ha. now left.
      - unfold copy in E. match type of E with bind ?X _ = _ => destruct X as [st1| |] eqn:E1; cbn [bind] in E; try discriminate end.
        destruct (here_source _ _ _ _ E1) as [H1 L1]; [right; apply Ha; right; now left|exact L|exact H|].
        destruct (here_fnew _ _ _ _ _ _ _ E) as [A B]; [|lia|exact H1|split; [exact A|lia]].
        split; [tauto|]. intros _ _. apply Ha. now left.
      - unfold fileset in E. apply (here_plain _ _ _ _ _ _ _ E); auto.
      - apply (here_plain _ _ _ _ _ _ _ E); auto.
    Qed.
    Lemma here_run fuel l : forall st st', mrun canon exists_ glob_ home fuel 0 (map op_of l) st = Ok st' ->
      (forall s, In s l -> ~ In x (declares s)) -> (forall s p, In s l -> In p (places_of home s) -> ~ above x (canon p)) ->
      0 < List.length st -> here (reg st 0) -> here (reg st' 0) /\ List.length st' = List.length st.
    Proof.
      induction l as [|s l IH]; intros st st' E Hd Ha L H; [injection E as <-; auto|]. cbn [map mrun] in E.
      destruct (mstep canon exists_ glob_ home fuel 0 st (op_of s)) as [st1| |] eqn:E1; cbn [bind] in E; try discriminate.
      destruct (here_step _ _ _ _ E1) as [H1 L1]; [apply Hd; now left|intros p Hp; apply (Ha s); [now left|exact Hp]|exact L|exact H|].
      destruct (IH _ _ E) as [A B]; [intros s' Hs; apply Hd; now right|intros s' p Hs; apply Ha; now right|lia|exact H1|]. split; [exact A|lia].
    Qed.
  End Stay.

  (** *** A new rule *)
  Lemma new_rule fuel st f t ds b st' : mstep canon exists_ glob_ home fuel 0 st (op_of (SRule f t ds b)) = Ok st' ->
    0 < List.length st -> kinds_ok (reg st 0) -> exists i o, here (canon t) i o (MFile f b) (reg st' 0) /\ t_name o = canon t /\ exists dd, t_deps o = expand_names glob_ ds ++ dd.
  Proof.
    cbn [op_of mstep]. unfold makefile. intros E L K. destruct fuel as [|fuel]; [discriminate|].
    pose proof (fnew_length _ _ _ _ _ _ _ _ _ _ _ E) as Len.
    assert (K' : kinds_ok (reg st' 0)).
    { destruct (keep_fnew cwd exists_ glob_ kinds_ok (fun r nm => kinds_has canon r nm) (fun r kd nm deps => kinds_add r Updatable kd (canon nm) deps) _ _ _ _ _ _ _ E L K) as [A _]. exact A. }
    apply fnew_split in E as (st1 & deps1 & st2 & E1 & E2 & ->). rewrite put_length in Len. rewrite reg_put, Nat.eqb_refl in * by lia.
    exists (List.length (c_heap (fst (reg st2 0)))), (new_obj Updatable (canon t) (expand_names glob_ deps1)).
    assert (Kl : List.length (snd (reg st2 0)) = List.length (c_heap (fst (reg st2 0)))).
    { unfold kinds_ok, reg_add in K'. cbn [fst snd] in K'. rewrite core_new_heap, !app_length in K'. cbn in K'. lia. }
    split.
    - split; [unfold reg_add; cbn [fst]; rewrite core_new_targets; apply (dget_dset_eq _ string_eqb_spec')|].
      split; [unfold reg_add; cbn [fst]; rewrite core_new_heap, app_length; cbn; lia|]. split; [exact K'|].
      unfold obj, kind_of, reg_add. cbn [fst snd]. rewrite core_new_heap, app_nth2, Nat.sub_diag by lia. rewrite app_nth2, Kl, Nat.sub_diag by lia. split; reflexivity.
    - split; [reflexivity|]. cbn [t_deps new_obj]. destruct (true && negb (exists_ (dirname (canon t)))); destruct E1 as [_ ->].
      + unfold expand_names. rewrite flat_map_app. eauto.
      + exists []. now rewrite app_nil_r.
  Qed.

  (** *** A relative name that nobody has used *)
  Section Unused.
    Variable t : string.
    Hypothesis rel : canon t <> t.
    Hypothesis absolute_globs : globs_absolute cwd glob_ t.
    Definition unused (r : mreg) : Prop := sget (c_targets (fst r)) t = None.
    Lemma canon_not p : canon p <> t.
    Proof. intros E. apply rel. rewrite <- E. apply realpath_idem. Qed.
    Lemma unused_add r cls k nm deps : unused r -> nm <> t -> unused (reg_add r cls k nm deps).
    Proof. unfold unused, reg_add. cbn [fst]. rewrite core_new_targets. intros H N. rewrite (dget_dset_neq _ string_eqb_spec') by congruence. exact H. Qed.
    Lemma unused_rhas st nm b st' : 0 < List.length st -> nm <> t -> unused (reg st 0) -> rhas canon st 0 nm = (b, st') ->
      unused (reg st' 0) /\ List.length st' = List.length st.
    Proof.
      unfold rhas. intros L N H. destruct (core_has canon (fst (reg st 0)) nm) as [b' c'] eqn:E. intros Eq. injection Eq as <- <-.
      rewrite put_length, reg_put, Nat.eqb_refl by exact L. split; [|reflexivity]. unfold unused, core_has in *. cbn [fst].
      destruct (sget (c_targets (fst (reg st 0))) nm); [injection E as <- <-; exact H|].
      destruct (sget (c_targets (fst (reg st 0))) (canon nm)); injection E as <- <-; [|exact H]. cbn [c_targets].
      rewrite (dget_dset_neq _ string_eqb_spec') by congruence. exact H.
    Qed.
    Lemma unused_fnew : forall fuel st k name deps dk st', fnew fuel st 0 k name deps dk = Ok st' ->
      (exists_ t = true -> ~ In t (expand_names glob_ deps)) -> 0 < List.length st -> unused (reg st 0) -> unused (reg st' 0) /\ List.length st' = List.length st.
    Proof.
      induction fuel as [|fuel IH]; intros st k name deps dk st' E Hd L H; [discriminate|].
      apply fnew_split in E as (st1 & deps1 & st2 & E1 & E2 & ->).
      assert (H1 : unused (reg st1 0) /\ List.length st1 = List.length st /\ (exists_ t = true -> ~ In t (expand_names glob_ deps1))).
      { destruct (dk && negb (exists_ (dirname (canon name)))) eqn:Eb; [|destruct E1 as [-> ->]; auto]. destruct E1 as [E1 ->].
        destruct (IH _ _ _ _ _ _ E1 (fun _ X => X) L H) as [A B]. split; [exact A|]. split; [exact B|].
        intros Et. unfold expand_names. rewrite flat_map_app, in_app_iff. intros [X|X]; [now apply (Hd Et)|]. cbn [flat_map] in X. rewrite app_nil_r in X.
        assert (Cd : canon (dirname (canon name)) = dirname (canon name)) by (apply canonical_dirname, realpath_idem).
        destruct (has_star (dirname (canon name))); [now apply (absolute_globs _ Cd)|]. destruct X as [X|[]].
        apply (canon_not (dirname (canon name))). congruence. }
      destruct H1 as (H1 & L1 & D1).
      assert (H2 : unused (reg st2 0) /\ List.length st2 = List.length st1).
      { assert (P1 : 0 < List.length st1) by lia. clear - rel IH E2 H1 P1 D1. revert st1 E2 H1 P1 D1.
        induction (expand_names glob_ deps1) as [|r l IHl]; intros st1 E2 H1 P1 D1; [injection E2 as <-; auto|]. cbn [source_existing] in E2.
        assert (D2 : exists_ t = true -> ~ In t l) by (intros Et X; apply (D1 Et); now right).
        destruct (exists_ r) eqn:Er; [|now apply IHl]. assert (N : r <> t) by (intros ->; apply (D1 Er); now left). unfold RegModel.source in E2. destruct (rhas canon st1 0 r) as [b st3] eqn:E3.
        destruct (unused_rhas _ _ _ _ P1 N H1 E3) as (H3 & L3). destruct b; cbn [bind] in E2.
        - destruct (IHl _ E2 H3) as [A B]; [lia|exact D2|]. split; [exact A|lia].
        - destruct (fnew fuel st3 0 MSource r [] true) as [st4| |] eqn:E4; cbn [bind] in E2; try discriminate.
          destruct (IH _ _ _ _ _ _ E4 (fun _ X => X)) as [H4 L4]; [lia|exact H3|]. destruct (IHl _ E2 H4) as [A B]; [lia|exact D2|]. split; [exact A|lia]. }
      destruct H2 as [H2 L2]. rewrite put_length. split; [|lia]. rewrite reg_put, Nat.eqb_refl by lia. apply unused_add; [exact H2|apply canon_not].
    Qed.
    Lemma unused_source fuel st p st' : RegModel.source canon exists_ glob_ fuel st p = Ok st' -> p <> t ->
      0 < List.length st -> unused (reg st 0) -> unused (reg st' 0) /\ List.length st' = List.length st.
    Proof.
      unfold RegModel.source. intros E Hp L H. destruct (rhas canon st 0 p) as [b st1] eqn:E1.
      destruct (unused_rhas _ _ _ _ L Hp H E1) as (H1 & L1). destruct b; [injection E as <-; auto|].
      destruct (unused_fnew _ _ _ _ _ _ _ E (fun _ X => X)) as [A B]; [lia|exact H1|split; [exact A|lia]].
    Qed.
    Lemma unused_existing fuel l : forall st st', source_existing canon exists_ glob_ fuel l st = Ok st' -> (exists_ t = true -> ~ In t l) ->
      0 < List.length st -> unused (reg st 0) -> unused (reg st' 0) /\ List.length st' = List.length st.
    Proof.
      induction l as [|r l IH]; intros st st' E D L H; [injection E as <-; auto|]. cbn in E.
      assert (D2 : exists_ t = true -> ~ In t l) by (intros Et X; apply (D Et); now right). destruct (exists_ r) eqn:Er; [|now apply IH].
      destruct (RegModel.source canon exists_ glob_ fuel st r) as [st1| |] eqn:E1; cbn [bind] in E; try discriminate.
      destruct (unused_source _ _ _ _ E1) as [H1 L1]; [intros ->; apply (D Er); now left|exact L|exact H|].
      destruct (IH _ _ E D2) as [A B]; [lia|exact H1|]. split; [exact A|lia].
    Qed.
    Lemma unused_plain fuel st cls k nm deps st' : plain_new canon exists_ glob_ fuel st 0 cls k nm deps = Ok st' ->
      nm <> t -> (exists_ t = true -> ~ In t (expand_names glob_ deps)) -> 0 < List.length st -> unused (reg st 0) -> unused (reg st' 0) /\ List.length st' = List.length st.
    Proof.
      unfold plain_new. intros E N D L H.
      match type of E with bind ?X _ = _ => destruct X as [st1| |] eqn:E1; cbn [bind] in E; try discriminate end.
      destruct (unused_existing _ _ _ _ E1 D L H) as [H1 L1]. injection E as <-. rewrite put_length, reg_put, Nat.eqb_refl by lia.
      split; [now apply unused_add|exact L1].
    Qed.
    Lemma unused_step fuel st s st' : mstep canon exists_ glob_ home fuel 0 st (op_of s) = Ok st' ->
      ~ In t (sources_of home s) -> (exists_ t = true -> ~ In t (deps_of s)) -> ~ In t (declares s) ->
      0 < List.length st -> unused (reg st 0) -> unused (reg st' 0) /\ List.length st' = List.length st.
    Proof.
      destruct s as [p|f q ds b|q p ds b|nm ds|u nm ds]; cbn [op_of mstep]; intros E Hs Hm Hd L H; cbn in Hd, Hs, Hm.
      - apply (unused_source _ _ _ _ E); auto.
      - apply (unused_fnew _ _ _ _ _ _ _ E); auto.
      - unfold copy in E. match type of E with bind ?X _ = _ => destruct X as [st1| |] eqn:E1; cbn [bind] in E; try discriminate end.
        destruct (unused_source _ _ _ _ E1) as [H1 L1]; [intros X; apply Hs; now left|exact L|exact H|].
        destruct (unused_fnew _ _ _ _ _ _ _ E) as [A B]; [exact Hm|lia|exact H1|split; [exact A|lia]].
      - unfold fileset in E. apply (unused_plain _ _ _ _ _ _ _ E); auto.
      - apply (unused_plain _ _ _ _ _ _ _ E); auto.
    Qed.
    Lemma unused_run fuel l : forall st st', mrun canon exists_ glob_ home fuel 0 (map op_of l) st = Ok st' ->
      (forall s, In s l -> ~ In t (sources_of home s) /\ (exists_ t = true -> ~ In t (deps_of s)) /\ ~ In t (declares s)) ->
      0 < List.length st -> unused (reg st 0) -> unused (reg st' 0) /\ List.length st' = List.length st.
    Proof.
      induction l as [|s l IH]; intros st st' E Hd L H; [injection E as <-; auto|]. cbn [map mrun] in E.
      destruct (mstep canon exists_ glob_ home fuel 0 st (op_of s)) as [st1| |] eqn:E1; cbn [bind] in E; try discriminate.
      destruct (Hd s (or_introl eq_refl)) as (M & M' & D). destruct (unused_step _ _ _ _ E1 M M' D L H) as [H1 L1].
      destruct (IH _ _ E) as [A B]; [intros s' Hs; apply Hd; now right|lia|exact H1|]. split; [exact A|lia].
    Qed.

    (** A mention of a name whose file has a target makes the name mean the target. *)
    Lemma rhas_alias st i o kd : 0 < List.length st -> unused (reg st 0) -> here (canon t) i o kd (reg st 0) ->
      exists st', rhas canon st 0 t = (true, st') /\ here t i o kd (reg st' 0) /\ List.length st' = List.length st.
    Proof.
      unfold unused, rhas, core_has. intros L U (A & B & C & D & F). rewrite U, A. eexists. split; [reflexivity|].
      rewrite put_length, reg_put, Nat.eqb_refl by exact L. split; [|reflexivity]. unfold here. cbn [fst snd c_targets c_heap].
      split; [apply (dget_dset_eq _ string_eqb_spec')|]. auto.
    Qed.
    Lemma existing_alias fuel i o kd l : forall st st', source_existing canon exists_ glob_ fuel l st = Ok st' -> In t l -> exists_ t = true ->
      0 < List.length st -> unused (reg st 0) -> here (canon t) i o kd (reg st 0) -> here t i o kd (reg st' 0) /\ List.length st' = List.length st.
    Proof.
      induction l as [|r l IH]; intros st st' E Ht Et L U H; [destruct Ht|]. destruct (string_dec r t) as [->|N].
      - cbn [source_existing] in E. rewrite Et in E. unfold RegModel.source in E.
        destruct (rhas_alias st i o kd L U H) as (st1 & E1 & H1 & L1). rewrite E1 in E. cbn [bind] in E.
        destruct (here_existing t i o kd _ _ _ _ E) as [A B]; [lia|exact H1|]. split; [exact A|lia].
      - destruct Ht as [Ht|Ht]; [contradiction|]. cbn in E. destruct (exists_ r) eqn:Er; [|now apply IH].
        destruct (RegModel.source canon exists_ glob_ fuel st r) as [st1| |] eqn:E1; cbn [bind] in E; try discriminate.
        destruct (unused_source _ _ _ _ E1 N L U) as [U1 L1]. destruct (here_source (canon t) i o kd _ _ _ _ E1 (or_introl Er) L H) as [H1 _].
        destruct (IH _ _ E Ht Et) as [A B]; [lia|exact U1|exact H1|]. split; [exact A|lia].
    Qed.
    (** Such a name keeps its meaning. *)
    Lemma above_not p : ~ above t (canon p).
    Proof.
      intros H. assert (X : forall a q, above a q -> canon q = q -> canon a = a).
      { induction 1; intros Hq; [now apply canonical_dirname|]. apply canonical_dirname. auto. }
      apply rel. apply (X _ _ H). apply realpath_idem.
    Qed.
    Lemma named_run fuel l i o kd st st' : mrun canon exists_ glob_ home fuel 0 (map op_of l) st = Ok st' ->
      (forall s nm, In s l -> set_of glob_ s <> None \/ other_of glob_ s <> None -> In nm (declares s) -> nm <> t) ->
      0 < List.length st -> here t i o kd (reg st 0) -> here t i o kd (reg st' 0).
    Proof.
      intros E Hd L H. destruct (here_run t i o kd fuel l st st' E) as [A _]; [| |exact L|exact H|exact A].
      - intros s Hs X. destruct s as [p|f q ds b|q p ds b|nm ds|u nm ds]; cbn in X; try tauto.
        + destruct X as [X|[]]. now apply (canon_not q).
        + destruct X as [X|[]]. now apply (canon_not (expanduser home q)).
        + apply (Hd _ t Hs); [left; discriminate|exact X|reflexivity].
        + apply (Hd _ t Hs); [right; discriminate|exact X|reflexivity].
      - intros s p _ _. apply above_not.
    Qed.
    Lemma fnew_alias fuel st k name deps dk st' i o kd : fnew fuel st 0 k name deps dk = Ok st' ->
      In t (expand_names glob_ deps) -> exists_ t = true -> clear_name (canon t) name dk -> 0 < List.length st ->
      unused (reg st 0) -> here (canon t) i o kd (reg st 0) -> here t i o kd (reg st' 0).
    Proof.
      destruct fuel as [|fuel]; [discriminate|]. intros E Ht Et [Hc Hd] L U H. apply fnew_split in E as (st1 & deps1 & st2 & E1 & E2 & ->).
      assert (H1 : unused (reg st1 0) /\ here (canon t) i o kd (reg st1 0) /\ List.length st1 = List.length st /\ In t (expand_names glob_ deps1)).
      { destruct (dk && negb (exists_ (dirname (canon name)))) eqn:Eb; [|destruct E1 as [-> ->]; auto]. destruct E1 as [E1 ->].
        apply andb_prop in Eb as [-> Eb]. apply negb_true_iff in Eb. destruct (dir_missing name Eb) as [Ha Cd].
        destruct (unused_fnew _ _ _ _ _ _ _ E1 (fun _ X => X) L U) as [A B].
        destruct (here_fnew (canon t) i o kd _ _ _ _ _ _ _ E1) as [A' _]; [|exact L|exact H|].
        - split; [rewrite Cd; intros Ex; apply (Hd eq_refl Eb); now rewrite <- Ex|]. intros _ _. rewrite Cd. intros Hx. apply (Hd eq_refl Eb). now apply above_up.
        - split; [exact A|]. split; [exact A'|]. split; [exact B|]. unfold expand_names in *. rewrite flat_map_app, in_app_iff. now left. }
      destruct H1 as (U1 & H1 & L1 & T1). destruct (existing_alias _ i o kd _ _ _ E2 T1 Et) as [H2 L2]; [lia|exact U1|exact H1|].
      rewrite reg_put, Nat.eqb_refl by lia. apply here_add; [exact H2|apply canon_not].
    Qed.
    Lemma plain_alias fuel st cls k nm deps st' i o kd : plain_new canon exists_ glob_ fuel st 0 cls k nm deps = Ok st' ->
      In t (expand_names glob_ deps) -> exists_ t = true -> nm <> t -> 0 < List.length st ->
      unused (reg st 0) -> here (canon t) i o kd (reg st 0) -> here t i o kd (reg st' 0).
    Proof.
      unfold plain_new. intros E Ht Et N L U H.
      match type of E with bind ?X _ = _ => destruct X as [st1| |] eqn:E1; cbn [bind] in E; try discriminate end.
      destruct (existing_alias _ i o kd _ _ _ E1 Ht Et L U H) as [H1 L1]. injection E as <-. rewrite reg_put, Nat.eqb_refl by lia. now apply here_add.
    Qed.
    Lemma alias_step fuel st s st' i o kd : mstep canon exists_ glob_ home fuel 0 st (op_of s) = Ok st' ->
      In t (deps_of s) -> exists_ t = true -> ~ In t (declares s) -> ~ In (canon t) (declares s) ->
      (forall p, In p (places_of home s) -> ~ above (canon t) (canon p)) -> 0 < List.length st ->
      unused (reg st 0) -> here (canon t) i o kd (reg st 0) -> here t i o kd (reg st' 0) /\ List.length st' = List.length st.
    Proof.
      intros E Ht Et Hn Hd Ha L U H. split; [|now destruct (here_step (canon t) i o kd _ _ _ _ E Hd Ha L H)].
      destruct s as [p|f q ds b|q p ds b|nm ds|u nm ds]; cbn [op_of mstep] in E; cbn in Hd, Ht, Hn.
      - destruct Ht.
      - apply (fnew_alias _ _ _ _ _ _ _ i o kd E); auto. split; [tauto|]. intros _ _. apply Ha. now left.
      - assert (Cl : clear_name (canon t) (expanduser home q) true) by (split; [tauto|]; intros _ _; apply Ha; now left).
        unfold copy in E. match type of E with bind ?X _ = _ => destruct X as [st1| |] eqn:E1; cbn [bind] in E; try discriminate end.
        destruct (string_dec (expanduser home p) t) as [Ep|Np].
        + rewrite Ep in E1. unfold RegModel.source in E1. destruct (rhas_alias st i o kd L U H) as (st2 & E2 & H2 & L2). rewrite E2 in E1. injection E1 as <-.
          destruct (here_fnew t i o kd _ _ _ _ _ _ _ E) as [A _]; [|lia|exact H2|exact A]. split; [apply canon_not|]. intros _ _. apply above_not.
        + destruct (unused_source _ _ _ _ E1 Np L U) as [U1 L1].
          destruct (here_source (canon t) i o kd _ _ _ _ E1) as [H1 _]; [right; apply Ha; right; now left|exact L|exact H|].
          apply (fnew_alias _ _ _ _ _ _ _ i o kd E); auto. lia.
      - unfold fileset in E. apply (plain_alias _ _ _ _ _ _ _ i o kd E); auto.
      - apply (plain_alias _ _ _ _ _ _ _ i o kd E); auto.
    Qed.
  End Unused.

  (** *** Scripts that write two rules *)
  Lemma no_name l t : (forall nm, is_name l nm = true -> nm <> t) -> canon t <> t -> forall s, In s l -> ~ In t (declares s).
  Proof.
    intros Hn rel s Hs X. assert (Y : forall nm ds, s = SSet nm ds \/ (exists u, s = STarget u nm ds) -> nm <> t).
    { intros nm ds Hd. apply Hn. unfold is_name. apply existsb_exists. exists s. split; [exact Hs|]. destruct Hd as [->|[u ->]]; apply String.eqb_refl. }
    destruct s as [p|f q ds b|q p ds b|nm ds|u nm ds]; cbn in X; try tauto; destruct X as [X|[]].
    - now apply (canon_not t rel q).
    - now apply (canon_not t rel (expanduser home q)).
    - apply (Y nm ds); auto.
    - apply (Y nm ds); eauto.
  Qed.
  Lemma start_unused t : unused t (reg [empty_reg] 0).
  Proof. reflexivity. Qed.
  Lemma start_ok : forall j, kinds_ok (reg [empty_reg] j).
  Proof. intros j. exact (start_kinds 1 j). Qed.

  Theorem last_rule fuel l1 f t ds b l2 st : mrun canon exists_ glob_ home fuel 0 (map op_of (l1 ++ SRule f t ds b :: l2)) [empty_reg] = Ok st ->
    (forall s, In s l2 -> ~ In (canon t) (declares s)) -> (forall s p, In s l2 -> In p (places_of home s) -> ~ above (canon t) (canon p)) ->
    rule_for canon (reg st 0) (canon t) f (expand_names glob_ ds) b /\
    (canon t <> t -> exists_ t = false -> globs_absolute cwd glob_ t -> (forall nm, is_name (l1 ++ SRule f t ds b :: l2) nm = true -> nm <> t) ->
     (forall s, In s (l1 ++ l2) -> ~ In t (sources_of home s)) -> rule_for canon (reg st 0) t f (expand_names glob_ ds) b).
  Proof.
    intros E Hd Ha. pose proof E as E0. rewrite map_app in E. cbn [map] in E. apply mrun_app in E as (st1 & E1 & E2). cbn [mrun] in E2.
    destruct (mstep canon exists_ glob_ home fuel 0 st1 (op_of (SRule f t ds b))) as [st2| |] eqn:E3; cbn [bind] in E2; try discriminate.
    pose proof (len_run _ _ _ _ _ _ _ _ _ E1) as L1. cbn in L1. pose proof (len_step _ _ _ _ _ _ _ _ _ E3) as L2.
    destruct (new_rule _ _ _ _ _ _ _ E3) as (i & o & H & N & dd & Dd); [lia|exact (run_kinds _ _ _ _ _ _ _ _ _ E1 start_ok 0)|].
    destruct (here_run (canon t) i o (MFile f b) _ _ _ _ E2 Hd Ha) as [(A & B & C & D & F) _]; [lia|exact H|].
    split; [|intros rel Et Gl Hn Hs]; exists i, dd.
    - unfold core_get. rewrite A. rewrite D, F, realpath_idem. auto.
    - destruct (unused_run t rel Gl _ _ _ _ E0) as [U _]; [|cbn; lia|apply start_unused|].
      + intros s Hi. split; [|split; [congruence|now apply (no_name _ t Hn rel)]].
        apply in_app_iff in Hi. destruct Hi as [Hi|[<-|Hi]]; [|intros []|]; apply Hs, in_app_iff; auto.
      + unfold core_get. rewrite U, A, D, F. auto.
  Qed.

  Theorem first_rule fuel l0 f t ds b l1 s l2 st :
    mrun canon exists_ glob_ home fuel 0 (map op_of (l0 ++ SRule f t ds b :: l1 ++ s :: l2)) [empty_reg] = Ok st ->
    canon t <> t -> exists_ t = true -> globs_absolute cwd glob_ t ->
    (forall nm, is_name (l0 ++ SRule f t ds b :: l1 ++ s :: l2) nm = true -> nm <> t) ->
    (forall s', In s' (l0 ++ SRule f t ds b :: l1) -> ~ In t (mentions home glob_ s')) -> In t (deps_of s) ->
    (forall s', In s' (l1 ++ [s]) -> ~ In (canon t) (declares s')) ->
    (forall s' p, In s' (l1 ++ [s]) -> In p (places_of home s') -> ~ above (canon t) (canon p)) ->
    rule_for canon (reg st 0) t f (expand_names glob_ ds) b.
  Proof.
    intros E rel Et Gl Hn Hm Ht Hd Ha.
    assert (Hnn : forall s', In s' (l0 ++ SRule f t ds b :: l1 ++ s :: l2) -> ~ In t (declares s')) by exact (no_name _ t Hn rel).
    assert (Hun : forall s', In s' (l0 ++ SRule f t ds b :: l1) -> ~ In t (sources_of home s') /\ (exists_ t = true -> ~ In t (deps_of s')) /\ ~ In t (declares s')).
    { intros s' Hs. pose proof (Hm s' Hs) as M. unfold mentions in M. rewrite in_app_iff in M. split; [tauto|]. split; [tauto|]. apply Hnn.
      rewrite in_app_iff in *. cbn in *. rewrite in_app_iff. tauto. }
    rewrite map_app in E. cbn [map] in E. apply mrun_app in E as (st1 & E1 & E2). cbn [mrun] in E2.
    destruct (mstep canon exists_ glob_ home fuel 0 st1 (op_of (SRule f t ds b))) as [st2| |] eqn:E3; cbn [bind] in E2; try discriminate.
    rewrite map_app in E2. cbn [map] in E2. apply mrun_app in E2 as (st3 & E4 & E5). cbn [mrun] in E5.
    destruct (mstep canon exists_ glob_ home fuel 0 st3 (op_of s)) as [st4| |] eqn:E6; cbn [bind] in E5; try discriminate.
    pose proof (len_run _ _ _ _ _ _ _ _ _ E1) as L1. cbn in L1. pose proof (len_step _ _ _ _ _ _ _ _ _ E3) as L2.
    pose proof (len_run _ _ _ _ _ _ _ _ _ E4) as L3. pose proof (len_step _ _ _ _ _ _ _ _ _ E6) as L4.
    destruct (new_rule _ _ _ _ _ _ _ E3) as (i & o & H & N & dd & Dd); [lia|exact (run_kinds _ _ _ _ _ _ _ _ _ E1 start_ok 0)|].
    destruct (unused_run t rel Gl _ _ _ _ E1) as [U1 _]; [|cbn; lia|apply start_unused|].
    { intros s' Hs. apply Hun, in_app_iff. now left. }
    destruct (Hun (SRule f t ds b)) as (M1 & M2 & M3); [apply in_app_iff; right; now left|].
    destruct (unused_step t rel Gl _ _ _ _ E3 M1 M2 M3) as [U2 _]; [lia|exact U1|].
    destruct (unused_run t rel Gl _ _ _ _ E4) as [U3 _]; [|lia|exact U2|].
    { intros s' Hs. apply Hun, in_app_iff. right. now right. }
    destruct (here_run (canon t) i o (MFile f b) _ _ _ _ E4) as [H3 _]; [| |lia|exact H|].
    { intros s' Hs. apply Hd, in_app_iff. now left. }
    { intros s' p Hs. apply Ha, in_app_iff. now left. }
    destruct (alias_step t rel Gl _ _ _ _ i o (MFile f b) E6 Ht Et) as [H4 _]; [| | |lia|exact U3|exact H3|].
    { apply Hnn. rewrite in_app_iff. right. right. rewrite in_app_iff. right. now left. }
    { apply Hd, in_app_iff. right. now left. }
    { intros p. apply Ha, in_app_iff. right. now left. }
    pose proof (named_run t rel _ _ i o (MFile f b) _ _ E5) as (A & B & C & D & F); [| |exact H4|].
    { intros s' nm Hs _ Hin ->. revert Hin. apply Hnn. rewrite in_app_iff. right. right. rewrite in_app_iff. right. now right. }
    { lia. }
    exists i, dd. unfold core_get. rewrite A, D, F. auto.
  Qed.
End Twice.
