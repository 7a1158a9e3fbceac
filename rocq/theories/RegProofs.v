(** Lemmas: directories of the outputs are registered (C33). *)
From Verif Require Import PyBase PyPath PathProofs SolverModel InvokerModel CoreModel SpecCore CoreProofs NeedProofs MakeModel RegModel
  SpecUtil UtilProofs SpecReg.
Local Open Scope string_scope.
Local Open Scope list_scope.

(** ** Stars *)
Definition star_free (s : string) : Prop := ~ In "*"%char (list_ascii_of_string s).
Lemma has_star_free s : has_star s = false <-> star_free s.
Proof.
  unfold has_star, star_free. rewrite <- not_true_iff_false, existsb_exists. split.
  - intros H Hin. apply H. exists "*"%char. auto.
  - intros H (c & Hc & E). apply Ascii.eqb_eq in E. now subst.
Qed.
Lemma star_free_app a b : star_free (a ++ b)%string <-> star_free a /\ star_free b.
Proof. unfold star_free. rewrite list_ascii_app, in_app_iff. tauto. Qed.
Lemma star_free_concat sep l : star_free sep -> Forall star_free l -> star_free (String.concat sep l).
Proof.
  intros Hs Hl Hin. apply in_concat in Hin. destruct Hin as [H|(s & H1 & H2)]; [now apply Hs|].
  rewrite Forall_forall in Hl. now apply (Hl s).
Qed.
Lemma star_free_split s : star_free s -> Forall star_free (split_slash s).
Proof.
  intros H. rewrite Forall_forall. intros x Hx Hin. apply H. rewrite <- (concat_split s). eapply concat_in; eauto.
Qed.
Lemma norm_loop_in abs l acc x : In x (norm_loop abs l acc) -> In x l \/ In x acc.
Proof.
  revert acc. induction l as [|c l IH]; intros acc; [now right|]. cbn [norm_loop].
  assert (K : forall acc', In x (norm_loop abs l acc') -> (forall y, In y acc' -> y = c \/ In y acc) -> In x (c :: l) \/ In x acc).
  { intros acc' H Hs. destruct (IH acc' H) as [H'|H']; [left; now right|]. destruct (Hs x H') as [->|H'']; [left; now left|now right]. }
  destruct (String.eqb c "" || String.eqb c "."); [intros H; apply (K _ H); auto|].
  destruct (negb (String.eqb c "..")); [intros H; apply (K _ H); intros y [->|Hy]; auto|].
  destruct acc as [|a acc].
  - destruct abs; intros H; apply (K _ H); [auto|intros y [->|[]]; auto].
  - destruct (String.eqb a ".."); intros H; apply (K _ H); [intros y [->|Hy]; auto|intros y Hy; right; now right].
Qed.
Lemma star_free_slashes n : star_free (slashes n).
Proof. induction n as [|n IH]; [intros []|]. intros [H|H]; [discriminate|now apply IH]. Qed.
Lemma star_free_normpath p : star_free p -> star_free (normpath p).
Proof.
  intros H. unfold normpath. set (r := (slashes _ ++ _)%string).
  assert (R : star_free r).
  { apply star_free_app. split; [apply star_free_slashes|]. apply star_free_concat; [intros [E|[]]; discriminate|].
    unfold norm_comps. apply Forall_rev. rewrite Forall_forall. intros x Hx. apply norm_loop_in in Hx. destruct Hx as [Hx|[]].
    pose proof (star_free_split p H) as F. rewrite Forall_forall in F. auto. }
  destruct r; [intros [E|[]]; discriminate|exact R].
Qed.
Lemma star_free_realpath cwd p : star_free cwd -> star_free p -> star_free (realpath cwd p).
Proof.
  intros Hc H. rewrite realpath_comps. change (String slash ?x) with ("/" ++ x)%string.
  apply star_free_app. split; [intros [E|[]]; discriminate|].
  apply star_free_concat; [intros [E|[]]; discriminate|]. apply Forall_rev. rewrite Forall_forall. intros x Hx.
  pose proof (star_free_split p H) as F. pose proof (star_free_split cwd Hc) as G. rewrite Forall_forall in F, G.
  unfold rp_comps in Hx. apply norm_loop_in in Hx. destruct Hx as [Hx|Hx]; [auto|].
  destruct (starts_slash p); [destruct Hx|]. apply norm_loop_in in Hx. destruct Hx as [Hx|[]]. auto.
Qed.
Lemma star_free_dirname p : star_free p -> star_free (dirname p).
Proof.
  intros H. destruct (split_decomposes p) as (n & E & _). rewrite E in H. apply star_free_app in H. tauto.
Qed.

(** ** Parents *)
Lemma dirname_root : dirname "/" = "/".
Proof. reflexivity. Qed.
Lemma dirname_canonical cwd p : exists acc, dirname (realpath cwd p) = abs_str acc /\ normal true acc.
Proof.
  rewrite realpath_abs. pose proof (rp_normal cwd p) as N. destruct (rp_comps cwd p) as [|c acc].
  - exists []. split; [reflexivity|constructor].
  - pose proof (normal_true_proper _ N) as P. inversion P as [|? ? Pc _]. subst.
    assert (Na : normal true acc) by (inversion N; [discriminate|assumption]).
    exists acc. split; [now apply dirname_abs|exact Na].
Qed.
Lemma realpath_abs_str cwd acc : normal true acc -> realpath cwd (abs_str acc) = abs_str acc.
Proof. intros H. now rewrite realpath_abs, rp_abs_str. Qed.
Lemma canonical_dirname cwd p : realpath cwd p = p -> realpath cwd (dirname p) = dirname p.
Proof. intros E. rewrite <- E. destruct (dirname_canonical cwd p) as (acc & -> & N). now apply realpath_abs_str. Qed.
Lemma normpath_abs_str acc : normal true acc -> normpath (abs_str acc) = abs_str acc.
Proof.
  intros N. apply normal_unique. right. exists 1%nat, 0%nat, (rev acc). split; [lia|]. split.
  - apply Forall_rev. eapply Forall_impl; [|exact (normal_true_proper _ N)]. apply file_name_proper.
  - split; [reflexivity|]. split; [discriminate|reflexivity].
Qed.
Lemma normpath_dirname_canonical cwd p : normpath (dirname (realpath cwd p)) = dirname (realpath cwd p).
Proof. destruct (dirname_canonical cwd p) as (acc & -> & N). now apply normpath_abs_str. Qed.
Lemma canonical_shape cwd p : realpath cwd p = p -> exists acc, p = abs_str acc /\ normal true acc.
Proof. intros E. exists (rp_comps cwd p). split; [now rewrite <- realpath_abs|apply rp_normal]. Qed.

Section Disk.
  Variables (cwd : string) (ex exists_ : string -> bool).
  Hypothesis disk : disk_ok cwd ex exists_.
  Notation canon := (realpath cwd).

  Lemma cwd_suffix_exists : forall acc, normal true acc -> ex (abs_str acc) = true -> forall n, ex (abs_str (skipn n acc)) = true.
  Proof.
    intros acc N E n. revert acc N E. induction n as [|n IH]; intros acc N E; [exact E|].
    destruct acc as [|c acc]; [exact E|]. cbn [skipn].
    pose proof (normal_true_proper _ N) as P. inversion P as [|? ? Pc _]. subst.
    assert (Na : normal true acc) by (inversion N; [discriminate|assumption]).
    apply IH; [exact Na|]. rewrite <- (dirname_abs c acc Pc Na). now apply disk.
  Qed.
  Lemma root_exists : ex "/" = true.
  Proof.
    destruct disk as (_ & H & _). rewrite realpath_abs in H.
    pose proof (cwd_suffix_exists _ (rp_normal cwd ".") H (List.length (rp_comps cwd "."))) as R.
    rewrite skipn_all in R. exact R.
  Qed.
  Lemma norm_ups_abs u base : normal true base -> norm_loop true (repeat ".." u) base = skipn u base.
  Proof.
    revert base. induction u as [|u IH]; intros base N; [reflexivity|]. cbn [repeat norm_loop String.eqb Ascii.eqb Bool.eqb orb negb].
    destruct base as [|c base]; [rewrite IH by constructor; now destruct u|].
    pose proof (normal_true_proper _ N) as P. inversion P as [|? ? (_ & _ & Pc & _) _]. subst. apply String.eqb_neq in Pc.
    cbn. rewrite Pc. apply IH. inversion N; [discriminate|assumption].
  Qed.
  (** A missing directory, written in normal form, ends in a name. *)
  Lemma missing_normal_named b : normal_form b -> exists_ b = false -> file_name (basename b).
  Proof.
    intros Hb E. destruct disk as (Hup & Hcwd & Hex).
    assert (Nb : b <> "").
    { destruct Hb as [->|(n & ups & nms & _ & F & _ & H0 & ->)]; [discriminate|].
      destruct n; [|discriminate]. destruct ups; [|cbn; destruct (repeat ".." ups ++ nms); discriminate].
      destruct nms as [|a nms]; [now specialize (H0 eq_refl eq_refl)|]. inversion F as [|? ? (Ha & _) _]. subst.
      destruct a; [congruence|]. destruct nms; discriminate. }
    rewrite (Hex b Nb) in E. destruct Hb as [->|(n & ups & nms & Hn & F & Ha & H0 & ->)]; [congruence|].
    destruct nms as [|c nms] using rev_ind.
    - exfalso. rewrite app_nil_r in *. destruct n as [|n].
      + cbn [slashes String.append] in *. rewrite realpath_abs in *. unfold rp_comps in E.
        assert (Ss : starts_slash (String.concat "/" (repeat ".." ups)) = false).
        { destruct ups as [|[|u]]; reflexivity. }
        rewrite Ss in E. destruct ups as [|u]; [now apply (H0 eq_refl eq_refl)|].
        rewrite split_concat in E; [|discriminate|].
        * rewrite norm_ups_abs in E by apply cwd_normal.
          pose proof (cwd_suffix_exists _ (rp_normal cwd ".") Hcwd (S u)) as X. 
          change (rp_comps cwd ".") with (norm_loop true (split_slash cwd) []) in X. congruence.
        * clear. induction (S u); cbn; constructor; auto. cbn. repeat split; discriminate.
      + rewrite Ha in E by lia. cbn [repeat String.concat] in E. rewrite app_str_nil in E.
        assert (R : realpath cwd (slashes (S n)) = "/").
        { destruct n as [|[|n]]; [reflexivity|reflexivity|lia]. }
        rewrite R, root_exists in E. discriminate.
    - clear IHnms. rewrite app_assoc. apply Forall_app in F. destruct F as [_ F]. inversion F as [|? ? Fc _]. subst.
      apply file_name_proper in Fc.
      assert (Ex : exists g, (slashes n ++ String.concat "/" ((repeat ".." ups ++ nms) ++ [c]))%string = (g ++ c)%string /\
                   (g = "" \/ exists h, g = (h ++ String slash "")%string)).
      { destruct (repeat ".." ups ++ nms) as [|a l].
        - exists (slashes n). split; [reflexivity|]. destruct n as [|n]; [now left|right].
          exists (slashes n). clear. induction n as [|n IH]; [reflexivity|]. cbn in *. now rewrite <- IH.
        - assert (G : forall l a, String.concat "/" ((a :: l) ++ [c]) = (String.concat "/" (a :: l) ++ String slash c)%string).
          { clear. induction l as [|b l IH]; intros a; [reflexivity|].
            change ((a :: b :: l) ++ [c]) with (a :: b :: (l ++ [c])). rewrite !concat_cons.
            change (b :: (l ++ [c])) with ((b :: l) ++ [c]). rewrite IH, app_str_assoc. reflexivity. }
          exists (slashes n ++ String.concat "/" (a :: l) ++ String slash "")%string. rewrite G, !app_str_assoc.
          split; [reflexivity|]. right. exists (slashes n ++ String.concat "/" (a :: l))%string. now rewrite app_str_assoc. }
      destruct Ex as (g & -> & Hg). apply file_name_proper. unfold basename, path_split.
      assert (C : cut_last_slash (g ++ c)%string = (g, c)).
      { destruct Hg as [->|[h ->]]; [apply cut_no_slash; apply Fc|]. rewrite app_str_assoc. cbn [String.append].
        now rewrite cut_at by apply Fc. }
      rewrite C. exact Fc.
  Qed.
End Disk.

(** ** Registries *)
Definition keys (r : mreg) : list string := map fst (c_targets (fst r)).
Definition nm_of (r : mreg) (i : nat) : string := t_name (obj (fst r) i).
(** Name [d] can be looked up. *)
Definition known (cwd : string) (r : mreg) (d : string) : Prop := In d (keys r) \/ In (realpath cwd d) (keys r).

Section Good.
  Variables (cwd home : string) (ex exists_ : string -> bool) (glob_ : string -> list string).
  Hypothesis disk : disk_ok cwd ex exists_.
  Notation canon := (realpath cwd).
  (** Directories that have to be made. *)
  Variable D : string -> Prop.
  Hypothesis D_missing : forall a, D a -> ex a = false.
  Hypothesis D_up : forall a, D a -> ex (dirname a) = false -> D (dirname a).

  Record good (r : mreg) : Prop := GOOD {
    g_len : List.length (snd r) = List.length (c_heap (fst r));
    g_name : forall nm i, In (nm, i) (c_targets (fst r)) -> i < List.length (c_heap (fst r)) /\
      (nm = nm_of r i \/ canon nm = nm_of r i);
    g_dir : forall nm i, In (nm, i) (c_targets (fst r)) -> D (canon nm) -> kind_of r i = MDir /\ nm_of r i = canon nm;
    g_chain : forall nm i, In (nm, i) (c_targets (fst r)) -> makes_file (kind_of r i) -> ex (dirname (nm_of r i)) = false ->
      D (dirname (nm_of r i)) /\ exists d, In d (t_deps (obj (fst r) i)) /\ canon d = dirname (nm_of r i) /\ known cwd r d }.

  Lemma good_empty : good empty_reg.
  Proof. constructor; [reflexivity|intros ? ? []..]. Qed.

  Lemma good_has r nm : good r -> good (snd (core_has canon (fst r) nm), snd r) /\
    incl (keys r) (keys (snd (core_has canon (fst r) nm), snd r)) /\
    (fst (core_has canon (fst r) nm) = true -> In nm (keys (snd (core_has canon (fst r) nm), snd r))).
  Proof.
    intros G. unfold core_has. destruct r as [c ks]. cbn [fst snd].
    destruct (sget (c_targets c) nm) as [i|] eqn:E.
    - split; [exact G|]. split; [apply incl_refl|]. intros _. unfold keys. cbn [fst snd].
      apply (dget_In String.eqb string_eqb_spec') in E. apply in_map_iff. exists (nm, i). auto.
    - destruct (sget (c_targets c) (canon nm)) as [i|] eqn:E2; cbn [fst snd]; [|split; [exact G|split; [apply incl_refl|discriminate]]].
      apply (dget_In String.eqb string_eqb_spec') in E2.
      assert (K : forall k, In k (map fst (c_targets c)) -> In k (map fst (sset (c_targets c) nm i))).
      { intros k Hk. apply (dkeys_dset String.eqb string_eqb_spec'). now left. }
      assert (I : forall k j, In (k, j) (sset (c_targets c) nm i) -> In (k, j) (c_targets c) \/ k = nm /\ j = i).
      { intros k j H. apply In_dset in H. tauto. }
      split; [|split; [exact K|]].
      + destruct G as [G1 G2 G3 G4]. cbn [fst snd] in *.
        assert (Nm : canon nm = nm_of (c, ks) i).
        { destruct (G2 _ _ E2) as [_ [H|H]]; [exact H|]. now rewrite realpath_idem in H. }
        constructor; cbn [fst snd c_heap c_targets].
        * exact G1.
        * intros k j H. destruct (I _ _ H) as [H'|[-> ->]]; [exact (G2 _ _ H')|].
          split; [exact (proj1 (G2 _ _ E2))|]. right. exact Nm.
        * intros k j H Hd. destruct (I _ _ H) as [H'|[-> ->]]; [exact (G3 _ _ H' Hd)|].
          assert (Hd' : D (canon (canon nm))) by now rewrite realpath_idem.
          destruct (G3 _ _ E2 Hd') as [Q1 Q2]. split; [exact Q1|]. now rewrite realpath_idem in Q2.
        * intros k j H Hm Hx.
          assert (H' : exists k', In (k', j) (c_targets c)) by (destruct (I _ _ H) as [H'|[-> ->]]; eauto).
          destruct H' as [k' H']. destruct (G4 _ _ H' Hm Hx) as (Q1 & d & Q2 & Q3 & Q4). split; [exact Q1|].
          exists d. split; [exact Q2|]. split; [exact Q3|]. destruct Q4 as [Q4|Q4]; [left|right]; now apply K.
      + intros _. apply (dkeys_dset String.eqb string_eqb_spec'). now right.
  Qed.

  Lemma good_add r cls kd nm deps : good r ->
    (D (canon nm) -> kd = MDir /\ canon nm = nm) ->
    (makes_file kd -> ex (dirname nm) = false -> D (dirname nm) /\ exists d, In d deps /\ canon d = dirname nm /\ known cwd r d) ->
    good (reg_add r cls kd nm deps) /\ incl (keys r) (keys (reg_add r cls kd nm deps)) /\ In nm (keys (reg_add r cls kd nm deps)).
  Proof.
    intros G Hd Hc. destruct r as [c ks]. unfold reg_add. cbn [fst snd].
    assert (T : c_targets (core_new c cls nm deps) = sset (c_targets c) nm (List.length (c_heap c))) by apply core_new_targets.
    assert (Hh : c_heap (core_new c cls nm deps) = c_heap c ++ [new_obj cls nm deps]) by apply core_new_heap.
    set (c' := core_new c cls nm deps) in *. clearbody c'.
    assert (K : forall k, In k (map fst (c_targets c)) -> In k (map fst (c_targets c'))).
    { intros k Hk. rewrite T. apply (dkeys_dset String.eqb string_eqb_spec'). now left. }
    assert (I : forall k j, In (k, j) (c_targets c') -> In (k, j) (c_targets c) \/ k = nm /\ j = List.length (c_heap c)).
    { intros k j H. rewrite T in H. apply In_dset in H. tauto. }
    assert (Old : forall j, j < List.length (c_heap c) -> obj c' j = obj c j).
    { intros j Hj. unfold obj. rewrite Hh. now rewrite app_nth1. }
    assert (New : obj c' (List.length (c_heap c)) = new_obj cls nm deps).
    { unfold obj. rewrite Hh, app_nth2 by lia. now rewrite Nat.sub_diag. }
    split; [|split; [exact K|]].
    - destruct G as [G1 G2 G3 G4]. cbn [fst snd] in *.
      assert (OldK : forall j, j < List.length (c_heap c) -> kind_of (c', ks ++ [kd]) j = kind_of (c, ks) j).
      { intros j Hj. unfold kind_of. cbn [snd]. rewrite app_nth1; [reflexivity|lia]. }
      assert (NewK : kind_of (c', ks ++ [kd]) (List.length (c_heap c)) = kd).
      { unfold kind_of. cbn [snd]. rewrite app_nth2 by lia. now rewrite G1, Nat.sub_diag. }
      constructor; cbn [fst snd].
      + rewrite Hh, !app_length. cbn. lia.
      + intros k j H. rewrite Hh, app_length. cbn. destruct (I _ _ H) as [H'|[-> ->]].
        * destruct (G2 _ _ H') as [L N]. split; [lia|]. unfold nm_of in *. cbn [fst] in *. now rewrite Old.
        * split; [lia|]. left. unfold nm_of. cbn [fst]. now rewrite New.
      + intros k j H HD. destruct (I _ _ H) as [H'|[-> ->]].
        * destruct (G2 _ _ H') as [L N]. rewrite OldK by exact L. unfold nm_of. cbn [fst]. rewrite Old by exact L. exact (G3 _ _ H' HD).
        * rewrite NewK. unfold nm_of. cbn [fst]. rewrite New. cbn [new_obj t_name]. destruct (Hd HD). split; [assumption|congruence].
      + intros k j H Hm Hx.
        assert (Kn : forall d, known cwd (c, ks) d -> known cwd (c', ks ++ [kd]) d).
        { intros d [Q|Q]; [left|right]; now apply K. }
        destruct (I _ _ H) as [H'|[-> ->]].
        * destruct (G2 _ _ H') as [L N]. rewrite OldK in Hm by exact L. unfold nm_of in *. cbn [fst] in *. rewrite Old in * by exact L.
          destruct (G4 _ _ H' Hm Hx) as (Q1 & d & Q2 & Q3 & Q4). eauto 10.
        * rewrite NewK in Hm. unfold nm_of in *. cbn [fst] in *. rewrite New in *. cbn [new_obj t_name t_deps] in *.
          destruct (Hc Hm Hx) as (Q1 & d & Q2 & Q3 & Q4). eauto 10.
    - unfold keys. cbn [fst]. rewrite T. apply (dkeys_dset String.eqb string_eqb_spec'). now right.
  Qed.

  (** All registries of a process. *)
  Definition goods (st : regs) : Prop := forall k, good (reg st k).
  Definition grows (st st' : regs) : Prop :=
    List.length st' = List.length st /\ forall k, incl (keys (reg st k)) (keys (reg st' k)).
  Lemma grows_refl st : grows st st.
  Proof. split; [reflexivity|intros k; apply incl_refl]. Qed.
  Lemma grows_trans a b c : grows a b -> grows b c -> grows a c.
  Proof. intros [H1 H2] [H3 H4]. split; [congruence|]. intros k. eapply incl_tran; eauto. Qed.
  Lemma reg_put st k r j : k < List.length st -> reg (put st k r) j = if Nat.eqb j k then r else reg st j.
  Proof.
    intros H. unfold reg, put. rewrite NeedProofs.lupd_nth. apply Nat.ltb_lt in H. rewrite H, andb_true_r. reflexivity.
  Qed.
  Lemma put_length st k r : List.length (put st k r) = List.length st.
  Proof. apply NeedProofs.lupd_length. Qed.
  Lemma put_good st k r : k < List.length st -> goods st -> good r -> incl (keys (reg st k)) (keys r) ->
    goods (put st k r) /\ grows st (put st k r).
  Proof.
    intros Hk G Gr Hi. split.
    - intros j. rewrite reg_put by exact Hk. destruct (Nat.eqb j k); [exact Gr|apply G].
    - split; [apply put_length|]. intros j. rewrite reg_put by exact Hk. destruct (Nat.eqb_spec j k) as [->|]; [exact Hi|apply incl_refl].
  Qed.
  Lemma rhas_good st k nm b st' : k < List.length st -> goods st -> rhas canon st k nm = (b, st') ->
    goods st' /\ grows st st' /\ (b = true -> In nm (keys (reg st' k))).
  Proof.
    intros Hk G. unfold rhas. destruct (core_has canon (fst (reg st k)) nm) as [b' c'] eqn:E. intros [= <- <-].
    destruct (good_has (reg st k) nm (G k)) as (G1 & G2 & G3). rewrite E in *. cbn [fst snd] in *.
    destruct (put_good st k (c', snd (reg st k)) Hk G G1 G2) as [P1 P2]. split; [exact P1|]. split; [exact P2|].
    intros Hb. rewrite reg_put, Nat.eqb_refl by exact Hk. now apply G3.
  Qed.
  Lemma known_grows st st' k d : grows st st' -> known cwd (reg st k) d -> known cwd (reg st' k) d.
  Proof. intros [_ H] [Q|Q]; [left|right]; now apply H. Qed.

  Lemma exists_canon p : p <> "" -> exists_ p = ex (canon p).
  Proof. apply disk. Qed.
  Lemma dirname_canon_ne p : normpath (dirname (canon p)) <> "".
  Proof. rewrite normpath_dirname_canonical. destruct (dirname_canonical cwd p) as (acc & -> & _). discriminate. Qed.
  Lemma dirpath_canon p : canon (normpath (dirname (canon p))) = dirname (canon p).
  Proof. rewrite normpath_dirname_canonical. destruct (dirname_canonical cwd p) as (acc & -> & N). now apply realpath_abs_str. Qed.
  Lemma exists_dirpath p : exists_ (normpath (dirname (canon p))) = ex (dirname (canon p)).
  Proof. rewrite exists_canon by apply dirname_canon_ne. now rewrite dirpath_canon. Qed.

  (** What [fnew] needs to know about the directory of the new target. *)
  Definition fnew_pre (st : regs) (k : nat) (kd : mkind) (name : string) (deps : list string) (dk : bool) : Prop :=
    (D (canon name) -> kd = MDir) /\
    (dk = true -> ex (dirname (canon name)) = false -> D (dirname (canon name)) /\ star_free (canon name) /\ star_free cwd) /\
    (makes_file kd -> ex (dirname (canon name)) = false ->
       D (dirname (canon name)) /\
       (dk = true /\ k = 0 \/
        exists d, In d deps /\ star_free d /\ canon d = dirname (canon name) /\ known cwd (reg st k) d)).

  Lemma expand_keeps d deps : star_free d -> In d deps -> In d (expand_names glob_ deps).
  Proof.
    intros H Hd. unfold expand_names. apply in_flat_map. exists d. split; [exact Hd|].
    apply has_star_free in H. rewrite H. now left.
  Qed.

  Lemma fnew_good : forall fuel st k kd name deps dk st',
    fnew canon exists_ glob_ fuel st k kd name deps dk = Ok st' ->
    goods st -> k < List.length st -> fnew_pre st k kd name deps dk ->
    goods st' /\ grows st st' /\ In (canon name) (keys (reg st' k)).
  Proof.
    induction fuel as [|fuel IH]; intros st k kd name deps dk st' E G Hk (P1 & P2 & P3); [discriminate|].
    assert (Hk0 : 0 < List.length st) by lia.
    cbn [fnew] in E.
    set (dirpath := normpath (dirname (canon name))) in *.
    (* directory of the target *)
    assert (S1 : exists st1 deps1, (if dk && negb (exists_ dirpath) then
             do! st1 <- fnew canon exists_ glob_ fuel st 0 MDir dirpath [] (negb (exists_ (normpath (dirname dirpath))));
             Ok (st1, deps ++ [dirpath])
           else Ok (st, deps)) = Ok (st1, deps1) /\ goods st1 /\ grows st st1 /\
        (forall d, In d deps -> In d deps1) /\
        (dk = true -> ex (dirname (canon name)) = false -> star_free dirpath /\ In dirpath deps1 /\ canon dirpath = dirname (canon name) /\
           In (canon dirpath) (keys (reg st1 0)))).
    { assert (Edir : exists_ dirpath = ex (dirname (canon name))) by apply exists_dirpath.
      rewrite Edir in E |- *.
      destruct (dk && negb (ex (dirname (canon name)))) eqn:Ed.
      - apply andb_true_iff in Ed. destruct Ed as [-> Ed]. apply negb_true_iff in Ed.
        destruct (fnew canon exists_ glob_ fuel st 0 MDir dirpath [] (negb (exists_ (normpath (dirname dirpath))))) as [st1| |] eqn:E1;
          cbn [bind] in E; try discriminate.
        destruct (P2 eq_refl Ed) as (Q1 & Q2 & Qc).
        assert (Cd : canon dirpath = dirname (canon name)) by apply dirpath_canon.
        assert (Sd : star_free dirpath) by (now apply star_free_normpath, star_free_dirname).
        assert (Ex2 : exists_ (normpath (dirname dirpath)) = ex (dirname (canon dirpath))).
        { assert (Edp : dirpath = canon dirpath) by (rewrite Cd; apply normpath_dirname_canonical).
          rewrite Edp at 1. apply exists_dirpath. }
        destruct (IH _ _ _ _ _ _ _ E1 G Hk0) as (R1 & R2 & R3).
        { split; [reflexivity|]. rewrite Ex2. split.
          - intros Hn Hx. rewrite Cd in *. split; [now apply D_up|]. rewrite <- Cd. split; [now apply star_free_realpath|exact Qc].
          - intros _ Hx. rewrite Hx. cbn [negb]. rewrite Cd in *. split; [now apply D_up|]. now left. }
        exists st1, (deps ++ [dirpath]). split; [reflexivity|]. split; [exact R1|]. split; [exact R2|].
        split; [intros d Hd; apply in_app_iff; now left|]. intros _ _. split; [exact Sd|]. split; [apply in_app_iff; right; now left|].
        split; [exact Cd|exact R3].
      - exists st, deps. split; [reflexivity|]. split; [exact G|]. split; [apply grows_refl|]. split; [auto|].
        intros -> Hx. rewrite Hx in Ed. discriminate. }
    destruct S1 as (st1 & deps1 & E1 & G1 & W1 & Hd1 & Hdir). rewrite E1 in E. cbn [bind] in E. clear E1.
    set (ret := expand_names glob_ deps1) in *.
    (* sources *)
    assert (S2 : forall l st1 st2, goods st1 -> 0 < List.length st1 ->
       (fix loop (l : list string) (st : regs) : res regs :=
             match l with
             | [] => Ok st
             | r :: l' =>
                 if exists_ r then
                   let '(b, st') := rhas canon st 0 r in
                   if b then loop l' st'
                   else do! st'' <- fnew canon exists_ glob_ fuel st' 0 MSource r [] true; loop l' st''
                 else loop l' st
             end) l st1 = Ok st2 -> goods st2 /\ grows st1 st2).
    { clear - IH disk D_missing. induction l as [|r l IHl]; intros st1 st2 G1 L1 E; [injection E as <-; split; [exact G1|apply grows_refl]|].
      destruct (exists_ r) eqn:Er; [|now apply IHl].
      destruct (rhas canon st1 0 r) as [b st'] eqn:Eh. destruct (rhas_good _ _ _ _ _ L1 G1 Eh) as (G2 & W2 & _).
      assert (L2 : 0 < List.length st') by (destruct W2 as [-> _]; exact L1).
      destruct b.
      - destruct (IHl _ _ G2 L2 E) as [Q1 Q2]. split; [exact Q1|]. eapply grows_trans; eauto.
      - destruct (fnew canon exists_ glob_ fuel st' 0 MSource r [] true) as [st''| |] eqn:Ef; cbn [bind] in E; try discriminate.
        assert (Xr : r = "" \/ ex (canon r) = true) by (destruct (String.eqb_spec r "") as [->|N]; [now left|right; now rewrite <- exists_canon]).
        assert (Xd : ex (dirname (canon r)) = true).
        { destruct Xr as [->|Xr]; [|now apply disk]. apply disk.
          destruct disk as (_ & Hc & _). rewrite realpath_abs in *. exact Hc. }
        destruct (IH _ _ _ _ _ _ _ Ef G2 L2) as (Q1 & Q2 & _).
        { split; [|split].
          - intros HD. exfalso. apply D_missing in HD. destruct Xr as [->|Xr]; [|congruence].
            destruct disk as (_ & Hc & _). rewrite realpath_abs in *. unfold rp_comps in *. cbn in HD, Hc. congruence.
          - intros _ Hx. congruence.
          - intros []. }
        assert (L3 : 0 < List.length st'') by (destruct Q2 as [-> _]; exact L2).
        destruct (IHl _ _ Q1 L3 E) as [R1 R2]. split; [exact R1|]. eapply grows_trans; [exact W2|]. eapply grows_trans; eauto. }
    match type of E with bind ?X _ = _ => destruct X as [st2| |] eqn:E2; cbn [bind] in E; try discriminate end.
    assert (L1 : 0 < List.length st1) by (destruct W1 as [-> _]; exact Hk0).
    destruct (S2 ret st1 st2 G1 L1 E2) as [G2 W2]. injection E as <-.
    assert (Lk : k < List.length st2) by (destruct W1 as [W1 _], W2 as [W2 _]; lia).
    destruct (good_add (reg st2 k) Updatable kd (canon name) ret (G2 k)) as (A1 & A2 & A3).
    - rewrite realpath_idem. intros HD. split; [now apply P1|reflexivity].
    - intros Hm Hx. destruct (P3 Hm Hx) as [HD Hc]. split; [exact HD|]. destruct Hc as [[-> ->]|(d & Q1 & Q2 & Q3 & Q4)].
      + destruct (Hdir eq_refl Hx) as (Q1 & Q2 & Q3 & Q4). exists dirpath. split; [now apply expand_keeps|]. split; [exact Q3|].
        right. now apply W2.
      + exists d. split; [apply expand_keeps; auto|]. split; [exact Q3|].
        apply (known_grows st1); [exact W2|]. now apply (known_grows st).
    - destruct (put_good st2 k _ Lk G2 A1 A2) as [B1 B2]. split; [exact B1|]. split.
      + eapply grows_trans; [exact W1|]. eapply grows_trans; eauto.
      + rewrite reg_put, Nat.eqb_refl by exact Lk. exact A3.
  Qed.

  Lemma fixed_root p : dirname (canon p) = canon p -> canon p = "/".
  Proof.
    rewrite realpath_abs. pose proof (rp_normal cwd p) as N. destruct (rp_comps cwd p) as [|c acc]; [reflexivity|].
    pose proof (normal_true_proper _ N) as P. inversion P as [|? ? Pc _]. subst.
    assert (Na : normal true acc) by (inversion N; [discriminate|assumption]).
    rewrite dirname_abs by assumption. intros E. exfalso.
    assert (R : rp_comps cwd (abs_str acc) = rp_comps cwd (abs_str (c :: acc))) by now rewrite E.
    rewrite !rp_abs_str in R by assumption. apply (f_equal (@List.length _)) in R. cbn in R. lia.
  Qed.
  Lemma missing_parent_above p : ex (dirname (canon p)) = false -> above (dirname (canon p)) (canon p).
  Proof.
    intros H. constructor. intros E. pose proof (fixed_root p E) as E2. rewrite E, E2 in H.
    rewrite (root_exists cwd ex exists_ disk) in H. discriminate.
  Qed.
  Lemma above_trans_dir a p : dirname p <> p -> above a (dirname p) -> above a p.
  Proof.
    intros Hn H. remember (dirname p) as q eqn:Eq. induction H as [q H|a q H IH H2]; subst.
    - apply ab_up; [now constructor|exact H].
    - apply ab_up; auto.
  Qed.

  Lemma dirkeep_good : forall fuel st k path ds st', mc_dirkeep canon exists_ glob_ fuel st k path = Ok (ds, st') ->
    goods st -> k < List.length st -> star_free path -> file_name (basename path) ->
    (forall a, above a (canon path) -> ex a = false -> D a) ->
    goods st' /\ grows st st' /\
    (ex (dirname (canon path)) = false -> exists d, ds = [d] /\ star_free d /\ canon d = dirname (canon path) /\ known cwd (reg st' k) d).
  Proof.
    induction fuel as [|fuel IH]; intros st k path ds st' E G Hk Sp Fp Ha; [discriminate|].
    cbn [mc_dirkeep] in E. set (base := normpath (dirname path)) in *.
    assert (Cb : canon base = dirname (canon path)).
    { unfold base. rewrite realpath_normpath. apply realpath_dirname. now apply file_name_proper. }
    assert (Nb : normal_form base) by apply normpath_normal.
    assert (Bne : base <> "").
    { intros E0. rewrite E0 in Nb. destruct Nb as [Nb|(n & ups & nms & _ & F & _ & H0 & Nb)]; [discriminate|].
      destruct n; [|discriminate]. destruct ups; [|cbn in Nb; destruct (repeat ".." ups ++ nms); discriminate].
      destruct nms as [|a nms]; [now specialize (H0 eq_refl eq_refl)|]. inversion F as [|? ? (Hx & _) _]. subst.
      destruct a; [congruence|]. destruct nms; discriminate. }
    assert (Eb : exists_ base = ex (dirname (canon path))) by (rewrite <- Cb; now apply exists_canon).
    destruct (exists_ base) eqn:Ex; cbn [negb] in E.
    - injection E as <- <-. split; [exact G|]. split; [apply grows_refl|]. congruence.
    - assert (Sb : star_free base) by now apply star_free_normpath, star_free_dirname.
      assert (Up : above (dirname (canon path)) (canon path)) by (now apply missing_parent_above).
      assert (Db : D (canon base)) by (rewrite Cb; auto).
      assert (Ha' : forall a, above a (canon base) -> ex a = false -> D a).
      { intros a H. apply Ha. rewrite Cb in H. apply above_trans_dir; [|exact H].
        intros E0. pose proof (fixed_root path E0) as E1. rewrite E0, E1, (root_exists cwd ex exists_ disk) in Eb. discriminate. }
      destruct (mc_dirkeep canon exists_ glob_ fuel st k base) as [[deps st1]| |] eqn:E1; cbn [bind] in E; try discriminate.
      destruct (IH _ _ _ _ _ E1 G Hk Sb (missing_normal_named cwd ex exists_ disk base Nb Ex) Ha') as (G1 & W1 & K1).
      assert (L1 : k < List.length st1) by (destruct W1 as [-> _]; exact Hk).
      destruct (rhas canon st1 k base) as [b st2] eqn:E2.
      destruct (rhas_good _ _ _ _ _ L1 G1 E2) as (G2 & W2 & K2).
      assert (L2 : k < List.length st2) by (destruct W2 as [-> _]; exact L1).
      assert (S3 : exists st3, (if b then Ok st2 else mc_makedir canon exists_ glob_ fuel st2 k base deps) = Ok st3 /\
                     goods st3 /\ grows st2 st3 /\ known cwd (reg st3 k) base).
      { destruct b.
        - exists st2. split; [reflexivity|]. split; [exact G2|]. split; [apply grows_refl|]. left. now apply K2.
        - unfold mc_makedir in *. destruct (fnew canon exists_ glob_ fuel st2 k MDir base deps false) as [st3| |] eqn:E3;
            cbn [bind] in E; try discriminate.
          exists st3. split; [reflexivity|]. destruct (fnew_good _ _ _ _ _ _ _ _ E3 G2 L2) as (Q1 & Q2 & Q3).
          + split; [reflexivity|]. split; [discriminate|]. intros _ Hx. split; [apply D_up; [exact Db|exact Hx]|]. right.
            destruct (K1 Hx) as (d & -> & R1 & R2 & R3). exists d. split; [now left|]. split; [exact R1|]. split; [exact R2|].
            now apply (known_grows st1).
          + split; [exact Q1|]. split; [exact Q2|]. right. exact Q3. }
      destruct S3 as (st3 & E3 & G3 & W3 & K3). rewrite E3 in E. cbn [bind] in E. injection E as <- <-.
      split; [exact G3|]. split; [eapply grows_trans; [exact W1|]; eapply grows_trans; eauto|].
      intros _. exists base. auto.
  Qed.

  Lemma source_good fuel st p st' : RegModel.source canon exists_ glob_ fuel st p = Ok st' -> goods st -> 0 < List.length st ->
    (~ D (canon p)) -> (ex (dirname (canon p)) = false -> D (dirname (canon p)) /\ star_free (canon p) /\ star_free cwd) ->
    goods st' /\ grows st st' /\ known cwd (reg st' 0) p.
  Proof.
    intros E G L H1 H2. unfold RegModel.source in E. destruct (rhas canon st 0 p) as [b st1] eqn:Eh.
    destruct (rhas_good _ _ _ _ _ L G Eh) as (G1 & W1 & K1). destruct b.
    - injection E as <-. split; [exact G1|]. split; [exact W1|]. left. now apply K1.
    - assert (L1 : 0 < List.length st1) by (destruct W1 as [-> _]; exact L).
      destruct (fnew_good _ _ _ _ _ _ _ _ E G1 L1) as (Q1 & Q2 & Q3).
      { split; [intros HD; now apply H1 in HD|]. split; [intros _; exact H2|intros []]. }
      split; [exact Q1|]. split; [eapply grows_trans; eauto|]. now right.
  Qed.
End Good.

