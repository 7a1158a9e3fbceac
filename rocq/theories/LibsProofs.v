(** Lemmas on the library registries (C59, C60). *)
From Verif Require Import PyBase PyPath LibsModel SpecLibs.
Local Open Scope string_scope.
Local Open Scope list_scope.

Lemma append_assoc (a b c : string) : ((a ++ b) ++ c = a ++ (b ++ c))%string.
Proof. induction a as [|x a IH]; simpl; [reflexivity|now rewrite IH]. Qed.
Lemma append_nil_r (a : string) : (a ++ "" = a)%string.
Proof. induction a as [|x a IH]; simpl; [reflexivity|now rewrite IH]. Qed.
Lemma append_nil (a b : string) : (a ++ b = "")%string -> a = "" /\ b = "".
Proof. destruct a; [auto|discriminate]. Qed.

(** ** What is written is read again *)
Lemma parse_esc : forall c x, nat_of_ascii c < 128 -> parse_str (esc c ++ x)%string = ocons c (parse_str x).
Proof.
  intros [[] [] [] [] [] [] [] []] x H; try reflexivity;
    (exfalso; revert H; apply Nat.nlt_ge; apply Nat.leb_le; vm_compute; reflexivity).
Qed.
Lemma parse_dumped s r : ascii_only s -> parse_str (esc_all s ++ String quote_ch r)%string = Some (s, r).
Proof.
  induction s as [|c s IH]; intros H; [reflexivity|]. destruct H as [Hc Hs]. simpl esc_all.
  rewrite append_assoc, parse_esc by exact Hc. now rewrite (IH Hs).
Qed.
Lemma dump_str_app s r : (dump_str s ++ r)%string = String quote_ch (esc_all s ++ String quote_ch r)%string.
Proof. unfold dump_str. simpl. now rewrite append_assoc. Qed.

Definition ascii_dict (d : dict) : Prop := forall k v, In (k, v) d -> ascii_only k /\ ascii_only v.

Lemma tok c s : is_ws c = false -> expect c (skip_ws (String c s)) = Some s.
Proof. intros H. cbn [skip_ws]. rewrite H. cbn [expect]. now rewrite Ascii.eqb_refl. Qed.
Lemma tok_sp c s : is_ws c = false -> expect c (skip_ws (String " " (String c s))) = Some s.
Proof. intros H. change (skip_ws (String " " (String c s))) with (skip_ws (String c s)). now apply tok. Qed.
Lemma tok_no c d s : is_ws d = false -> Ascii.eqb c d = false -> expect c (skip_ws (String d s)) = None.
Proof. intros H E. cbn [skip_ws]. rewrite H. cbn [expect]. now rewrite E. Qed.

Lemma members_dumped : forall d fuel x, d <> [] -> ascii_dict d -> List.length d <= fuel ->
  exists s, (dump_items d ++ String "}" x)%string = String quote_ch s /\ parse_members fuel s = Some (d, x).
Proof.
  induction d as [|[k v] d IH]; intros fuel x Hn Ha Hf; [easy|]. destruct fuel as [|fuel]; [simpl in Hf; lia|].
  destruct (Ha k v (or_introl eq_refl)) as [Hk Hv].
  destruct d as [|y d].
  - cbn [dump_items]. rewrite !append_assoc, dump_str_app. eexists; split; [reflexivity|].
    cbn [parse_members]. rewrite (parse_dumped k _ Hk). cbn [obind append].
    rewrite tok by reflexivity. cbn [obind]. rewrite dump_str_app, tok_sp by reflexivity. cbn [obind].
    rewrite (parse_dumped v _ Hv). cbn [obind]. now rewrite tok.
  - destruct (IH fuel x) as (s & Es & Ps); [easy|intros a b Hab; apply Ha; now right|simpl in Hf |- *; lia|].
    assert (E : (dump_items ((k, v) :: y :: d) ++ String "}" x)%string =
                (dump_str k ++ (": " ++ (dump_str v ++ (", " ++ (dump_items (y :: d) ++ String "}" x)))))%string).
    { change (dump_items ((k, v) :: y :: d)) with (dump_str k ++ ": " ++ dump_str v ++ ", " ++ dump_items (y :: d))%string.
      now rewrite !append_assoc. }
    rewrite E, Es, dump_str_app. eexists; split; [reflexivity|].
    cbn [parse_members]. rewrite (parse_dumped k _ Hk). cbn [obind append].
    rewrite tok by reflexivity. cbn [obind]. rewrite dump_str_app, tok_sp by reflexivity. cbn [obind].
    rewrite (parse_dumped v _ Hv). cbn [obind].
    rewrite tok_no by reflexivity. rewrite tok by reflexivity. cbn [obind]. rewrite tok_sp by reflexivity. cbn [obind].
    now rewrite Ps.
Qed.
Lemma object_dumped d fuel : ascii_dict d -> List.length d <= fuel -> parse_object fuel (dumps d) = Some (d, "").
Proof.
  intros Ha Hf. unfold dumps, parse_object. cbn [append]. rewrite tok by reflexivity. cbn [obind].
  destruct d as [|x d]; [reflexivity|].
  destruct (members_dumped (x :: d) fuel "" ltac:(easy) Ha Hf) as (s & E & P).
  rewrite E, tok_no, tok by reflexivity. exact P.
Qed.
Lemma length_app (a b : string) : String.length (a ++ b) = String.length a + String.length b.
Proof. induction a as [|x a IH]; simpl; [reflexivity|now rewrite IH]. Qed.
Lemma items_length d : List.length d <= String.length (dump_items d).
Proof.
  induction d as [|[k v] d IH]; [simpl; lia|]. destruct d as [|y d].
  - cbn [dump_items List.length]. unfold dump_str. rewrite !length_app. simpl. lia.
  - change (dump_items ((k, v) :: y :: d)) with (dump_str k ++ ": " ++ dump_str v ++ ", " ++ dump_items (y :: d))%string.
    rewrite !length_app. change (List.length ((k, v) :: y :: d)) with (S (List.length (y :: d))).
    change (String.length ": ") with 2. lia.
Qed.
Lemma fold_same (d : dict) : forall acc, NoDup (map fst (acc ++ d)) ->
  fold_left (fun acc x => sset acc (fst x) (snd x)) d acc = acc ++ d.
Proof.
  induction d as [|[k v] d IH]; intros acc H; simpl; [now rewrite app_nil_r|].
  assert (N : ~ In k (dkeys acc)).
  { unfold dkeys. rewrite map_app in H. simpl in H. apply NoDup_remove_2 in H.
    intros X. apply H. apply in_app_iff. now left. }
  replace (sset acc k v) with (acc ++ [(k, v)]) by (symmetry; exact (dset_notin _ string_eqb_spec' acc k v N)).
  rewrite IH; rewrite <- app_assoc; [reflexivity|exact H].
Qed.
Lemma loads_dumps d : ascii_dict d -> NoDup (map fst d) -> loads (dumps d) = Some d.
Proof.
  intros Ha Hn. unfold loads. rewrite object_dumped; [|exact Ha|].
  - cbn [obind skip_ws]. f_equal. exact (fold_same d [] Hn).
  - unfold dumps. rewrite !length_app. pose proof (items_length d). simpl. lia.
Qed.

(** ** More text does not change what was read *)
Lemma parse_str_app : forall s q v r, parse_str s = Some (v, r) -> parse_str (s ++ q)%string = Some (v, (r ++ q)%string).
Proof.
  fix IH 1. intros [|c s] q v r H; [discriminate|]. cbn [append]. cbn [parse_str] in *.
  destruct (Ascii.eqb c quote_ch); [injection H as <- <-; reflexivity|].
  destruct (Ascii.eqb c backslash).
  - destruct s as [|e s2]; [discriminate|]. cbn [append]. destruct (Ascii.eqb e "u").
    + destruct s2 as [|a1 [|a2 [|a3 [|a4 s3]]]]; try discriminate. cbn [append].
      destruct (hex4 a1 a2 a3 a4) as [n|]; [|discriminate]. destruct (Nat.ltb n 128); [|discriminate].
      destruct (parse_str s3) as [[v' r']|] eqn:E; [|discriminate]. cbn [ocons] in H. injection H as <- <-.
      now rewrite (IH s3 q v' r' E).
    + destruct (unesc e); [|discriminate].
      destruct (parse_str s2) as [[v' r']|] eqn:E; [|discriminate]. cbn [ocons] in H. injection H as <- <-.
      now rewrite (IH s2 q v' r' E).
  - destruct (Nat.ltb (nat_of_ascii c) 32); [discriminate|].
    destruct (parse_str s) as [[v' r']|] eqn:E; [|discriminate]. cbn [ocons] in H. injection H as <- <-.
    now rewrite (IH s q v' r' E).
Qed.
Lemma skip_app s q : skip_ws s <> "" -> skip_ws (s ++ q)%string = (skip_ws s ++ q)%string.
Proof.
  induction s as [|c s IH]; intros H; [easy|]. cbn [append skip_ws] in *. destruct (is_ws c); [auto|reflexivity].
Qed.
Lemma expect_app c s q r : expect c (skip_ws s) = Some r -> expect c (skip_ws (s ++ q)%string) = Some (r ++ q)%string.
Proof.
  intros H. rewrite skip_app by (intros X; rewrite X in H; discriminate).
  destruct (skip_ws s) as [|d s']; [discriminate|]. cbn [append expect] in *.
  destruct (Ascii.eqb c d); [|discriminate]. now injection H as <-.
Qed.
Lemma expect_no c s q r d : expect c (skip_ws s) = None -> expect d (skip_ws s) = Some r -> expect c (skip_ws (s ++ q)%string) = None.
Proof.
  intros H H2. rewrite skip_app by (intros X; rewrite X in H2; discriminate).
  destruct (skip_ws s) as [|e s']; [discriminate|]. cbn [append expect] in *. now destruct (Ascii.eqb c e).
Qed.
Lemma members_app : forall fuel s q d r, parse_members fuel s = Some (d, r) ->
  forall fuel', fuel <= fuel' -> parse_members fuel' (s ++ q)%string = Some (d, (r ++ q)%string).
Proof.
  induction fuel as [|fuel IH]; intros s q d r H fuel' L; [discriminate|]. destruct fuel' as [|fuel']; [lia|].
  cbn [parse_members] in *.
  destruct (parse_str s) as [[k r0]|] eqn:E0; [|discriminate]. rewrite (parse_str_app _ q _ _ E0). cbn [obind] in *.
  destruct (expect ":" (skip_ws r0)) as [r1|] eqn:E1; [|discriminate]. rewrite (expect_app _ _ q _ E1). cbn [obind] in *.
  destruct (expect quote_ch (skip_ws r1)) as [r2|] eqn:E2; [|discriminate]. rewrite (expect_app _ _ q _ E2). cbn [obind] in *.
  destruct (parse_str r2) as [[v r3]|] eqn:E3; [|discriminate]. rewrite (parse_str_app _ q _ _ E3). cbn [obind] in *.
  destruct (expect "}" (skip_ws r3)) as [r4|] eqn:E4.
  - rewrite (expect_app _ _ q _ E4). injection H as <- <-. reflexivity.
  - destruct (expect "," (skip_ws r3)) as [r4|] eqn:E5; [|discriminate].
    rewrite (expect_no _ _ q _ _ E4 E5), (expect_app _ _ q _ E5). cbn [obind] in *.
    destruct (expect quote_ch (skip_ws r4)) as [r5|] eqn:E6; [|discriminate]. rewrite (expect_app _ _ q _ E6). cbn [obind] in *.
    destruct (parse_members fuel r5) as [[d' r6]|] eqn:E7; [|discriminate].
    rewrite (IH _ q _ _ E7 fuel') by lia. cbn [obind] in *. injection H as <- <-. reflexivity.
Qed.
Lemma object_app fuel s q d r : parse_object fuel s = Some (d, r) ->
  forall fuel', fuel <= fuel' -> parse_object fuel' (s ++ q)%string = Some (d, (r ++ q)%string).
Proof.
  intros H fuel' L. unfold parse_object in *.
  destruct (expect "{" (skip_ws s)) as [r1|] eqn:E1; [|discriminate]. rewrite (expect_app _ _ q _ E1). cbn [obind] in *.
  destruct (expect "}" (skip_ws r1)) as [r2|] eqn:E2.
  - rewrite (expect_app _ _ q _ E2). injection H as <- <-. reflexivity.
  - destruct (expect quote_ch (skip_ws r1)) as [r2|] eqn:E3; [|discriminate].
    rewrite (expect_no _ _ q _ _ E2 E3), (expect_app _ _ q _ E3). cbn [obind] in *. eapply members_app; eauto.
Qed.
Lemma torn_unreadable d p q : ascii_dict d -> dumps d = (p ++ q)%string -> q <> "" -> loads p = None.
Proof.
  intros Ha E Hq. unfold loads. destruct (parse_object (S (String.length p)) p) as [[d0 r]|] eqn:P; [|reflexivity].
  set (f := S (String.length p) + List.length d).
  pose proof (object_app _ _ q _ _ P f ltac:(lia)) as P2. rewrite <- E in P2.
  rewrite object_dumped in P2; [|exact Ha|lia]. injection P2 as _ P2. symmetry in P2.
  apply append_nil in P2 as [_ P2]. contradiction.
Qed.

(** ** Dictionaries read from files *)
Lemma fold_nodup (d : dict) : forall acc, NoDup (dkeys acc) ->
  NoDup (dkeys (fold_left (fun acc x => sset acc (fst x) (snd x)) d acc)).
Proof.
  induction d as [|[k v] d IH]; intros acc H; simpl; [exact H|]. apply IH. now apply (dset_nodup _ string_eqb_spec').
Qed.
Lemma loads_nodup t d : loads t = Some d -> NoDup (dkeys d).
Proof.
  unfold loads. destruct (parse_object _ t) as [[d0 r]|]; [|discriminate]. cbn [obind].
  destruct (skip_ws r); [|discriminate]. intros [= <-]. apply fold_nodup. constructor.
Qed.
Lemma merge_get (y : dict) : forall x k, NoDup (dkeys y) ->
  sget (merge_two_dicts x y) k = match sget y k with Some v => Some v | None => sget x k end.
Proof.
  unfold merge_two_dicts. induction y as [|[a b] y IH]; intros x k N; [reflexivity|]. inversion N as [|? ? Na Ny]; subst.
  cbn [fold_left fst snd dget]. rewrite IH by exact Ny. destruct (String.eqb k a) eqn:Hk.
  - apply String.eqb_eq in Hk. subst k.
    replace (sget y a) with (@None string) by (symmetry; exact (proj2 (dget_None _ string_eqb_spec' y a) Na)).
    exact (dget_dset_eq _ string_eqb_spec' x a b).
  - destruct (dget String.eqb y k); [reflexivity|]. apply String.eqb_neq in Hk.
    apply (dget_dset_neq _ string_eqb_spec'). congruence.
Qed.

(** ** ASCII paths *)
Lemma ascii_append a b : ascii_only a -> ascii_only b -> ascii_only (a ++ b)%string.
Proof. induction a as [|c a IH]; intros Ha Hb; [exact Hb|]. destruct Ha. split; auto. Qed.
Lemma ascii_slash : nat_of_ascii slash < 128.
Proof. apply Nat.ltb_lt. reflexivity. Qed.
Lemma ascii_split s : ascii_only s -> Forall ascii_only (split_slash s).
Proof.
  induction s as [|c s IH]; intros H; cbn [split_slash]; [repeat constructor|]. destruct H as [Hc Hs]. specialize (IH Hs).
  destruct (Ascii.eqb c slash); [constructor; [exact I|exact IH]|].
  destruct (split_slash s) as [|h t].
  - constructor; [split; [exact Hc|exact I]|constructor].
  - inversion IH; subst. constructor; [split; assumption|assumption].
Qed.
Lemma ascii_norm ab l : forall acc, Forall ascii_only l -> Forall ascii_only acc -> Forall ascii_only (norm_loop ab l acc).
Proof.
  induction l as [|c l IH]; intros acc Hl Ha; cbn [norm_loop]; [exact Ha|]. inversion Hl; subst.
  destruct (String.eqb c "" || String.eqb c "."); [auto|]. destruct (negb (String.eqb c "..")); [apply IH; auto|].
  destruct acc as [|a acc]; [destruct ab; apply IH; auto|]. inversion Ha; subst.
  destruct (String.eqb a ".."); apply IH; auto.
Qed.
Lemma ascii_concat l : Forall ascii_only l -> ascii_only (String.concat "/" l).
Proof.
  induction l as [|a l IH]; intros H; [exact I|]. inversion H; subst. destruct l as [|b l]; [assumption|].
  change (String.concat "/" (a :: b :: l)) with (a ++ "/" ++ String.concat "/" (b :: l))%string.
  apply ascii_append; [assumption|]. split; [exact ascii_slash|auto].
Qed.
Lemma ascii_abspath cwd p : ascii_only cwd -> ascii_only p -> ascii_only (abspath cwd p).
Proof.
  intros Hc Hp. assert (Hj : ascii_only (path_join cwd p)).
  { unfold path_join. destruct (starts_slash p); [exact Hp|]. destruct cwd as [|x y]; [exact Hp|].
    destruct (ends_slash (String x y)); apply ascii_append; auto. split; [exact ascii_slash|exact Hp]. }
  unfold abspath, normpath. set (n := initial_slashes _).
  assert (H : ascii_only (slashes n ++ String.concat "/" (norm_comps (Nat.ltb 0 n) (split_slash (path_join cwd p))))%string).
  { apply ascii_append.
    - induction n as [|n IH]; [exact I|]. split; [exact ascii_slash|exact IH].
    - apply ascii_concat. unfold norm_comps. apply Forall_rev, ascii_norm; [now apply ascii_split|constructor]. }
  destruct (slashes n ++ _)%string; [|exact H]. split; [apply Nat.ltb_lt; reflexivity|exact I].
Qed.

Lemma ascii_first f : ascii_only f -> ascii_only (first_word (basename f)).
Proof.
  intros Af. unfold basename, path_split.
  assert (B : forall s, ascii_only s -> ascii_only (snd (cut_last_slash s))).
  { induction s as [|c s IH]; intros H; [exact I|]. cbn [cut_last_slash]. destruct H as [Hc Hs]. specialize (IH Hs).
    destruct (cut_last_slash s) as [h tl]. cbn [snd] in *.
    destruct h; [destruct (Ascii.eqb c slash)|]; cbn [snd]; try split; auto. }
  assert (C : forall s, ascii_only s -> ascii_only (first_word s)).
  { induction s as [|c s IH]; intros H; [exact I|]. cbn [first_word]. destruct H. destruct (Ascii.eqb c dot); [exact I|].
    split; auto. }
  apply C. specialize (B f Af). destruct (cut_last_slash f). exact B.
Qed.

Section Utility.
  Variable cwd home : string.
  Variable exists_ : string -> bool.
  Variable glob_ : string -> list string.
  Notation utility := (utility cwd home exists_ glob_).
  Notation after := (after cwd home exists_ glob_).
  Notation left_behind := (left_behind cwd home exists_ glob_).

  Lemma load_nodup fs p d : load_or_empty fs p = Ok d -> NoDup (dkeys d).
  Proof.
    unfold load_or_empty. destruct (fs p) as [t|]; [|intros [= <-]; constructor].
    destruct (loads t) as [x|] eqn:E; [|discriminate]. intros [= <-]. eapply loads_nodup, E.
  Qed.
  Lemma entries_dict fs p d : load_or_empty fs p = Ok d -> ascii_entries fs p -> ascii_dict d.
  Proof.
    intros E H k v I. apply H. unfold entry. rewrite E. apply (dget_of_In _ string_eqb_spec'); [|exact I].
    eapply load_nodup, E.
  Qed.
  Lemma ascii_dset (d : dict) k v : ascii_dict d -> ascii_only k -> ascii_only v -> ascii_dict (sset d k v).
  Proof.
    intros H Hk Hv a b I.
    induction d as [|[x y] d IH]; cbn [dset] in I.
    - destruct I as [[= <- <-]|[]]. auto.
    - destruct (String.eqb k x).
      + destruct I as [[= <- <-]|I]; [|apply H; now right].
        split; [exact (proj1 (H x y (or_introl eq_refl)))|exact Hv].
      + destruct I as [[= <- <-]|I]; [apply H; now left|]. apply IH; [|exact I]. intros c e J. apply H. now right.
  Qed.
  Lemma entry_set fs p d : ascii_dict d -> NoDup (dkeys d) ->
    load_or_empty (set_file fs p (dumps d)) p = Ok d.
  Proof.
    intros Ha Hn. unfold load_or_empty, set_file. rewrite String.eqb_refl, loads_dumps by assumption. reflexivity.
  Qed.
  Lemma utility_paths fs o d : load_or_empty fs (paths_file home o) = Ok d ->
    match fs (paths_file home o) with
    | None => Ok []
    | Some t => match loads t with Some d => Ok d | None => Raise (SystemExit "Wrong format") end
    end = Ok d.
  Proof. unfold load_or_empty. destruct (fs (paths_file home o)) as [t|]; [|auto]. destruct (loads t); [auto|discriminate]. Qed.

  Definition plain_add (u : bool) (args : list string) : lopts := LO u false false args.

  Lemma add_two fs u name path : let o := plain_add u [name; path] in let f := paths_file home o in
    readable fs f -> ascii_entries fs f -> ascii_only cwd -> ascii_only name -> ascii_only path ->
    exists_ (abspath cwd path) = true ->
    readable (after fs o) f /\ entry (after fs o) f name = Some (abspath cwd path) /\
    (forall n, n <> name -> entry (after fs o) f n = entry fs f n) /\ other_files_same fs (after fs o) f.
  Proof.
    intros o f (d & E) Ha Hcwd Hn Hp0 Hx. pose proof (ascii_abspath cwd path Hcwd Hp0) as Hp.
    assert (U : utility fs o = Ok (Some (dumps (sset d name (abspath cwd path))))).
    { unfold LibsModel.utility. rewrite (utility_paths fs o d E). cbn. unfold add_record. rewrite Hx. reflexivity. }
    pose proof (entries_dict fs f d E Ha) as Hd. pose proof (load_nodup fs f d E) as Hu.
    assert (L : load_or_empty (after fs o) f = Ok (sset d name (abspath cwd path))).
    { unfold LibsModel.after. rewrite U. apply entry_set; [now apply ascii_dset|now apply (dset_nodup _ string_eqb_spec')]. }
    split; [eexists; exact L|]. unfold entry. rewrite L, E. split; [apply (dget_dset_eq _ string_eqb_spec')|]. split.
    - intros n N. apply (dget_dset_neq _ string_eqb_spec'). congruence.
    - intros q Q. unfold LibsModel.after. rewrite U. unfold set_file. destruct (String.eqb_spec q (paths_file home o)); [contradiction|reflexivity].
  Qed.

  Lemma add_all_ok l : forall d, Forall (fun f => exists_ (abspath cwd f) = true) l ->
    exists d', add_all cwd exists_ l d = Ok d' /\
      (forall n, sget d' n = match last_named n l with Some f => Some (abspath cwd f) | None => sget d n end) /\
      (NoDup (dkeys d) -> NoDup (dkeys d')) /\
      (ascii_dict d -> Forall (fun f => ascii_only (first_word (basename f)) /\ ascii_only (abspath cwd f)) l -> ascii_dict d').
  Proof.
    induction l as [|f l IH]; intros d H; cbn [add_all last_named].
    - exists d. auto.
    - inversion H as [|? ? H1 H2]; subst. unfold add_record. rewrite H1. cbn [bind].
      destruct (IH (sset d (first_word (basename f)) (abspath cwd f)) H2) as (d' & E & G & N & A).
      exists d'. split; [exact E|]. split; [|split].
      + intros n. rewrite G. destruct (last_named n l) as [g|]; [reflexivity|].
        destruct (String.eqb_spec (first_word (basename f)) n) as [->|Q].
        * apply (dget_dset_eq _ string_eqb_spec').
        * apply (dget_dset_neq _ string_eqb_spec'). congruence.
      + intros Nd. apply N. now apply (dset_nodup _ string_eqb_spec').
      + intros Ad F. inversion F as [|? ? [F1 F2] F3]; subst. apply A; [|exact F3]. now apply ascii_dset.
  Qed.
  Lemma add_directory fs u dir : let o := plain_add u [dir] in let f := paths_file home o in
    let l := glob_ (path_join dir "*.g.py") in
    readable fs f -> ascii_entries fs f -> ascii_only cwd -> Forall ascii_only l ->
    Forall (fun g => exists_ (abspath cwd g) = true) l ->
    readable (after fs o) f /\
    (forall n, entry (after fs o) f n = match last_named n l with Some g => Some (abspath cwd g) | None => entry fs f n end) /\
    other_files_same fs (after fs o) f.
  Proof.
    intros o f l (d & E) Ha Hcwd Hl0 Hx.
    assert (Hl : Forall (fun g => ascii_only (first_word (basename g)) /\ ascii_only (abspath cwd g)) l).
    { apply Forall_forall. intros g Hg. rewrite Forall_forall in Hl0. split; [now apply ascii_first, Hl0|].
      apply ascii_abspath; auto. }
    destruct (add_all_ok l d Hx) as (d' & E' & G & N & A).
    assert (U : utility fs o = Ok (Some (dumps d'))).
    { unfold LibsModel.utility. rewrite (utility_paths fs o d E). cbn -[add_all path_join]. fold l. rewrite E'. reflexivity. }
    pose proof (entries_dict fs f d E Ha) as Hd. pose proof (load_nodup fs f d E) as Hu.
    assert (L : load_or_empty (after fs o) f = Ok d').
    { unfold LibsModel.after. rewrite U. apply entry_set; auto. }
    split; [eexists; exact L|]. unfold entry. rewrite L, E. split; [exact G|].
    intros q Q. unfold LibsModel.after. rewrite U. unfold set_file. destruct (String.eqb_spec q (paths_file home o)); [contradiction|reflexivity].
  Qed.
  Lemma remove_keeps fs u name : let o := LO u true false [name] in let f := paths_file home o in
    readable fs f -> ascii_entries fs f ->
    readable (after fs o) f /\ (forall n, entry (after fs o) f n = entry fs f n) /\ other_files_same fs (after fs o) f.
  Proof.
    intros o f (d & E) Ha.
    assert (U : utility fs o = Ok (Some (dumps d))).
    { unfold LibsModel.utility. rewrite (utility_paths fs o d E). reflexivity. }
    assert (L : load_or_empty (after fs o) f = Ok d).
    { unfold LibsModel.after. rewrite U. apply entry_set; [eapply entries_dict; eauto|eapply load_nodup; eauto]. }
    split; [eexists; exact L|]. unfold entry. rewrite L, E. split; [reflexivity|].
    intros q Q. unfold LibsModel.after. rewrite U. unfold set_file. destruct (String.eqb_spec q (paths_file home o)); [contradiction|reflexivity].
  Qed.
  Lemma missing_path fs u name path : exists_ (abspath cwd path) = false -> after fs (plain_add u [name; path]) = fs.
  Proof.
    intros H. unfold LibsModel.after, LibsModel.utility. cbn. unfold add_record. rewrite H.
    destruct (match fs (paths_file home (plain_add u [name; path])) with
              | Some t => match loads t with Some d => Ok d | None => Raise (SystemExit "Wrong format") end
              | None => Ok [] end); reflexivity.
  Qed.
  Lemma init_get fs d : init home fs = Ok d -> forall n,
    sget d n = match entry fs (lpath home) n with Some v => Some v | None => entry fs gpath n end.
  Proof.
    unfold init, entry. destruct (load_or_empty fs gpath) as [g| |] eqn:Eg; cbn [bind]; try discriminate.
    destruct (load_or_empty fs (lpath home)) as [l| |] eqn:El; cbn [bind]; try discriminate.
    intros [= <-] n. apply merge_get. eapply load_nodup, El.
  Qed.

  (** ** Interrupted *)
  Lemma utility_writes fs o t : utility fs o = Ok (Some t) -> ascii_entries fs (paths_file home o) ->
    (forall a, In a (lo_args o) -> ascii_only a) ->
    ascii_only cwd ->
    (forall a f, ascii_only a -> In f (glob_ (path_join a "*.g.py")) -> ascii_only f) ->
    exists d, t = dumps d /\ ascii_dict d /\ NoDup (dkeys d).
  Proof.
    intros U Ha Hargs Hcwd Hgl. assert (Hab : forall a, ascii_only a -> ascii_only (abspath cwd a)) by (intros; now apply ascii_abspath). unfold LibsModel.utility in U.
    destruct (load_or_empty fs (paths_file home o)) as [d| |] eqn:E.
    2, 3: exfalso; unfold load_or_empty in E; destruct (fs (paths_file home o)) as [x|]; [|discriminate];
      destruct (loads x); discriminate.
    rewrite (utility_paths fs o d E) in U. cbn [bind] in U.
    pose proof (entries_dict fs _ d E Ha) as Hd. pose proof (load_nodup fs _ d E) as Hu.
    destruct (lo_list o); [discriminate|]. destruct (Nat.ltb 2 _ || _); [discriminate|].
    destruct (lo_args o) as [|a [|b l]] eqn:El; [discriminate| |].
    - destruct (lo_remove o).
      + injection U as <-. exists d. auto.
      + destruct (add_all cwd exists_ (glob_ (path_join a "*.g.py")) d) as [d'| |] eqn:Ed; cbn [bind] in U; try discriminate.
        injection U as <-. exists d'. split; [reflexivity|].
        assert (F : Forall (fun f => exists_ (abspath cwd f) = true) (glob_ (path_join a "*.g.py"))).
        { clear -Ed. revert d Ed. induction (glob_ (path_join a "*.g.py")) as [|f l IH]; intros d E; [constructor|].
          cbn [add_all] in E. unfold add_record in E. destruct (exists_ (abspath cwd f)) eqn:X; cbn [bind] in E; [|discriminate].
          constructor; eauto. }
        destruct (add_all_ok _ d F) as (d2 & E2 & _ & N & A). rewrite E2 in Ed. injection Ed as <-.
        split; [|auto]. apply A; [exact Hd|]. apply Forall_forall. intros f I.
        assert (Af : ascii_only f) by (eapply Hgl; [apply Hargs; now left|exact I]). split; [|auto].
        now apply ascii_first.
    - unfold add_record in U. destruct (exists_ (abspath cwd b)); cbn [bind] in U; [|discriminate]. injection U as <-.
      eexists. split; [reflexivity|]. split.
      + apply ascii_dset; [exact Hd|apply Hargs; now left|apply Hab, Hargs; right; now left].
      + now apply (dset_nodup _ string_eqb_spec').
  Qed.

  Lemma torn fs o t p : utility fs o = Ok (Some t) -> ascii_entries fs (paths_file home o) ->
    (forall a, In a (lo_args o) -> ascii_only a) -> ascii_only cwd ->
    (forall a f, ascii_only a -> In f (glob_ (path_join a "*.g.py")) -> ascii_only f) ->
    prefix_of p t -> p <> t -> loads p = None.
  Proof.
    intros U Ha H1 H2 H3 (q & E) N. destruct (utility_writes fs o t U Ha H1 H2 H3) as (d & Ed & Hd & _). rewrite Ed in E, N.
    apply (torn_unreadable d p q Hd E). intros ->. rewrite append_nil_r in E. congruence.
  Qed.
  Lemma torn_lost fs o t p : utility fs o = Ok (Some t) -> ascii_entries fs (paths_file home o) ->
    (forall a, In a (lo_args o) -> ascii_only a) -> ascii_only cwd ->
    (forall a f, ascii_only a -> In f (glob_ (path_join a "*.g.py")) -> ascii_only f) ->
    prefix_of p t -> p <> t -> let fs' := set_file fs (paths_file home o) p in
    ~ readable fs' (paths_file home o) /\
    (forall o', lo_user o' = lo_user o -> utility fs' o' = Raise (SystemExit "Wrong format")) /\
    init home fs' = Raise (ValueError "JSONDecodeError").
  Proof.
    intros U Ha H1 H2 H3 Hp N fs'. pose proof (torn fs o t p U Ha H1 H2 H3 Hp N) as L.
    assert (F : fs' (paths_file home o) = Some p) by (unfold fs', set_file; now rewrite String.eqb_refl).
    assert (R : load_or_empty fs' (paths_file home o) = Raise (ValueError "JSONDecodeError")).
    { unfold load_or_empty. now rewrite F, L. }
    split; [|split].
    - intros (d & E). congruence.
    - intros o' E. unfold LibsModel.utility. replace (paths_file home o') with (paths_file home o) by (unfold paths_file; now rewrite E).
      rewrite F, L. reflexivity.
    - assert (X : forall q, load_or_empty fs' q = Raise (ValueError "JSONDecodeError") \/ exists d, load_or_empty fs' q = Ok d).
      { intros q. unfold load_or_empty. destruct (fs' q) as [x|]; [destruct (loads x)|]; eauto. }
      unfold init. unfold paths_file in R. destruct (lo_user o).
      + destruct (X gpath) as [->|(d & ->)]; cbn [bind]; [reflexivity|]. now rewrite R.
      + now rewrite R.
  Qed.
  Lemma left_cases fs o fs' : left_behind fs o fs' -> ascii_entries fs (paths_file home o) ->
    (forall a, In a (lo_args o) -> ascii_only a) -> ascii_only cwd ->
    (forall a f, ascii_only a -> In f (glob_ (path_join a "*.g.py")) -> ascii_only f) ->
    readable fs' (paths_file home o) -> fs' = fs \/ fs' = after fs o.
  Proof.
    intros L Ha H1 H2 H3 R. destruct L as [|t p U P]; [now left|]. right.
    destruct (string_dec p t) as [->|N]; [unfold LibsModel.after; now rewrite U|].
    destruct (torn_lost fs o t p U Ha H1 H2 H3 P N) as (X & _). contradiction.
  Qed.
End Utility.

(** ** Including an added library *)
From Verif Require Import ScriptModel SpecScript ScriptProofs.
Lemma join_abs d a : starts_slash a = true -> path_join d a = a.
Proof. intros H. unfold path_join. now rewrite H. Qed.
Lemma abspath_slash cwd p : starts_slash cwd = true -> starts_slash (abspath cwd p) = true.
Proof.
  intros H. unfold abspath, normpath.
  assert (J : starts_slash (path_join cwd p) = true).
  { unfold path_join. destruct (starts_slash p) eqn:E; [exact E|]. destruct cwd as [|x y]; [discriminate|].
    destruct (ends_slash (String x y)); exact H. }
  destruct (path_join cwd p) as [|a [|b [|c s]]]; [discriminate| | |]; cbn [starts_slash] in J; cbn [initial_slashes]; rewrite J.
  - reflexivity.
  - destruct (Ascii.eqb b slash); reflexivity.
  - destruct (Ascii.eqb b slash && negb (Ascii.eqb c slash)); reflexivity.
Qed.
Lemma entered_trace {G} files find registry tt link fuel path (s : sstate G) s' :
  state_of (enter files find registry tt link fuel path s) = Some s' ->
  exists tr, q_trace s' = q_trace s ++ EvStart path :: tr.
Proof.
  set (R := fun a b : sstate G => exists tr, q_trace b = q_trace a ++ tr).
  assert (C1 : forall a, R a a) by (intros a; exists []; now rewrite app_nil_r).
  assert (C2 : forall a b c, R a b -> R b c -> R a c).
  { intros a b c (x & Hx) (y & Hy). exists (x ++ y). now rewrite Hy, Hx, app_assoc. }
  intros H. assert (X : R (note (EvStart path) (push path s)) s').
  { revert H. apply (inv_enter files find registry tt link R C1 C2 (fun _ a => C1 a) (fun a => C1 a) True []); auto.
    - intros p a _. eexists. reflexivity.
    - intros. eexists. reflexivity.
    - intros. eexists. reflexivity.
    - intros. eexists. simpl. rewrite <- !app_assoc. reflexivity. }
  destruct X as (tr & E). exists tr. rewrite E. simpl. now rewrite <- app_assoc.
Qed.
Lemma run_trace {G} files find registry tt link fuel p (s : sstate G) s' :
  state_of (run find registry tt link (enter files find registry tt link fuel) p s) = Some s' ->
  exists tr, q_trace s' = q_trace s ++ tr.
Proof.
  set (R := fun a b : sstate G => exists tr, q_trace b = q_trace a ++ tr).
  assert (C1 : forall a, R a a) by (intros a; exists []; now rewrite app_nil_r).
  assert (C2 : forall a b c, R a b -> R b c -> R a c).
  { intros a b c (x & Hx) (y & Hy). exists (x ++ y). now rewrite Hy, Hx, app_assoc. }
  apply (inv_run find registry tt link R C1 C2 (fun _ a => C1 a) True []); auto.
  - intros q a _. eexists. reflexivity.
  - intros. eexists. reflexivity.
  - intros. eexists. reflexivity.
  - intros. eexists. simpl. rewrite <- !app_assoc. reflexivity.
  - apply (inv_enter files find registry tt link R C1 C2 (fun _ a => C1 a) (fun a => C1 a) True []); auto.
    + intros q a _. eexists. reflexivity.
    + intros. eexists. reflexivity.
    + intros. eexists. reflexivity.
    + intros. eexists. simpl. rewrite <- !app_assoc. reflexivity.
Qed.
Lemma added_is_included cwd home exists_ glob_ fs name path : let o := LO true false false [name; path] in
  let f := paths_file home o in let fs' := after cwd home exists_ glob_ fs o in
  readable fs f -> ascii_entries fs f -> readable fs gpath -> f <> gpath ->
  ascii_only cwd -> ascii_only name -> ascii_only path ->
  starts_slash cwd = true -> exists_ (abspath cwd path) = true ->
  exists registry, init home fs' = Ok registry /\
  forall G files find tunnel_there link fuel argv0 (k : prog G) g s,
  state_of (main files find registry tunnel_there link fuel argv0 (PInclude name ByName k) g) = Some s ->
  exists tr, q_trace s = EvAsk name ByName :: EvLib name (abspath cwd path) :: EvStart (abspath cwd path) :: tr.
Proof.
  intros o f fs' Hr Ha Hg Hne Hc Hn Hp Hs Hx.
  destruct (add_two cwd home exists_ glob_ fs true name path Hr Ha Hc Hn Hp Hx) as (R & E & _ & O).
  fold f in R, E, O. fold o fs' in R, E, O. change (paths_file home o) with (lpath home) in *.
  assert (I : exists d, init home fs' = Ok d).
  { unfold init, readable in *. destruct Hg as (g & Eg). destruct R as (l & El).
    assert (Eg' : load_or_empty fs' gpath = Ok g).
    { assert (Q : fs' gpath = fs gpath) by (apply O; intros X; apply Hne; symmetry; exact X). unfold load_or_empty in *. rewrite Q. exact Eg. }
    assert (El' : load_or_empty fs' (lpath home) = Ok l) by exact El. rewrite Eg'. cbn [bind]. rewrite El'. cbn [bind]. eauto. }
  destruct I as (d & Ed). exists d. split; [exact Ed|].
  assert (Sd : sget d name = Some (abspath cwd path)).
  { assert (E' : entry fs' (lpath home) name = Some (abspath cwd path)) by exact E.
    rewrite (init_get home fs' d Ed name). now rewrite E'. }
  intros G files find tt link fuel argv0 k g s H. unfold main in H. cbn [run] in H. unfold include in H.
  cbv zeta in H. cbn [shas dhas dget q_included note start] in H. rewrite Sd in H. cbn [dhas dget] in H.
  unfold execute in H. rewrite (join_abs _ (abspath cwd path)) in H by now apply abspath_slash.
  match type of H with context[enter _ _ _ _ _ _ ?a ?b] => set (s1 := b) in H; pose proof (entered_trace files find d tt link fuel a s1) as T;
    destruct (enter files find d tt link fuel a s1) as [s2|x s2|] end; cbn [sbind state_of] in H; [| |discriminate].
  - destruct (T s2 eq_refl) as (tr & Et). destruct (run_trace _ _ _ _ _ _ _ _ _ H) as (tr2 & Et2).
    exists (tr ++ tr2). rewrite Et2, Et. reflexivity.
  - injection H as <-. destruct (T s2 eq_refl) as (tr & Et). exists tr. rewrite Et. reflexivity.
Qed.
