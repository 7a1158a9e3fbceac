(** Informational actions (C87). *)
From Verif Require Import PyBase PyPath SolverModel InvokerModel CoreModel CliModel ModulesModel SpecModules ModulesProofs CxxProofs InfoModel SpecInfo.
From Coq Require Import Sorted Permutation.
Local Open Scope string_scope.
Local Open Scope list_scope.

(** ** Sorting *)
Section Sort.
  Context {A : Type}.
  Variable key : A -> string.
  Notation le := (fun a b => String.leb (key a) (key b) = true).
  Lemma insert_perm x l : Permutation (x :: l) (sort_insert key x l).
  Proof.
    induction l as [|y l IH]; cbn; [reflexivity|]. destruct (String.leb (key x) (key y)); [reflexivity|].
    rewrite perm_swap. now constructor.
  Qed.
  Lemma sort_perm l : Permutation l (sort_by key l).
  Proof. induction l as [|x l IH]; cbn; [reflexivity|]. rewrite <- insert_perm. now constructor. Qed.
  Lemma insert_sorted x l : Sorted le l -> Sorted le (sort_insert key x l).
  Proof.
    induction 1 as [|y l Hs IH Hd]; cbn; [repeat constructor|].
    destruct (String.leb (key x) (key y)) eqn:E; [repeat (constructor; auto)|].
    assert (Hyx : String.leb (key y) (key x) = true) by (destruct (String.leb_total (key x) (key y)); congruence).
    constructor; [exact IH|]. destruct l as [|z l]; cbn; [now constructor|].
    destruct (String.leb (key x) (key z)); constructor; [exact Hyx|]. now inversion Hd.
  Qed.
  Lemma sort_sorted l : Sorted le (sort_by key l).
  Proof. induction l; cbn; [constructor|now apply insert_sorted]. Qed.
End Sort.
Lemma sorted_map {A} (key : A -> string) l : Sorted (fun a b => String.leb (key a) (key b) = true) l <-> in_alphabetical_order (map key l).
Proof.
  unfold in_alphabetical_order. induction l as [|x l IH]; cbn; [split; constructor|].
  split; intros H; inversion H as [|? ? Hs Hd]; subst; (constructor; [now apply IH|]); destruct l; cbn in *; constructor; now inversion Hd.
Qed.

Lemma leb_trans a : forall b c, String.leb a b = true -> String.leb b c = true -> String.leb a c = true.
Proof.
  unfold String.leb. induction a as [|x a IH]; intros [|y b] [|z c]; cbn; try reflexivity; try discriminate.
  unfold Ascii.compare. destruct (N.compare_spec (N_of_ascii x) (N_of_ascii y)) as [E|E|E], (N.compare_spec (N_of_ascii y) (N_of_ascii z)) as [E'|E'|E'];
    try discriminate; intros H1 H2; destruct (N.compare_spec (N_of_ascii x) (N_of_ascii z)) as [E''|E''|E'']; try reflexivity; try lia.
  now apply (IH b c).
Qed.
Lemma filtered_order l (f : string -> bool) : in_alphabetical_order l -> in_alphabetical_order (filter f l).
Proof.
  unfold in_alphabetical_order. intros H. apply StronglySorted_Sorted. apply Sorted_StronglySorted in H; [|intros a b c; apply leb_trans].
  induction H as [|x l Hs IH Hf]; cbn; [constructor|]. destruct (f x); [|exact IH]. constructor; [exact IH|].
  apply Forall_forall. intros y Hy. apply filter_In in Hy as [Hy _]. rewrite Forall_forall in Hf. auto.
Qed.

(** ** One character *)
Lemma some_char_iff f s : some_char f s = true <-> exists a c b, s = (a ++ String c b)%string /\ f c = true.
Proof.
  induction s as [|c s IH]; cbn; [split; [discriminate|intros ([|] & ? & ? & E & _); discriminate]|].
  rewrite orb_true_iff, IH. split.
  - intros [H|(a & c' & b & -> & H)]; [now exists "", c, s|now exists (String c a), c', b].
  - intros ([|c1 a] & c' & b & E & H); cbn in E; injection E as <- ->; [now left|right; eauto].
Qed.
Lemma eqb_char_occurs c s : some_char (Ascii.eqb c) s = true <-> occurs (String c "") s.
Proof.
  rewrite some_char_iff. split.
  - intros (a & c' & b & -> & H). apply Ascii.eqb_eq in H as <-. now exists a, b.
  - intros (a & b & ->). exists a, c, b. split; [reflexivity|]. apply Ascii.eqb_refl.
Qed.
Lemma plain_search c s : ~ In c special_chars -> char_search c s = Some (some_char (Ascii.eqb c) s).
Proof.
  intros H. unfold char_search, one_of.
  assert (E : forall x, In x special_chars -> Ascii.eqb c x = false).
  { intros x Hx. destruct (Ascii.eqb_spec c x) as [->|]; [contradiction|reflexivity]. }
  cbn [some_char]. rewrite !E by (cbn; tauto). reflexivity.
Qed.

(** ** The library *)
Lemma lib_nodup h lib : lib_run mlib0 h = Ok lib -> NoDup (dkeys (l_mods lib)).
Proof.
  assert (Himpl : forall l n i l1, get_impl l n i = Ok l1 -> NoDup (dkeys (l_mods l)) -> NoDup (dkeys (l_mods (snd l1)))).
  { intros l n i l1 H Hn. unfold get_impl in H. destruct (sget (l_mods l) n) as [[m|im]|]; try discriminate.
    destruct (sget im i); [now injection H as <-|]. destruct (String.eqb i "__none__"); [|discriminate].
    injection H as <-. cbn. now apply (dset_nodup _ string_eqb_spec'). }
  assert (Hget : forall l n i l1, get l n i = Ok l1 -> NoDup (dkeys (l_mods l)) -> NoDup (dkeys (l_mods (snd l1)))).
  { intros l n i l1 H Hn. unfold get in H. destruct (shas (l_mods l) n); [|discriminate].
    destruct i as [i|]; [eapply Himpl; eauto|]. unfold get_default in H. destruct (sget (l_def l) n); [eapply Himpl; eauto|].
    destruct (shas (l_mods l) n); discriminate. }
  assert (Hset : forall l n i f l1, set_defimpl l n i f = Ok l1 -> NoDup (dkeys (l_mods l)) -> NoDup (dkeys (l_mods l1))).
  { intros l n i f l1 H Hn. unfold set_defimpl in H. destruct (sget (l_def l) n) as [o|]; [destruct f|]; try (now injection H as <-).
    apply bind_ok in H as ([m1 la] & _ & H). apply bind_ok in H as (? & _ & H). apply bind_ok in H as ([? ?] & _ & H).
    apply bind_ok in H as (? & _ & H). discriminate. }
  assert (Hreg : forall l n i (d : bool) b t kw l1, implementation l n i d b t kw = Ok l1 -> NoDup (dkeys (l_mods l)) -> NoDup (dkeys (l_mods l1))).
  { intros l n i d b t kw l1 H Hn. unfold implementation in H. apply bind_ok in H as (l2 & H1 & H).
    assert (NoDup (dkeys (l_mods l2))).
    { unfold register_impl in H1. destruct (sget (l_mods l) n) as [[m|im]|]; [discriminate| |];
        injection H1 as <-; cbn; now apply (dset_nodup _ string_eqb_spec'). }
    destruct d; [eapply Hset; eauto|now injection H as <-]. }
  assert (G : forall h l, NoDup (dkeys (l_mods l)) -> forall l1, lib_run l h = Ok l1 -> NoDup (dkeys (l_mods l1))).
  { clear h lib. induction h as [|o h IH]; intros l Hn l1 H; cbn in H; [now injection H as <-|].
    apply bind_ok in H as (l2 & H1 & H). apply (IH l2); [|exact H].
    destruct o as [n [i|] d b t kw|n i d b t kw|n i|n i f|n i]; cbn in H1; try (eapply Hreg; eassumption); try (eapply Hset; eassumption).
    apply bind_ok in H1 as ([m l3] & H2 & H1). injection H1 as <-. apply (Hget _ _ _ _ H2 Hn). }
  intros H. apply (G h mlib0); [constructor|exact H].
Qed.


Section Listing.
  Variable other : string -> string -> option bool.
  Lemma filter_ok pat (f : string -> bool) l : (forall n, In n l -> re_search other pat n = Some (f n)) ->
    filter_search other pat l = Ok (filter f l).
  Proof.
    induction l as [|x l IH]; intros H; cbn; [reflexivity|]. rewrite (H x (or_introl eq_refl)), IH by (intros; apply H; now right).
    cbn. now destruct (f x).
  Qed.
  Variables (h : list libop) (lib : mlib).
  Hypothesis Hh : lib_run mlib0 h = Ok lib.
  Definition line (k : string) : list (string * list string) :=
    match sget (l_mods lib) k with Some (Variant impls) => [(k, map fst impls)] | _ => [] end.
  Lemma lines_fst ks : (forall k, In k ks -> In k (dkeys (l_mods lib))) -> map fst (flat_map line ks) = ks.
  Proof.
    induction ks as [|k ks IH]; intros H; [reflexivity|]. cbn. rewrite map_app, IH by (intros; apply H; now right).
    assert (Hk : In k (dkeys (l_mods lib))) by (apply H; now left).
    unfold line. destruct (sget (l_mods lib) k) as [[m|im]|] eqn:E; [|reflexivity|].
    - exfalso. now apply (wf_variant _ (hi_wf _ _ (history_ok _ _ Hh)) k m).
    - apply (dget_None _ string_eqb_spec') in E. contradiction.
  Qed.
  Lemma lines_ok ks (sel : string -> Prop) : in_alphabetical_order ks -> NoDup ks ->
    (forall k, In k ks <-> In k (dkeys (l_mods lib)) /\ sel k) -> lists_modules h sel (flat_map line ks).
  Proof.
    intros Hs Hn Hk. pose proof (history_ok _ _ Hh) as Hi.
    assert (E : map fst (flat_map line ks) = ks) by (apply lines_fst; intros k H; now apply Hk in H).
    split; [now rewrite E|]. split; [now rewrite E|]. split.
    - intros n. rewrite E, Hk, <- (hi_names _ _ Hi). rewrite (dhas_In _ string_eqb_spec'). tauto.
    - intros n impls Hl i. apply in_flat_map in Hl as (k & _ & Hl). unfold line in Hl.
      destruct (sget (l_mods lib) k) as [[m|im]|] eqn:Em; [destruct Hl| |destruct Hl].
      destruct Hl as [Hl|[]]. injection Hl as -> <-. split.
      + intros (c & Hc). apply (hi_last _ _ Hi) in Hc as (m & r & (im' & Em' & Ei) & _). rewrite Em in Em'. injection Em' as <-.
        apply (dget_In _ string_eqb_spec') in Ei. apply in_map_iff. now exists (i, m).
      + intros Hin. destruct (last_or_never h n i) as [Hl|Hl]; [now left|]. right.
        assert (exists m, sget im i = Some m) as (m & Hm).
        { destruct (sget im i) eqn:Eq; eauto. exfalso. apply (dget_None _ string_eqb_spec') in Eq. contradiction. }
        apply (hi_never _ _ Hi n i m); [exact Hl|]. now exists im.
  Qed.
  Notation keys := (sort_by (fun k => k) (map fst (l_mods lib))).
  Lemma keys_ok : in_alphabetical_order keys /\ NoDup keys /\ forall k, In k keys <-> In k (dkeys (l_mods lib)).
  Proof.
    split; [|split].
    - pose proof (proj1 (sorted_map (fun k => k) keys) (sort_sorted (fun k => k) (map fst (l_mods lib)))) as H. now rewrite map_id in H.
    - eapply Permutation_NoDup; [apply sort_perm|]. now apply (lib_nodup h).
    - intros k. split; intros H; [eapply Permutation_in; [symmetry; apply sort_perm|exact H]|eapply Permutation_in; [apply sort_perm|exact H]].
  Qed.
  Lemma list_all : exists lines, print_modules_list other lib [] = Ok lines /\ lists_modules h (fun _ => True) lines.
  Proof.
    destruct keys_ok as (H1 & H2 & H3). exists (flat_map line keys). split.
    - unfold print_modules_list. destruct (l_mods lib) eqn:E; [|rewrite <- E; cbn [bind]; reflexivity].
      reflexivity.
    - apply lines_ok; auto. intros k. rewrite H3. tauto.
  Qed.
  Lemma list_char c more (f : string -> bool) (sel : string -> Prop) :
    (forall n, char_search c n = Some (f n)) -> (forall n, f n = true <-> sel n) ->
    exists lines, print_modules_list other lib (String c "" :: more) = Ok lines /\ lists_modules h sel lines.
  Proof.
    intros Hf Hs. destruct keys_ok as (H1 & H2 & H3). exists (flat_map line (filter f keys)). split.
    - unfold print_modules_list. destruct (l_mods lib) eqn:E; [reflexivity|]. rewrite <- E.
      rewrite (filter_ok _ f) by (intros; apply Hf). reflexivity.
    - apply lines_ok; [now apply filtered_order|now apply NoDup_filter|]. intros k. rewrite filter_In, H3, Hs. tauto.
  Qed.
End Listing.

(** ** The command line *)
Section Words.
  Variables (canon : string -> string) (u : nat -> res bool) (fuel : nat) (info : nat -> tinfo).
  Lemma invoke_call c i a args k : invoke canon u fuel info c i a args = Ok k -> k_obj k = i /\ k_act k = a /\ k_args k = args.
  Proof.
    unfold invoke. intros H. apply bind_ok in H as (c1 & _ & H).
    destruct (i_attr (info i) a) as [[r|r|]|]; [| |discriminate|discriminate].
    - destruct (takes r _); [|discriminate]. now injection H as <-.
    - destruct (takes r _); [|discriminate]. now injection H as <-.
  Qed.
  Lemma cli_word c default nm act w k : cli canon u fuel info c default [nm; act; w] = Ok k ->
    i_routine (info (k_obj k)) = false -> k_act k = act /\ k_args k = CliModel.chars w.
  Proof.
    unfold cli. destruct (core_has canon c nm) as [b c1]. destruct b.
    - intros H. apply bind_ok in H as (i & _ & H). destruct (i_routine (info i)) eqn:Er.
      + apply invoke_call in H as (-> & _). congruence.
      + destruct (hasaction (i_actions (info i)) act); [|discriminate]. unfold invoke_star in H. cbn [bind_star bind] in H.
        apply invoke_call in H as (_ & H). auto.
    - intros H. apply bind_ok in H as ([i|] & _ & H); [|discriminate]. discriminate.
  Qed.
  Lemma cli_no_word c default nm act k : cli canon u fuel info c default [nm; act] = Ok k -> fst (core_has canon c nm) = true ->
    i_routine (info (k_obj k)) = false -> k_act k = act /\ k_args k = [].
  Proof.
    unfold cli. destruct (core_has canon c nm) as [b c1]. cbn [fst]. intros H ->.
    apply bind_ok in H as (i & _ & H). destruct (i_routine (info i)) eqn:Er.
    - apply invoke_call in H as (-> & _). congruence.
    - destruct (hasaction (i_actions (info i)) act); [|discriminate]. unfold invoke_star in H. cbn [bind_star bind] in H.
      apply invoke_call in H as (_ & H). auto.
  Qed.
  (** Whatever the words, the arguments of a target that is no routine are characters. *)
  Lemma cli_chars c default ws k : cli canon u fuel info c default ws = Ok k -> i_routine (info (k_obj k)) = false ->
    exists w, k_args k = CliModel.chars w.
  Proof.
    assert (Hd : forall c i k, execute_with_default_action canon u fuel info c i [] = Ok k -> exists w, k_args k = CliModel.chars w).
    { intros c0 i k0 H. unfold execute_with_default_action in H. apply invoke_call in H as (_ & _ & ->). now exists "". }
    assert (Hs : forall c i a rest k, invoke_star canon u fuel info c i a rest = Ok k -> exists w, k_args k = CliModel.chars w).
    { intros c0 i a rest k0 H. unfold invoke_star in H. apply bind_ok in H as (args & Ha & H). apply invoke_call in H as (_ & _ & ->).
      destruct rest as [|w [|]]; cbn in Ha; [injection Ha as <-; now exists ""|injection Ha as <-; now exists w|discriminate]. }
    unfold cli. destruct ws as [|fnd rest].
    - destruct default; [|discriminate]. intros H _. apply bind_ok in H as (i & _ & H). eapply Hd; eauto.
    - destruct (core_has canon c fnd) as [b c1]. destruct b.
      + intros H. apply bind_ok in H as (i & _ & H). destruct rest as [|act more]; [intros _; eapply Hd; eauto|].
        destruct (i_routine (info i)) eqn:Er.
        * apply invoke_call in H as (-> & _). congruence.
        * destruct (hasaction (i_actions (info i)) act); [|discriminate]. intros _. eapply Hs; eauto.
      + intros H. apply bind_ok in H as ([i|] & _ & H); [|discriminate]. intros _. eapply Hs; eauto.
  Qed.
End Words.

(** ** Names of one character *)
Lemma short_get_default h lib c : lib_run mlib0 h = Ok lib -> no_short_names h -> ends (get lib (String c "") None).
Proof.
  intros Hh Hs. unfold get. destruct (shas (l_mods lib) (String c "")) eqn:E; [|eexists; reflexivity].
  apply (hi_names _ _ (history_ok _ _ Hh)) in E. now apply Hs in E.
Qed.
Lemma short_get h lib c i : lib_run mlib0 h = Ok lib -> no_short_names h -> ends (get lib (String c "") i).
Proof.
  intros Hh Hs. unfold get. destruct (shas (l_mods lib) (String c "")) eqn:E; [|eexists; reflexivity].
  apply (hi_names _ _ (history_ok _ _ Hh)) in E. now apply Hs in E.
Qed.
Lemma short_default h lib c : lib_run mlib0 h = Ok lib -> no_short_names h -> ends (get_default lib (String c "")).
Proof.
  intros Hh Hs. unfold get_default. destruct (sget (l_def lib) (String c "")) as [i|] eqn:E.
  - unfold get_impl. destruct (sget (l_mods lib) (String c "")) as [e|] eqn:Em; [|eexists; reflexivity].
    exfalso. apply (Hs (String c "")); [|reflexivity]. apply (hi_names _ _ (history_ok _ _ Hh)). apply shas_get. eauto.
  - destruct (shas (l_mods lib) (String c "")); eexists; reflexivity.
Qed.
Lemma ends_bind {A B} (r : res A) (f : A -> res B) : ends r -> ends (bind r f).
Proof. intros [m ->]. exists m. reflexivity. Qed.
Lemma short_print h lib w : lib_run mlib0 h = Ok lib -> no_short_names h -> w <> "" -> ends (print_module lib (CliModel.chars w)).
Proof.
  intros Hh Hs Hw. destruct w as [|c [|d w]]; [congruence| |]; cbn; apply ends_bind.
  - now apply (short_default h).
  - now apply (short_get h).
Qed.
Lemma short_collect fuel h lib w : lib_run mlib0 h = Ok lib -> no_short_names h -> w <> "" ->
  ends (print_collect_list fuel lib (CliModel.chars w)).
Proof. intros Hh Hs Hw. destruct w as [|c w]; [congruence|]. cbn. apply ends_bind. now apply (short_get h). Qed.
