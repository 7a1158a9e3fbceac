(** Lemmas: the registry of a script in order implements the project of the script (C77). *)
From Coq Require Import Permutation Operators_Properties.
From Verif Require Import PyBase PyPath PathProofs SolverModel SpecGraph InvokerModel CoreModel SpecCore CoreProofs NeedProofs
  RuProofs CoreThms MakeModel MakeEval SpecMake MakeProofs MakeFacts MakeTimes RegModel SpecUtil UtilProofs SpecReg RegProofs RegScript RegBuild RegTotal
  RegCopy SpecProject.
Local Open Scope string_scope.
Local Open Scope list_scope.

Lemma nodup_disj {A} (a b : list A) x : NoDup (a ++ b) -> In x a -> In x b -> False.
Proof.
  induction a as [|y a IH]; intros N Ha Hb; [destruct Ha|]. cbn in N. inversion N as [|? ? Hy N']. subst.
  destruct Ha as [->|Ha]; [apply Hy; apply in_app_iff; now right|auto].
Qed.

Section Project.
  Variables (cwd home : string) (ex exists_ : string -> bool) (glob_ : string -> list string).
  Hypothesis disk : disk_ok cwd ex exists_.
  Variable l : list stmt.
  Hypothesis ok : in_order cwd home glob_ exists_ l.
  Notation canon := (realpath cwd).
  Notation P := (project_of cwd home glob_ l).
  Notation declares := (declares cwd home glob_).
  Notation rule_of := (rule_of cwd home glob_).
  Notation set_of := (set_of glob_).
  Notation deps_of := (deps_of home glob_).
  Notation sources_of := (sources_of home).
  Notation mentions := (mentions home glob_).
  Notation other_of := (other_of glob_).
  Notation makes := (makes cwd home glob_).
  Notation is_name := (is_name l).
  Notation meaning := (meaning cwd l).
  Definition D (a : string) : Prop := ex a = false /\ exists s p, In s l /\ In p (places_of home s) /\ above a (canon p).

  (** ** The project *)
  Lemma declares_rule s p ds b : rule_of s = Some (p, ds, b) -> declares s = [p] /\ deps_of s = ds.
  Proof. destruct s; intros H; try discriminate; injection H as <- <- <-; split; reflexivity. Qed.
  Lemma set_no_rule s x : set_of s = Some x -> rule_of s = None.
  Proof. destruct s; cbn; congruence. Qed.
  Lemma declares_set s nm ds : set_of s = Some (nm, ds) -> declares s = [nm] /\ deps_of s = ds.
  Proof. destruct s; intros H; try discriminate; injection H as <- <-; split; reflexivity. Qed.
  Lemma declares_other s u nm ds : other_of s = Some (u, nm, ds) -> declares s = [nm] /\ deps_of s = ds.
  Proof. destruct s; intros H; try discriminate; injection H as <- <- <-; split; reflexivity. Qed.
  Lemma makes_declares s : incl (makes s) (declares s).
  Proof. intros x Hx. apply in_app_iff. now left. Qed.
  Lemma first_once l0 s x dc : In s l0 -> NoDup (flat_map declares l0) -> declares s = [x] -> decl_of cwd home glob_ l s x = Some dc ->
    first_decl cwd home glob_ l l0 x = Some dc.
  Proof.
    induction l0 as [|s0 l0 IH]; intros Hs N Hx Hd; [destruct Hs|]. cbn [first_decl]. destruct Hs as [->|Hs]; [now rewrite Hd|].
    cbn [flat_map] in N. assert (E : decl_of cwd home glob_ l s0 x = None).
    { destruct (decl_of cwd home glob_ l s0 x) as [d0|] eqn:E; [|reflexivity]. exfalso.
      assert (Hin : In x (declares s0)).
      { apply makes_declares. unfold decl_of in E. unfold SpecProject.makes. destruct (rule_of s0) as [[[q ds] b]|].
        - destruct (String.eqb_spec q x) as [->|]; [now left|discriminate].
        - destruct (set_of s0) as [[q ds]|]; [|discriminate]. destruct (String.eqb_spec q x) as [->|]; [now left|discriminate]. }
      assert (Hin2 : In x (flat_map declares l0)) by (apply in_flat_map; exists s; split; [exact Hs|rewrite Hx; now left]).
      revert N Hin Hin2. generalize (flat_map declares l0) as m. intros m N H1 H2. induction (declares s0) as [|y k IHk]; [destruct H1|].
      cbn in N. inversion N as [|? ? Hy N']. subst. destruct H1 as [->|H1]; [apply Hy; apply in_app_iff; now right|auto]. }
    rewrite E. apply IH; try assumption.
    clear - N. induction (declares s0) as [|y k IHk]; [exact N|]. cbn in N. inversion N. auto.
  Qed.
  Lemma P_rule s p ds b : In s l -> rule_of s = Some (p, ds, b) -> P p = Some (DRule (fst b) (map meaning ds) (snd b)).
  Proof.
    intros Hs Hr. unfold project_of. rewrite (first_once l s p (DRule (fst b) (map meaning ds) (snd b))); [reflexivity|exact Hs|apply ok| |].
    - now apply (declares_rule s p ds b).
    - unfold decl_of. now rewrite Hr, String.eqb_refl.
  Qed.
  Lemma P_set s nm ds : In s l -> set_of s = Some (nm, ds) -> P nm = Some (DSet (map meaning ds)).
  Proof.
    intros Hs Hr. unfold project_of. rewrite (first_once l s nm (DSet (map meaning ds))); [reflexivity|exact Hs|apply ok| |].
    - now apply (declares_set s nm ds).
    - unfold decl_of. now rewrite (set_no_rule s _ Hr), Hr, String.eqb_refl.
  Qed.
  Lemma first_none l0 x : ~ In x (flat_map makes l0) -> first_decl cwd home glob_ l l0 x = None.
  Proof.
    induction l0 as [|s l0 IH]; intros H; [reflexivity|]. cbn [first_decl flat_map] in *. rewrite in_app_iff in H.
    assert (E : decl_of cwd home glob_ l s x = None).
    { unfold decl_of. unfold SpecProject.makes in H. destruct (rule_of s) as [[[q ds] b]|].
      - destruct (String.eqb_spec q x) as [->|]; [|reflexivity]. elim H. left. now left.
      - destruct (set_of s) as [[q ds]|]; [|reflexivity]. destruct (String.eqb_spec q x) as [->|]; [|reflexivity]. elim H. left. now left. }
    rewrite E. apply IH. tauto.
  Qed.
  Lemma is_name_In nm : is_name nm = true <-> exists s, In s l /\ ((exists ds, set_of s = Some (nm, ds)) \/ exists u ds, other_of s = Some (u, nm, ds)).
  Proof.
    unfold SpecProject.is_name. rewrite existsb_exists. split.
    - intros (s & Hs & E). exists s. split; [exact Hs|]. destruct s; try discriminate; apply String.eqb_eq in E; subst; [left|right]; cbn; eauto.
    - intros (s & Hs & [(ds & E)|(u & ds & E)]); exists s; (split; [exact Hs|]); destruct s; try discriminate; cbn in E; injection E; intros; subst; apply String.eqb_refl.
  Qed.
  Lemma set_name s nm ds : In s l -> set_of s = Some (nm, ds) -> is_name nm = true.
  Proof. intros Hs E. apply is_name_In. eauto. Qed.
  Lemma other_name s u nm ds : In s l -> other_of s = Some (u, nm, ds) -> is_name nm = true.
  Proof. intros Hs E. apply is_name_In. eauto 6. Qed.
  Lemma name_relative nm : is_name nm = true -> starts_slash nm = false.
  Proof. apply (io_names _ _ _ _ _ ok). Qed.
  Lemma canon_no_name p : is_name (canon p) = false.
  Proof.
    destruct (is_name (canon p)) eqn:E; [|reflexivity]. apply name_relative in E. rewrite realpath_starts in E. discriminate.
  Qed.
  Lemma canonical_no_name p : canon p = p -> is_name p = false.
  Proof. intros <-. apply canon_no_name. Qed.
  Lemma P_source s d : In s l -> In d (mentions s) -> is_name d = false -> ~ In (meaning d) (flat_map declares l) -> P (meaning d) = Some DSource.
  Proof.
    intros Hs Hd Nd Hn. unfold project_of. rewrite (first_none l).
    2:{ intros H. apply Hn. apply in_flat_map in H. destruct H as (s' & Hs' & H). apply in_flat_map. exists s'. split; [exact Hs'|now apply makes_declares]. }
    assert (E : existsb (fun e => String.eqb (meaning e) (meaning d)) (flat_map mentions l) = true).
    { apply existsb_exists. exists d. split; [apply in_flat_map; eauto|apply String.eqb_refl]. }
    rewrite E. unfold SpecProject.meaning. now rewrite Nd, canon_no_name.
  Qed.
  Lemma meaning_file d : is_name d = false -> meaning d = canon d.
  Proof. intros E. unfold SpecProject.meaning. now rewrite E. Qed.
  Lemma meaning_name d : is_name d = true -> meaning d = d.
  Proof. intros E. unfold SpecProject.meaning. now rewrite E. Qed.
  Lemma name_declared d : is_name d = true -> In (meaning d) (flat_map declares l).
  Proof.
    intros E. rewrite meaning_name by exact E. apply is_name_In in E. destruct E as (s & Hs & [(ds & E)|(u & ds & E)]); apply in_flat_map;
      exists s; (split; [exact Hs|]).
    - rewrite (proj1 (declares_set s _ _ E)). now left.
    - rewrite (proj1 (declares_other s _ _ _ E)). now left.
  Qed.
  Lemma D_no_file a : D a -> ~ is_file P a.
  Proof. intros (_ & s & p & Hs & Hp & Ha). exact (io_files _ _ _ _ _ ok s p a Hs Hp Ha). Qed.
  Lemma rule_file s p ds b : In s l -> rule_of s = Some (p, ds, b) -> is_file P p.
  Proof. intros Hs Hr. right. exists (fst b), (map meaning ds), (snd b). now apply (P_rule s). Qed.
  Lemma D_missing a : D a -> ex a = false.
  Proof. now intros [H _]. Qed.
  Lemma D_up a : D a -> ex (dirname a) = false -> D (dirname a).
  Proof.
    intros (Hx & s & p & Hs & Hp & Ha) Hx'. split; [exact Hx'|]. exists s, p. split; [exact Hs|]. split; [exact Hp|].
    apply ab_up; [exact Ha|]. intros E.
    assert (Hc : canon a = a).
    { clear - Ha. remember (canon p) as q eqn:Eq. induction Ha as [q _|a q Ha IH _]; subst.
      - apply canonical_dirname. apply realpath_idem.
      - apply canonical_dirname. now apply IH. }
    rewrite <- Hc in E. apply fixed_root in E. rewrite E in Hc. rewrite <- Hc in Hx.
    rewrite (root_exists cwd ex exists_ disk) in Hx. discriminate.
  Qed.
  Lemma D_parent s p : In s l -> In p (places_of home s) -> ex (dirname (canon p)) = false -> D (dirname (canon p)).
  Proof.
    intros Hs Hp Hx. split; [exact Hx|]. exists s, p. split; [exact Hs|]. split; [exact Hp|].
    exact (missing_parent_above cwd ex exists_ disk p Hx).
  Qed.

  (** ** Registries *)
  Definition dirs (K : list string) (o : tobj) (ds : list string) : Prop :=
    exists a b dd, ds = a ++ b /\ t_deps o = a ++ dd ++ b /\
      forall d, In d dd -> canon d = dirname (t_name o) /\ D (canon d) /\ is_name d = false /\ In (canon d) K.
  Definition desc (sk : bool) (l1 : list stmt) (K : list string) (kd : mkind) (o : tobj) (nm : string) : Prop :=
    (kd <> MOther -> t_class o = Updatable) /\
    match kd with
    | MSource => t_name o = canon nm /\ is_name nm = false /\ P (canon nm) = Some DSource /\ dirs K o []
    | MFile f b => t_name o = canon nm /\ is_name nm = false /\
        exists s ds, In s l1 /\ rule_of s = Some (canon nm, ds, (f, b)) /\ dirs K o ds
    | MSet => t_name o = nm /\ exists s ds, In s l1 /\ set_of s = Some (nm, ds) /\ t_deps o = ds
    | MDir => t_name o = canon nm /\ is_name nm = false /\ D (canon nm) /\ dirs K o [] /\
        (ex (dirname (t_name o)) = false -> t_deps o <> []) /\ (sk = true -> canon nm = nm)
    | MOther => t_name o = nm /\ exists s u ds, In s l1 /\ other_of s = Some (u, nm, ds) /\ t_deps o = ds /\ t_class o = (if u then Updatable else Plain)
    end.
  Lemma dirs_mono K K' o ds : incl K K' -> dirs K o ds -> dirs K' o ds.
  Proof.
    intros HK (a & b & dd & H0 & H1 & H2). exists a, b, dd. split; [exact H0|]. split; [exact H1|].
    intros d Hd. destruct (H2 d Hd) as (H3 & H4 & H5 & H7). auto.
  Qed.
  (** Directories at the end of the dependencies, by their canonical names. *)
  Lemma dirs_end K o ds dd : t_deps o = ds ++ dd -> (forall d, In d dd -> d = dirname (t_name o) /\ D d /\ In d K) ->
    canon (t_name o) = t_name o -> dirs K o ds.
  Proof.
    intros H1 H2 H4. exists ds, [], dd. split; [now rewrite app_nil_r|]. split; [now rewrite app_nil_r|].
    intros d Hd. destruct (H2 d Hd) as (E & HD & HK). assert (Cd : canon d = d) by (rewrite E; now apply canonical_dirname).
    rewrite Cd. split; [exact E|]. split; [exact HD|]. split; [now apply canonical_no_name|exact HK].
  Qed.
  Lemma desc_mono sk l1 l1' K K' kd o nm : incl l1 l1' -> incl K K' -> desc sk l1 K kd o nm -> desc sk l1' K' kd o nm.
  Proof.
    intros H1 HK [Hc H]. split; [exact Hc|]. destruct kd as [f b| | | |].
    - destruct H as (A & B & s & ds & C & F & G). split; [exact A|]. split; [exact B|]. exists s, ds.
      split; [auto|]. split; [exact F|]. eapply dirs_mono; eauto.
    - destruct H as (A & B & C & E). repeat (split; [assumption|]). eapply dirs_mono; eauto.
    - destruct H as (A & B & C & E & F). repeat (split; [assumption|]). split; [eapply dirs_mono; eauto|exact F].
    - destruct H as (A & s & ds & B & C & E). split; [exact A|]. exists s, ds. auto.
    - destruct H as (A & s & u & ds & B & C & E). split; [exact A|]. exists s, u, ds. auto.
  Qed.
  Definition inv0 (sk : bool) (l1 : list stmt) (r : mreg) : Prop :=
    List.length (snd r) = List.length (c_heap (fst r)) /\ NoDup (keys r) /\
    forall nm i, In (nm, i) (c_targets (fst r)) -> i < List.length (c_heap (fst r)) /\ In (nm_of r i, i) (c_targets (fst r)) /\
      desc sk l1 (keys r) (kind_of r i) (obj (fst r) i) nm.

  Lemma inv0_mono sk l1 l1' r : incl l1 l1' -> inv0 sk l1 r -> inv0 sk l1' r.
  Proof.
    intros H (L & N & V). split; [exact L|]. split; [exact N|]. intros nm i Hi. destruct (V nm i Hi) as (A & B & C). split; [exact A|]. split; [exact B|].
    eapply desc_mono; [exact H|apply incl_refl|exact C].
  Qed.
  (** What the key of a target says about the target. *)
  Lemma key_meaning sk l1 r d i : incl l1 l -> inv0 sk l1 r -> In (d, i) (c_targets (fst r)) -> kind_of r i <> MDir -> nm_of r i = meaning d.
  Proof.
    intros Hl (_ & _ & V) Hi Hk. destruct (V d i Hi) as (_ & _ & _ & C). unfold nm_of. destruct (kind_of r i) as [f b| | | |].
    - destruct C as (-> & E & _). now rewrite meaning_file.
    - destruct C as (-> & E & _). now rewrite meaning_file.
    - now elim Hk.
    - destruct C as (-> & s & ds & Hs & E & _). rewrite meaning_name; [reflexivity|]. apply (set_name s d ds); auto.
    - destruct C as (-> & s & u & ds & Hs & E & _). rewrite meaning_name; [reflexivity|]. apply (other_name s u d ds); auto.
  Qed.

  Lemma inv0_has sk l1 r nm : incl l1 l -> inv0 sk l1 r -> (is_name nm = true -> In nm (keys r)) -> (sk = true -> is_name nm = false -> ~ D (canon nm)) ->
    let r' := (snd (core_has canon (fst r) nm), snd r) in
    inv0 sk l1 r' /\ incl (keys r) (keys r') /\ (fst (core_has canon (fst r) nm) = true -> In nm (keys r')) /\
    (fst (core_has canon (fst r) nm) = false -> r' = r /\ ~ In nm (keys r) /\ ~ In (canon nm) (keys r)).
  Proof.
    intros Hl G Hs HD. unfold core_has. destruct r as [c ks]. cbn [fst snd].
    destruct (sget (c_targets c) nm) as [i|] eqn:E.
    - cbn zeta. split; [exact G|]. split; [apply incl_refl|]. split; [|discriminate]. intros _. unfold keys. cbn [fst snd].
      apply (dget_In String.eqb string_eqb_spec') in E. apply in_map_iff. exists (nm, i). auto.
    - assert (Hn : ~ In nm (keys (c, ks))).
      { intros H. apply in_map_iff in H. destruct H as ([k i] & Ek & H). cbn in Ek. subst k.
        apply (dget_None String.eqb string_eqb_spec') in E. apply E. apply in_map_iff. now exists (nm, i). }
      destruct (sget (c_targets c) (canon nm)) as [i|] eqn:E2; cbn zeta; cbn [fst snd].
      2:{ split; [exact G|]. split; [apply incl_refl|]. split; [discriminate|]. intros _. split; [reflexivity|]. split; [exact Hn|].
          intros H. apply (dget_None String.eqb string_eqb_spec') in E2. now apply E2. }
      apply (dget_In String.eqb string_eqb_spec') in E2.
      assert (K : forall k, In k (map fst (c_targets c)) -> In k (map fst (sset (c_targets c) nm i))).
      { intros k Hk. apply (dkeys_dset String.eqb string_eqb_spec'). now left. }
      assert (I : forall k j, In (k, j) (sset (c_targets c) nm i) -> In (k, j) (c_targets c) \/ k = nm /\ j = i).
      { intros k j H. apply In_dset in H. tauto. }
      assert (I2 : forall k j, In (k, j) (c_targets c) -> In (k, j) (sset (c_targets c) nm i)).
      { intros k j H. rewrite (dset_notin String.eqb string_eqb_spec') by exact Hn. apply in_app_iff. now left. }
      split; [|split; [exact K|split; [|discriminate]]].
      2:{ intros _. apply (dkeys_dset String.eqb string_eqb_spec'). now right. }
      destruct G as (G1 & GN & G2). cbn [fst snd] in *. split; [exact G1|].
      split; [unfold keys; cbn [fst c_targets]; now apply (dset_nodup String.eqb string_eqb_spec')|]. cbn [fst snd c_targets c_heap].
      assert (Old : forall k j, In (k, j) (c_targets c) -> j < List.length (c_heap c) /\
        In (nm_of (CO (sset (c_targets c) nm i) (c_heap c) (c_lazy c) (c_threads c), ks) j, j) (sset (c_targets c) nm i) /\
        desc sk l1 (keys (CO (sset (c_targets c) nm i) (c_heap c) (c_lazy c) (c_threads c), ks))
          (kind_of (CO (sset (c_targets c) nm i) (c_heap c) (c_lazy c) (c_threads c), ks) j)
          (obj (CO (sset (c_targets c) nm i) (c_heap c) (c_lazy c) (c_threads c)) j) k).
      { intros k j H. destruct (G2 k j H) as (A & B & C). split; [exact A|]. split; [apply I2; exact B|].
        eapply desc_mono; [apply incl_refl|exact K|exact C]. }
      intros k j H. destruct (I _ _ H) as [H'|[-> ->]]; [now apply Old|]. destruct (Old _ _ E2) as (A & B & Cl & C).
      split; [exact A|]. split; [exact B|]. split; [exact Cl|].
      assert (Ns : is_name nm = false) by (destruct (is_name nm); [elim Hn; now apply Hs|reflexivity]).
      match type of C with match ?kd with _ => _ end => destruct kd as [f b| | | |] end.
      + destruct C as (C1 & C2 & C3). rewrite realpath_idem in *. auto.
      + destruct C as (C1 & C2 & C3). rewrite realpath_idem in *. auto.
      + destruct C as (C1 & C2 & C3 & C4 & C5 & _). rewrite realpath_idem in *. split; [exact C1|]. split; [exact Ns|]. split; [exact C3|]. split; [exact C4|]. split; [exact C5|].
        intros Hk. now elim (HD Hk Ns).
      + exfalso. destruct C as (_ & s & ds & C1 & C2 & _). pose proof (canon_no_name nm) as X.
        pose proof (set_name s _ ds (Hl s C1) C2). congruence.
      + exfalso. destruct C as (_ & s & u & ds & C1 & C2 & _). pose proof (canon_no_name nm) as X.
        pose proof (other_name s u _ ds (Hl s C1) C2). congruence.
  Qed.

  Lemma inv0_add sk cls l1 r kd nm deps : inv0 sk l1 r ->
    (forall k i, In (k, i) (c_targets (fst r)) -> nm_of r i = nm -> k = nm) ->
    desc sk l1 (nm :: keys r) kd (new_obj cls nm deps) nm ->
    inv0 sk l1 (reg_add r cls kd nm deps) /\ incl (keys r) (keys (reg_add r cls kd nm deps)) /\
    In nm (keys (reg_add r cls kd nm deps)) /\
    (forall k, In k (keys (reg_add r cls kd nm deps)) -> k = nm \/ In k (keys r)).
  Proof.
    intros (G1 & GN & G2) Hf Hd. destruct r as [c ks]. unfold reg_add. cbn [fst snd] in *.
    assert (T : c_targets (core_new c cls nm deps) = sset (c_targets c) nm (List.length (c_heap c))) by apply core_new_targets.
    assert (Hh : c_heap (core_new c cls nm deps) = c_heap c ++ [new_obj cls nm deps]) by apply core_new_heap.
    set (c' := core_new c cls nm deps) in *. clearbody c'.
    assert (K : forall k, In k (map fst (c_targets c)) -> In k (map fst (c_targets c'))).
    { intros k Hk. rewrite T. apply (dkeys_dset String.eqb string_eqb_spec'). now left. }
    assert (Kn : In nm (map fst (c_targets c'))).
    { rewrite T. apply (dkeys_dset String.eqb string_eqb_spec'). now right. }
    assert (I : forall k j, In (k, j) (c_targets c') -> k <> nm /\ In (k, j) (c_targets c) \/ k = nm /\ j = List.length (c_heap c)).
    { intros k j H. rewrite T in H. destruct (string_dec k nm) as [->|N].
      - right. split; [reflexivity|].
        pose proof (dget_of_In String.eqb string_eqb_spec' _ _ _ (dset_nodup String.eqb string_eqb_spec' _ nm (List.length (c_heap c)) GN) H) as E.
        rewrite (dget_dset_eq String.eqb string_eqb_spec') in E. now injection E.
      - left. split; [exact N|]. apply In_dset in H. tauto. }
    assert (I2 : forall k j, k <> nm -> In (k, j) (c_targets c) -> In (k, j) (c_targets c')).
    { intros k j N H. rewrite T. apply (dget_In String.eqb string_eqb_spec').
      rewrite (dget_dset_neq String.eqb string_eqb_spec') by congruence. now apply (dget_of_In String.eqb string_eqb_spec'). }
    assert (Old : forall j, j < List.length (c_heap c) -> obj c' j = obj c j).
    { intros j Hj. unfold obj. rewrite Hh. now rewrite app_nth1. }
    assert (New : obj c' (List.length (c_heap c)) = new_obj cls nm deps).
    { unfold obj. rewrite Hh, app_nth2 by lia. now rewrite Nat.sub_diag. }
    assert (OldK : forall j, j < List.length (c_heap c) -> kind_of (c', ks ++ [kd]) j = kind_of (c, ks) j).
    { intros j Hj. unfold kind_of. cbn [snd]. rewrite app_nth1; [reflexivity|lia]. }
    assert (NewK : kind_of (c', ks ++ [kd]) (List.length (c_heap c)) = kd).
    { unfold kind_of. cbn [snd]. rewrite app_nth2 by lia. now rewrite G1, Nat.sub_diag. }
    assert (K' : forall k, In k (keys (c', ks ++ [kd])) -> k = nm \/ In k (keys (c, ks))).
    { intros k Hk. unfold keys in Hk. cbn [fst] in Hk. rewrite T in Hk. apply (dkeys_dset String.eqb string_eqb_spec') in Hk. tauto. }
    split; [|split; [exact K|split; [exact Kn|exact K']]].
    split; [cbn [fst snd]; rewrite Hh, !app_length; cbn; lia|].
    split; [unfold keys; cbn [fst]; rewrite T; now apply (dset_nodup String.eqb string_eqb_spec')|].
    cbn [fst snd]. intros k j H. rewrite Hh, app_length. cbn [List.length]. destruct (I _ _ H) as [[N H']|[-> ->]].
    - destruct (G2 k j H') as (A & B & C). split; [lia|]. split.
      + unfold nm_of. cbn [fst]. rewrite (Old j A). apply I2; [|exact B]. intros E. apply N. exact (Hf k j H' E).
      + rewrite (OldK j A), (Old j A). eapply desc_mono; [apply incl_refl|exact K|exact C].
    - split; [lia|]. split.
      + unfold nm_of. cbn [fst]. rewrite New. exact H.
      + rewrite NewK, New. eapply desc_mono; [apply incl_refl| |exact Hd]. intros x [<-|Hx]; [exact Kn|now apply K].
  Qed.

  (** *** Directories *)
  Definition new_dirs (r r' : mreg) : Prop := incl (keys r) (keys r') /\ forall k, In k (keys r') -> In k (keys r) \/ D k.
  Lemma new_dirs_refl r : new_dirs r r.
  Proof. split; [apply incl_refl|auto]. Qed.
  Lemma new_dirs_trans a b c : new_dirs a b -> new_dirs b c -> new_dirs a c.
  Proof.
    intros [A1 A2] [B1 B2]. split; [intros k Hk; auto|]. intros k Hk. destruct (B2 k Hk) as [H|H]; [auto|now right].
  Qed.
  Lemma reg0_put st r : 0 < List.length st -> reg (put st 0 r) 0 = r.
  Proof. intros H. rewrite reg_put by exact H. reflexivity. Qed.

  Lemma dirs_inv l1 : incl l1 l -> forall fuel st p st',
    fnew canon exists_ glob_ fuel st 0 MDir p [] (negb (exists_ (normpath (dirname p)))) = Ok st' ->
    canon p = p -> D p -> star_free p -> 0 < List.length st -> inv0 true l1 (reg st 0) ->
    inv0 true l1 (reg st' 0) /\ List.length st' = List.length st /\ In p (keys (reg st' 0)) /\ new_dirs (reg st 0) (reg st' 0).
  Proof.
    intros Hl. induction fuel as [|fuel IH]; intros st p st' E Cp HD Sp Ls G; [discriminate|].
    pose proof (fnew_length _ _ _ _ _ _ _ _ _ _ _ E) as Len.
    cbn [fnew] in E. rewrite Cp in E.
    assert (Np : normpath (dirname p) = dirname p) by (rewrite <- Cp; apply normpath_dirname_canonical).
    rewrite Np in E.
    assert (Add : forall r deps, inv0 true l1 r -> dirs (p :: keys r) (new_obj Updatable p deps) [] -> (ex (dirname p) = false -> deps <> []) ->
      inv0 true l1 (reg_add r Updatable MDir p deps) /\ In p (keys (reg_add r Updatable MDir p deps)) /\ new_dirs r (reg_add r Updatable MDir p deps)).
    { intros r deps Gr Hd Hne. destruct (inv0_add true Updatable l1 r MDir p deps Gr) as (A1 & A2 & A3 & A4).
      - intros k i Hi En. destruct (proj2 (proj2 Gr) k i Hi) as (_ & _ & _ & C). unfold nm_of in En.
        destruct (kind_of r i) as [f b| | | |].
        + exfalso. destruct C as (C1 & _ & s & ds & C2 & C3 & _). apply (D_no_file p HD). rewrite <- En, C1. exact (rule_file s _ ds (f, b) (Hl s C2) C3).
        + exfalso. destruct C as (C1 & _ & C2 & _). apply (D_no_file p HD). rewrite <- En, C1. now left.
        + destruct C as (C1 & _ & _ & _ & _ & C5). specialize (C5 eq_refl). congruence.
        + exfalso. destruct C as (C1 & s & ds & C2 & C3 & _). pose proof (canonical_no_name p Cp) as X.
          pose proof (set_name s _ ds (Hl s C2) C3). congruence.
        + exfalso. destruct C as (C1 & s & u & ds & C2 & C3 & _). pose proof (canonical_no_name p Cp) as X.
          pose proof (other_name s u _ ds (Hl s C2) C3). congruence.
      - split; [reflexivity|]. cbn [t_name new_obj]. rewrite !Cp. split; [reflexivity|]. split; [now apply canonical_no_name|]. auto.
      - split; [exact A1|]. split; [exact A3|]. split; [exact A2|]. intros k Hk. destruct (A4 k Hk) as [->|H]; auto. }
    destruct (exists_ (dirname p)) eqn:Ex; cbn [negb andb] in E.
    - cbn [bind expand_names flat_map] in E. injection E as <-. rewrite reg0_put by exact Ls.
      assert (Xd : ex (dirname p) = true).
      { pose proof (exists_dirpath cwd ex exists_ disk p) as X. rewrite Cp, Np, Ex in X. now symmetry. }
      destruct (Add (reg st 0) [] G) as (A1 & A2 & A3); [apply (dirs_end _ _ [] []); [reflexivity|intros d []|exact Cp]|congruence|]. auto.
    - destruct (fnew canon exists_ glob_ fuel st 0 MDir (dirname p) [] (negb (exists_ (normpath (dirname (dirname p)))))) as [st1| |] eqn:E1;
        cbn [bind] in E; try discriminate.
      assert (Cd : canon (dirname p) = dirname p) by now apply canonical_dirname.
      assert (Xd : ex (dirname p) = false).
      { pose proof (exists_dirpath cwd ex exists_ disk p) as X. rewrite Cp, Np, Ex in X. now symmetry. }
      pose proof (D_up p HD Xd) as Dd.
      destruct (IH st (dirname p) st1 E1 Cd Dd) as (R1 & R2 & R3 & R4); [now apply star_free_dirname|exact Ls|exact G|].
      cbn [app expand_names flat_map] in E. rewrite (proj2 (has_star_free (dirname p)) (star_free_dirname p Sp)) in E.
      cbn [app] in E. rewrite Ex in E. cbn [bind] in E. injection E as <-. rewrite reg0_put by lia.
      destruct (Add (reg st1 0) [dirname p] R1) as (A1 & A2 & A3).
      { apply (dirs_end _ _ [] [dirname p]); [reflexivity| |exact Cp]. intros d [<-|[]]. cbn [t_name new_obj]. split; [reflexivity|]. split; [exact Dd|]. now right. }
      { intros _. discriminate. }
      split; [exact A1|]. split; [exact Len|]. split; [exact A2|]. eapply new_dirs_trans; eauto.
  Qed.

  (** *** A new file: its directory and its dependencies *)
  Lemma dir_part l1 fuel st name dk deps st1 deps1 : incl l1 l ->
    (if dk && negb (exists_ (normpath (dirname (canon name)))) then
       do! st1 <- fnew canon exists_ glob_ fuel st 0 MDir (normpath (dirname (canon name))) []
                    (negb (exists_ (normpath (dirname (normpath (dirname (canon name)))))));
       Ok (st1, deps ++ [normpath (dirname (canon name))])
     else Ok (st, deps)) = Ok (st1, deps1) ->
    (ex (dirname (canon name)) = false -> D (dirname (canon name)) /\ star_free name) ->
    0 < List.length st -> inv0 true l1 (reg st 0) ->
    inv0 true l1 (reg st1 0) /\ List.length st1 = List.length st /\ new_dirs (reg st 0) (reg st1 0) /\
    exists dd, expand_names glob_ deps1 = expand_names glob_ deps ++ dd /\
      (forall d, In d dd -> d = dirname (canon name) /\ D d /\ In d (keys (reg st1 0)) /\ exists_ d = false) /\
      (dk = true -> ex (dirname (canon name)) = false -> In (dirname (canon name)) dd).
  Proof.
    intros Hl E Hd Ls G. rewrite (normpath_dirname_canonical cwd name) in E.
    destruct dk; cbn [andb] in E.
    2:{ injection E as <- <-. split; [exact G|]. split; [reflexivity|]. split; [apply new_dirs_refl|]. exists [].
        split; [now rewrite app_nil_r|split; [intros d []|discriminate]]. }
    destruct (exists_ (dirname (canon name))) eqn:Ex; cbn [negb] in E.
    { injection E as <- <-. split; [exact G|]. split; [reflexivity|]. split; [apply new_dirs_refl|]. exists [].
      split; [now rewrite app_nil_r|split; [intros d []|]]. intros _ Xd.
      pose proof (exists_dirpath cwd ex exists_ disk name) as X. rewrite (normpath_dirname_canonical cwd name), Ex in X. congruence. }
    match type of E with bind ?X _ = _ => destruct X as [st0| |] eqn:E1; cbn [bind] in E; try discriminate end. injection E as <- <-.
    pose proof (exists_dirpath cwd ex exists_ disk name) as X. rewrite (normpath_dirname_canonical cwd name), Ex in X. symmetry in X.
    destruct (Hd X) as [HD Sn].
    assert (Sd : star_free (dirname (canon name))).
    { apply star_free_dirname, star_free_realpath; [|exact Sn]. apply has_star_free. exact (io_cwd _ _ _ _ _ ok). }
    destruct (dirs_inv l1 Hl fuel st (dirname (canon name)) st0 E1) as (R1 & R2 & R3 & R4); try assumption.
    { apply canonical_dirname, realpath_idem. }
    split; [exact R1|]. split; [exact R2|]. split; [exact R4|]. exists [dirname (canon name)]. split.
    - unfold expand_names. rewrite flat_map_app. cbn [flat_map]. now rewrite (proj2 (has_star_free _) Sd).
    - split; [|intros _ _; now left]. intros d [<-|[]]. auto.
  Qed.

  Lemma new_source l1 fuel st r st' : incl l1 l -> fnew canon exists_ glob_ fuel st 0 MSource r [] true = Ok st' ->
    (ex (dirname (canon r)) = false -> D (dirname (canon r)) /\ star_free r) ->
    0 < List.length st -> inv0 true l1 (reg st 0) -> ~ In (canon r) (keys (reg st 0)) -> is_name r = false -> P (canon r) = Some DSource ->
    inv0 true l1 (reg st' 0) /\ List.length st' = List.length st /\ incl (keys (reg st 0)) (keys (reg st' 0)) /\ In (canon r) (keys (reg st' 0)).
  Proof.
    intros Hl E Hd Ls G Hn Ns HP. pose proof (fnew_length _ _ _ _ _ _ _ _ _ _ _ E) as Len.
    destruct fuel as [|fuel]; [discriminate|]. cbn [fnew] in E.
    match type of E with bind ?X _ = _ => destruct X as [[st1 deps1]| |] eqn:E1; cbn [bind] in E; try discriminate end.
    destruct (dir_part l1 fuel st r true [] st1 deps1 Hl E1 Hd Ls G) as (G1 & L1 & [W1 W2] & dd & Edd & Hdd & Hall). clear E1.
    rewrite Edd in E. cbn [expand_names flat_map app] in E.
    match type of E with bind ?X _ = _ => assert (E2 : X = Ok st1) end.
    { clear - Hdd. induction dd as [|d dd IH]; [reflexivity|]. destruct (Hdd d (or_introl eq_refl)) as (_ & _ & _ & ->).
      apply IH. intros d' Hd'. apply Hdd. now right. }
    rewrite E2 in E. cbn [bind] in E. injection E as <-. rewrite reg0_put by lia.
    destruct (inv0_add true Updatable l1 (reg st1 0) MSource (canon r) dd G1) as (A1 & A2 & A3 & A4).
    - intros k i Hi En. exfalso. destruct (proj2 (proj2 G1) k i Hi) as (_ & B & _). rewrite En in B.
      assert (Kr : In (canon r) (keys (reg st1 0))) by (apply in_map_iff; now exists (canon r, i)).
      destruct (W2 _ Kr) as [H|H]; [now apply Hn|]. apply (D_no_file _ H). now left.
    - split; [reflexivity|]. rewrite realpath_idem. split; [reflexivity|]. split; [apply canon_no_name|]. split; [exact HP|].
      apply (dirs_end _ _ [] dd); [reflexivity| |apply realpath_idem]. intros d Hd'. destruct (Hdd d Hd') as (Q1 & Q2 & Q3 & _). cbn [t_name new_obj]. split; [exact Q1|]. split; [exact Q2|]. now right.
    - split; [exact A1|]. split; [exact Len|]. split; [intros k Hk; auto|exact A3].
  Qed.


  (** *** Names mentioned by the next statement *)
  Definition next (l1 : list stmt) (s : stmt) : Prop := exists l2, l = l1 ++ s :: l2.
  Definition declared_keys (l1 : list stmt) (r : mreg) : Prop := forall x, In x (flat_map declares l1) -> In x (keys r).
  Lemma next_incl l1 s : next l1 s -> incl l1 l.
  Proof. intros [l2 ->] x Hx. apply in_app_iff. now left. Qed.
  Lemma next_In l1 s : next l1 s -> In s l.
  Proof. intros [l2 ->]. apply in_app_iff. right. now left. Qed.
  Lemma mention_name l1 s r d : next l1 s -> In d (mentions s) -> declared_keys l1 r -> is_name d = true -> In d (keys r).
  Proof.
    intros [l2 E] Hd Hk Hs. apply Hk. rewrite <- (meaning_name d Hs) at 1. eapply (io_before _ _ _ _ _ ok); eauto. now apply name_declared.
  Qed.
  Lemma declared_abs x : In x (flat_map declares l) -> starts_slash x = true -> exists s ds b, In s l /\ rule_of s = Some (x, ds, b).
  Proof.
    intros H Hx. apply in_flat_map in H. destruct H as (s & Hs & Hd). unfold SpecProject.declares, SpecProject.makes in Hd.
    assert (Y : is_name x = true -> False) by (intros Y; apply name_relative in Y; congruence).
    destruct (rule_of s) as [[[q ds] b]|] eqn:E; [destruct s; try discriminate; destruct Hd as [<-|[]]; eauto|].
    exfalso. apply Y. destruct (set_of s) as [[q ds]|] eqn:E2; [destruct s; try discriminate; destruct Hd as [<-|[]]; eapply set_name; eauto|].
    destruct (other_of s) as [[[u q] ds]|] eqn:E3; [|destruct Hd]. destruct Hd as [<-|[]]. eapply other_name; eauto.
  Qed.
  Lemma mention_file s d : In s l -> In d (mentions s) -> is_name d = false -> is_file P (canon d).
  Proof.
    intros Hs Hd Ns. destruct (in_dec string_dec (meaning d) (flat_map declares l)) as [H|H].
    - rewrite (meaning_file d Ns) in H. destruct (declared_abs _ H (realpath_starts cwd d)) as (s' & ds & b & Hs' & E).
      exact (rule_file s' _ ds b Hs' E).
    - left. rewrite <- (meaning_file d Ns). eapply P_source; eauto.
  Qed.

  Lemma source_inv l1 s fuel st d st' : next l1 s -> In d (mentions s) -> RegModel.source canon exists_ glob_ fuel st d = Ok st' ->
    (ex (dirname (canon d)) = false -> D (dirname (canon d)) /\ star_free d) ->
    0 < List.length st -> inv0 true l1 (reg st 0) -> declared_keys l1 (reg st 0) ->
    inv0 true l1 (reg st' 0) /\ List.length st' = List.length st /\ incl (keys (reg st 0)) (keys (reg st' 0)) /\ known cwd (reg st' 0) d.
  Proof.
    intros Hx Hd E Hp Ls G Hk. pose proof (next_incl l1 s Hx) as Hl. pose proof (next_In l1 s Hx) as Hs.
    unfold RegModel.source, rhas in E.
    destruct (inv0_has true l1 (reg st 0) d Hl G) as (A1 & A2 & A3 & A4).
    - intros H. eapply mention_name; eauto.
    - intros _ H HD. exact (D_no_file _ HD (mention_file s d Hs Hd H)).
    - destruct (core_has canon (fst (reg st 0)) d) as [b c'] eqn:Ec. cbn [fst snd] in *. destruct b.
      + injection E as <-. rewrite reg0_put by exact Ls. split; [exact A1|]. split; [apply put_length|]. split; [exact A2|]. left. now apply A3.
      + destruct (A4 eq_refl) as (B1 & B2 & B3). clear A3 A4. rewrite B1 in E.
        assert (Ep : reg (put st 0 (reg st 0)) 0 = reg st 0) by now rewrite reg0_put.
        assert (Ns : is_name d = false) by (destruct (is_name d) eqn:Ed; [elim B2; eapply mention_name; eauto|reflexivity]).
        destruct (new_source l1 fuel _ d st' Hl E Hp) as (C1 & C2 & C3 & C4).
        * now rewrite put_length.
        * now rewrite Ep.
        * now rewrite Ep.
        * exact Ns.
        * rewrite <- (meaning_file d Ns). apply (P_source s); [exact Hs|exact Hd|exact Ns|]. intros H. apply B3.
          destruct Hx as [l2 El]. rewrite <- (meaning_file d Ns). apply Hk. eapply (io_before _ _ _ _ _ ok); eauto.
        * rewrite put_length in C2. rewrite Ep in C3. split; [exact C1|]. split; [exact C2|]. split; [exact C3|]. now right.
  Qed.
  Lemma known_incl r r' d : incl (keys r) (keys r') -> known cwd r d -> known cwd r' d.
  Proof. intros H [K|K]; [left|right]; now apply H. Qed.
  Lemma existing_parent d : exists_ d = true -> ex (dirname (canon d)) = true.
  Proof.
    intros H. rewrite <- (exists_dirpath cwd ex exists_ disk). now apply (dirpath_exists cwd ex exists_ disk).
  Qed.
  Lemma sources_inv l1 s fuel ds : forall st st', next l1 s -> incl ds (mentions s) ->
    source_existing canon exists_ glob_ fuel ds st = Ok st' ->
    0 < List.length st -> inv0 true l1 (reg st 0) -> declared_keys l1 (reg st 0) ->
    inv0 true l1 (reg st' 0) /\ List.length st' = List.length st /\ incl (keys (reg st 0)) (keys (reg st' 0)) /\
    forall d, In d ds -> exists_ d = true -> known cwd (reg st' 0) d.
  Proof.
    induction ds as [|d ds IH]; intros st st' Hx Hi E Ls G Hk.
    - injection E as <-. split; [exact G|]. split; [reflexivity|]. split; [apply incl_refl|]. intros d [].
    - cbn [source_existing] in E. assert (Hi' : incl ds (mentions s)) by (intros x Hx'; apply Hi; now right).
      destruct (exists_ d) eqn:Ed.
      + destruct (RegModel.source canon exists_ glob_ fuel st d) as [st1| |] eqn:E1; cbn [bind] in E; try discriminate.
        destruct (source_inv l1 s fuel st d st1 Hx (Hi d (or_introl eq_refl)) E1) as (A1 & A2 & A3 & A4); try assumption.
        { rewrite (existing_parent d Ed). discriminate. }
        destruct (IH st1 st' Hx Hi' E) as (B1 & B2 & B3 & B4); [lia|exact A1|intros x Hx'; auto|].
        split; [exact B1|]. split; [congruence|]. split; [intros k Hk'; auto|].
        intros x [<-|Hx'] Ex; [eapply known_incl; eauto|now apply B4].
      + destruct (IH st st' Hx Hi' E Ls G Hk) as (B1 & B2 & B3 & B4). split; [exact B1|]. split; [exact B2|]. split; [exact B3|].
        intros x [<-|Hx'] Ex; [congruence|now apply B4].
  Qed.

  (** *** Statements *)
  Definition inv1 (sk : bool) (l1 : list stmt) (r : mreg) : Prop :=
    inv0 sk l1 r /\ declared_keys l1 r /\
    (forall s d, In s l1 -> In d (sources_of s) -> known cwd r d) /\
    (forall s d, In s l1 -> In d (deps_of s) -> exists_ d = true -> known cwd r d).

  Lemma loop_sources fuel ds : forall st,
    (fix loop (l : list string) (st : regs) : res regs :=
       match l with
       | [] => Ok st
       | r :: l' =>
           if exists_ r then
             let '(b, st') := rhas canon st 0 r in
             if b then loop l' st'
             else do! st'' <- fnew canon exists_ glob_ fuel st' 0 MSource r [] true; loop l' st''
           else loop l' st
       end) ds st = source_existing canon exists_ glob_ fuel ds st.
  Proof.
    induction ds as [|d ds IH]; intros st; [reflexivity|]. cbn [source_existing]. destruct (exists_ d); [|apply IH].
    unfold RegModel.source. destruct (rhas canon st 0 d) as [b st']. destruct b; [apply IH|].
    destruct (fnew canon exists_ glob_ fuel st' 0 MSource d [] true); cbn [bind]; [apply IH|reflexivity|reflexivity].
  Qed.

  Lemma not_registered l1 s x : next l1 s -> In x (declares s) -> ~ In x (flat_map declares l1).
  Proof.
    intros [l2 E] Hx H. pose proof (io_once _ _ _ _ _ ok) as N. rewrite E, flat_map_app in N. cbn [flat_map] in N.
    apply (nodup_disj _ _ x N H). apply in_app_iff. now left.
  Qed.

  Lemma source_existing_app fuel a b : forall st, source_existing canon exists_ glob_ fuel (a ++ b) st =
    do! st' <- source_existing canon exists_ glob_ fuel a st; source_existing canon exists_ glob_ fuel b st'.
  Proof.
    induction a as [|d a IH]; intros st; [reflexivity|]. cbn [app source_existing]. destruct (exists_ d); [|apply IH].
    destruct (RegModel.source canon exists_ glob_ fuel st d); cbn [bind]; [apply IH|reflexivity|reflexivity].
  Qed.
  Lemma source_existing_none fuel a st : (forall d, In d a -> exists_ d = false) -> source_existing canon exists_ glob_ fuel a st = Ok st.
  Proof.
    induction a as [|d a IH]; intros H; [reflexivity|]. cbn [source_existing]. rewrite (H d (or_introl eq_refl)). apply IH.
    intros d' Hd'. apply H. now right.
  Qed.
  Lemma deps_mentioned s : incl (deps_of s) (mentions s).
  Proof. intros d Hd. unfold SpecProject.mentions. apply in_app_iff. now right. Qed.

  Lemma rule_inv l1 s fuel st name deps f b st' : next l1 s -> rule_of s = Some (canon name, expand_names glob_ deps, (f, b)) ->
    In name (places_of home s) -> fnew canon exists_ glob_ fuel st 0 (MFile f b) name deps true = Ok st' ->
    0 < List.length st -> inv0 true l1 (reg st 0) -> declared_keys l1 (reg st 0) ->
    inv0 true (l1 ++ [s]) (reg st' 0) /\ List.length st' = List.length st /\ incl (keys (reg st 0)) (keys (reg st' 0)) /\
    In (canon name) (keys (reg st' 0)) /\ forall d, In d (deps_of s) -> exists_ d = true -> known cwd (reg st' 0) d.
  Proof.
    intros Hx Hr Hp E Ls G Hk. pose proof (next_incl l1 s Hx) as Hl. pose proof (next_In l1 s Hx) as Hs.
    destruct (declares_rule s _ _ _ Hr) as [Edec Edep].
    pose proof (fnew_length _ _ _ _ _ _ _ _ _ _ _ E) as Len.
    destruct fuel as [|fuel]; [discriminate|]. cbn [fnew] in E.
    match type of E with bind ?X _ = _ => destruct X as [[st1 deps1]| |] eqn:E1; cbn [bind] in E; try discriminate end.
    destruct (dir_part l1 fuel st name true deps st1 deps1 Hl E1) as (G1 & L1 & [W1 W2] & dd & Edd & Hdd & Hall); try assumption.
    { intros X. split; [now apply (D_parent s name)|]. apply has_star_free. exact (io_star _ _ _ _ _ ok s name Hs Hp). }
    clear E1. rewrite Edd in E. rewrite (loop_sources fuel (expand_names glob_ deps ++ dd) st1) in E. rewrite source_existing_app in E.
    destruct (source_existing canon exists_ glob_ fuel (expand_names glob_ deps) st1) as [st2| |] eqn:E2; cbn [bind] in E; try discriminate.
    rewrite source_existing_none in E by (intros d Hd; apply (Hdd d Hd)). cbn [bind] in E. injection E as <-.
    destruct (sources_inv l1 s fuel (expand_names glob_ deps) st1 st2 Hx) as (G2 & L2 & W3 & K2).
    { rewrite <- Edep. apply deps_mentioned. }
    { exact E2. }
    { lia. }
    { exact G1. }
    { intros x Hx'. auto. }
    rewrite reg0_put by lia.
    destruct (inv0_add true Updatable (l1 ++ [s]) (reg st2 0) (MFile f b) (canon name) (expand_names glob_ deps ++ dd)) as (A1 & A2 & A3 & A4).
    - eapply inv0_mono; [|exact G2]. intros x Hx'. apply in_app_iff. now left.
    - intros k i Hi En. exfalso. destruct (proj2 (proj2 G2) k i Hi) as (_ & _ & _ & C). unfold nm_of in En.
      destruct (kind_of (reg st2 0) i) as [f0 b0| | | |].
      + destruct C as (C1 & _ & s0 & ds & C2 & C3 & _). apply (not_registered l1 s (canon name) Hx); [rewrite Edec; now left|].
        apply in_flat_map. exists s0. split; [exact C2|]. rewrite (proj1 (declares_rule s0 _ _ _ C3)). left. congruence.
      + destruct C as (C1 & _ & C2 & _). rewrite <- C1, En in C2. rewrite (P_rule s _ _ _ Hs Hr) in C2. discriminate.
      + destruct C as (C1 & _ & C2 & _). apply (D_no_file _ C2). rewrite <- C1, En. exact (rule_file s _ _ _ Hs Hr).
      + destruct C as (C1 & s0 & ds & C2 & C3 & _). pose proof (canon_no_name name) as X.
        pose proof (set_name s0 _ ds (Hl s0 C2) C3). congruence.
      + destruct C as (C1 & s0 & u & ds & C2 & C3 & _). pose proof (canon_no_name name) as X.
        pose proof (other_name s0 u _ ds (Hl s0 C2) C3). congruence.
    - split; [reflexivity|]. rewrite realpath_idem. split; [reflexivity|]. split; [apply canon_no_name|].
      exists s, (expand_names glob_ deps). split; [apply in_app_iff; right; now left|]. split; [exact Hr|].
      apply (dirs_end _ _ _ dd); [reflexivity| |apply realpath_idem]. intros d Hd'. destruct (Hdd d Hd') as (Q1 & Q2 & Q3 & _). cbn [t_name new_obj].
      split; [exact Q1|]. split; [exact Q2|]. right. now apply W3.
    - split; [exact A1|]. split; [exact Len|]. split; [intros k Hk'; auto|]. split; [exact A3|].
      intros d Hd Ex. rewrite Edep in Hd. eapply known_incl; [exact A2|]. now apply K2.
  Qed.

  Lemma inv_next sk l1 s r r' : inv1 sk l1 r -> inv0 sk (l1 ++ [s]) r' -> incl (keys r) (keys r') -> incl (declares s) (keys r') ->
    (forall d, In d (sources_of s) -> known cwd r' d) -> (forall d, In d (deps_of s) -> exists_ d = true -> known cwd r' d) -> inv1 sk (l1 ++ [s]) r'.
  Proof.
    intros (G & Hk & Hsrc & Hdep) F1 F3 F4 F5 F6. split; [exact F1|]. split; [|split].
    - intros x Hx'. rewrite flat_map_app in Hx'. apply in_app_iff in Hx'. destruct Hx' as [Hx'|Hx']; [auto|].
      cbn [flat_map] in Hx'. rewrite app_nil_r in Hx'. auto.
    - intros s' d Hs' Hd. apply in_app_iff in Hs'. destruct Hs' as [Hs'|[<-|[]]]; [eapply known_incl; eauto|auto].
    - intros s' d Hs' Hd Ex. apply in_app_iff in Hs'. destruct Hs' as [Hs'|[<-|[]]]; [eapply known_incl; eauto|auto].
  Qed.
  Lemma named_inv l1 s fuel st cls kd nm ds st' : next l1 s -> plain_new canon exists_ glob_ fuel st 0 cls kd nm ds = Ok st' ->
    0 < List.length st -> inv1 true l1 (reg st 0) -> declares s = [nm] -> sources_of s = [] -> deps_of s = expand_names glob_ ds -> In nm (declares s) ->
    is_name nm = true -> (forall K, desc true (l1 ++ [s]) K kd (new_obj cls nm (expand_names glob_ ds)) nm) ->
    inv1 true (l1 ++ [s]) (reg st' 0) /\ List.length st' = List.length st.
  Proof.
    intros Hx E Ls G0 Edec Esrc Edep Hnm Ns Hd. pose proof G0 as (G & Hk & Hsrc & Hdep). pose proof (next_incl l1 s Hx) as Hl. pose proof (next_In l1 s Hx) as Hs.
    unfold plain_new in E.
    destruct (source_existing canon exists_ glob_ fuel (expand_names glob_ ds) st) as [st1| |] eqn:E1; cbn [bind] in E; try discriminate.
    injection E as <-.
    destruct (sources_inv l1 s fuel (expand_names glob_ ds) st st1 Hx) as (A1 & A2 & A3 & A4); try assumption; [rewrite <- Edep; apply deps_mentioned|].
    pose proof (name_relative nm Ns) as Rel.
    destruct (inv0_add true cls (l1 ++ [s]) (reg st1 0) kd nm (expand_names glob_ ds)) as (B1 & B2 & B3 & B4).
    - eapply inv0_mono; [|exact A1]. intros x Hx'. apply in_app_iff. now left.
    - intros k i Hi En. destruct (proj2 (proj2 A1) k i Hi) as (_ & _ & _ & C). unfold nm_of in En.
      assert (No : forall x, canon x = nm -> False) by (intros x Ex; rewrite <- Ex, realpath_starts in Rel; discriminate).
      destruct (kind_of (reg st1 0) i) as [f b0| | | |].
      + destruct C as (C & _). elim (No k). congruence.
      + destruct C as (C & _). elim (No k). congruence.
      + destruct C as (C & _). elim (No k). congruence.
      + destruct C as (C & _). congruence.
      + destruct C as (C & _). congruence.
    - apply Hd.
    - rewrite put_length. split; [|exact A2]. rewrite reg0_put by lia. apply (inv_next true l1 s (reg st 0)); try assumption.
      + intros k Hk'. auto.
      + rewrite Edec. intros x [<-|[]]. exact B3.
      + rewrite Esrc. intros d [].
      + rewrite Edep. intros d Hd' Ex. eapply known_incl; [exact B2|]. now apply A4.
  Qed.

  Lemma step_inv l1 s fuel st st' : next l1 s -> mstep canon exists_ glob_ home fuel 0 st (op_of s) = Ok st' ->
    0 < List.length st -> inv1 true l1 (reg st 0) -> inv1 true (l1 ++ [s]) (reg st' 0) /\ List.length st' = List.length st.
  Proof.
    intros Hx E Ls G0. pose proof G0 as (G & Hk & Hsrc & Hdep). pose proof (next_incl l1 s Hx) as Hl. pose proof (next_In l1 s Hx) as Hs.
    assert (Up : incl l1 (l1 ++ [s])) by (intros x Hx'; apply in_app_iff; now left).
    assert (Fin : inv0 true (l1 ++ [s]) (reg st' 0) -> List.length st' = List.length st -> incl (keys (reg st 0)) (keys (reg st' 0)) ->
      incl (declares s) (keys (reg st' 0)) -> (forall d, In d (sources_of s) -> known cwd (reg st' 0) d) ->
      (forall d, In d (deps_of s) -> exists_ d = true -> known cwd (reg st' 0) d) ->
      inv1 true (l1 ++ [s]) (reg st' 0) /\ List.length st' = List.length st).
    { intros F1 F2 F3 F4 F5 F6. split; [|exact F2]. exact (inv_next true l1 s _ _ G0 F1 F3 F4 F5 F6). }
    destruct s as [p|f t ds b|t src ds b|nm ds|u nm ds]; cbn [op_of mstep] in E.
    - destruct (source_inv l1 (SSource p) fuel st p st' Hx) as (A1 & A2 & A3 & A4); try assumption.
      { now left. }
      { intros X. split; [apply (D_parent (SSource p) p); [exact Hs|now left|exact X]|].
        apply has_star_free. apply (io_star _ _ _ _ _ ok (SSource p) p Hs). now left. }
      apply Fin; [eapply inv0_mono; eauto|exact A2|exact A3|intros x []| |intros d []]. intros d [<-|[]]. exact A4.
    - destruct (rule_inv l1 (SRule f t ds b) fuel st t ds f b st' Hx eq_refl) as (A1 & A2 & A3 & A4 & A5); try assumption; [now left|].
      apply Fin; [exact A1|exact A2|exact A3| |intros d []|exact A5]. intros x [<-|[]]. exact A4.
    - unfold copy in E.
      destruct (RegModel.source canon exists_ glob_ fuel st (expanduser home src)) as [st1| |] eqn:E1; cbn [bind] in E; try discriminate.
      destruct (source_inv l1 (SCopy t src ds b) fuel st (expanduser home src) st1 Hx) as (A1 & A2 & A3 & A4); try assumption.
      { now left. }
      { intros X. split; [apply (D_parent (SCopy t src ds b) (expanduser home src)); [exact Hs|right; now left|exact X]|].
        apply has_star_free. apply (io_star _ _ _ _ _ ok (SCopy t src ds b) (expanduser home src) Hs). right. now left. }
      destruct (rule_inv l1 (SCopy t src ds b) fuel st1 (expanduser home t) (expanduser home src :: ds) false b st' Hx eq_refl)
        as (B1 & B2 & B3 & B4 & B5); try assumption; [now left|lia|intros x Hx'; auto|].
      apply Fin; [exact B1|congruence|intros k Hk'; auto| | |exact B5].
      + intros x [<-|[]]. exact B4.
      + intros d [<-|[]]. eapply known_incl; eauto.
    - unfold fileset in E. cbn [app] in E.
      apply (named_inv l1 (SSet nm ds) fuel st Updatable MSet nm ds st' Hx); try assumption; try reflexivity.
      + now left.
      + now apply (set_name (SSet nm ds) nm (expand_names glob_ ds)).
      + split; [reflexivity|]. split; [reflexivity|]. exists (SSet nm ds), (expand_names glob_ ds).
        split; [apply in_app_iff; right; now left|]. split; reflexivity.
    - apply (named_inv l1 (STarget u nm ds) fuel st (if u then Updatable else Plain) MOther nm ds st' Hx); try assumption; try reflexivity.
      + now left.
      + now apply (other_name (STarget u nm ds) u nm (expand_names glob_ ds)).
      + split; [intros F; now elim F|]. split; [reflexivity|]. exists (STarget u nm ds), u, (expand_names glob_ ds).
        split; [apply in_app_iff; right; now left|]. split; [reflexivity|]. split; reflexivity.
  Qed.
  Lemma run_inv fuel : forall l2 l1 st st', l = l1 ++ l2 -> mrun canon exists_ glob_ home fuel 0 (map op_of l2) st = Ok st' ->
    0 < List.length st -> inv1 true l1 (reg st 0) -> inv1 true l (reg st' 0) /\ List.length st' = List.length st.
  Proof.
    induction l2 as [|s l2 IH]; intros l1 st st' El E Ls G.
    - injection E as <-. rewrite app_nil_r in El. subst l1. auto.
    - cbn [map mrun] in E. destruct (mstep canon exists_ glob_ home fuel 0 st (op_of s)) as [st1| |] eqn:E1; cbn [bind] in E; try discriminate.
      destruct (step_inv l1 s fuel st st1 (ex_intro _ l2 El) E1 Ls G) as [A1 A2].
      destruct (IH (l1 ++ [s]) st1 st') as [B1 B2]; [now rewrite <- app_assoc|exact E|lia|exact A1|]. split; [exact B1|congruence].
  Qed.
  Definition inv := inv1 false.
  Lemma inv0_weak sk l1 r : inv0 sk l1 r -> inv0 false l1 r.
  Proof.
    intros (L & N & V). split; [exact L|]. split; [exact N|]. intros nm i Hi. destruct (V nm i Hi) as (A & B & Cl & C). split; [exact A|]. split; [exact B|].
    split; [exact Cl|]. destruct (kind_of r i); try exact C. destruct C as (C1 & C2 & C3 & C4 & C5 & _). repeat (split; [assumption|]). discriminate.
  Qed.
  Lemma inv_weak sk l1 r : inv1 sk l1 r -> inv l1 r.
  Proof. intros (A & B). split; [eapply inv0_weak; exact A|exact B]. Qed.
  Lemma inv_empty sk : inv1 sk [] empty_reg.
  Proof.
    split; [|split; [intros x []|split; intros s d []]]. split; [reflexivity|]. split; [constructor|]. intros nm i [].
  Qed.


  (** ** The registry of the whole script *)
  Section Whole.
    Variable r : mreg.
    Hypothesis I : inv l r.
    Notation c := (fst r).
    Notation kind := (kind_of r).
    Lemma whole_desc nm i : In (nm, i) (c_targets c) -> i < List.length (c_heap c) /\ In (nm_of r i, i) (c_targets c) /\
      desc false l (keys r) (kind i) (obj c i) nm.
    Proof. apply I. Qed.
    Lemma whole_coherent : coherent canon c.
    Proof. intros nm i Hi. left. now apply (whole_desc nm). Qed.
    Lemma key_In x : In x (keys r) -> exists i, In (x, i) (c_targets c).
    Proof. intros H. apply in_map_iff in H. destruct H as ([y i] & E & H). cbn in E. subst y. eauto. Qed.
    Lemma In_key x i : In (x, i) (c_targets c) -> In x (keys r).
    Proof. intros H. apply in_map_iff. now exists (x, i). Qed.
    Lemma known_canon d : is_name d = false -> known cwd r d -> In (canon d) (keys r).
    Proof.
      intros Ns [K|K]; [|exact K]. apply key_In in K. destruct K as [i Hi]. destruct (whole_desc d i Hi) as (_ & B & _ & C). unfold nm_of in B.
      destruct (kind i) as [f b| | | |].
      - destruct C as (C & _). rewrite C in B. now apply In_key in B.
      - destruct C as (C & _). rewrite C in B. now apply In_key in B.
      - destruct C as (C & _). rewrite C in B. now apply In_key in B.
      - destruct C as (_ & s & ds & C1 & C2 & _). exfalso. pose proof (set_name s _ _ C1 C2). congruence.
      - destruct C as (_ & s & u & ds & C1 & C2 & _). exfalso. pose proof (other_name s _ _ _ C1 C2). congruence.
    Qed.
    Lemma known_resolves d : known cwd r d -> exists k, resolves canon c d k.
    Proof.
      intros K. destruct (in_dec string_dec d (keys r)) as [H|H].
      - apply key_In in H. destruct H as [k H]. exists k. now left.
      - destruct K as [K|K]; [contradiction|]. apply key_In in K. destruct K as [k K]. exists k. right. auto.
    Qed.
    Lemma dep_registered s d : In s l -> In d (deps_of s) -> exists k, resolves canon c d k.
    Proof.
      intros Hs Hd. apply known_resolves. destruct I as (_ & Hk & Hsrc & Hdep).
      destruct (io_there _ _ _ _ _ ok s d Hs Hd) as [H|[H|H]].
      - apply Hk in H. unfold SpecProject.meaning in H. destruct (is_name d); [now left|now right].
      - apply in_map_iff in H. destruct H as (d' & E & H). apply in_flat_map in H. destruct H as (s' & Hs' & Hd').
        pose proof (Hsrc s' d' Hs' Hd') as K. unfold SpecProject.meaning in E. destruct (is_name d') eqn:E'.
        + destruct (is_name d) eqn:Ed; [now subst d'|]. rewrite E in E'. rewrite canon_no_name in E'. discriminate.
        + apply known_canon in K; [|exact E']. destruct (is_name d) eqn:Ed; [|right; now rewrite <- E].
          rewrite <- E, canon_no_name in Ed. discriminate.
      - eapply Hdep; eauto.
    Qed.
    Lemma kind_name d i : In (d, i) (c_targets c) -> is_name d = true -> kind i = MSet \/ kind i = MOther.
    Proof.
      intros Hi Hs. destruct (whole_desc d i Hi) as (_ & _ & _ & C). pose proof (name_relative d Hs) as Rel.
      destruct (kind i) as [f b| | | |]; [destruct C as (_ & C & _); congruence|destruct C as (_ & C & _); congruence|destruct C as (_ & C & _); congruence|now left|now right].
    Qed.
    Lemma once_same s s' x : In s l -> In s' l -> In x (declares s) -> In x (declares s') -> s = s'.
    Proof.
      intros Hs Hs' Hx Hx'. pose proof (io_once _ _ _ _ _ ok) as N. destruct (in_split s l Hs) as (l1 & l2 & El). rewrite El in *.
      apply in_app_iff in Hs'. destruct Hs' as [Hs'|[Hs'|Hs']]; [exfalso|exact Hs'|exfalso]; rewrite flat_map_app in N; cbn [flat_map] in N.
      - apply (nodup_disj _ _ x N); [apply in_flat_map; eauto|]. apply in_app_iff. now left.
      - assert (N2 : NoDup (declares s ++ flat_map declares l2)).
        { clear - N. induction (flat_map declares l1) as [|y k IHk]; [exact N|]. cbn in N. inversion N. auto. }
        apply (nodup_disj _ _ x N2 Hx). apply in_flat_map. eauto.
    Qed.
    Lemma other_kind d i : In (d, i) (c_targets c) -> kind i = MOther -> exists s u ds, In s l /\ other_of s = Some (u, d, ds) /\
      t_deps (obj c i) = ds /\ t_class (obj c i) = if u then Updatable else Plain.
    Proof. intros Hi Hk. destruct (whole_desc d i Hi) as (_ & _ & _ & C). rewrite Hk in C. destruct C as (_ & C). exact C. Qed.
    Lemma file_not_dir d i : In (d, i) (c_targets c) -> is_file P (canon d) -> kind i <> MDir.
    Proof.
      intros Hi Hf Hk. destruct (whole_desc d i Hi) as (_ & _ & _ & C). rewrite Hk in C. destruct C as (_ & _ & C2 & _).
      exact (D_no_file _ C2 Hf).
    Qed.
    Lemma dep_means s d k : In s l -> In d (mentions s) -> resolves canon c d k ->
      kind k <> MDir /\ nm_of r k = meaning d /\ (kind k = MOther -> t_class (obj c k) = Updatable /\ other_of s <> None).
    Proof.
      intros Hs Hd Hk. destruct I as (I0 & Hkeys & _). destruct (is_name d) eqn:Ed.
      - assert (K : In (d, k) (c_targets c)).
        { destruct Hk as [Hk|[Hn _]]; [exact Hk|]. elim Hn. pose proof (Hkeys _ (name_declared d Ed)) as X. now rewrite meaning_name in X. }
        assert (N : kind k <> MDir) by (destruct (kind_name d k K Ed) as [-> | ->]; discriminate).
        split; [exact N|]. split; [now apply (key_meaning false l r d k (incl_refl _) I0 K)|].
        intros Ek. destruct (other_kind d k K Ek) as (s' & u & ds & Hs' & E & _ & Cl).
        destruct s' as [| | | |u' nm' ds']; try discriminate. cbn in E. injection E as E1 E2 E3. subst u' nm'.
        destruct (io_others _ _ _ _ _ ok s d u ds' Hs Hd Hs') as [-> Ho]. auto.
      - pose proof (mention_file s d Hs Hd Ed) as F.
        assert (Fin : forall x, In (x, k) (c_targets c) -> canon x = canon d -> is_name x = false ->
          kind k <> MDir /\ nm_of r k = meaning d /\ (kind k = MOther -> t_class (obj c k) = Updatable /\ other_of s <> None)).
        { intros x K Ex Nx. assert (N : kind k <> MDir) by (apply (file_not_dir x); [exact K|now rewrite Ex]). split; [exact N|].
          split; [rewrite (key_meaning false l r x k (incl_refl _) I0 K N), (meaning_file d Ed), (meaning_file x Nx); exact Ex|].
          intros Ek. destruct (other_kind x k K Ek) as (s' & u & ds & Hs' & E & _). exfalso. pose proof (other_name s' _ _ _ Hs' E). congruence. }
        destruct Hk as [K|[_ K]]; [now apply (Fin d)|]. apply (Fin (canon d)); [exact K|apply realpath_idem|apply canon_no_name].
    Qed.
    Lemma dir_dep d k : D (canon d) -> is_name d = false -> In (d, k) (c_targets c) -> kind k = MDir /\ nm_of r k = canon d.
    Proof.
      intros HD Nd Hk. destruct (whole_desc d k Hk) as (_ & _ & _ & C). unfold nm_of. destruct (kind k) as [f b| | | |].
      - exfalso. destruct C as (_ & _ & s & ds & C1 & C2 & _). apply (D_no_file _ HD). exact (rule_file s _ _ _ C1 C2).
      - exfalso. destruct C as (_ & _ & C & _). apply (D_no_file _ HD). now left.
      - split; [reflexivity|]. apply C.
      - exfalso. destruct C as (_ & s & ds & C1 & C2 & _). pose proof (set_name s _ _ C1 C2). congruence.
      - exfalso. destruct C as (_ & s & u & ds & C1 & C2 & _). pose proof (other_name s _ _ _ C1 C2). congruence.
    Qed.
    Lemma dir_resolves d : D (canon d) -> is_name d = false -> In (canon d) (keys r) ->
      exists k, resolves canon c d k /\ kind k = MDir /\ nm_of r k = canon d.
    Proof.
      intros HD Nd K. destruct (known_resolves d (or_intror K)) as [k Hk]. exists k. split; [exact Hk|].
      destruct Hk as [Hk|[_ Hk]]; [now apply dir_dep|]. destruct (dir_dep (canon d) k) as [X Y];
        [now rewrite realpath_idem|apply canon_no_name|exact Hk|]. rewrite realpath_idem in Y. auto.
    Qed.
    Lemma name_canonical nm i : In (nm, i) (c_targets c) -> kind i <> MSet -> kind i <> MOther -> canon (nm_of r i) = nm_of r i.
    Proof.
      intros Hi Hk Hk'. destruct (whole_desc nm i Hi) as (_ & _ & _ & C). unfold nm_of. destruct (kind i) as [f b| | | |].
      - destruct C as (-> & _). apply realpath_idem.
      - destruct C as (-> & _). apply realpath_idem.
      - destruct C as (-> & _). apply realpath_idem.
      - now elim Hk.
      - now elim Hk'.
    Qed.
    Lemma dirs_facts nm i ds : In (nm, i) (c_targets c) -> kind i <> MSet -> kind i <> MOther -> dirs (keys r) (obj c i) ds ->
      exists a b dd, ds = a ++ b /\ t_deps (obj c i) = a ++ dd ++ b /\
        (forall d, In d (t_deps (obj c i)) -> In d ds \/ In d dd) /\
        forall d, In d dd -> canon d = dirname (nm_of r i) /\ D (canon d) /\
        exists k, resolves canon c d k /\ kind k = MDir /\ nm_of r k = canon d.
    Proof.
      intros Hi Hk Hk' (a & b & dd & E0 & E & Hdd). exists a, b, dd. split; [exact E0|]. split; [exact E|]. split.
      - intros d Hd. rewrite E in Hd. rewrite E0. rewrite !in_app_iff in *. tauto.
      - intros d Hd. destruct (Hdd d Hd) as (E2 & HD & Nd & Kd). split; [exact E2|]. split; [exact HD|]. now apply dir_resolves.
    Qed.
    Lemma dir_deps dd : (forall d, In d dd -> exists k, resolves canon c d k /\ kind k = MDir) ->
      exists js, Forall2 (resolves canon c) dd js /\ filter (fun k => match kind k with MDir => false | _ => true end) js = [].
    Proof.
      induction dd as [|d dd IH]; intros Hdd; [exists []; split; [constructor|reflexivity]|].
      destruct IH as (js & J1 & J2); [intros x Hx; apply Hdd; now right|]. destruct (Hdd d (or_introl eq_refl)) as (k & K1 & K2).
      exists (k :: js). split; [constructor; [exact K1|exact J1]|]. cbn [filter]. now rewrite K2.
    Qed.
    Lemma file_deps_of i s a b dd : In s l -> incl (a ++ b) (deps_of s) -> t_deps (obj c i) = a ++ dd ++ b ->
      (forall d, In d dd -> exists k, resolves canon c d k /\ kind k = MDir) -> file_deps canon kind c i (map meaning (a ++ b)).
    Proof.
      intros Hs Hi E Hdd.
      assert (A : forall ds, incl ds (deps_of s) -> exists js, Forall2 (resolves canon c) ds js /\
        map (fun k => t_name (obj c k)) (filter (fun k => match kind k with MDir => false | _ => true end) js) = map meaning ds).
      { clear E Hi. induction ds as [|d ds IH]; intros Hi; [exists []; split; [constructor|reflexivity]|].
        destruct IH as (js & J1 & J2); [intros x Hx; apply Hi; now right|].
        assert (Hd : In d (deps_of s)) by (apply Hi; now left). destruct (dep_registered s d Hs Hd) as [k Hk].
        destruct (dep_means s d k Hs (deps_mentioned s d Hd) Hk) as (N & M & _). exists (k :: js). split; [now constructor|].
        cbn [filter map]. unfold nm_of in M. rewrite <- J2, <- M. destruct (kind k); cbn; try reflexivity. now elim N. }
      destruct (A a) as (js1 & A1 & A2); [intros x Hx; apply Hi, in_app_iff; now left|].
      destruct (A b) as (js3 & A3 & A4); [intros x Hx; apply Hi, in_app_iff; now right|].
      destruct (dir_deps dd Hdd) as (js2 & B1 & B2). exists (js1 ++ js2 ++ js3).
      split; [rewrite E; now repeat apply Forall2_app|].
      now rewrite !filter_app, B2, !map_app, A2, A4.
    Qed.

    Lemma above_trans a b p : above a b -> above b p -> above a p.
    Proof.
      intros H. induction H as [b Hb|a b H IH Hn]; intros Hp; [now apply ab_up|]. apply ab_up; auto.
    Qed.
    Lemma ancestors_above a : forall n p, In a (ancestors_fuel n p) -> above a p.
    Proof.
      induction n as [|n IH]; intros p H; [destruct H|]. cbn [ancestors_fuel] in H. destruct (String.eqb_spec (dirname p) p) as [E|E]; [destruct H|].
      destruct H as [<-|H]; [now apply ab_dir|]. eapply above_trans; [apply IH; exact H|now apply ab_dir].
    Qed.

    (** *** Every missing directory above a directory target has a target below it *)
    Lemma above_exists a p : above a p -> ex p = true -> ex a = true.
    Proof. intros H Hp. induction H as [p _|a p H IH _]; apply disk; auto. Qed.
    Lemma whole_dirs a : forall n nm j, In (nm, j) (c_targets c) -> kind j = MDir -> In a (ancestors_fuel n (nm_of r j)) -> ex a = false ->
      exists d, clos_trans nat (obj_dep canon c) j d /\ kind d = MDir /\ nm_of r d = a.
    Proof.
      induction n as [|n IH]; intros nm j Hn Hk Ha Hx; [destruct Ha|]. cbn [ancestors_fuel] in Ha.
      destruct (String.eqb_spec (dirname (nm_of r j)) (nm_of r j)) as [E|E]; [destruct Ha|].
      assert (Hp : ex (dirname (nm_of r j)) = false).
      { destruct Ha as [<-|Ha]; [exact Hx|]. destruct (ex (dirname (nm_of r j))) eqn:Ex; [|reflexivity].
        apply ancestors_above in Ha. rewrite (above_exists _ _ Ha Ex) in Hx. discriminate. }
      destruct (whole_desc nm j Hn) as (_ & _ & _ & C). rewrite Hk in C. destruct C as (_ & _ & _ & C).
      destruct C as ((a' & b' & dd & E0 & Ed & Hdd) & Hall & _). specialize (Hall Hp). symmetry in E0. apply app_eq_nil in E0. destruct E0 as [-> ->].
      cbn [app] in Ed. rewrite app_nil_r in Ed. destruct dd as [|d0 dd]; [now elim Hall|].
      destruct (Hdd d0 (or_introl eq_refl)) as (Ed0 & HD & Nd & K). destruct (dir_resolves d0 HD Nd K) as (k & Kr & Kk & Nk).
      fold (nm_of r j) in *. rewrite Ed0 in Nk. destruct (resolves_value canon c d0 k Kr) as [nmk Kn].
      assert (J : obj_dep canon c j k).
      { exists d0. split; [rewrite Ed; now left|exact Kr]. }
      destruct Ha as [<-|Ha]; [exists k; split; [exact (t_step _ _ _ _ J)|auto]|].
      destruct (IH _ k Kn Kk) as (d & D1 & D2 & D3); [rewrite Nk; exact Ha|exact Hx|].
      exists d. split; [eapply t_trans; [exact (t_step _ _ _ _ J)|exact D1]|auto].
    Qed.

    (** *** No cycles *)
    Fixpoint pos (l0 : list stmt) (x : string) : nat :=
      match l0 with
      | [] => 0
      | s :: l0' => if in_dec string_dec x (declares s) then 0 else S (pos l0' x)
      end.
    Lemma pos_lt x l2 : forall l1, In x (flat_map declares l1) -> pos (l1 ++ l2) x < List.length l1.
    Proof.
      induction l1 as [|s l1 IH]; intros H; [destruct H|]. cbn [app pos List.length flat_map] in *.
      destruct (in_dec string_dec x (declares s)) as [K|K]; [lia|]. apply in_app_iff in H. destruct H as [H|H]; [contradiction|].
      apply IH in H. lia.
    Qed.
    Lemma pos_at x s l2 : forall l1, NoDup (flat_map declares (l1 ++ s :: l2)) -> In x (declares s) -> pos (l1 ++ s :: l2) x = List.length l1.
    Proof.
      induction l1 as [|s1 l1 IH]; intros N H; cbn [app pos List.length flat_map] in *.
      - destruct (in_dec string_dec x (declares s)); [reflexivity|contradiction].
      - destruct (in_dec string_dec x (declares s1)) as [K|K].
        + exfalso. apply (nodup_disj _ _ x N K). rewrite flat_map_app. apply in_app_iff. right. cbn [flat_map]. apply in_app_iff. now left.
        + f_equal. apply IH; [|exact H]. clear - N. induction (declares s1) as [|y k IHk]; [exact N|]. cbn in N. inversion N. auto.
    Qed.
    Definition level (j : nat) : nat :=
      match kind j with
      | MDir => 0
      | MSource => 1
      | MFile _ _ | MSet | MOther => 2 + pos l (nm_of r j)
      end.
    Definition lower (k j : nat) : Prop :=
      level k < level j \/ level k = level j /\ depth cwd (nm_of r k) < depth cwd (nm_of r j).
    Lemma whole_wf : wf_core c.
    Proof. destruct I as ((_ & N & V) & _). split; [exact N|]. intros nm i Hi. now apply (V nm). Qed.

    Lemma mention_lower s d j k : In s l -> In (nm_of r j) (declares s) -> level j = 2 + pos l (nm_of r j) ->
      In d (deps_of s) -> resolves canon c d k -> lower k j.
    Proof.
      intros Hs Hx Hj Hd Hk. destruct (dep_means s d k Hs (deps_mentioned s d Hd) Hk) as (Nk & Mk & _). left. rewrite Hj.
      destruct (resolves_value canon c d k Hk) as [nm Hn]. destruct (whole_desc nm k Hn) as (_ & _ & _ & C).
      assert (G : In (nm_of r k) (flat_map declares l) -> 2 + pos l (nm_of r k) < 2 + pos l (nm_of r j)).
      { intros H. destruct (in_split s l Hs) as (l1 & l2 & El). rewrite Mk in *.
        pose proof (io_before _ _ _ _ _ ok l1 s l2 d El (deps_mentioned s d Hd) H) as B. apply (pos_lt _ (s :: l2)) in B.
        pose proof (io_once _ _ _ _ _ ok) as N. rewrite El in N. pose proof (pos_at _ s l2 l1 N Hx) as A. rewrite <- El in *. lia. }
      unfold level. unfold nm_of in *. destruct (kind k) as [f b| | | |].
      - destruct C as (C1 & _ & s' & ds & C2 & C3 & _). apply G. apply in_flat_map. exists s'. split; [exact C2|].
        rewrite (proj1 (declares_rule s' _ _ _ C3)). now left.
      - lia.
      - now elim Nk.
      - destruct C as (C1 & s' & ds & C2 & C3 & _). apply G. apply in_flat_map. exists s'. split; [exact C2|].
        rewrite (proj1 (declares_set s' _ _ C3)). now left.
      - destruct C as (C1 & s' & u & ds & C2 & C3 & _). apply G. apply in_flat_map. exists s'. split; [exact C2|].
        rewrite (proj1 (declares_other s' _ _ _ C3)). now left.
    Qed.
    Lemma dir_lower nm j dd d k : In (nm, j) (c_targets c) -> kind j <> MSet -> kind j <> MOther ->
      (forall d, In d dd -> canon d = dirname (nm_of r j) /\ D (canon d) /\ exists k, resolves canon c d k /\ kind k = MDir /\ nm_of r k = canon d) ->
      In d dd -> resolves canon c d k -> lower k j.
    Proof.
      intros Hn Hk Ho Hdd Hd Hr. destruct (Hdd d Hd) as (E & HD & k' & K1 & K2 & K3).
      assert (k = k') by (eapply (resolves_fun canon c d); [exact whole_wf|exact Hr|exact K1]). subst k'.
      destruct (level j) as [|n] eqn:Lj; [|left; rewrite Lj; unfold level; rewrite K2; lia].
      right. rewrite Lj. split; [unfold level; now rewrite K2|]. rewrite K3, E.
      pose proof (name_canonical nm j Hn Hk Ho) as Cj.
      rewrite <- (depth_parent cwd ex exists_ disk (nm_of r j) (dirname (nm_of r j))); [lia| |].
      - rewrite Cj, <- E. now apply D_missing.
      - rewrite Cj. now apply canonical_dirname.
    Qed.
    Lemma dep_lower nm j k : In (nm, j) (c_targets c) -> obj_dep canon c j k -> lower k j.
    Proof.
      intros Hn (d & Hd & Hr). destruct (whole_desc nm j Hn) as (_ & _ & _ & C). destruct (kind j) as [f b| | | |] eqn:Ek.
      - destruct C as (C1 & _ & s & ds & C2 & C3 & C4). destruct (declares_rule s _ _ _ C3) as [E1 E2].
        destruct (dirs_facts nm j ds Hn) as (da & db & dd & _ & _ & E & Hdd); [now rewrite Ek|now rewrite Ek|exact C4|]. apply E in Hd.
        destruct Hd as [Hd|Hd]; [|eapply dir_lower; eauto; now rewrite Ek]. apply (mention_lower s d); auto.
        + rewrite E1. unfold nm_of. rewrite C1. now left.
        + unfold level. now rewrite Ek.
        + now rewrite E2.
      - destruct C as (_ & _ & _ & C4). destruct (dirs_facts nm j [] Hn) as (da & db & dd & _ & _ & E & Hdd); [now rewrite Ek|now rewrite Ek|exact C4|]. apply E in Hd. destruct Hd as [[]|Hd].
        eapply dir_lower; eauto; now rewrite Ek.
      - destruct C as (_ & _ & _ & C4 & _). destruct (dirs_facts nm j [] Hn) as (da & db & dd & _ & _ & E & Hdd); [now rewrite Ek|now rewrite Ek|exact C4|]. apply E in Hd. destruct Hd as [[]|Hd].
        eapply dir_lower; eauto; now rewrite Ek.
      - destruct C as (C1 & s & ds & C2 & C3 & C4). destruct (declares_set s _ _ C3) as [E1 E2]. apply (mention_lower s d); auto.
        + rewrite E1. unfold nm_of. rewrite C1. now left.
        + unfold level. now rewrite Ek.
        + rewrite E2, <- C4. exact Hd.
      - destruct C as (C1 & s & u & ds & C2 & C3 & C4 & _). destruct (declares_other s _ _ _ C3) as [E1 E2]. apply (mention_lower s d); auto.
        + rewrite E1. unfold nm_of. rewrite C1. now left.
        + unfold level. now rewrite Ek.
        + rewrite E2, <- C4. exact Hd.
    Qed.
    Lemma path_lower j k : clos_trans nat (obj_dep canon c) j k -> (exists nm, In (nm, j) (c_targets c)) ->
      lower k j /\ exists nm, In (nm, k) (c_targets c).
    Proof.
      intros H. induction H as [j k H|j m k _ IH1 _ IH2]; intros [nm Hn].
      - split; [eapply dep_lower; eauto|]. destruct H as (d & _ & H). destruct (resolves_value canon c d k H). eauto.
      - destruct IH1 as [A1 B1]; [eauto|]. destruct (IH2 B1) as [A2 B2]. split; [|exact B2]. unfold lower in *. lia.
    Qed.
    Lemma whole_acyclic nm i : In (nm, i) (c_targets c) -> ~ clos_trans nat (obj_dep canon c) i i.
    Proof. intros Hi H. destruct (path_lower i i H) as [A _]; [eauto|]. unfold lower in A. lia. Qed.

    (** *** Evaluation *)
    Lemma whole_registered nm i d : In (nm, i) (c_targets c) -> In d (t_deps (obj c i)) -> registered canon c d.
    Proof.
      intros Hn Hd. destruct (whole_desc nm i Hn) as (_ & _ & _ & C).
      assert (Dk : forall dd, (forall d, In d dd -> canon d = dirname (nm_of r i) /\ D (canon d) /\ exists k, resolves canon c d k /\ kind k = MDir /\ nm_of r k = canon d) ->
        In d dd -> registered canon c d).
      { intros dd H Hd'. destruct (H d Hd') as (_ & _ & k & K & _). exists k. exact K. }
      destruct (kind i) as [f b| | | |] eqn:Ek.
      - destruct C as (C1 & _ & s & ds & C2 & C3 & C4). destruct (declares_rule s _ _ _ C3) as [E1 E2].
        destruct (dirs_facts nm i ds Hn) as (da & db & dd & _ & _ & E & Hdd); [now rewrite Ek|now rewrite Ek|exact C4|]. apply E in Hd.
        destruct Hd as [Hd|Hd]; [|eapply Dk; eauto]. apply (dep_registered s d C2). now rewrite E2.
      - destruct C as (_ & _ & _ & C4). destruct (dirs_facts nm i [] Hn) as (da & db & dd & _ & _ & E & Hdd); [now rewrite Ek|now rewrite Ek|exact C4|]. apply E in Hd. destruct Hd as [[]|Hd]. eapply Dk; eauto.
      - destruct C as (_ & _ & _ & C4 & _). destruct (dirs_facts nm i [] Hn) as (da & db & dd & _ & _ & E & Hdd); [now rewrite Ek|now rewrite Ek|exact C4|]. apply E in Hd. destruct Hd as [[]|Hd]. eapply Dk; eauto.
      - destruct C as (C1 & s & ds & C2 & C3 & C4). destruct (declares_set s _ _ C3) as [E1 E2]. apply (dep_registered s d C2). now rewrite E2, <- C4.
      - destruct C as (C1 & s & u & ds & C2 & C3 & C4 & _). destruct (declares_other s _ _ _ C3) as [E1 E2]. apply (dep_registered s d C2). now rewrite E2, <- C4.
    Qed.
    Lemma whole_cone_name i j : (exists nm, In (nm, i) (c_targets c)) -> in_cone canon c i j -> exists nm, In (nm, j) (c_targets c).
    Proof. intros Hi Hj. exact (cone_registered_name canon c i j Hi Hj). Qed.
    Lemma dep_of nm i j : In (nm, i) (c_targets c) -> obj_dep canon c i j -> t_class (obj c j) = Updatable /\ (kind i <> MOther -> kind j <> MOther).
    Proof.
      intros Hi (d & Hd & Hj). destruct (whole_desc nm i Hi) as (_ & _ & _ & C).
      destruct (resolves_value canon c d j Hj) as [nm' Hn'].
      assert (Dd : forall s, In s l -> In d (deps_of s) -> t_class (obj c j) = Updatable /\ (kind j = MOther -> other_of s <> None)).
      { intros s Hs Hd'. destruct (dep_means s d j Hs (deps_mentioned s d Hd') Hj) as (_ & _ & X). split.
        - destruct (whole_desc nm' j Hn') as (_ & _ & Cl & _). destruct (kind j); try (apply Cl; discriminate). now apply X.
        - intros E. now apply X. }
      assert (Dk : forall dd, (forall d, In d dd -> canon d = dirname (nm_of r i) /\ D (canon d) /\ exists k, resolves canon c d k /\ kind k = MDir /\ nm_of r k = canon d) ->
        In d dd -> t_class (obj c j) = Updatable /\ kind j <> MOther).
      { intros dd H Hd'. destruct (H d Hd') as (_ & _ & k & K & Kd & _).
        assert (j = k) by (eapply (resolves_fun canon c d); [exact whole_wf|exact Hj|exact K]). subst k.
        destruct (whole_desc nm' j Hn') as (_ & _ & Cl & _). rewrite Kd in *. split; [apply Cl; discriminate|discriminate]. }
      destruct (kind i) as [f b| | | |] eqn:Ek.
      - destruct C as (C1 & _ & s & ds & C2 & C3 & C4). destruct (declares_rule s _ _ _ C3) as [E1 E2].
        destruct (dirs_facts nm i ds Hi) as (da & db & dd & _ & _ & E & Hdd); [now rewrite Ek|now rewrite Ek|exact C4|]. apply E in Hd.
        destruct Hd as [Hd|Hd]; [|destruct (Dk dd Hdd Hd); auto].
        destruct (Dd s C2) as [A B]; [now rewrite E2|]. split; [exact A|]. intros _ Eo. apply (B Eo). destruct s; try discriminate; reflexivity.
      - destruct C as (_ & _ & _ & C4). destruct (dirs_facts nm i [] Hi) as (da & db & dd & _ & _ & E & Hdd); [now rewrite Ek|now rewrite Ek|exact C4|]. apply E in Hd. destruct Hd as [[]|Hd].
        destruct (Dk dd Hdd Hd); auto.
      - destruct C as (_ & _ & _ & C4 & _). destruct (dirs_facts nm i [] Hi) as (da & db & dd & _ & _ & E & Hdd); [now rewrite Ek|now rewrite Ek|exact C4|]. apply E in Hd. destruct Hd as [[]|Hd].
        destruct (Dk dd Hdd Hd); auto.
      - destruct C as (C1 & s & ds & C2 & C3 & C4). destruct (declares_set s _ _ C3) as [E1 E2].
        destruct (Dd s C2) as [A B]; [now rewrite E2, <- C4|]. split; [exact A|]. intros _ Eo. apply (B Eo). destruct s; try discriminate; reflexivity.
      - destruct C as (C1 & s & u & ds & C2 & C3 & C4 & _). destruct (declares_other s _ _ _ C3) as [E1 E2].
        destruct (Dd s C2) as [A B]; [now rewrite E2, <- C4|]. split; [exact A|]. intros F. now elim F.
    Qed.
    Lemma whole_cone i : (exists nm, In (nm, i) (c_targets c)) ->
      (kind i <> MOther -> forall j, in_cone canon c i j -> kind j <> MOther) /\ cone_registered canon c i /\ acyclic_cone canon c i.
    Proof.
      intros Hi. split; [|split].
      - intros Hk j Hj. apply clos_rt_rtn1 in Hj. induction Hj as [|j k Hjk Hj IH]; [exact Hk|].
        apply clos_rtn1_rt in Hj. destruct (whole_cone_name i j Hi Hj) as [nm Hn]. now apply (dep_of nm j k Hn Hjk).
      - intros j d Hj Hd. destruct (whole_cone_name i j Hi Hj) as [nm Hn]. eapply whole_registered; eauto.
      - intros j Hj. destruct (whole_cone_name i j Hi Hj) as [nm Hn]. eapply whole_acyclic; eauto.
    Qed.
    Lemma whole_healthy other_if v : (forall i, exists b, other_if i = Ok b) -> healthy canon (puif canon kind other_if v c) c.
    Proof.
      intros Ho. split; [|split; [|split]].
      - intros nm i d. apply whole_registered.
      - intros nm i j Hi Hj. now apply (dep_of nm i j).
      - intros nm i. apply whole_acyclic.
      - intros nm i Hi _. destruct (whole_cone i (ex_intro _ nm Hi)) as (A & B & C).
        destruct (kind i) as [f b| | | |] eqn:Ek; [..|unfold puif; rewrite Ek; apply Ho]; apply (puif_total canon kind other_if v c i whole_wf); try assumption;
          apply A; rewrite ?Ek; discriminate.
    Qed.

    Lemma whole_implements i : (exists nm, In (nm, i) (c_targets c)) -> kind i <> MOther -> implements canon kind P c i.
    Proof.
      intros Hi Hki j Hj. destruct (cone_registered_name canon c i j Hi Hj) as [nm Hn].
      pose proof (proj1 (whole_cone i Hi) Hki j Hj) as Nj.
      destruct (whole_desc nm j Hn) as (_ & _ & Cl & C). split; [exact (Cl Nj)|].
      assert (NoDeps : dirs (keys r) (obj c j) [] -> kind j <> MSet -> file_deps canon kind c j []).
      { intros Hd Hk. destruct (dirs_facts nm j [] Hn Hk Nj Hd) as (a & b & dd & E0 & E & _ & H).
        destruct (dir_deps dd) as (js & J1 & J2); [intros d Hd'; destruct (H d Hd') as (_ & _ & k & K1 & K2 & _); eauto|].
        symmetry in E0. apply app_eq_nil in E0. destruct E0 as [-> ->]. cbn [app] in E. rewrite app_nil_r in E.
        exists js. split; [rewrite E; exact J1|]. now rewrite J2. }
      destruct (kind j) as [f b| | | |] eqn:Ek.
      - destruct C as (C1 & C2 & s & ds & C3 & C4 & C5). rewrite C1. exists (map meaning ds).
        split; [exact (P_rule s _ _ (f, b) C3 C4)|].
        destruct (dirs_facts nm j ds Hn) as (da & db & dd & E0 & E & _ & H); [now rewrite Ek|now rewrite Ek|exact C5|]. rewrite E0.
        apply (file_deps_of j s da db dd C3); [|exact E|].
        + rewrite (proj2 (declares_rule s _ _ _ C4)), E0. apply incl_refl.
        + intros d Hd'. destruct (H d Hd') as (_ & _ & k & K1 & K2 & _). eauto.
      - destruct C as (C1 & C2 & C3 & C4). rewrite C1. split; [exact C3|]. apply NoDeps; [exact C4|discriminate].
      - destruct C as (C1 & C2 & C3 & C4 & _). rewrite C1. split; [|apply NoDeps; [exact C4|discriminate]].
        intros p [->|Hp]; [now apply D_no_file|]. destruct C3 as (_ & s & q & Hs & Hq & Ha).
        apply (io_files _ _ _ _ _ ok s q p Hs Hq). eapply above_trans; [|exact Ha]. eapply ancestors_above. exact Hp.
      - destruct C as (C1 & s & ds & C2 & C3 & C4). rewrite C1. exists (map meaning ds). split; [now apply (P_set s)|].
        rewrite <- (app_nil_r ds). apply (file_deps_of j s ds [] []); [exact C2| |now rewrite C4, app_nil_r|intros d []]. rewrite app_nil_r.
        rewrite (proj2 (declares_set s _ _ C3)). apply incl_refl.
      - now elim Nj.
    Qed.
  End Whole.
End Project.
