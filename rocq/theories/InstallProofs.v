(** Lemmas: licant.install. *)
From Verif Require Import PyBase PyPath PathProofs SolverModel SpecGraph InvokerModel CoreModel SpecCore CoreProofs NeedProofs CoreThms ExtProofs MakeEval
  MakeModel SpecMake RegModel SpecUtil UtilProofs SpecReg RegProofs RegScript RegBuild RegTotal RegCopy InstallModel SpecInstall.
Local Open Scope string_scope.
Local Open Scope list_scope.

(** ** PATH *)
Lemma split_colon_ne s : split_colon s <> [].
Proof. induction s as [|c s IH]; cbn; [discriminate|]. destruct (Ascii.eqb c ":"); [discriminate|]. now destruct (split_colon s). Qed.
Lemma split_colon_plain e s : ~ In ":"%char (list_ascii_of_string e) ->
  split_colon (e ++ String ":" s)%string = e :: split_colon s /\ split_colon e = [e].
Proof.
  induction e as [|c e IH]; cbn; intros H; [split; reflexivity|].
  destruct (Ascii.eqb_spec c ":") as [->|_]; [exfalso; apply H; now left|].
  destruct IH as [-> ->]; [intros Q; apply H; now right|]. split; reflexivity.
Qed.
Lemma split_entries p l : entries p l -> split_colon p = l.
Proof.
  intros (Hl & -> & Hc). induction l as [|e l IH]; [congruence|]. destruct l as [|e' l].
  - cbn. apply (split_colon_plain e ""). apply Hc. now left.
  - change (String.concat ":" (e :: e' :: l)) with (e ++ String ":" (String.concat ":" (e' :: l)))%string.
    rewrite (proj1 (split_colon_plain e _ (Hc e (or_introl eq_refl)))). f_equal. apply IH; [discriminate|].
    intros x Hx. apply Hc. now right.
Qed.
Lemma prefix_app a b : String.prefix a (a ++ b) = true.
Proof. induction a as [|c a IH]; [now destruct b|]. cbn. destruct (ascii_dec c c); [exact IH|congruence]. Qed.
Lemma prefix_inv a s : String.prefix a s = true -> exists b, s = (a ++ b)%string.
Proof.
  revert s. induction a as [|c a IH]; intros s H; [now exists s|]. destruct s as [|d s]; [discriminate|]. cbn in H.
  destruct (ascii_dec c d) as [->|]; [|discriminate]. destruct (IH s H) as [b ->]. now exists b.
Qed.
Lemma within_spec sub s : within sub s = true <-> occurs sub s.
Proof.
  unfold within, occurs. destruct sub as [|c0 sub0].
  { split; [intros _; now exists "", s|]. intros _. now destruct s. }
  set (sub := String c0 sub0). assert (Hne : sub <> "") by discriminate. clearbody sub.
  induction s as [|c s IH].
  - split; [cbn; destruct sub; [congruence|discriminate]|]. intros (a & b & E). destruct a, sub; cbn in E; congruence.
  - cbn [String.index]. destruct (String.prefix sub (String c s)) eqn:Ep.
    + split; [|reflexivity]. intros _. apply prefix_inv in Ep. destruct Ep as [b ->]. now exists "", b.
    + destruct (String.index 0 sub s) as [n|] eqn:Ei.
      * split; [|reflexivity]. intros _. destruct IH as [IH _]. destruct (IH eq_refl) as (a & b & ->). now exists (String c a), b.
      * split; [discriminate|]. intros (a & b & E). destruct a as [|d a]; cbn in E.
        -- rewrite E, prefix_app in Ep. discriminate.
        -- injection E as -> E. apply IH. now exists a, b.
Qed.
Lemma within_no sub s : within sub s = false <-> ~ occurs sub s.
Proof. rewrite <- within_spec. destruct (within sub s); intuition congruence. Qed.
Lemma find_none_iff {A} (f : A -> bool) l : find f l = None <-> forall x, In x l -> f x = false.
Proof.
  split; [intros H x; now apply find_none|]. intros H. induction l as [|a l IH]; [reflexivity|]. cbn.
  rewrite (H a (or_introl eq_refl)). apply IH. intros x Hx. apply H. now right.
Qed.

Lemma prefix_wins path p : find_application_path (ENV (Some path) (Some p)) = Ok (path_join p "bin", false).
Proof. reflexivity. Qed.
Lemma local_bin_wins path l : entries path l -> In "/usr/local/bin" l ->
  find_application_path (ENV (Some path) None) = Ok ("/usr/local/bin", false).
Proof.
  intros He Hin. unfold find_application_path. cbn [e_path e_prefix]. rewrite (split_entries _ _ He).
  assert (E : existsb (String.eqb "/usr/local/bin") l = true)
    by (apply existsb_exists; exists "/usr/local/bin"; split; [exact Hin|apply String.eqb_refl]).
  now rewrite E.
Qed.
Lemma no_local_bin path l : entries path l -> ~ In "/usr/local/bin" l -> (forall e, In e l -> ~ occurs back_usr_local_bin e) ->
  match find_application_path (ENV (Some path) None) with
  | Ok (p, err) => err = true /\ In p l /\
      (occurs "/usr/local/bin" p \/ ((forall e, In e l -> ~ occurs "/usr/local/bin" e) /\ occurs "/usr/bin" p))
  | Raise e => e = UnboundLocalError "path" /\ forall e, In e l -> ~ occurs "/usr/local/bin" e /\ ~ occurs "/usr/bin" e
  | OutOfFuel => False
  end.
Proof.
  intros He Hin Hb. unfold find_application_path. cbn [e_path e_prefix]. rewrite (split_entries _ _ He).
  destruct (existsb (String.eqb "/usr/local/bin") l) eqn:E.
  { apply existsb_exists in E. destruct E as (x & Hx & E). apply String.eqb_eq in E. now subst x. }
  assert (E3 : find (within back_usr_local_bin) l = None).
  { apply find_none_iff. intros x Hx. apply within_no. now apply Hb. }
  rewrite E3. destruct (find (within "/usr/local/bin") l) as [p|] eqn:E2.
  - apply find_some in E2. destruct E2 as [Hp E2]. split; [reflexivity|]. split; [exact Hp|]. left. now apply within_spec.
  - assert (N : forall e, In e l -> ~ occurs "/usr/local/bin" e)
      by (intros e He'; apply within_no; now apply (proj1 (find_none_iff _ _) E2)).
    destruct (find (within "/usr/bin") l) as [p|] eqn:E1.
    + apply find_some in E1. destruct E1 as [Hp E1]. split; [reflexivity|]. split; [exact Hp|]. right. split; [exact N|].
      now apply within_spec.
    + split; [reflexivity|]. intros e He'. split; [now apply N|]. apply within_no. now apply (proj1 (find_none_iff _ _) E1).
Qed.
Lemma backslash_bin path l : entries path l -> ~ In "/usr/local/bin" l -> (exists e, In e l /\ occurs back_usr_local_bin e) ->
  exists p, find_application_path (ENV (Some path) None) = Ok (p, false) /\ In p l /\ occurs back_usr_local_bin p.
Proof.
  intros He Hin (e & Hel & Ho). unfold find_application_path. cbn [e_path e_prefix]. rewrite (split_entries _ _ He).
  destruct (existsb (String.eqb "/usr/local/bin") l) eqn:E.
  { apply existsb_exists in E. destruct E as (x & Hx & E). apply String.eqb_eq in E. now subst x. }
  destruct (find (within back_usr_local_bin) l) as [p|] eqn:E3.
  - exists p. split; [reflexivity|]. apply find_some in E3. split; [apply E3|]. apply within_spec. apply E3.
  - exfalso. apply (proj1 (within_no _ _) (proj1 (find_none_iff _ _) E3 e Hel)). exact Ho.
Qed.
Lemma disabled_calls cwd home pl walk fnmatch : pl_error pl = true ->
  (forall src dst tgt, install_application cwd home pl src dst tgt = None) /\
  (forall src n, install_shared_library cwd home pl src n = None) /\
  (forall tgt hroot headers pats u l, install_library cwd home pl walk fnmatch tgt hroot headers pats u l = None).
Proof.
  intros E. unfold install_application, install_shared_library, install_library. rewrite E. repeat split; reflexivity.
Qed.

(** ** Properties of registry 0 that calls of FileTarget and source keep. *)
Section Keep.
  Variables (cwd : string) (exists_ : string -> bool) (glob_ : string -> list string) (Inv : mreg -> Prop).
  Notation canon := (realpath cwd).
  Hypothesis inv_has : forall r nm, Inv r -> Inv (snd (core_has canon (fst r) nm), snd r).
  Hypothesis inv_add : forall r kd nm deps, Inv r -> Inv (reg_add r Updatable kd (canon nm) deps).

  Lemma keep_rhas st nm b st' : 0 < List.length st -> Inv (reg st 0) -> rhas canon st 0 nm = (b, st') ->
    Inv (reg st' 0) /\ List.length st' = List.length st.
  Proof.
    intros L H. unfold rhas. pose proof (inv_has (reg st 0) nm H) as H'. destruct (core_has canon (fst (reg st 0)) nm) as [b' c'].
    intros [= <- <-]. split; [|apply put_length]. now rewrite reg_put, Nat.eqb_refl.
  Qed.
  Lemma keep_fnew : forall fuel st kd name deps dk st', fnew canon exists_ glob_ fuel st 0 kd name deps dk = Ok st' ->
    0 < List.length st -> Inv (reg st 0) -> Inv (reg st' 0) /\ List.length st' = List.length st.
  Proof.
    induction fuel as [|fuel IH]; intros st kd name deps dk st' E L H; [discriminate|]. cbn [fnew] in E.
    match type of E with bind ?X _ = _ => destruct X as [[st1 deps1]| |] eqn:E1; cbn [bind] in E; try discriminate end.
    assert (H1 : Inv (reg st1 0) /\ List.length st1 = List.length st).
    { destruct (dk && negb (exists_ (normpath (dirname (canon name))))); [|injection E1 as <- <-; auto].
      match type of E1 with bind ?X _ = _ => destruct X as [st0| |] eqn:E0; cbn [bind] in E1; try discriminate end.
      injection E1 as <- <-. eauto. }
    destruct H1 as [H1 L1].
    match type of E with bind ?X _ = _ => destruct X as [st2| |] eqn:E2; cbn [bind] in E; try discriminate end.
    assert (H2 : Inv (reg st2 0) /\ List.length st2 = List.length st1).
    { assert (P1 : 0 < List.length st1) by lia. clear - IH inv_has E2 H1 P1. revert st1 E2 H1 P1.
      induction (expand_names glob_ deps1) as [|r l IHl]; intros st1 E2 H1 P1; [injection E2 as <-; auto|].
      destruct (exists_ r); [|now apply IHl]. destruct (rhas canon st1 0 r) as [b st3] eqn:E3.
      destruct (keep_rhas _ _ _ _ P1 H1 E3) as [H3 L3]. destruct b.
      - destruct (IHl _ E2 H3) as [A B]; [lia|]. split; [exact A|lia].
      - destruct (fnew canon exists_ glob_ fuel st3 0 MSource r [] true) as [st4| |] eqn:E4; cbn [bind] in E2; try discriminate.
        destruct (IH _ _ _ _ _ _ E4) as [H4 L4]; [lia|exact H3|]. destruct (IHl _ E2 H4) as [A B]; [lia|]. split; [exact A|lia]. }
    destruct H2 as [H2 L2]. injection E as <-. rewrite put_length. split; [|lia]. rewrite reg_put, Nat.eqb_refl by lia. now apply inv_add.
  Qed.
  Lemma keep_source fuel st p st' : RegModel.source canon exists_ glob_ fuel st p = Ok st' ->
    0 < List.length st -> Inv (reg st 0) -> Inv (reg st' 0) /\ List.length st' = List.length st.
  Proof.
    unfold RegModel.source. intros E L H. destruct (rhas canon st 0 p) as [b st1] eqn:E1.
    destruct (keep_rhas _ _ _ _ L H E1) as [H1 L1]. destruct b; [injection E as <-; auto|].
    destruct (keep_fnew _ _ _ _ _ _ _ E) as [A B]; [lia|exact H1|]. split; [exact A|lia].
  Qed.
  Lemma keep_source_existing fuel l : forall st st', source_existing canon exists_ glob_ fuel l st = Ok st' ->
    0 < List.length st -> Inv (reg st 0) -> Inv (reg st' 0) /\ List.length st' = List.length st.
  Proof.
    induction l as [|r l IH]; intros st st' E L H; [injection E as <-; auto|]. cbn in E. destruct (exists_ r); [|now apply IH].
    destruct (RegModel.source canon exists_ glob_ fuel st r) as [st1| |] eqn:E1; cbn [bind] in E; try discriminate.
    destruct (keep_source _ _ _ _ E1 L H) as [H1 L1]. destruct (IH _ _ E) as [A B]; [lia|exact H1|]. split; [exact A|lia].
  Qed.
End Keep.

(** The number of kinds. *)
Lemma heap_has canon c nm : c_heap (snd (core_has canon c nm)) = c_heap c.
Proof. unfold core_has. destruct (sget (c_targets c) nm); [reflexivity|]. now destruct (sget (c_targets c) (canon nm)). Qed.
Lemma kinds_has canon r nm : kinds_ok r -> kinds_ok (snd (core_has canon (fst r) nm), snd r).
Proof. unfold kinds_ok. cbn. now rewrite heap_has. Qed.
Lemma kinds_add r cls kd nm deps : kinds_ok r -> kinds_ok (reg_add r cls kd nm deps).
Proof. unfold kinds_ok, reg_add. cbn [fst snd]. rewrite core_new_heap, !app_length. cbn. lia. Qed.
Lemma run_kinds canon exists_ glob_ home fuel k ops st st' : mrun canon exists_ glob_ home fuel k ops st = Ok st' ->
  (forall j, kinds_ok (reg st j)) -> forall j, kinds_ok (reg st' j).
Proof.
  intros E H. exact (q_run canon exists_ glob_ home kinds_ok (kinds_has canon) kinds_add fuel k ops st st' E H).
Qed.
Lemma start_kinds n j : kinds_ok (reg (repeat empty_reg n) j).
Proof. rewrite reg_start. reflexivity. Qed.


(** The number of registries. *)
Section Length.
  Variables (canon : string -> string) (exists_ : string -> bool) (glob_ : string -> list string) (home : string).
  Lemma len_has st k nm b st' : rhas canon st k nm = (b, st') -> List.length st' = List.length st.
  Proof. unfold rhas. destruct (core_has canon (fst (reg st k)) nm). intros [= <- <-]. apply put_length. Qed.
  Lemma len_source fuel st p st' : RegModel.source canon exists_ glob_ fuel st p = Ok st' -> List.length st' = List.length st.
  Proof.
    unfold RegModel.source. destruct (rhas canon st 0 p) as [b st1] eqn:E. apply len_has in E. destruct b; [now intros [= <-]|].
    intros E1. apply fnew_length in E1. congruence.
  Qed.
  Lemma len_plain fuel st k cls kd nm deps st' : plain_new canon exists_ glob_ fuel st k cls kd nm deps = Ok st' ->
    List.length st' = List.length st.
  Proof.
    unfold plain_new. intros E.
    destruct (source_existing canon exists_ glob_ fuel (expand_names glob_ deps) st) as [st1| |] eqn:E1; cbn [bind] in E; try discriminate.
    injection E as <-. rewrite put_length. revert st E1. induction (expand_names glob_ deps) as [|r l IH]; intros st E1; [now injection E1 as <-|].
    cbn [source_existing] in E1. destruct (exists_ r); [|now apply IH].
    destruct (RegModel.source canon exists_ glob_ fuel st r) as [st2| |] eqn:E2; cbn [bind] in E1; try discriminate.
    apply len_source in E2. rewrite <- E2. now apply IH.
  Qed.
  Lemma len_dirkeep : forall fuel st k path ds st', mc_dirkeep canon exists_ glob_ fuel st k path = Ok (ds, st') ->
    List.length st' = List.length st.
  Proof.
    induction fuel as [|fuel IH]; intros st k path ds st' E; [discriminate|]. cbn [mc_dirkeep] in E.
    destruct (negb (exists_ (normpath (dirname path)))); [|now injection E as <- <-].
    destruct (mc_dirkeep canon exists_ glob_ fuel st k (normpath (dirname path))) as [[deps st1]| |] eqn:E1; cbn [bind] in E; try discriminate.
    apply IH in E1. destruct (rhas canon st1 k (normpath (dirname path))) as [b st2] eqn:E2. apply len_has in E2.
    destruct b; cbn [bind] in E; [injection E as <- <-; congruence|]. unfold mc_makedir in E.
    destruct (fnew canon exists_ glob_ fuel st2 k MDir (normpath (dirname path)) deps false) as [st3| |] eqn:E3; cbn [bind] in E; try discriminate.
    injection E as <- <-. apply fnew_length in E3. congruence.
  Qed.
  Lemma len_msource fuel st k src st' : mc_source canon exists_ glob_ home fuel st k src = Ok st' -> List.length st' = List.length st.
  Proof.
    unfold mc_source. destruct (rhas canon st k src) as [b st1] eqn:E. apply len_has in E. destruct b; [now intros [= <-]|].
    intros E1. apply fnew_length in E1. congruence.
  Qed.
  Lemma len_step fuel k st o st' : mstep canon exists_ glob_ home fuel k st o = Ok st' -> List.length st' = List.length st.
  Proof.
    intros E. destruct o as [tgt b deps|src dst b deps|src|nm ts deps|u nm deps|fc tgt deps b|tgt src deps b|src]; cbn [mstep] in E.
    - unfold mc_ftarget in E. destruct (mc_dirkeep canon exists_ glob_ fuel st k (expanduser home tgt)) as [[dd st1]| |] eqn:E1;
        cbn [bind] in E; try discriminate. apply len_dirkeep in E1. apply fnew_length in E. congruence.
    - unfold mc_copy in E. destruct (mc_dirkeep canon exists_ glob_ fuel st k (expanduser home dst)) as [[dd st1]| |] eqn:E1;
        cbn [bind] in E; try discriminate. apply len_dirkeep in E1.
      destruct (mc_source canon exists_ glob_ home fuel st1 k (expanduser home src)) as [st2| |] eqn:E2; cbn [bind] in E; try discriminate.
      apply len_msource in E2. apply fnew_length in E. congruence.
    - eapply len_msource; eauto.
    - eapply len_plain; eauto.
    - eapply len_plain; eauto.
    - eapply fnew_length; eauto.
    - unfold copy in E. destruct (RegModel.source canon exists_ glob_ fuel st (expanduser home src)) as [st1| |] eqn:E1; cbn [bind] in E; try discriminate.
      apply len_source in E1. apply fnew_length in E. congruence.
    - eapply len_source; eauto.
  Qed.
  Lemma len_run fuel k ops : forall st st', mrun canon exists_ glob_ home fuel k ops st = Ok st' -> List.length st' = List.length st.
  Proof.
    induction ops as [|o ops IH]; intros st st' E; [now injection E as <-|]. cbn [mrun] in E.
    destruct (mstep canon exists_ glob_ home fuel k st o) as [st1| |] eqn:E1; cbn [bind] in E; try discriminate.
    apply len_step in E1. apply IH in E. congruence.
  Qed.
End Length.

(** What is true of every process. *)
Lemma made_length canon exists_ glob_ home st : made canon exists_ glob_ home st -> 0 < List.length st.
Proof. induction 1 as [n H|? ? ? ? ? _ IH E]; [now rewrite repeat_length|]. apply len_run in E. lia. Qed.
Lemma made_kinds canon exists_ glob_ home st : made canon exists_ glob_ home st -> forall j, kinds_ok (reg st j).
Proof. induction 1 as [n H|? ? ? ? ? _ IH E]; [apply start_kinds|]. eapply run_kinds; eauto. Qed.
Lemma made_history canon exists_ glob_ home st : made canon exists_ glob_ home st ->
  forall j, exists cops, fst (reg st j) = crun canon cops (new_core None).
Proof.
  induction 1 as [n H|fuel k ops st st' _ IH E].
  - intros j. rewrite reg_start. now exists [].
  - apply (q_run canon exists_ glob_ home (fun r => exists cops, fst r = crun canon cops (new_core None))) in E; [exact E| | |exact IH].
    + intros r nm [cops Hr]. exists (cops ++ [OpHas nm]). unfold crun in *. rewrite fold_left_app, <- Hr. reflexivity.
    + intros r cls kd nm deps [cops Hr]. exists (cops ++ [OpNew cls nm deps]). unfold crun in *. rewrite fold_left_app, <- Hr. reflexivity.
Qed.
Lemma mrun_app canon exists_ glob_ home fuel k l l' : forall st st', mrun canon exists_ glob_ home fuel k (l ++ l') st = Ok st' ->
  exists st1, mrun canon exists_ glob_ home fuel k l st = Ok st1 /\ mrun canon exists_ glob_ home fuel k l' st1 = Ok st'.
Proof.
  induction l as [|o l IH]; intros st st' E; [now exists st|]. cbn [app mrun] in *.
  destruct (mstep canon exists_ glob_ home fuel k st o) as [st1| |]; cbn [bind] in *; try discriminate. eauto.
Qed.

(** ** A target without dependencies whose name is no absolute path stays. *)
Section Uninstall.
  Variables (cwd : string) (exists_ : string -> bool) (glob_ : string -> list string) (home u : string) (i : nat).
  Notation canon := (realpath cwd).
  Hypothesis u_rel : starts_slash u = false.
  Definition stays (r : mreg) : Prop :=
    sget (c_targets (fst r)) u = Some i /\ i < List.length (c_heap (fst r)) /\ kinds_ok r /\
    t_deps (obj (fst r) i) = [] /\ t_name (obj (fst r) i) = u /\ kind_of r i = MSet.
  Lemma stays_add r kd nm cls deps : stays r -> nm <> u -> stays (reg_add r cls kd nm deps).
  Proof.
    intros (A & B & C & D & E & F) N. unfold stays, kind_of, obj, reg_add. cbn [fst snd]. rewrite core_new_targets, core_new_heap.
    rewrite app_length, !app_nth1; [|unfold kinds_ok in C; lia|exact B]. split.
    - rewrite (dget_dset_neq _ string_eqb_spec') by congruence. exact A.
    - split; [lia|]. split; [now apply kinds_add|]. auto.
  Qed.
  Lemma stays_has r nm : stays r -> stays (snd (core_has canon (fst r) nm), snd r).
  Proof.
    intros (A & B & C & D & E & F). unfold core_has. destruct (sget (c_targets (fst r)) nm) as [j|] eqn:En; [repeat split; auto|].
    destruct (sget (c_targets (fst r)) (canon nm)) as [j|]; [|repeat split; auto]. cbn [fst snd].
    assert (N : nm <> u) by congruence. split; [|repeat split; auto]. cbn [fst c_targets].
    rewrite (dget_dset_neq _ string_eqb_spec') by congruence. exact A.
  Qed.
  Lemma canon_not_u nm : canon nm <> u.
  Proof. intros H. pose proof (realpath_starts cwd nm). congruence. Qed.
  Lemma stays_set fuel st nm targets deps st' : fileset canon exists_ glob_ fuel st 0 nm targets deps = Ok st' ->
    0 < List.length st -> stays (reg st 0) -> nm <> u -> stays (reg st' 0).
  Proof.
    unfold fileset, plain_new. intros E L H N.
    match type of E with bind ?X _ = _ => destruct X as [st1| |] eqn:E1; cbn [bind] in E; try discriminate end.
    destruct (keep_source_existing cwd exists_ glob_ stays stays_has (fun r kd n d Hr => stays_add r kd _ _ d Hr (canon_not_u n)) _ _ _ _ E1 L H) as [H1 L1].
    injection E as <-. rewrite reg_put, Nat.eqb_refl by lia. now apply stays_add.
  Qed.
  Lemma clean_nothing r : stays r -> (exists cops, fst r = crun canon cops (new_core None)) ->
    forall fs ca, clean canon (kind_of r) (fst r) i (fs, ca) = Ok (fs, ca).
  Proof.
    intros (A & B & C & D & E & F) [cops Hc] fs ca. unfold clean, depends_as_set. rewrite E. cbn [arg_str arg_key].
    pose proof (no_pair_run canon cops _ (no_pair_new None)) as NP. rewrite <- Hc in NP.
    destruct (dget ckey_eqb (c_lazy (fst r)) (KPair (KStr u) true)) as [l|] eqn:El.
    { apply (dget_In ckey_eqb ckey_eqb_spec) in El. now apply NP in El. }
    unfold das_fuel. cbn [das_impl]. unfold core_get at 1. rewrite A. cbn [bind]. rewrite D. cbn [bind].
    change (py_sorted [u]) with [u]. cbn [mapM bind]. unfold core_get. cbn [c_targets]. rewrite A. cbn [bind clean_loop].
    unfold if_file_and_exist. rewrite F. reflexivity.
  Qed.
End Uninstall.

Lemma uninstall_nothing cwd home exists_ glob_ pl walk fnmatch tgt hroot headers pats u l ops t fuel st st' :
  install_library cwd home pl walk fnmatch tgt hroot headers pats (Some u) l = Some (ops, t) ->
  made (realpath cwd) exists_ glob_ home st -> mrun (realpath cwd) exists_ glob_ home fuel 0 ops st = Ok st' ->
  u <> "" -> starts_slash u = false -> u <> tgt ->
  exists i, resolves (realpath cwd) (fst (reg st' 0)) u i /\
    forall fs ca, clean (realpath cwd) (kind_of (reg st' 0)) (fst (reg st' 0)) i (fs, ca) = Ok (fs, ca).
Proof.
  intros Ei Hm Er Hu Hr Ht. unfold install_library in Ei. destruct (pl_error pl); [discriminate|].
  destruct (install_headers cwd home pl walk fnmatch hroot headers pats (lib_list l)) as [[hops htgt] raw].
  destruct (String.eqb_spec u "") as [?|_]; [congruence|]. injection Ei as <- <-.
  set (copies := map (fun l0 => copy_op cwd home (library_tgt pl l0 None) l0 []) (lib_list l)) in *.
  set (ts := if lib_true l then _ else _) in *. clearbody copies ts.
  destruct (mrun_app _ _ _ _ _ _ _ _ _ _ Er) as (st1 & R1 & Er1).
  destruct (mrun_app _ _ _ _ _ _ _ _ _ _ Er1) as (st2 & R2 & Er2).
  assert (M2 : made (realpath cwd) exists_ glob_ home st2) by (eapply made_run; [eapply made_run; [exact Hm|exact R1]|exact R2]).
  assert (M3 : made (realpath cwd) exists_ glob_ home st') by (eapply made_run; [exact M2|exact Er2]).
  cbn [app mrun mstep] in Er2. unfold fileset at 1, plain_new at 1 in Er2. cbn [app expand_names flat_map source_existing bind] in Er2.
  set (st3 := put st2 0 (reg_add (reg st2 0) Updatable MSet u [])) in *.
  destruct (fileset (realpath cwd) exists_ glob_ fuel st3 0 tgt ts []) as [st4| |] eqn:E4; cbn [bind] in Er2; try discriminate.
  injection Er2 as ->. pose proof (made_length _ _ _ _ _ M2) as L2. pose proof (made_kinds _ _ _ _ _ M2 0) as K2.
  assert (L3 : 0 < List.length st3) by (unfold st3; rewrite put_length; exact L2).
  set (i := List.length (c_heap (fst (reg st2 0)))).
  assert (S3 : stays u i (reg st3 0)).
  { unfold st3. rewrite reg_put, Nat.eqb_refl by exact L2. unfold stays, kind_of, obj, reg_add. cbn [fst snd].
    rewrite core_new_targets, core_new_heap, (dget_dset_eq _ string_eqb_spec'), app_length. split; [reflexivity|].
    split; [cbn; unfold i; lia|]. split; [now apply kinds_add|]. unfold i. rewrite !app_nth2, Nat.sub_diag by lia.
    split; [reflexivity|]. split; [reflexivity|]. unfold kinds_ok in K2. rewrite app_nth2, K2, Nat.sub_diag by lia. reflexivity. }
  assert (S4 : stays u i (reg st' 0)) by (eapply stays_set; eauto).
  exists i. split; [|apply (clean_nothing cwd u); [exact S4|]; apply (made_history _ _ _ _ _ M3)].
  left. apply (dget_In String.eqb string_eqb_spec'). apply S4.
Qed.

(** ** A file set that names itself. *)
Section Loop.
  Variables (canon : string -> string) (u : nat -> res bool) (i : nat) (nm : string).
  Hypothesis u_false : u i = Ok false.
  Definition looped (c : core) : Prop :=
    wf_core c /\ caches_fresh canon c /\ needs_right canon u c /\ t_class (obj c i) = Updatable /\ t_need (obj c i) = None /\
    t_deps (obj c i) = [nm] /\ core_get canon c nm = Ok i.
  Lemma looped_same c c' : looped c -> same_static c c' -> caches_fresh canon c' -> needs_right canon u c' ->
    t_need (obj c' i) = None -> looped c'.
  Proof.
    intros (A & B & C & D & E & F & G) St Fr N Ne. pose proof St as (_ & _ & _ & Ho). destruct (Ho i) as (_ & Hd & Hc).
    split; [now apply (static_wf c)|]. split; [exact Fr|]. split; [exact N|]. rewrite <- Hc, <- Hd. split; [exact D|].
    split; [exact Ne|]. split; [exact F|]. now rewrite <- (static_get canon c c').
  Qed.
  Lemma loop_rec : forall fuel c x, looped c -> rec_need canon u fuel c i <> Ok x.
  Proof.
    induction fuel as [|fuel IH]; intros c x H; [discriminate|]. pose proof H as (A & B & C & D & E & F & G).
    cbn [rec_need]. rewrite D, E, u_false. cbn [bind].
    destruct (get_deplist canon c i) as [[l c1]| |] eqn:Eg; cbn [bind]; try discriminate.
    destruct (get_deplist_ok canon _ _ _ _ Eg B) as (S1 & F1 & N1 & M1). rewrite F in M1. cbn [mapM] in M1. rewrite G in M1.
    injection M1 as <-. assert (H1 : looped c1).
    { apply (looped_same c); auto; [|now rewrite N1]. intros k b Hk. rewrite N1 in Hk. rewrite (C k b Hk). now apply ood_static. }
    destruct (rec_need canon u fuel c1 i) as [[b c2]| |] eqn:Er; cbn [bind]; try discriminate. now apply IH in Er.
  Qed.
  Lemma loop_all fuel ids : forall c x, looped c -> In i ids -> (forall j, In j ids -> j < List.length (c_heap c)) ->
    eval_all canon u fuel ids c <> Ok x.
  Proof.
    induction ids as [|j ids IH]; intros c x H Hin Hlt; [destruct Hin|]. cbn [eval_all].
    destruct (eval_one canon u fuel c j) as [c1| |] eqn:E1; cbn [bind]; try discriminate.
    pose proof H as (A & B & C & D & E & F & G).
    destruct (eval_one_sound canon u _ _ _ _ E1 (Hlt j (or_introl eq_refl)) A B C) as (S1 & F1 & R1 & _).
    destruct (Nat.eq_dec j i) as [->|Nj].
    { unfold eval_one in E1. rewrite D in E1. destruct (rec_need canon u fuel c i) as [[b c2]| |] eqn:Er; cbn [bind] in E1; try discriminate.
      now apply loop_rec in Er. }
    destruct Hin as [?|Hin]; [congruence|]. apply IH; auto.
    - apply (looped_same c); auto. unfold eval_one in E1. destruct (t_class (obj c j)); [now injection E1 as <-|].
      destruct (rec_need canon u fuel c j) as [[b c2]| |] eqn:Er; cbn [bind] in E1; try discriminate. injection E1 as <-.
      destruct (rec_need_sound canon u _ _ _ _ _ Er A B C) as (_ & _ & N2 & _). rewrite need_set_need.
      destruct (Nat.eqb_spec i j); [congruence|]. cbn. now rewrite N2.
    - intros k Hk. destruct S1 as (_ & _ & <- & _). apply Hlt. now right.
  Qed.
End Loop.

Lemma loop_never cwd r i nm cops : fst r = crun (realpath cwd) cops (new_core None) ->
  t_class (obj (fst r) i) = Updatable -> t_deps (obj (fst r) i) = [nm] -> sget (c_targets (fst r)) nm = Some i ->
  kind_of r i = MSet -> nothing_works cwd r.
Proof.
  intros Hc Cl Dp Hg Hk other_if fs fuel ca x Ex. set (canon := realpath cwd) in *. set (c := fst r) in *.
  destruct (session_ok canon cops None c) as (I1 & I2 & I3 & I4 & _); [rewrite Hc; constructor|].
  pose proof (mevaluate_sim canon (kind_of r) other_if fs fuel c ca I2) as Sim.
  destruct (update_update_needity canon (puif canon (kind_of r) other_if (view fs ca) c) fuel c) as [c'|e|] eqn:E;
    [|rewrite Sim in Ex; discriminate|rewrite Sim in Ex; discriminate].
  unfold update_update_needity in E. pose proof (nullified c I1 I3 I4) as Hn.
  destruct (nullify_fold (dvalues (c_targets c)) c) as (S & C & _ & _). fold (nullify c) in S, C.
  revert E. pose proof S as (Tg & _ & Ln & Ho). apply (loop_all canon _ i nm).
  - unfold puif. rewrite Hk. reflexivity.
  - destruct (Ho i) as (_ & Hd & Hcl). split; [now apply (static_wf c)|]. split.
    + intros k l Hi. rewrite C in Hi. rewrite (mapM_ext _ (core_get canon c)) by (intros y _; symmetry; now apply static_get).
      destruct (Ho k) as (_ & <- & _). now apply I2.
    + split; [intros k b Hb; rewrite Hn in Hb; discriminate|]. rewrite <- Hd, <- Hcl. split; [exact Cl|]. split; [apply Hn|].
      split; [exact Dp|]. unfold core_get. rewrite <- Tg, Hg. reflexivity.
  - rewrite <- Tg. apply values_In. exists nm. now apply (dget_In String.eqb string_eqb_spec').
  - intros j Hj. rewrite <- Tg in Hj. apply values_In in Hj. destruct Hj as [q Hq]. rewrite <- Ln. destruct I1 as [_ W]. eauto.
Qed.

Lemma self_install cwd home exists_ glob_ pl src dst ops t fuel st st' :
  install_application cwd home pl src dst None = Some (ops, t) -> has_star (path_join (pl_bin pl) dst) = false ->
  made (realpath cwd) exists_ glob_ home st -> mrun (realpath cwd) exists_ glob_ home fuel 0 ops st = Ok st' ->
  nothing_works cwd (reg st' 0).
Proof.
  intros Ei Hs Hm Er. unfold install_application in Ei. destruct (pl_error pl); [discriminate|]. injection Ei as <- <-.
  set (app := path_join (pl_bin pl) dst) in *.
  assert (M' : made (realpath cwd) exists_ glob_ home st') by (eapply made_run; eauto).
  cbn [mrun] in Er.
  destruct (mstep (realpath cwd) exists_ glob_ home fuel 0 st (copy_op cwd home app src [])) as [st1| |] eqn:E1; cbn [bind] in Er; try discriminate.
  cbn [mstep] in Er. unfold fileset, plain_new in Er. cbn [List.app expand_names flat_map] in Er. rewrite Hs in Er. cbn [List.app] in Er.
  match type of Er with bind (bind ?X _) _ = _ => destruct X as [st2| |] eqn:E2; cbn [bind] in Er; try discriminate end.
  injection Er as Er. assert (L2 : 0 < List.length st2).
  { pose proof (made_length _ _ _ _ _ M') as L. rewrite <- Er, put_length in L. exact L. }
  assert (M2 : made (realpath cwd) exists_ glob_ home st1).
  { apply (made_run _ _ _ _ fuel 0 [copy_op cwd home app src []] st); [exact Hm|]. cbn [mrun]. now rewrite E1. }
  assert (K2 : kinds_ok (reg st2 0)).
  { refine (proj1 (keep_source_existing cwd exists_ glob_ kinds_ok (kinds_has _) (fun r kd n d => kinds_add r _ kd _ d) _ _ _ _ E2 _ _)).
    - exact (made_length _ _ _ _ _ M2).
    - apply (made_kinds _ _ _ _ _ M2). }
  destruct (made_history _ _ _ _ _ M' 0) as [cops Hc].
  apply (loop_never cwd _ (List.length (c_heap (fst (reg st2 0)))) app cops Hc); rewrite <- Er, reg_put, Nat.eqb_refl by exact L2;
    unfold reg_add, obj, kind_of; cbn [fst snd]; rewrite ?core_new_heap, ?core_new_targets.
  - rewrite app_nth2, Nat.sub_diag by lia. reflexivity.
  - rewrite app_nth2, Nat.sub_diag by lia. reflexivity.
  - apply (dget_dset_eq _ string_eqb_spec').
  - unfold kinds_ok in K2. rewrite app_nth2, K2, Nat.sub_diag by lia. reflexivity.
Qed.

(** ** Where a header goes *)
Lemma filter_proper l : Forall proper l -> filter (fun x => negb (String.eqb x "")) l = l.
Proof.
  induction 1 as [|c l (H & _) _ IH]; [reflexivity|]. cbn. apply String.eqb_neq in H. rewrite H. cbn. now rewrite IH.
Qed.
Lemma np_str_components n acc : (n = 1 \/ n = 2) -> normal true acc ->
  filter (fun x => negb (String.eqb x "")) (split_slash (np_str n acc)) = rev acc.
Proof.
  intros Hn H. pose proof (Forall_rev (normal_true_proper acc H)) as Hp. unfold np_str.
  destruct acc as [|a acc].
  - destruct Hn as [->| ->]; reflexivity.
  - assert (S : split_slash (String.concat "/" (rev (a :: acc))) = rev (a :: acc)).
    { apply split_concat; [cbn; destruct (rev acc); discriminate|]. apply Forall_rev. eapply normal_slash; eauto. }
    destruct Hn as [->| ->]; cbn [slashes String.append split_slash]; rewrite ?Ascii.eqb_refl, S; cbn [filter String.eqb negb]; now apply filter_proper.
Qed.
Lemma abspath_comps cwd p : starts_slash cwd = true -> components cwd p = rev (np_comps (path_join cwd p)) /\
  normal true (np_comps (path_join cwd p)).
Proof.
  intros Hc. unfold components, abspath. rewrite normpath_str.
  assert (A : starts_slash (path_join cwd p) = true) by (rewrite join_starts, Hc; now rewrite Bool.orb_true_r).
  pose proof (np_normal (path_join cwd p)) as N. pose proof (np_abs (path_join cwd p)) as B. rewrite A in B. rewrite B in N.
  split; [|exact N]. apply np_str_components; [|exact N].
  destruct (initial_slashes_range (path_join cwd p)) as [Q|Q]; [rewrite Q in B; discriminate|exact Q].
Qed.
Lemma drop_common_app a b : drop_common (a ++ b) a = (b, []).
Proof. induction a as [|x a IH]; [now destruct b|]. cbn. now rewrite String.eqb_refl. Qed.
Lemma joins_concat l : forall x, Forall proper (x :: l) -> path_joins x l = String.concat "/" (x :: l).
Proof.
  assert (J : forall a y, a <> "" -> ends_slash a = false -> starts_slash y = false -> path_join a y = (a ++ String slash y)%string).
  { intros a y Ha He Hs. unfold path_join. rewrite Hs, He. now destruct a. }
  assert (Pe : forall y, proper y -> ends_slash y = false).
  { intros y (Hn & _ & _ & Hy). destruct (ends_slash y) eqn:E; [|reflexivity]. destruct (ends_slash_inv _ E) as [q ->].
    exfalso. clear - Hy. induction q as [|c q IH]; cbn in Hy; [now destruct Hy|destruct Hy; auto]. }
  assert (G : forall l a, a <> "" -> ends_slash a = false -> Forall proper l ->
    path_joins a l = match l with [] => a | _ => (a ++ String slash (String.concat "/" l))%string end).
  { clear l. induction l as [|y l IH]; intros a Ha He Hl; [reflexivity|]. inversion Hl as [|? ? Hy Hl']; subst.
    cbn [path_joins fold_left]. rewrite J; [|exact Ha|exact He|destruct Hy as (_ & _ & _ & Hy); now apply no_slash_starts].
    assert (E : ends_slash (a ++ String slash y)%string = false).
    { rewrite ends_slash_app. destruct y as [|c y]; [destruct Hy; congruence|]. exact (Pe _ Hy). }
    assert (N : (a ++ String slash y)%string <> "") by (destruct a; discriminate).
    specialize (IH _ N E Hl'). unfold path_joins in IH. rewrite IH. destruct l as [|z l]; [reflexivity|].
    rewrite app_str_assoc. reflexivity. }
  intros x Hx. inversion Hx as [|? ? Hp Hl]; subst. rewrite G; [|destruct Hp; assumption|now apply Pe|exact Hl].
  destruct l; reflexivity.
Qed.
Lemma norm_propers abs l acc : Forall proper l -> norm_loop abs l acc = rev l ++ acc.
Proof.
  revert acc. induction l as [|c l IH]; intros acc H; [reflexivity|]. inversion H; subst. rewrite norm_proper, IH by assumption.
  cbn. now rewrite <- app_assoc.
Qed.
Lemma relpath_below cwd srcdir x l : starts_slash cwd = true -> Forall file_name (x :: l) ->
  relpath cwd (path_join (abspath cwd srcdir) (String.concat "/" (x :: l))) (abspath cwd srcdir) = String.concat "/" (x :: l).
Proof.
  intros Hc Hf. assert (Hp : Forall proper (x :: l)) by (eapply Forall_impl; [|exact Hf]; intros s; apply file_name_proper).
  set (D := abspath cwd srcdir). assert (SD : starts_slash D = true).
  { unfold D, abspath. rewrite normpath_starts, join_starts, Hc. now rewrite Bool.orb_true_r. }
  set (r := String.concat "/" (x :: l)). assert (Sr : starts_slash r = false).
  { unfold r. rewrite <- (rev_involutive (x :: l)). apply (concat_head _ true). clear - Hp.
    apply Forall_rev in Hp. induction Hp; constructor; assumption. }
  assert (Spl : split_slash r = x :: l).
  { apply split_concat; [discriminate|]. eapply Forall_impl; [|exact Hp]. intros s (_ & _ & _ & H). exact H. }
  assert (JD : forall p, starts_slash p = true -> path_join cwd p = p) by (intros p Hp'; unfold path_join; now rewrite Hp').
  assert (SH : starts_slash (path_join D r) = true) by (rewrite join_starts, SD; now rewrite Bool.orb_true_r).
  unfold relpath. rewrite (proj1 (abspath_comps cwd (path_join D r) Hc)), (proj1 (abspath_comps cwd D Hc)).
  rewrite !JD by assumption.
  assert (E : np_comps (path_join D r) = rev (x :: l) ++ np_comps D).
  { unfold np_comps. rewrite !np_abs, SH, SD, norm_split_join, Spl by exact Sr. now apply norm_propers. }
  rewrite E, rev_app_distr, rev_involutive, drop_common_app. cbn [map app]. now apply joins_concat.
Qed.

(** os.path.relpath leads from the directory to the path. *)
Lemma drop_common_spec a : forall b r u, drop_common a b = (r, u) -> exists c, a = c ++ r /\ b = c ++ u.
Proof.
  induction a as [|x a IH]; intros b r u H; [injection H as <- <-; now exists []|].
  destruct b as [|y b]; cbn in H; [injection H as <- <-; now exists []|].
  destruct (String.eqb_spec x y) as [<-|n]; [|injection H as <- <-; now exists []].
  destruct (IH b r u H) as (c & -> & ->). now exists (x :: c).
Qed.
Lemma norm_back (up : list string) : forall base, Forall proper up ->
  norm_loop true (map (fun _ => "..") up) (rev up ++ base) = base.
Proof.
  induction up as [|x up IH] using rev_ind; intros base H; [reflexivity|].
  apply Forall_app in H. destruct H as [H1 H2]. inversion H2 as [|? ? (_ & _ & Hx & _) _]; subst.
  rewrite rev_app_distr. cbn [rev app]. rewrite map_app. cbn [map].
  replace (map (fun _ => "..") up ++ [".."]) with (".." :: map (fun _ : string => "..") up)
    by (clear; induction up as [|a up IH]; [reflexivity|cbn; now rewrite <- IH]).
  cbn [norm_loop]. cbn [String.eqb orb]. apply String.eqb_neq in Hx. cbn. rewrite Hx. now apply IH.
Qed.
Lemma norm_joins abs l : Forall no_slash l -> forall x acc,
  norm_loop abs (split_slash (path_joins x l)) acc = norm_loop abs l (norm_loop abs (split_slash x) acc).
Proof.
  induction 1 as [|y l Hy _ IH]; intros x acc; [reflexivity|]. cbn [path_joins fold_left]. 
  change (fold_left path_join l (path_join x y)) with (path_joins (path_join x y) l).
  rewrite IH, norm_split_join by (now apply no_slash_starts). rewrite (split_no_slash y Hy).
  change (y :: l) with ([y] ++ l). now rewrite norm_app.
Qed.
Lemma relpath_leads cwd p start : starts_slash cwd = true ->
  realpath cwd (path_join start (relpath cwd p start)) = realpath cwd p.
Proof.
  intros Hc. rewrite !realpath_abs. f_equal.
  assert (C : forall q, rev (components cwd q) = rp_comps cwd q /\ Forall proper (components cwd q)).
  { intros q. destruct (abspath_comps cwd q Hc) as [E N]. split.
    - rewrite E, rev_involutive. unfold np_comps, rp_comps.
      rewrite np_abs, join_starts, Hc, Bool.orb_true_r.
      destruct (starts_slash q) eqn:Q; [unfold path_join; now rewrite Q|now apply norm_split_join].
    - rewrite E. apply Forall_rev. now apply normal_true_proper. }
  unfold relpath. destruct (drop_common (components cwd p) (components cwd start)) as [rest up] eqn:E.
  destruct (drop_common_spec _ _ _ _ E) as (c & Ep & Es).
  destruct (C p) as [Cp Pp]. destruct (C start) as [Cs Ps]. rewrite Ep in Cp, Pp. rewrite Es in Cs, Ps.
  apply Forall_app in Pp, Ps. destruct Pp as [_ Pr], Ps as [_ Pu].
  set (L := (map (fun _ => "..") up ++ rest)%list).
  assert (NL : Forall no_slash L).
  { apply Forall_app. split; [|eapply Forall_impl; [|exact Pr]; intros s (_ & _ & _ & H); exact H].
    clear. induction up; constructor; [cbn; repeat split; discriminate|assumption]. }
  assert (K : norm_loop true L (rp_comps cwd start) = rp_comps cwd p).
  { unfold L. rewrite <- Cs, <- Cp, !rev_app_distr, norm_app, norm_back by exact Pu. now rewrite norm_propers. }
  assert (G : forall r, starts_slash r = false -> norm_loop true (split_slash r) (rp_comps cwd start) = rp_comps cwd p ->
    rp_comps cwd (path_join start r) = rp_comps cwd p).
  { intros r Hr Hn. unfold rp_comps at 1. rewrite norm_split_join by exact Hr.
    rewrite join_starts, Hr. cbn [orb]. exact Hn. }
  destruct L as [|x l] eqn:EL; [apply G; [reflexivity|]; cbn; exact K|].
  inversion NL as [|? ? Nx Nl]; subst. apply G.
  - assert (H : forall l x, starts_slash x = false -> x <> "" -> starts_slash (path_joins x l) = false \/ Exists (fun y => starts_slash y = true) l).
    { clear. induction l as [|y l IH]; intros x H N; [now left|]. cbn [path_joins fold_left].
      change (fold_left path_join l (path_join x y)) with (path_joins (path_join x y) l).
      destruct (starts_slash y) eqn:Y; [right; now left|]. destruct (IH (path_join x y)) as [I|I]; auto.
      - now rewrite join_starts, Y, H.
      - unfold path_join. rewrite Y. destruct x; [congruence|]. destruct (ends_slash _); discriminate. }
    destruct (H l x) as [G'|G']; [now apply no_slash_starts| |exact G'|].
    + assert (In x (map (fun _ => "..") up ++ rest)%list) as Hx by (unfold L in EL; rewrite EL; now left).
      apply in_app_iff in Hx. destruct Hx as [Hx|Hx].
      * apply in_map_iff in Hx. destruct Hx as (_ & <- & _). discriminate.
      * rewrite Forall_forall in Pr. now destruct (Pr x Hx).
    + exfalso. clear - G' Nl. induction G' as [y l Hy|y l _ IH]; inversion Nl as [|? ? N1 N2]; subst; auto.
      rewrite (no_slash_starts y N1) in Hy. discriminate.
  - rewrite norm_joins by exact Nl. rewrite (split_no_slash x Nx). rewrite <- norm_app. exact K.
Qed.
Lemma library_file_name pl d x : file_name x ->
  library_tgt pl (d ++ "/" ++ x) None = path_join (pl_lib pl) x /\ library_tgt pl x None = path_join (pl_lib pl) x.
Proof.
  intros H. apply file_name_proper in H. destruct H as (_ & _ & _ & H). unfold library_tgt, basename, path_split.
  change (d ++ "/" ++ x)%string with (d ++ String slash x)%string.
  rewrite (cut_at d x H), (cut_no_slash x H). split; reflexivity.
Qed.
