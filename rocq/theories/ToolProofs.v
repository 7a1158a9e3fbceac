(** Toolchains (C86). *)
From Verif Require Import PyBase PyPath UtilModel FormatModel RegModel ModulesModel CxxModel SpecCxx CxxProofs CxxMakeProofs ToolModel SpecTool.
Local Open Scope string_scope.
Local Open Scope list_scope.

Lemma imported_ok : imported = Ok (PR "std" None standart_toolchain (CO standart_toolchain "" "" "" "" "" "" "" "")).
Proof. reflexivity. Qed.

Section Calls.
  Variable flags_of : list string -> res (bool * bool).
  Lemma pcall_keeps p a p' : pcall_step flags_of p a = Ok p' -> pr_table p' = pr_table p /\ pr_args p' = pr_args p.
  Proof.
    destruct a; cbn; [|now intros [= <-]]. unfold parse_tools. intros H. apply bind_ok in H as ([c g] & _ & H).
    injection H as <-. destruct c, g; auto.
  Qed.
  Lemma fold_keeps l p p' : fold_res (pcall_step flags_of) l p = Ok p' -> pr_table p' = pr_table p /\ pr_args p' = pr_args p.
  Proof.
    revert p. induction l as [|a l IH]; intros p H; cbn in H; [now injection H as <-|].
    apply bind_ok in H as (p1 & H1 & H). apply pcall_keeps in H1 as [E1 E2]. apply IH in H as [E3 E4]. split; congruence.
  Qed.
  Lemma kept l p : pcalls flags_of l = Ok p ->
    pr_table p = standart_toolchain /\ pr_args p = CO standart_toolchain "" "" "" "" "" "" "" "".
  Proof. unfold pcalls. rewrite imported_ok. cbn [bind]. intros H. apply fold_keeps in H. exact H. Qed.

  Lemma fold_snoc l a p : fold_res (pcall_step flags_of) (l ++ [a]) p =
    (do! p1 <- fold_res (pcall_step flags_of) l p; pcall_step flags_of p1 a).
  Proof.
    revert p. induction l as [|b l IH]; intros p; cbn.
    - destruct (pcall_step flags_of p a); reflexivity.
    - destruct (pcall_step flags_of p b); cbn; [apply IH|reflexivity|reflexivity].
  Qed.
  Lemma parse_step p argv p' : parse_tools flags_of p argv = Ok p' ->
    exists f, (match pr_memo p with Some f => Ok f | None => flags_of argv end) = Ok f /\ pr_memo p' = Some f /\
      pr_name p' = match asked f with Some n => n | None => pr_name p end.
  Proof.
    unfold parse_tools. intros H. apply bind_ok in H as (f & Hf & H). exists f. split; [exact Hf|].
    injection H as <-. destruct f as [[] []]; auto.
  Qed.
  (** Invariant: the flags kept are those of the first parse. *)
  Lemma decided_ok l p : pcalls flags_of l = Ok p ->
    exists f, first_flags flags_of l f /\ decided f l (pr_name p) /\
      (pr_memo p = None -> forall a, ~ In (PParse a) l) /\ (forall f', pr_memo p = Some f' -> f' = f /\ exists a, In (PParse a) l).
  Proof.
    unfold pcalls. rewrite imported_ok. cbn [bind]. set (p0 := PR _ _ _ _).
    revert p. induction l as [|a l IH] using rev_ind; intros p H.
    - injection H as <-. exists (false, false). split; [right; intros a []|]. split; [constructor|]. split; [intros _ a []|discriminate].
    - rewrite fold_snoc in H. apply bind_ok in H as (p1 & H1 & H). destruct (IH _ H1) as (f & Hf & Hd & Hn & Hs).
      destruct a as [argv|n].
      + cbn in H. apply parse_step in H as (f' & E & Em & En).
        destruct (pr_memo p1) as [f1|] eqn:E1.
        * injection E as <-. destruct (Hs _ eq_refl) as (-> & b & Hb). exists f. split; [|split; [|split]].
          -- left. destruct Hf as [(l1 & av & l2 & -> & Hl & Hfl)|Hno]; [|now apply Hno in Hb].
             exists l1, av, (l2 ++ [PParse argv]). rewrite <- app_assoc. auto.
          -- rewrite En. destruct (asked f) as [n|] eqn:Ea; [eapply dc_asks; eauto|now apply dc_silent].
          -- congruence.
          -- intros f' E'. split; [congruence|]. exists b. apply in_or_app. now left.
        * specialize (Hn eq_refl). exists f'. split; [|split; [|split]].
          -- left. exists l, argv, []. auto.
          -- assert (Hd' : decided f' l (pr_name p1)).
             { clear - Hd Hn. induction Hd as [|l a n m H IH E|l a n H IH E]; [constructor| |].
               - destruct a as [a|n']; [exfalso; apply (Hn a); apply in_or_app; right; now left|].
                 eapply dc_asks; [apply IH; intros a Ha; apply (Hn a); apply in_or_app; now left|exact E].
               - destruct a as [a|n']; [exfalso; apply (Hn a); apply in_or_app; right; now left|discriminate]. }
             rewrite En. destruct (asked f') as [n|] eqn:Ea; [eapply dc_asks; eauto|now apply dc_silent].
          -- congruence.
          -- intros f'' E'. split; [congruence|]. exists argv. apply in_or_app. right. now left.
      + cbn in H. injection H as <-. cbn. exists f. split; [|split; [|split]].
        * destruct Hf as [(l1 & av & l2 & -> & Hl & Hfl)|Hno].
          -- left. exists l1, av, (l2 ++ [PSet n]). rewrite <- app_assoc. auto.
          -- right. intros a Ha. apply in_app_or in Ha as [Ha|[Ha|[]]]; [now apply Hno in Ha|discriminate].
        * eapply dc_asks; eauto.
        * intros E a Ha. apply in_app_or in Ha as [Ha|[Ha|[]]]; [now apply Hn in Ha|discriminate].
        * intros f' E. destruct (Hs _ E) as (-> & b & Hb). split; [reflexivity|]. exists b. apply in_or_app. now left.
  Qed.
End Calls.

Lemma new_options_tool name o : new_options name None = Ok o <-> exists t, compilers name t /\ o = CO t "" "" "" "" "" "" "" "".
Proof.
  unfold new_options, default_toolchain. split.
  - destruct (String.eqb_spec name "clang") as [->|]; [|destruct (String.eqb_spec name "gcc") as [->|]; [|destruct (String.eqb_spec name "std") as [->|]]];
      intros [= <-]; eexists; split; try reflexivity; constructor.
  - intros (t & H & ->). destruct H; reflexivity.
Qed.

(** ** The toolchain of a module *)
Section Module.
  Variables (home : string) (tool : toolchain) (glob_ : string -> list string) (dfile : string -> option string).
  Notation base0 := (set_default_if_empty tool []).
  Lemma made_tool f lib name impl r o lib' ev m lib1 :
    modmake home tool glob_ dfile f lib name impl base0 = Ok (r, o, lib', ev) -> get lib name impl = Ok (m, lib1) ->
    sget o "toolchain" = Some (match sget (mod_opts lib1 m) "toolchain" with Some VNone | None => VTool tool | Some v => v end).
  Proof.
    intros H Hg. apply made_fixed in H as (m' & lib1' & o1 & Hg' & Hm & Hf).
    rewrite Hg in Hg'. injection Hg' as <- <-. rewrite Hf by (cbn; tauto).
    apply (merge_get _ _ _ _ _ _ "toolchain") in Hm.
    assert (Eb : sget base0 "toolchain" = Some (VTool tool)) by reflexivity. rewrite Eb in Hm.
    destruct Hm as (fd & w & Ef & -> & Hc). cbn in Ef. injection Ef as <-. unfold kind_of, given in Hc.
    destruct (sget (mod_opts lib1 m) "toolchain") as [v|]; [|cbn in Hc; now injection Hc as <-].
    destruct v; cbn in Hc; now injection Hc as <-.
  Qed.
  Lemma task_tool fuel lib below top name target impl type default kw r o lib' ev :
    task home tool glob_ dfile fuel lib below top name target impl type default kw = Ok (r, o, lib', ev) ->
    impl = None \/ default = true ->
    sget o "toolchain" = Some (match sget kw "toolchain" with Some VNone | None => VTool tool | Some v => v end).
  Proof.
    unfold task. intros H Hd. destruct (String.eqb_spec type "objects") as [->|Hty].
    - apply bind_ok in H as (lib1 & Hm & H). apply bind_ok in H as ([[[r' o'] lib2] ev'] & H1 & H).
      apply bind_ok in H as (ss & _ & H). injection H as -> -> -> _. rewrite prepare_nil in H1.
      destruct (module_get _ _ _ _ _ _ _ _ Hm Hd) as (m & Hg & Eo).
      rewrite (made_tool _ _ _ _ _ _ _ _ _ _ H1 Hg), Eo, sget_mk_opts by discriminate. reflexivity.
    - apply bind_ok in H as (lib1 & Hm & H). rewrite prepare_nil in H.
      destruct (module_get _ _ _ _ _ _ _ _ Hm Hd) as (m & Hg & Eo).
      rewrite (made_tool _ _ _ _ _ _ _ _ _ _ H Hg), Eo, sget_mk_opts by discriminate. reflexivity.
  Qed.
  Lemma task_commands cwd fuel lib below top name target impl type default kw r o lib' ev t :
    task home tool glob_ dfile fuel lib below top name target impl type default kw = Ok (r, o, lib', ev) ->
    impl = None \/ default = true -> sget o "toolchain" = Some (VTool t) ->
    forall k tg s dp rule co fo, In (VRule k tg s dp rule co fo) ev ->
    exists c, command cwd (VRule k tg s dp rule co fo) = FOk c /\ starts t c.
  Proof.
    intros H Hd Ht k tg s dp rule co fo Hi. pose proof (task_without_submodules _ _ _ _ _ _ _ _ _ _ _ _ _ _ _ _ _ _ H Hd) as Hno.
    assert (Hm : exists f lib1 n r' ev', modmake home tool glob_ dfile (S f) lib1 n None base0 = Ok (r', o, lib', ev') /\ In (VRule k tg s dp rule co fo) ev').
    { unfold task in H. destruct (String.eqb_spec type "objects") as [->|Hty].
      - apply bind_ok in H as (lib1 & Hm & H). apply bind_ok in H as ([[[r' o'] lib2] ev'] & H1 & H).
        apply bind_ok in H as (ss & _ & H). injection H as -> -> -> <-. rewrite prepare_nil in H1.
        destruct fuel; [discriminate|]. exists fuel, lib1, name, r, ev'. split; [exact H1|].
        apply in_app_or in Hi as [Hi|[Hi|[]]]; [exact Hi|discriminate].
      - apply bind_ok in H as (lib1 & Hm & H). rewrite prepare_nil in H. destruct fuel; [discriminate|].
        do 5 eexists. split; [exact H|exact Hi]. }
    destruct Hm as (f & lib1 & n & r' & ev' & Hm & Hi').
    destruct (made_commands _ _ _ _ cwd _ _ _ _ _ _ _ _ _ Hm Hno _ _ _ _ _ _ _ Hi') as (c & Hc & Hl). exists c. split; [exact Hc|].
    assert (Eq : forall t', sget o "toolchain" = Some (VTool t') -> t' = t) by (intros t' E; rewrite Ht in E; now injection E).
    clear - Hl Eq. unfold starts, programs.
    destruct k.
    - destruct Hl as [t' ? ? ? ? ? _ E|t' ? ? ? ? ? _ E]; apply Eq in E as ->; [exists (tc_cxx t)|exists (tc_cc t)];
        eexists; (split; [cbn; tauto|cbn; reflexivity]).
    - destruct Hl as [t' ? ? ? ? ? ? _ E|t' ? ? ? ? ? ? _ E]; apply Eq in E as ->; [exists (tc_cxx t)|exists (tc_cc t)];
        eexists; (split; [cbn; tauto|cbn; reflexivity]).
    - destruct Hl as (t' & E & ->). apply Eq in E as ->. exists (tc_moc t). eexists. split; [cbn; tauto|cbn; reflexivity].
    - destruct Hl as (t' & E & ->). apply Eq in E as ->. exists (tc_uic t). eexists. split; [cbn; tauto|cbn; reflexivity].
    - destruct Hl as (ty & _ & _ & Hl). destruct Hl as [t' ? ? ? ? E|t' ? ? ? ? E|t' E]; apply Eq in E as ->;
        [exists (tc_cxx t)|exists (tc_cxx t)|exists (tc_ar t)]; eexists; (split; [cbn; tauto|cbn; reflexivity]).
  Qed.
End Module.
