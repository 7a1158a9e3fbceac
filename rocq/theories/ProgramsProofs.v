(** Lemmas: scripts with several C++ programs (C89). *)
From Verif Require Import PyBase PyPath SolverModel SpecGraph InvokerModel SpecTrace CoreModel SpecCore MakeModel UtilModel SpecMake
  RegModel CliModel SpecUtil SpecReg SpecProject SpecTrack SpecCxxTrack FormatModel ModulesModel CxxModel SpecCxx CxxProofs CxxMakeProofs
  SpecCxxScript CxxItems ProgramsModel.
Local Open Scope string_scope.
Local Open Scope list_scope.

Section Programs.
  Variables (sh : string -> string -> buildfun) (cwd home : string) (tool : toolchain) (glob_ : string -> list string) (fuel : nat).
  Notation at_ s := (fun d : string => s (realpath cwd d)).
  Notation stmts dfile := (ccalls_stmts sh cwd home tool glob_ dfile fuel).
  Notation stmts1 dfile := (ccall_stmts sh cwd home tool glob_ dfile fuel).

  Lemma call_items dfile0 lib below top c lib' st : stmts1 dfile0 lib below top c = Ok (lib', st) ->
    exists its, Forall (compiled_item sh cwd) its /\ forall s : ctx, stmts1 (at_ s) lib below top c = Ok (lib', script_at cwd its s).
  Proof.
    destruct c as [p|name impl default kw|type name target impl default kw|name a b target impl default kw]; cbn [ccall_stmts]; intros H.
    - injection H as <- <-. exists [IStmt p]. split; [repeat constructor|]. reflexivity.
    - apply bind_ok in H as (lib1 & E & H). injection H as <- <-. exists []. split; [constructor|]. intros s. now rewrite E.
    - apply bind_ok in H as ([[[r o] lib1] ev] & E & H). injection H as <- <-.
      destruct (task_items sh cwd home tool glob_ _ _ _ _ _ _ _ _ _ _ _ _ _ _ _ E) as (its & Fi & Hi).
      exists its. split; [exact Fi|]. intros s. destruct (Hi s) as (ev' & -> & S). cbn [bind]. now rewrite S.
    - apply bind_ok in H as ([[[ra oa] lib1] ev1] & E1 & H). apply bind_ok in H as ([[[rb ob] lib2] ev2] & E2 & H).
      apply bind_ok in H as (ta & Ea & H). apply bind_ok in H as (tb & Eb & H). injection H as <- <-.
      destruct (task_items sh cwd home tool glob_ _ _ _ _ _ _ _ _ _ _ _ _ _ _ _ E1) as (its1 & F1 & H1).
      destruct (task_items sh cwd home tool glob_ _ _ _ _ _ _ _ _ _ _ _ _ _ _ _ E2) as (its2 & F2 & H2).
      exists (its1 ++ its2 ++ fixed sh cwd home [VFileset name [ta; tb]]). split; [repeat (apply Forall_app; split); [exact F1|exact F2|apply fixed_compiled]|].
      intros s. destruct (H1 s) as (ev1' & -> & S1). destruct (H2 s) as (ev2' & E2' & S2). cbn [bind]. rewrite E2'. cbn [bind]. rewrite Ea. cbn [bind]. rewrite Eb. cbn [bind].
      f_equal. f_equal. exact (says_app sh cwd home _ _ s _ _ S1 (says_app sh cwd home _ _ s _ _ S2 (says_fixed sh cwd home s _))).
  Qed.
  Theorem calls_items dfile0 : forall l lib lib' st, stmts dfile0 lib l = Ok (lib', st) ->
    exists its, Forall (compiled_item sh cwd) its /\ forall s : ctx, stmts (at_ s) lib l = Ok (lib', script_at cwd its s).
  Proof.
    induction l as [|[[below top] c] l IH]; intros lib lib' st H; cbn [ccalls_stmts] in H.
    - injection H as <- <-. exists []. split; [constructor|]. reflexivity.
    - apply bind_ok in H as ([lib1 a] & E1 & H). apply bind_ok in H as ([lib2 b] & E2 & H). injection H as <- <-.
      destruct (call_items _ _ _ _ _ _ _ E1) as (its1 & F1 & H1). destruct (IH _ _ _ E2) as (its2 & F2 & H2).
      exists (its1 ++ its2). split; [apply Forall_app; auto|]. intros s. cbn [ccalls_stmts]. rewrite H1. cbn [bind]. rewrite H2. cbn [bind].
      unfold script_at. now rewrite flat_map_app.
  Qed.

  (** *** Objects of sources *)
  Lemma combine_in {A B} (x y : list A) (u v : list B) a b : List.length x = List.length u ->
    In (a, b) (List.combine (x ++ y) (u ++ v)) -> In (a, b) (List.combine x u) \/ In (a, b) (List.combine y v).
  Proof.
    revert u. induction x as [|a0 x IH]; intros [|b0 u] L H; try discriminate; [now right|]. cbn in *. destruct H as [H|H]; [auto|].
    injection L as L. destruct (IH u L H); auto.
  Qed.
  Lemma combine_map {A B} (f : A -> B) l a b : In (a, b) (List.combine l (map f l)) -> b = f a /\ In a l.
  Proof. induction l as [|x l IH]; [intros []|]. cbn. intros [H|H]; [injection H as <- <-; auto|]. destruct (IH H). auto. Qed.
  Lemma members_same v a b : members v a -> members v b -> a = b.
  Proof.
    intros [->|(s & -> & ->)] [E|(s' & E & ->)]; try discriminate.
    - injection E as E. revert b E. induction a as [|x a IH]; intros [|y b] E; try discriminate; [reflexivity|]. cbn in E. injection E as -> E. f_equal. auto.
    - now injection E as <-.
  Qed.
  Lemma texts_same o k a b : texts o k a -> texts o k b -> a = b.
  Proof. intros (v & E & M) (v' & E' & M'). rewrite E in E'. injection E' as <-. now apply (members_same v). Qed.
  Lemma expands_same a b c : expands glob_ a b -> expands glob_ a c -> b = c.
  Proof.
    intros H. revert c. induction H; intros c H'; inversion H'; subst; try contradiction; [reflexivity|f_equal; auto..].
  Qed.
  Lemma contributes_same o k a b : contributes home o k a -> contributes home o k b -> a = b.
  Proof.
    assert (N : forall v, members v [] -> v <> VNone) by (intros v [->|(s & -> & _)]; discriminate).
    assert (N' : forall v p, members v p -> v <> VNone) by (intros v p [->|(s & -> & _)]; discriminate).
    intros [H1|v H1 M1|v ps dir sub H1 M1 D1 S1] [H2|v' H2 M2|v' ps' dir' sub' H2 M2 D2 S2]; try reflexivity.
    - exfalso. destruct H1 as [H1|H1]; [congruence|]. apply (N' _ _ M2). congruence.
    - assert (v = v') by congruence. subst v'. now rewrite <- (members_same _ _ _ M1 M2).
    - exfalso. destruct H2 as [H2|H2]; [congruence|]. apply (N' _ _ M1). congruence.
    - assert (v = v') by congruence. subst v'. now rewrite <- (members_same _ _ _ M2 M1).
    - assert (v = v') by congruence. subst v'. rewrite (members_same _ _ _ M1 M2). assert (dir = dir') by congruence. subst dir'.
      assert (sub = sub') as ->; [|reflexivity]. destruct S1 as [S1|[S1 ->]], S2 as [S2|[S2 ->]]; congruence.
  Qed.
  Lemma task_simple dfile lib below top name target impl type default kw r o lib' ev :
    task home tool glob_ dfile fuel lib below top name target impl type default kw = Ok (r, o, lib', ev) ->
    impl = None \/ default = true -> type <> "objects" ->
    exists f lib1 base, simple_modmake home tool glob_ dfile f lib1 (name ++ "__module") None base r o lib' ev.
  Proof.
    intros H Hd Hty. pose proof (task_without_submodules _ _ _ _ _ _ _ _ _ _ _ _ _ _ _ _ _ _ H Hd) as Hno.
    unfold task in H. destruct (String.eqb_spec type "objects") as [?|_]; [congruence|].
    apply bind_ok in H as (lib1 & Hm & H). rewrite prepare_nil in H. destruct fuel as [|f]; [discriminate|]. exists f, lib1. eexists. apply modmake_simple in H; [exact H|exact Hno].
  Qed.
  Lemma object_of dfile lib below top name target impl type default kw r o lib' ev :
    task home tool glob_ dfile fuel lib below top name target impl type default kw = Ok (r, o, lib', ev) ->
    impl = None \/ default = true -> type <> "objects" -> texts o "qt_moc" [] ->
    exists b, text o "builddir" b /\ forall src ob, In (src, ob) (compiled ev) -> ob = build_path b "o" None src.
  Proof.
    intros H Hd Hty Hq. destruct (task_simple _ _ _ _ _ _ _ _ _ _ _ _ _ _ H Hd Hty) as (f & lib1 & base & Hs).
    apply simple_built in Hs as (b & sl & ml & ol & srcs & mocs & Hb & _ & Hml & _ & _ & Hmo & Hc & _). exists b. split; [exact Hb|].
    pose proof (texts_same _ _ _ _ Hml Hq) as ->. inversion Hmo; subst. intros src ob Hin. rewrite Hc in Hin. cbn [map] in Hin. rewrite !app_nil_r in Hin.
    now apply combine_map in Hin.
  Qed.
  Theorem same_object dfile lib below top name target impl type default kw r o lib' ev
      dfile2 lib2 below2 top2 name2 target2 impl2 type2 default2 kw2 r2 o2 lib2' ev2 src ob ob2 b :
    task home tool glob_ dfile fuel lib below top name target impl type default kw = Ok (r, o, lib', ev) ->
    task home tool glob_ dfile2 fuel lib2 below2 top2 name2 target2 impl2 type2 default2 kw2 = Ok (r2, o2, lib2', ev2) ->
    impl = None \/ default = true -> impl2 = None \/ default2 = true -> type <> "objects" -> type2 <> "objects" ->
    texts o "qt_moc" [] -> texts o2 "qt_moc" [] -> text o "builddir" b -> text o2 "builddir" b ->
    In (src, ob) (compiled ev) -> In (src, ob2) (compiled ev2) -> ob = ob2.
  Proof.
    intros H H2 Hi Hi2 Ht Ht2 Hq Hq2 Hb Hb2 Hin Hin2.
    destruct (object_of _ _ _ _ _ _ _ _ _ _ _ _ _ _ H Hi Ht Hq) as (b1 & Hb1 & K1). destruct (object_of _ _ _ _ _ _ _ _ _ _ _ _ _ _ H2 Hi2 Ht2 Hq2) as (b2 & Hb2' & K2).
    unfold text in *. assert (b1 = b) by congruence. assert (b2 = b) by congruence. subst b1 b2. now rewrite (K1 _ _ Hin), (K2 _ _ Hin2).
  Qed.
  Lemma compiled_stmt ev src ob : In (src, ob) (compiled ev) ->
    exists f ds b, In (SRule f ob ds b) (map (event_stmt sh cwd home) ev).
  Proof.
    intros H. unfold compiled in H. apply in_flat_map in H as (e & He & H). destruct e as [| | |k t s' ds rule co f]; try destruct H.
    destruct k; cbn in H; try contradiction. destruct H as [H|[]]. injection H as <- <-. eexists _, _, _. apply in_map_iff. eexists. split; [|exact He]. reflexivity.
  Qed.
  Lemma nodup_disj {A} (a b : list A) x : NoDup (a ++ b) -> In x a -> In x b -> False.
  Proof. induction a as [|y a IH]; intros N Ha Hb; [destruct Ha|]. cbn in N. inversion N; subst. destruct Ha as [->|Ha]; [|auto]. apply H1, in_app_iff. now right. Qed.
  Lemma twice_not_in_order exists_ l0 l1 s1 s2 p : In p (declares cwd home glob_ s1) -> In p (declares cwd home glob_ s2) -> In s1 l0 -> In s2 l1 ->
    ~ in_order cwd home glob_ exists_ (l0 ++ l1).
  Proof.
    intros H1 H2 I1 I2 ok. pose proof (io_once _ _ _ _ _ ok) as N. rewrite flat_map_app in N.
    apply (nodup_disj _ _ p N); apply in_flat_map; eauto.
  Qed.
  Theorem shared_not_in_order dfile lib below top name target impl type default kw r o lib' ev
      dfile2 lib2 below2 top2 name2 target2 impl2 type2 default2 kw2 r2 o2 lib2' ev2 src b exists_ l0 l1 :
    task home tool glob_ dfile fuel lib below top name target impl type default kw = Ok (r, o, lib', ev) ->
    task home tool glob_ dfile2 fuel lib2 below2 top2 name2 target2 impl2 type2 default2 kw2 = Ok (r2, o2, lib2', ev2) ->
    impl = None \/ default = true -> impl2 = None \/ default2 = true -> type <> "objects" -> type2 <> "objects" ->
    texts o "qt_moc" [] -> texts o2 "qt_moc" [] -> text o "builddir" b -> text o2 "builddir" b ->
    In src (map fst (compiled ev)) -> In src (map fst (compiled ev2)) ->
    incl (map (event_stmt sh cwd home) ev) l0 -> incl (map (event_stmt sh cwd home) ev2) l1 ->
    ~ in_order cwd home glob_ exists_ (l0 ++ l1).
  Proof.
    intros H H2 Hi Hi2 Ht Ht2 Hq Hq2 Hb Hb2 Hin Hin2 Hl0 Hl1.
    apply in_map_iff in Hin as ([s0 ob] & Es & Hin). apply in_map_iff in Hin2 as ([s3 ob2] & Es3 & Hin2). cbn in Es, Es3. subst s0 s3.
    pose proof (same_object _ _ _ _ _ _ _ _ _ _ _ _ _ _ _ _ _ _ _ _ _ _ _ _ _ _ _ _ _ _ _ _ H H2 Hi Hi2 Ht Ht2 Hq Hq2 Hb Hb2 Hin Hin2) as ->.
    destruct (compiled_stmt _ _ _ Hin) as (f1 & d1 & b1 & I1). destruct (compiled_stmt _ _ _ Hin2) as (f2 & d2 & b2 & I2).
    apply (twice_not_in_order exists_ l0 l1 _ _ (realpath cwd ob2)) with (3 := Hl0 _ I1) (4 := Hl1 _ I2); now left.
  Qed.
  Theorem calls_in_sequence dfile : forall l1 l2 lib lib1 st1, stmts dfile lib l1 = Ok (lib1, st1) ->
    forall lib2 st, stmts dfile lib (l1 ++ l2) = Ok (lib2, st) <-> exists st2, stmts dfile lib1 l2 = Ok (lib2, st2) /\ st = st1 ++ st2.
  Proof.
    induction l1 as [|[[below top] c] l1 IH]; intros l2 lib lib1 st1 H lib2 st.
    - injection H as <- <-. split; [intros K; now exists st|]. intros (st2 & K & ->). exact K.
    - cbn [app ccalls_stmts] in *. apply bind_ok in H as ([lib3 a] & Ha & H). rewrite Ha. cbn [bind].
      apply bind_ok in H as ([lib4 b] & Hb & H). injection H as -> <-. specialize (IH l2 _ _ _ Hb). split.
      + intros K. apply bind_ok in K as ([lib5 d] & Hd & K). injection K as -> <-. apply IH in Hd as (st2 & Hd & ->).
        exists st2. split; [exact Hd|apply app_assoc].
      + intros (st2 & Hd & ->). assert (K : stmts dfile lib3 (l1 ++ l2) = Ok (lib2, b ++ st2)) by (apply IH; eauto).
        rewrite K. cbn [bind]. now rewrite app_assoc.
  Qed.
  Lemma linked_stmt ev t obs : In (t, obs) (linked ev) -> In (realpath cwd t) (flat_map (makes cwd home glob_) (map (event_stmt sh cwd home) ev)).
  Proof.
    intros H. unfold linked in H. apply in_flat_map in H as (e & He & H). destruct e as [| | |k t' s' ds rule co f]; try destruct H.
    destruct k; cbn in H; try contradiction. destruct H as [H|[]]. injection H as <- <-. apply in_flat_map. eexists. split; [apply in_map; exact He|]. now left.
  Qed.
  Lemma task_target dfile lib below top name target impl type default kw r o lib' ev p :
    task home tool glob_ dfile fuel lib below top name target impl type default kw = Ok (r, o, lib', ev) ->
    impl = None \/ default = true -> type <> "objects" -> tgt_of cwd r = Ok p ->
    exists t, p = realpath cwd t /\ In p (flat_map (makes cwd home glob_) (map (event_stmt sh cwd home) ev)).
  Proof.
    intros H Hd Hty Hp. destruct (task_simple _ _ _ _ _ _ _ _ _ _ _ _ _ _ H Hd Hty) as (f & lib1 & base & Hs).
    apply simple_built in Hs as (b & sl & ml & ol & srcs & mocs & _ & _ & _ & _ & _ & _ & _ & [(_ & -> & _)|(t & _ & -> & Hl)]).
    - exfalso. destruct (map snd (compiled ev) ++ ol); discriminate.
    - cbn [tgt_of] in Hp. injection Hp as <-. exists t. split; [reflexivity|]. eapply linked_stmt. rewrite Hl. now left.
  Qed.
  Theorem static_and_shared_set dfile lib below top name a b target impl default kw lib' st :
    stmts1 dfile lib below top (CBoth name a b target impl default kw) = Ok (lib', st) -> impl = None \/ default = true ->
    exists st0 ta tb, st = st0 ++ [SSet name [realpath cwd ta; realpath cwd tb]] /\
      In (realpath cwd ta) (flat_map (makes cwd home glob_) st0) /\ In (realpath cwd tb) (flat_map (makes cwd home glob_) st0).
  Proof.
    intros H Hd. cbn [ccall_stmts] in H. apply bind_ok in H as ([[[ra oa] lib1] ev1] & Ha & H). apply bind_ok in H as ([[[rb ob] lib2] ev2] & Hb & H).
    apply bind_ok in H as (ta & Hta & H). apply bind_ok in H as (tb & Htb & H). injection H as <- <-.
    assert (Ea : exists t, ta = realpath cwd t /\ In ta (flat_map (makes cwd home glob_) (map (event_stmt sh cwd home) ev1))) by (eapply task_target; [exact Ha|exact Hd|discriminate|exact Hta]).
    assert (Eb : exists t, tb = realpath cwd t /\ In tb (flat_map (makes cwd home glob_) (map (event_stmt sh cwd home) ev2))) by (eapply task_target; [exact Hb|exact Hd|discriminate|exact Htb]).
    destruct Ea as (t & -> & Ia), Eb as (t' & -> & Ib). exists (map (event_stmt sh cwd home) (ev1 ++ ev2)), t, t'.
    rewrite !map_app. split; [now rewrite app_assoc|]. rewrite flat_map_app. split; apply in_app_iff; auto.
  Qed.
End Programs.
