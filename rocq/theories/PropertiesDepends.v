(** C110: what is needed before a source is compiled (cxx_modules.py:463-517): the copied headers,
    the files listed in depends and the headers generated by uic.  [In d dp]: the rule depends on
    [d], so that by C03 it starts after [d] is made. *)
From Verif Require Import PyBase PyPath FormatModel UtilModel RegModel ModulesModel SpecModules CxxModel SpecCxx SpecOptions.
From Verif Require Import PathProofs CxxProofs CxxMakeProofs OptionsProofs CxxExamples.
Local Open Scope string_scope.
Local Open Scope list_scope.

Section Depends.
  Variables (home : string) (tool : toolchain) (glob_ : string -> list string) (dfile : string -> option string).

  Lemma object_rule s t co dp e k t' s' dp' rule o f : object s t co dp = Ok e -> e = VRule k t' s' dp' rule o f -> k = RObject /\ s' = s /\ dp' = dp.
  Proof. unfold object. intros H ->. apply bind_ok in H as (l & _ & H). injection H as <- _ <- <- _ _ _. auto. Qed.
  Lemma depend_rule s t co dp fc e k t' s' dp' rule o f : depend s t co dp fc = Ok e -> e = VRule k t' s' dp' rule o f -> k = RDepend /\ s' = s /\ dp' = dp.
  Proof. unfold depend. intros H ->. apply bind_ok in H as (l & _ & H). injection H as <- _ <- <- _ _ _. auto. Qed.
  Lemma link_objects_needs srcs objs deps co ad ev : link_objects dfile srcs objs deps co ad = Ok ev ->
    forall k t s dp rule o f, In (VRule k t s dp rule o f) ev -> (k = RObject \/ k = RDepend) /\ In s dp /\ incl ad dp.
  Proof.
    revert objs deps ev. induction srcs as [|s0 srcs IH]; intros objs deps ev H; [inversion H; intros ? ? ? ? ? ? ? []|].
    destruct objs as [|ob objs]; [inversion H; intros ? ? ? ? ? ? ? []|].
    destruct deps as [|d deps]; [inversion H; intros ? ? ? ? ? ? ? []|].
    cbn [link_objects] in H. apply bind_ok in H as (e1 & H1 & H). apply bind_ok in H as (e2 & H2 & H).
    apply bind_ok in H as (es & H3 & H). apply ok_inj in H. intros k t s dp rule o f Hi. rewrite H in Hi.
    apply in_app_or in Hi as [[Hi|[]]|Hi]; [discriminate|].
    apply in_app_or in Hi as [Hi|Hi]; [apply in_map_iff in Hi as (? & ? & _); discriminate|].
    apply in_app_or in Hi as [[Hi|[Hi|[]]]|Hi].
    - destruct (depend_rule _ _ _ _ _ _ _ _ _ _ _ _ _ H1 Hi) as (-> & -> & ->). split; [auto|]. split; [apply in_eq|].
      intros x Hx. apply in_app_iff. right. apply in_app_iff. now left.
    - destruct (object_rule _ _ _ _ _ _ _ _ _ _ _ _ H2 Hi) as (-> & -> & ->). split; [auto|]. split; [apply in_eq|].
      intros x Hx. apply in_app_iff. right. apply in_app_iff. now left.
    - eapply IH; eauto.
  Qed.
  Lemma link_qt_needs k0 rule0 srcs tgts co ad k t s dp rule o f : In (VRule k t s dp rule o f) (link_qt k0 rule0 srcs tgts co ad) ->
    k = k0 /\ In t tgts /\ In s dp /\ incl ad dp.
  Proof.
    unfold link_qt. intros Hi. apply in_flat_map in Hi as ([a b] & Hab & [Hi|[Hi|[]]]); [discriminate|].
    injection Hi as -> <- <- <- _ _ _. cbn [fst snd] in *. split; [reflexivity|]. split; [eapply in_combine_r; eauto|]. split; [now left|].
    intros x Hx. now right.
  Qed.
  (** No copies. *)
  Definition no_copies (ev : list event) : Prop := forall s t, ~ In (VCopy s t) ev.
  Lemma link_qt_copies k rule srcs tgts co ad : no_copies (link_qt k rule srcs tgts co ad).
  Proof. intros s t Hi. unfold link_qt in Hi. apply in_flat_map in Hi as ([a b] & _ & [Hi|[Hi|[]]]); discriminate. Qed.
  Lemma link_objects_copies srcs objs deps co ad ev : link_objects dfile srcs objs deps co ad = Ok ev -> no_copies ev.
  Proof.
    revert objs deps ev. induction srcs as [|s0 srcs IH]; intros objs deps ev H; [inversion H; intros ? ? []|].
    destruct objs as [|ob objs]; [inversion H; intros ? ? []|]. destruct deps as [|d deps]; [inversion H; intros ? ? []|].
    cbn [link_objects] in H. apply bind_ok in H as (e1 & H1 & H). apply bind_ok in H as (e2 & H2 & H).
    apply bind_ok in H as (es & H3 & H). apply ok_inj in H. intros s t Hi. rewrite H in Hi.
    apply in_app_or in Hi as [[Hi|[]]|Hi]; [discriminate|].
    apply in_app_or in Hi as [Hi|Hi]; [apply in_map_iff in Hi as (? & ? & _); discriminate|].
    unfold depend in H1. apply bind_ok in H1 as (l1 & _ & H1). injection H1 as <-.
    unfold object in H2. apply bind_ok in H2 as (l2 & _ & H2). injection H2 as <-.
    apply in_app_or in Hi as [[Hi|[Hi|[]]]|Hi]; [discriminate|discriminate|]. exact (IH _ _ _ H3 _ _ Hi).
  Qed.

  Lemma module_objects_needs name o objs o2 ev : module_objects home glob_ dfile name o = Ok (objs, o2, ev) ->
    exists dl, texts o2 "depends" dl /\
    (exists hs, In (VFileset (name ++ "__local_headers__") hs) ev /\ forall s t, In (VCopy s t) ev -> In t hs) /\
    forall k t s dp rule co fo, In (VRule k t s dp rule co fo) ev ->
      In s dp /\ In (name ++ "__local_headers__")%string dp /\ incl (expand glob_ dl) dp /\
      (k <> RUic -> forall t' s' dp' rule' co' fo', In (VRule RUic t' s' dp' rule' co' fo') ev -> In t' dp).
  Proof.
    unfold module_objects. intros H. apply bind_ok in H as ([o1 ev1] & H1 & H).
    apply bind_ok in H as (dl & Hdl & H). apply bind_ok in H as (sl & _ & H). apply bind_ok in H as (b & _ & H).
    apply bind_ok in H as (co & Hco & H). apply bind_ok in H as ([[[o2' co2] ad2] ev2] & H2 & H).
    apply bind_ok in H as ([[[ms mo] md] ev3] & H3 & H). apply bind_ok in H as (ev4 & H4 & H).
    apply bind_ok in H as (ol & _ & H). apply ok_inj in H. injection H as -> -> ->.
    assert (R1 : forall k t s dp rule co fo, ~ In (VRule k t s dp rule co fo) ev1).
    { unfold local_headers in H1. apply bind_ok in H1 as (l & _ & H1). apply bind_ok in H1 as (ps & _ & H1).
      apply bind_ok in H1 as (bd & _ & H1). apply bind_ok in H1 as (o1' & _ & H1). injection H1 as _ <-.
      intros k t s dp rule co' fo Hi. apply in_app_or in Hi as [Hi|[Hi|[]]]; [|discriminate].
      apply in_flat_map in Hi as ([x y] & _ & [Hi|[Hi|[]]]); discriminate. }
    assert (F1 : exists hs, In (VFileset (name ++ "__local_headers__") hs) ev1 /\ forall s t, In (VCopy s t) ev1 -> In t hs).
    { unfold local_headers in H1. apply bind_ok in H1 as (l & _ & H1). apply bind_ok in H1 as (ps & _ & H1).
      apply bind_ok in H1 as (bd & _ & H1). apply bind_ok in H1 as (o1' & _ & H1). injection H1 as _ <-.
      eexists. split; [apply in_app_iff; right; left; reflexivity|].
      intros s t Hi. apply in_app_or in Hi as [Hi|[Hi|[]]]; [|discriminate].
      apply in_flat_map in Hi as ([x y] & Hxy & [Hi|[Hi|[]]]); [discriminate|]. injection Hi as _ <-.
      apply in_map_iff. exists (x, y). auto. }
    set (ad := (name ++ "__local_headers__")%string :: expand glob_ dl) in *.
    assert (Ad1 : In (name ++ "__local_headers__")%string ad) by now left.
    assert (Ad2 : incl (expand glob_ dl) ad) by (intros x Hx; now right). clearbody ad.
    assert (S2 : (forall k, k <> "include_paths" -> sget o2' k = sget o1 k)) by (exact (proj1 (qt_ui_same _ _ _ _ _ _ _ _ _ H2))).
    assert (A2 : incl ad ad2 /\ no_copies ev2 /\ forall k t s dp rule co fo, In (VRule k t s dp rule co fo) ev2 -> k = RUic /\ In t ad2 /\ In s dp /\ incl ad dp).
    { unfold qt_ui_part in H2. apply bind_ok in H2 as (ui & _ & H2). destruct ui as [|u ui].
      - injection H2 as _ _ <- <-. split; [apply incl_refl|]. split; [intros ? ? []|]. intros ? ? ? ? ? ? ? [].
      - apply bind_ok in H2 as (bd & _ & H2). apply bind_ok in H2 as (l & _ & H2). apply bind_ok in H2 as (inc & _ & H2).
        apply bind_ok in H2 as (o1' & _ & H2). apply bind_ok in H2 as (co1 & _ & H2). injection H2 as _ _ <- <-.
        split; [intros x Hx; apply in_app_iff; now left|]. split; [apply link_qt_copies|].
        intros k t s dp rule co' fo Hi. apply link_qt_needs in Hi as (-> & Ht & Hs & Ha). split; [reflexivity|].
        split; [apply in_app_iff; now right|]. auto. }
    destruct A2 as (A2 & N2 & R2).
    assert (A3 : no_copies ev3 /\ forall k t s dp rule co fo, In (VRule k t s dp rule co fo) ev3 -> k = RMoc /\ In s dp /\ incl ad2 dp).
    { unfold qt_moc_part in H3. apply bind_ok in H3 as (bd & _ & H3). apply bind_ok in H3 as (l & _ & H3). destruct l as [|u l].
      - injection H3 as _ _ _ <-. split; [intros ? ? []|]. intros ? ? ? ? ? ? ? [].
      - injection H3 as _ _ _ <-. split; [apply link_qt_copies|].
        intros k t s dp rule co' fo Hi. apply link_qt_needs in Hi as (-> & _ & Hs & Ha). auto. }
    destruct A3 as (N3 & R3). pose proof (link_objects_needs _ _ _ _ _ _ H4) as R4. pose proof (link_objects_copies _ _ _ _ _ _ H4) as N4.
    exists dl. split; [|split].
    - apply ostrs_texts in Hdl. unfold texts in *. rewrite S2 by discriminate. exact Hdl.
    - destruct F1 as (hs & Fi & Fc). exists hs. split; [apply in_app_iff; now left|].
      intros s t Hi. apply in_app_or in Hi as [Hi|Hi]; [eauto|]. exfalso.
      apply in_app_or in Hi as [Hi|Hi]; [exact (N2 _ _ Hi)|]. apply in_app_or in Hi as [Hi|Hi]; [exact (N3 _ _ Hi)|].
      apply in_app_or in Hi as [Hi|Hi]; [exact (N4 _ _ Hi)|]. apply in_map_iff in Hi as (? & ? & _); discriminate.
    - assert (U : forall t' s' dp' rule' co' fo', In (VRule RUic t' s' dp' rule' co' fo') (ev1 ++ ev2 ++ ev3 ++ ev4 ++ map VSource ol) -> In t' ad2).
      { intros t' s' dp' rule' co' fo' Hi. apply in_app_or in Hi as [Hi|Hi]; [destruct (R1 _ _ _ _ _ _ _ Hi)|].
        apply in_app_or in Hi as [Hi|Hi]; [apply (R2 _ _ _ _ _ _ _ Hi)|].
        apply in_app_or in Hi as [Hi|Hi]; [apply R3 in Hi as (? & _); discriminate|].
        apply in_app_or in Hi as [Hi|Hi]; [apply R4 in Hi as ([?|?] & _); discriminate|]. apply in_map_iff in Hi as (? & ? & _); discriminate. }
      intros k t s dp rule co' fo Hi.
      assert (E : In s dp /\ incl ad dp /\ (k <> RUic -> incl ad2 dp)).
      { apply in_app_or in Hi as [Hi|Hi]; [destruct (R1 _ _ _ _ _ _ _ Hi)|].
        apply in_app_or in Hi as [Hi|Hi]; [apply R2 in Hi as (-> & _ & Hs & Ha); split; [exact Hs|]; split; [exact Ha|congruence]|].
        apply in_app_or in Hi as [Hi|Hi]; [apply R3 in Hi as (_ & Hs & Ha); split; [exact Hs|]; split; [|auto]; exact (incl_tran A2 Ha)|].
        apply in_app_or in Hi as [Hi|Hi]; [apply R4 in Hi as (_ & Hs & Ha); split; [exact Hs|]; split; [|auto]; exact (incl_tran A2 Ha)|].
        apply in_map_iff in Hi as (? & ? & _); discriminate. }
      destruct E as (Es & Ea & Eu). split; [exact Es|]. split; [now apply Ea|]. split; [exact (incl_tran Ad2 Ea)|].
      intros Hk t' s' dp' rule' co'' fo' Hi'. apply (Eu Hk). eauto.
  Qed.
End Depends.

(** Every rule that compiles, generates or lists headers depends on its source, on the set of the
    copied headers, on all files that the program lists in depends and, uic itself excepted, on all
    headers that uic generates. *)
Theorem C110_program :
  forall home tool glob_ dfile fuel lib below top name target impl type default kw r o lib' ev,
  task home tool glob_ dfile fuel lib below top name target impl type default kw = Ok (r, o, lib', ev) ->
  impl = None \/ default = true ->
  exists set hs dl ds, In (VFileset set hs) ev /\ (forall s t, In (VCopy s t) ev -> In t hs) /\
    (texts kw "depends" dl \/ sget kw "depends" = None /\ dl = []) /\ expands glob_ dl ds /\
    forall k t s dp rule co fo, In (VRule k t s dp rule co fo) ev -> k <> RLink ->
      In s dp /\ In set dp /\ (forall d, In d ds -> In d dp) /\
      (k <> RUic -> forall t' s' dp' rule' co' fo', In (VRule RUic t' s' dp' rule' co' fo') ev -> In t' dp).
Proof.
  intros home tool glob_ dfile fuel lib below top name target impl type default kw r o lib' ev H Hd.
  pose proof (task_without_submodules _ _ _ _ _ _ _ _ _ _ _ _ _ _ _ _ _ _ H Hd) as Hno.
  assert (T : exists f n lib1 lib2 r' ev1 m, modmake home tool glob_ dfile (S f) lib1 n None (set_default_if_empty tool []) = Ok (r', o, lib2, ev1) /\
    get lib1 n None = Ok (m, lib1) /\ sget (mod_opts lib1 m) "depends" = sget kw "depends" /\
    (ev = ev1 \/ exists ss, ev = ev1 ++ [VFileset name ss])).
  { unfold task in H. destruct (String.eqb type "objects").
    - apply bind_ok in H as (lib1 & Hm & H). apply bind_ok in H as ([[[r' o'] lib2] ev'] & H1 & H).
      apply bind_ok in H as (ss & _ & H). injection H as -> -> -> <-. destruct (module_get _ _ _ _ _ _ _ _ Hm Hd) as (m & Hg & Eo).
      rewrite prepare_nil in H1. destruct fuel as [|f]; [discriminate|]. do 7 eexists. split; [exact H1|]. split; [exact Hg|].
      split; [rewrite Eo, sget_mk_opts by discriminate; reflexivity|eauto].
    - cbn zeta in H. apply bind_ok in H as (lib1 & Hm & H). destruct (module_get _ _ _ _ _ _ _ _ Hm Hd) as (m & Hg & Eo).
      rewrite prepare_nil in H. destruct fuel as [|f]; [discriminate|]. do 7 eexists. split; [exact H|]. split; [exact Hg|].
      split; [rewrite Eo, sget_mk_opts by discriminate; reflexivity|auto]. }
  clear H. destruct T as (f & n & lib1 & lib2 & r' & ev1 & m & H & Hg & Ed & Eev).
  assert (Ek : sget o "depends" = match sget kw "depends" with Some v => Some v | None => Some (VList []) end).
  { destruct (options_made _ _ _ _ _ _ _ _ _ _ _ _ _ [] H) as (m' & lib1' & gl & sl & os & lib2' & ms & lib3 & inc & Hg' & _ & _ & _ & _ & M); [reflexivity|].
    rewrite Hg in Hg'. injection Hg' as <- <-. rewrite <- Ed. apply (mw_own _ _ _ _ _ M "depends" (VList [])); [cbn; tauto|].
    pose proof (defaults_get tool [] "depends") as B. rewrite B. cbn. congruence. }
  apply modmake_simple in H; [|exact Hno]. destruct H as (m' & o0 & objs & ev2 & ev3 & _ & H2 & H3 & ->).
  apply module_objects_needs in H2 as (dl & Hdl & (hs & Fi & Fc) & R).
  assert (X : forall e, In e ev -> (forall a b c d x y, e <> VRule RLink a b c d x y) -> (forall a b, e <> VFileset a b) -> In e ev2).
  { assert (X3 : forall e, In e ev3 -> exists a b c d x y, e = VRule RLink a b c d x y).
    { apply (finish_inv home glob_ dfile) in H3 as [(_ & _ & ->)|(ty & t & ss & e & d & rl & co & _ & _ & _ & _ & -> & -> & _)]; [intros ? []|].
      intros e [<-|[]]. do 6 eexists. reflexivity. }
    intros e Hi N1 N2. assert (Hi' : In e (ev2 ++ ev3)).
    { destruct Eev as [->|(ss & ->)]; [exact Hi|]. apply in_app_or in Hi as [Hi|[<-|[]]]; [exact Hi|]. destruct (N2 name ss); reflexivity. }
    apply in_app_or in Hi' as [Hi'|Hi']; [exact Hi'|]. apply X3 in Hi' as (? & ? & ? & ? & ? & ? & ->). destruct (N1 x x0 x1 x2 x3 x4); reflexivity. }
  assert (Y : forall e, In e ev2 -> In e ev).
  { intros e Hi. destruct Eev as [->|(ss & ->)]; [apply in_app_iff; now left|]. apply in_app_iff. left. apply in_app_iff. now left. }
  exists (n ++ "__local_headers__")%string, hs, dl, (expand glob_ dl). split; [apply Y; exact Fi|].
  split; [intros s t Hi; apply (Fc s); apply X; [exact Hi|intros; discriminate|intros; discriminate]|].
  split; [|split; [apply expand_expands|]].
  - destruct Hdl as (v & Hv & Hm). rewrite Ek in Hv. destruct (sget kw "depends") as [w|] eqn:E.
    + left. exists v. split; [congruence|exact Hm].
    + right. split; [reflexivity|]. injection Hv as <-. destruct Hm as [Hm|(s & Hm & _)]; [|discriminate]. injection Hm as Hm.
      destruct dl; [reflexivity|discriminate].
  - intros k t s dp rule co fo Hi Hk. apply X in Hi; [|intros; congruence|intros; discriminate].
    destruct (R _ _ _ _ _ _ _ Hi) as (Q1 & Q2 & Q3 & Q4). split; [exact Q1|]. split; [exact Q2|]. split; [exact Q3|].
    intros Hu t' s' dp' rule' co' fo' Hi'. apply (Q4 Hu t' s' dp' rule' co' fo'). apply X; [exact Hi'|intros; discriminate|intros; discriminate].
Qed.
Print Assumptions C110_program.

(** The files that a required module lists in depends are not waited for: not even the objects of
    the sources of this module depend on them. *)
Definition h_gen : list libop :=
  [OModule "net" None false [] "/p/net/x.py" [("sources", VList [EStr "tcp.c"]); ("depends", VList [EStr "gen.h"])]].
Definition depend_on (d : string) (ev : list event) : list string :=
  flat_map (fun e => match e with VRule _ t _ dp _ _ _ => if existsb (String.eqb d) dp then [t] else [] | _ => [] end) ev.
Theorem C110_modules_refuted :
  exists h kw m d r o lib' ev,
    sget (mod_opts (get_lib (lib_run mlib0 h)) m) "depends" = Some (VList [EStr d]) /\
    task home std no_glob files 20 (get_lib (lib_run mlib0 h)) [] "/p/app/x.py" "app" None None "application" false kw = Ok (r, o, lib', ev) /\
    In "/p/net/tcp.c" (map fst (compiled ev)) /\
    forall k t s dp rule co fo, In (VRule k t s dp rule co fo) ev -> ~ In d dp.
Proof.
  exists h_gen, app_kw, 0, "gen.h". do 4 eexists. split; [reflexivity|]. split; [vm_compute; reflexivity|]. split; [vm_compute; tauto|].
  intros k t s dp rule co fo Hi Hd. cbn [In] in Hi.
  repeat (destruct Hi as [Hi|Hi]; [try discriminate Hi; injection Hi as <- <- <- <- <- <- <-; cbn [In] in Hd;
    repeat (destruct Hd as [Hd|Hd]; [discriminate Hd|]); exact Hd|]). exact Hi.
Qed.
Print Assumptions C110_modules_refuted.

(** The hypotheses can be met: a program with depends, a copied header, moc and uic. *)
Example C110_case :
  exists r o lib' ev,
    task home std no_glob files 20 lib_net [] "/p/app/x.py" "app" None None "application" false
      (("depends", VList [EStr "version.h"]) :: ("qt_moc", VList [EStr "w.h"]) :: ("qt_ui", VList [EStr "w.ui"]) :: app_kw) = Ok (r, o, lib', ev) /\
    let compile := ["build/p/app/w.h.cxx"; "build/p/app/main.d"; "build/p/app/main.o"; "build/p/net/src/tcp.d"; "build/p/net/src/tcp.o";
      "build/p/net/src/udp.d"; "build/p/net/src/udp.o"; "build/p/app/w.h.cxx.d"; "build/p/app/w.h.cxx.o"] in
    depend_on "version.h" ev = "build/ui/p/app/ui_w.h" :: compile /\ depend_on "app__module__local_headers__" ev = "build/ui/p/app/ui_w.h" :: compile /\
    depend_on "build/ui/p/app/ui_w.h" ev = compile.
Proof. do 4 eexists. split; [vm_compute; reflexivity|]. cbv zeta. split; [|split]; vm_compute; reflexivity. Qed.
