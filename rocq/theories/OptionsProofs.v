(** Lemmas for C106. *)
From Verif Require Import PyBase PyPath PathProofs UtilModel FormatModel UtilProofs RegModel ModulesModel ModulesProofs SpecUtil CxxModel SpecCxx
  SpecOptions CxxProofs CxxMakeProofs.
Local Open Scope string_scope.
Local Open Scope list_scope.

Lemma mem_In x l : mem x l = true <-> In x l.
Proof.
  unfold mem. rewrite existsb_exists. split; [intros (y & H & E); apply String.eqb_eq in E; now subst|].
  intros H. exists x. split; [exact H|apply String.eqb_refl].
Qed.

Section S.
  Variable home : string.
  Variable tool : toolchain.
  Notation merge := (merge home tool).
  Notation included := (fold_res (merge Include)).
  Notation combine := (combine home).

  Lemma submodules l : Forall2 submodule_of l (map to_submodule l).
  Proof. induction l as [|e l IH]; constructor; [destruct e; constructor|exact IH]. Qed.

  (** The values that an option takes as modules are included. *)
  Inductive vals (f : field) (k : string) : oval -> list opts -> oval -> Prop :=
  | vals_nil v : vals f k v [] v
  | vals_cons v i v1 l w : combine (f_include f) v (given i k) (f_default f) i = Ok v1 -> cls v1 = f_type f ->
      vals f k v1 l w -> vals f k v (i :: l) w.
  Lemma included_vals k f incs : sget (table tool) k = Some f -> special k = false ->
    forall o r v, included incs o = Ok r -> sget o k = Some v -> exists w, sget r k = Some w /\ vals f k v incs w.
  Proof.
    intros Hf Hs. induction incs as [|i incs IH]; intros o r v H Hv; cbn [fold_res] in H.
    - inversion H; subst. exists v. split; [exact Hv|constructor].
    - apply bind_ok in H as (o1 & H1 & H). pose proof (merge_get _ _ _ _ _ _ k H1) as G. rewrite Hv in G.
      destruct G as (f' & v1 & Ef & Ev & Hc). assert (f' = f) by congruence. subst f'.
      destruct (IH _ _ _ H Ev) as (w & Ew & Hw). exists w. split; [exact Ew|]. econstructor; [exact Hc| |exact Hw].
      eapply merged_type; eauto.
  Qed.
  Lemma made_vals k f own incs base o1 o v : sget (table tool) k = Some f -> special k = false -> f_merge f = f_include f ->
    merge Merge base own = Ok o1 -> included incs o1 = Ok o -> sget base k = Some v ->
    exists w, sget o k = Some w /\ vals f k v (own :: incs) w.
  Proof.
    intros Hf Hs E H1 H Hv. pose proof (merge_get _ _ _ _ _ _ k H1) as G. rewrite Hv in G.
    destruct G as (f' & v1 & Ef & Ev & Hc). assert (f' = f) by congruence. subst f'. unfold kind_of in Hc. rewrite E in Hc.
    destruct (included_vals k f incs Hf Hs _ _ _ H Ev) as (w & Ew & Hw). exists w. split; [exact Ew|]. econstructor; [exact Hc| |exact Hw].
    eapply merged_type; eauto.
  Qed.

  Lemma vals_raw f k v l w : f_include f = KConcat -> vals f k v l w ->
    forall x, v = VList x -> w = VList (x ++ lists_given k l).
  Proof.
    intros E. induction 1 as [v|v i v1 l w Hc Ht Hv IH]; intros x ->; [unfold lists_given; cbn; now rewrite app_nil_r|].
    rewrite E in Hc. cbn [CxxModel.combine] in Hc. unfold given in Hc. unfold lists_given in *. cbn [flat_map].
    rewrite app_assoc. apply IH. destruct (sget i k) as [[]|]; cbn in Hc; inversion Hc; subst; reflexivity.
  Qed.
  Lemma vals_flag f k v l w : f_include f = KStrconcat -> vals f k v l w ->
    forall x, v = VStr x -> w = VStr (x ++ String.concat "" (map (fun x => " " ++ x)%string (strings_given k l))).
  Proof.
    intros E. induction 1 as [v|v i v1 l w Hc Ht Hv IH]; intros x ->; [cbn; now rewrite app_str_nil|].
    rewrite E in Hc. cbn [CxxModel.combine] in Hc. unfold given in Hc. unfold strings_given in *. cbn [flat_map].
    rewrite map_app, concat_empty_app, <- app_str_assoc. apply IH.
    destruct (sget i k) as [[]|]; cbn in Hc; inversion Hc; subst; cbn; try now rewrite app_str_nil.
    rewrite ?app_str_assoc. reflexivity.
  Qed.
  Lemma last_app_cons {A} (l : list A) a l' d d' : last (l ++ a :: l') d = last (l ++ a :: l') d'.
  Proof.
    induction l as [|b l IH]; cbn [app].
    - revert a. induction l' as [|b l' IH]; intros a; [reflexivity|]. change (last (b :: l') d = last (b :: l') d'). apply IH.
    - destruct l; cbn [app] in *; exact IH.
  Qed.
  Lemma vals_standard f k v l w : f_include f = KLocalIf -> f_type f = "str" -> vals f k v l w -> Forall true_classes l ->
    Some w = last (map (fun s => Some (VStr s)) (strings_given k l)) (Some v).
  Proof.
    intros E Ty. induction 1 as [v|v i v1 l w Hc Ht Hv IH]; intros T; [reflexivity|].
    inversion T as [|? ? T1 T2]; subst. specialize (IH T2). rewrite E in Hc. cbn [CxxModel.combine] in Hc. rewrite Ty in Ht.
    unfold given in Hc. unfold strings_given in *. cbn [flat_map]. rewrite map_app, IH. clear IH.
    destruct (sget i k) as [x|] eqn:Ex; [|inversion Hc; reflexivity].
    destruct x; inversion Hc; subst; try reflexivity; cbn in Ht; try discriminate.
    - cbn [map app]. match goal with |- context [map ?g (flat_map ?h l)] => destruct (map g (flat_map h l)) as [|y ys] end; [reflexivity|].
      change (last (y :: ys) (Some (VStr s)) = last ([Some (VStr s)] ++ y :: ys) (Some v)).
      cbn [app]. change (last (Some (VStr s) :: y :: ys) (Some v)) with (last (y :: ys) (Some v)). apply (last_app_cons []).
    - subst. exfalso. apply (dget_In _ string_eqb_spec') in Ex. apply (T1 _ _ Ex). now left.
  Qed.

  Lemma locdir_all o l r : map_res (locdir_path home o) l = Ok r ->
    (l = [] /\ r = []) \/ exists ps dir, l = map EStr ps /\ sget o "__dir__" = Some (VStr dir) /\
      r = map EStr (map (fun p => path_join dir (expanduser home p)) ps).
  Proof.
    intros H. apply map_res_ok in H. induction H as [|e x l r He H IH]; [now left|]. right.
    unfold locdir_path, dir_of in He. apply bind_ok in He as (d & Hd & He). apply bind_ok in He as (p & Hp & He). inversion He; subst. clear He.
    destruct (sget o "__dir__") as [v|]; [|discriminate]. destruct v; try discriminate Hd. injection Hd as ->.
    destruct e; try discriminate Hp. injection Hp as ->. destruct IH as [[-> ->]|(ps & dir' & -> & Hd' & ->)].
    - exists [p], d. auto.
    - injection Hd' as <-. exists (p :: ps), d. auto.
  Qed.
  Lemma vals_located f k v l w : f_include f = KConcatLocdir -> vals f k v l w ->
    forall x, v = VList x -> exists cs, Forall2 (located home k) l cs /\ w = VList (x ++ map EStr (List.concat cs)).
  Proof.
    intros E. induction 1 as [v|v i v1 l w Hc Ht Hv IH]; intros x ->; [exists []; cbn; rewrite app_nil_r; auto|].
    rewrite E in Hc. assert (A : exists c, located home k i c /\ v1 = VList (x ++ map EStr c)).
    { clear IH Hv Ht. cbn [CxxModel.combine] in Hc. destruct (given i k) eqn:G; unfold given in G.
      - apply bind_ok in Hc as (y & Hy & Hc). apply bind_ok in Hc as (r & Hr & Hc). cbn in Hy. injection Hy as <-. cbn in Hc. injection Hc as <-.
        apply locdir_all in Hr as [[? _]|(ps & dir & Ep & Hd & ->)]; [discriminate|]. eexists. split; [|reflexivity].
        destruct (sget i k) as [v'|] eqn:Es; [subst v'|discriminate]. eapply lo_paths; eauto.
        right. exists s. destruct ps as [|p [|? ?]]; try discriminate Ep. injection Ep as ->. auto.
      - apply bind_ok in Hc as (y & Hy & Hc). apply bind_ok in Hc as (r & Hr & Hc). cbn in Hy. injection Hy as <-. cbn in Hc. injection Hc as <-.
        destruct (sget i k) as [v'|] eqn:Es; [subst v'|discriminate].
        apply locdir_all in Hr as [[-> ->]|(ps & dir & -> & Hd & ->)].
        + exists []. split; [now apply lo_empty|reflexivity].
        + eexists. split; [|reflexivity]. eapply lo_paths; eauto.
      - discriminate Hc.
      - injection Hc as <-. exists []. split; [apply lo_none|now rewrite app_nil_r]. destruct (sget i k); [subst; auto|auto].
      - discriminate Hc. }
    destruct A as (c & Hl & ->). destruct (IH _ eq_refl) as (cs & Hcs & ->). exists (c :: cs). split; [now constructor|].
    cbn [List.concat]. now rewrite map_app, app_assoc.
  Qed.
  Lemma headers_all o l r : map_res (locdir_pair o) l = Ok r ->
    (l = [] /\ r = []) \/ exists dir, sget o "__dir__" = Some (VStr dir) /\ Forall2 (header_in dir) l r.
  Proof.
    intros H. apply map_res_ok in H. induction H as [|e x l r He H IH]; [now left|]. right.
    unfold locdir_pair, dir_of in He. apply bind_ok in He as ([a b] & Hp & He). apply bind_ok in He as (d & Hd & He). inversion He; subst. clear He.
    destruct (sget o "__dir__") as [v|]; [|discriminate]. destruct v; try discriminate Hd. injection Hd as ->. exists d. split; [reflexivity|].
    constructor.
    - destruct e as [[|c1 [|c2 s']]| | |]; try discriminate Hp; injection Hp as <- <-; constructor.
    - destruct IH as [[-> ->]|(dir' & Hd' & IH)]; [constructor|]. injection Hd' as <-. exact IH.
  Qed.
  Lemma vals_headers f v l w : f_include f = KConcatLocdir2 -> vals f "local_headers" v l w ->
    forall x, v = VList x -> exists cs, Forall2 headers l cs /\ w = VList (x ++ List.concat cs).
  Proof.
    intros E. induction 1 as [v|v i v1 l w Hc Ht Hv IH]; intros x ->; [exists []; cbn; rewrite app_nil_r; auto|].
    rewrite E in Hc. assert (A : exists c, headers i c /\ v1 = VList (x ++ c)).
    { clear IH Hv Ht. cbn [CxxModel.combine] in Hc. destruct (given i "local_headers") eqn:G; unfold given in G.
      - apply bind_ok in Hc as (y & Hy & Hc). apply bind_ok in Hc as (r & Hr & Hc). cbn in Hy. injection Hy as <-. cbn in Hc. injection Hc as <-.
        destruct (sget i "local_headers") as [v'|] eqn:Es; [subst v'|discriminate]. destruct s as [|c s]; [|discriminate Hr].
        injection Hr as <-. exists []. split; [|reflexivity]. apply he_none. right. rewrite Es. cbn; auto.
      - apply bind_ok in Hc as (y & Hy & Hc). apply bind_ok in Hc as (r & Hr & Hc). cbn in Hy. injection Hy as <-. cbn in Hc. injection Hc as <-.
        destruct (sget i "local_headers") as [v'|] eqn:Es; [subst v'|discriminate]. exists r. split; [|reflexivity].
        apply headers_all in Hr as [[-> ->]|(dir & Hd & Hh)].
        + apply he_none. right. rewrite Es. cbn; auto.
        + eapply he_list; eauto.
      - discriminate Hc.
      - injection Hc as <-. exists []. split; [|now rewrite app_nil_r]. apply he_none.
        destruct (sget i "local_headers"); [subst; right; cbn; auto|auto].
      - discriminate Hc. }
    destruct A as (c & Hl & ->). destruct (IH _ eq_refl) as (cs & Hcs & ->). exists (c :: cs). split; [now constructor|].
    cbn [List.concat]. now rewrite app_assoc.
  Qed.

  (** The options that only the module itself decides. *)
  Lemma own_accepted own k v f : mk_options tool own = Ok own -> sget own k = Some v -> special k = false ->
    sget (table tool) k = Some f -> cls v = f_type f.
  Proof.
    intros H Hv Hs Hf. apply mk_options_ok in H as [_ H]. apply (dget_In _ string_eqb_spec') in Hv.
    pose proof (proj1 (check_ok tool own) H _ Hv) as Hi. unfold check_item in Hi. rewrite Hs, Hf in Hi.
    destruct (String.eqb_spec (cls v) (f_type f)); [assumption|discriminate].
  Qed.
  Lemma own_given own k f : mk_options tool own = Ok own -> special k = false -> sget (table tool) k = Some f -> f_type f <> "NoneType" ->
    given own k = VNone <-> sget own k = None.
  Proof.
    intros Ha Hs Hf Ht. unfold given. destruct (sget own k) as [v|] eqn:E; [|tauto]. split; [|discriminate].
    intros ->. pose proof (own_accepted own k VNone f Ha E Hs Hf) as C. cbn in C. congruence.
  Qed.
  Lemma made_chosen own incs base o1 o k : merge Merge base own = Ok o1 -> mk_options tool own = Ok own -> included incs o1 = Ok o ->
    In k ["builddir"; "target"; "optimize"; "debug"; "toolchain"] -> sget base k <> None ->
    sget o k = match sget own k with Some v => Some v | None => sget base k end.
  Proof.
    intros H1 Ha H Hk Hb. rewrite (included_fixed _ _ _ _ _ H k) by (cbn in *; tauto).
    pose proof (merge_get _ _ _ _ _ _ k H1) as G. destruct (sget base k) as [v|]; [|congruence]. destruct G as (f & w & Ef & -> & Hc).
    assert (A : special k = false /\ f_merge f = KLocalIf /\ f_type f <> "NoneType").
    { cbn in Hk. repeat destruct Hk as [<-|Hk]; try destruct Hk; cbn in Ef; inversion Ef; repeat split; discriminate. }
    destruct A as (Hs & Em & Et). pose proof (own_given own k f Ha Hs Ef Et) as G.
    unfold kind_of in Hc. rewrite Em in Hc. cbn [CxxModel.combine] in Hc. unfold given in *.
    destruct (sget own k) as [v'|]; [|now inversion Hc]. destruct v'; try (now inversion Hc). destruct G as [G _]. discriminate (G eq_refl).
  Qed.
  Lemma made_own own incs base o1 o k d : merge Merge base own = Ok o1 -> mk_options tool own = Ok own -> included incs o1 = Ok o ->
    In (k, d) [("srcdir", VStr "."); ("type", VStr "objects"); ("depends", VList []); ("mdepends", VList [])] ->
    sget base k <> None -> sget o k = match sget own k with Some v => Some v | None => Some d end.
  Proof.
    intros H1 Ha H Hk Hb.
    assert (A : special k = false /\ In k fixed_options /\ exists f, sget (table tool) k = Some f /\ f_merge f = KLocal /\ f_type f <> "NoneType" /\ f_default f = d).
    { cbn in Hk. repeat destruct Hk as [[= <- <-]|Hk]; try destruct Hk; (split; [reflexivity|]; split; [cbn; tauto|]; eexists; split; [reflexivity|]; repeat split; discriminate). }
    destruct A as (Hs & Hx & f & Ef & Em & Et & <-). rewrite (included_fixed _ _ _ _ _ H k Hx).
    pose proof (merge_get _ _ _ _ _ _ k H1) as G. destruct (sget base k) as [v|]; [|congruence]. destruct G as (f' & w & Ef' & -> & Hc).
    assert (f' = f) by congruence. subst f'. pose proof (own_given own k f Ha Hs Ef Et) as G.
    unfold kind_of in Hc. rewrite Em in Hc. cbn [CxxModel.combine] in Hc. unfold given in *.
    destruct (sget own k) as [v'|]; [|now inversion Hc]. destruct v'; try (now inversion Hc). destruct G as [G _]. discriminate (G eq_refl).
  Qed.
  Lemma made_modules own incs base o1 o : merge Merge base own = Ok o1 -> mk_options tool own = Ok own -> included incs o1 = Ok o ->
    true_classes own -> sget base "modules" <> None -> sget o "modules" = Some (VList (lists_given "modules" (own :: incs))).
  Proof.
    intros H1 Ha H T Hb. pose proof (merge_get _ _ _ _ _ _ "modules" H1) as G. destruct (sget base "modules") as [v|]; [|congruence].
    destruct G as (f & w & Ef & Ew & Hc). cbn in Ef. injection Ef as <-. unfold kind_of in Hc. cbn [f_merge f_default CxxModel.combine] in Hc.
    assert (A : w = VList (lists_given "modules" [own])).
    { unfold lists_given. cbn [flat_map]. rewrite app_nil_r. unfold given in Hc. destruct (sget own "modules") as [v'|] eqn:E; [|now inversion Hc].
      pose proof (own_accepted own "modules" v' _ Ha E eq_refl eq_refl) as C. destruct v'; try (now inversion Hc); try discriminate C.
      exfalso. apply (dget_In _ string_eqb_spec') in E. apply (T _ _ E). cbn in C |- *. auto. }
    subst w. rewrite (included_raw _ _ _ _ _ H "modules" _ (or_intror (or_intror (or_intror (or_introl eq_refl)))) Ew).
    unfold lists_given. cbn [flat_map]. now rewrite app_nil_r.
  Qed.

  (** The directories in the build directory. *)
  Variable glob_ : string -> list string.
  Variable dfile : string -> option string.
  Lemma append_path_get o p o' l : append_path o p = Ok o' -> sget o "include_paths" = Some (VList l) ->
    sget o' "include_paths" = Some (VList (l ++ [EStr p])).
  Proof.
    unfold append_path, oget. intros H Hl. rewrite Hl in H. cbn in H. injection H as <-. apply (dget_dset_eq _ string_eqb_spec').
  Qed.
  Lemma olist_get o k l x : olist o k = Ok l -> sget o k = Some (VList x) -> l = x.
  Proof. unfold olist, oget. intros H E. rewrite E in H. cbn in H. now injection H. Qed.
  Lemma map_estr_inj (a b : list string) : map EStr a = map EStr b -> a = b.
  Proof. revert b. induction a as [|x a IH]; intros [|y b] E; try discriminate; [reflexivity|]. cbn in E. injection E as -> E. f_equal. auto. Qed.
  Lemma objects_paths name o objs o2 ev ps : module_objects home glob_ dfile name o = Ok (objs, o2, ev) ->
    sget o "include_paths" = Some (VList (map EStr ps)) ->
    exists extra b, text o2 "builddir" b /\ sget o2 "include_paths" = Some (VList (map EStr (ps ++ extra))) /\
      ((exists l, sget o "local_headers" = Some (VList l)) -> added_paths o2 b ps extra).
  Proof.
    intros H Hp. pose proof (module_objects_inv _ _ _ _ _ _ _ _ H) as [Hsame _].
    unfold module_objects in H. apply bind_ok in H as ([o1 ev1] & H1 & H).
    apply bind_ok in H as (dl & _ & H). apply bind_ok in H as (sl & _ & H). apply bind_ok in H as (b0 & _ & H).
    apply bind_ok in H as (co & _ & H). apply bind_ok in H as ([[[o2' co2] ad2] ev2] & H2 & H).
    apply bind_ok in H as ([[[ms mo] md] ev3] & _ & H). apply bind_ok in H as (ev4 & _ & H).
    apply bind_ok in H as (ol & _ & H). apply ok_inj in H. injection H as -> -> ->.
    pose proof (local_headers_same _ _ _ _ H1) as (S1 & _).
    unfold local_headers in H1. apply bind_ok in H1 as (l & Hl & H1). apply bind_ok in H1 as (prs & _ & H1).
    apply bind_ok in H1 as (b & Hb & H1). apply bind_ok in H1 as (o1' & Ho1 & H1). inversion H1; subst o1'. clear H1.
    apply ostr_text in Hb.
    set (e1 := match l with [] => [] | _ => [(b ++ "/__LOCAL_HEADERS__/")%string] end).
    assert (P1 : sget o1 "include_paths" = Some (VList (map EStr (ps ++ e1)))).
    { unfold e1. destruct l; [injection Ho1 as <-; now rewrite app_nil_r|]. rewrite map_app. exact (append_path_get _ _ _ _ Ho1 Hp). }
    unfold qt_ui_part in H2. apply bind_ok in H2 as (ui & Hui & H2).
    pose proof (olist_texts_nil o1 "qt_ui" ui Hui) as T.
    assert (A : exists e2, sget o2' "include_paths" = Some (VList (map EStr ((ps ++ e1) ++ e2))) /\
      (((texts o1 "qt_ui" [] \/ In (path_join b "ui") (ps ++ e1)) /\ e2 = []) \/
       (~ texts o1 "qt_ui" [] /\ ~ In (path_join b "ui") (ps ++ e1) /\ e2 = [path_join b "ui"]))).
    { destruct ui as [|u ui].
      - inversion H2; subst. exists []. rewrite app_nil_r. split; [exact P1|]. left. tauto.
      - apply bind_ok in H2 as (b' & Hb' & H2). apply bind_ok in H2 as (uis & _ & H2). apply bind_ok in H2 as (inc & Hinc & H2).
        apply bind_ok in H2 as (o3 & Ho3 & H2). apply bind_ok in H2 as (co3 & _ & H2). inversion H2; subst.
        apply ostr_text in Hb'. unfold text in Hb', Hb. rewrite S1 in Hb' by discriminate. assert (b' = b) by congruence. subst b'.
        assert (inc = ps ++ e1).
        { apply ostrs_texts in Hinc. destruct Hinc as (v & Ev & [Em|(s & Es & _)]); rewrite P1 in Ev; injection Ev as <-; [|discriminate].
          injection Em as Em. now apply map_estr_inj in Em. }
        subst inc. destruct (mem (path_join b "ui") (ps ++ e1)) eqn:M.
        + injection Ho3 as <-. exists []. rewrite app_nil_r. split; [exact P1|]. left. split; [right; now apply mem_In|reflexivity].
        + exists [path_join b "ui"]. split; [rewrite (map_app EStr (ps ++ e1)); exact (append_path_get _ _ _ _ Ho3 P1)|]. right.
          split; [intros Hn; apply T in Hn; discriminate|]. split; [|reflexivity]. intros Hi. apply mem_In in Hi. congruence. }
    destruct A as (e2 & P2 & A). exists (e1 ++ e2), b. split; [unfold text in *; now rewrite Hsame by discriminate|].
    split; [now rewrite app_assoc|]. intros (x & Ex). exists e1, e2. split; [reflexivity|].
    pose proof (olist_get _ _ _ _ Hl Ex). subst x. split.
    - rewrite Hsame, Ex by discriminate. unfold e1. destruct l; [left; auto|right; split; [discriminate|reflexivity]].
    - unfold texts in *. rewrite Hsame by discriminate. rewrite S1 in A by discriminate. exact A.
  Qed.

  Lemma options_made f lib name impl base r o lib' ev bl : modmake home tool glob_ dfile (S f) lib name impl base = Ok (r, o, lib', ev) ->
    sget base "include_modules" = Some (VList bl) ->
    exists m lib1 gl sl os lib2 ms lib3 inc,
      get lib name impl = Ok (m, lib1) /\ requested (mod_opts lib1 m) gl /\ Forall2 submodule_of gl sl /\
      walk lib1 (bl ++ sl) os lib2 /\ collect_modules f lib2 m = Ok (ms, lib3, inc) /\
      made_with home base (mod_opts lib1 m) (os ++ map (mod_opts lib3) ms) o.
  Proof.
    intros H Hbi. apply modmake_inv in H as (m & o0 & lib3 & objs & ev1 & subs & rs & ev2 & ev3 & H1 & H2 & _).
    apply local_options_parts in H1 as (lib1 & o1 & im & os & lib2 & ms & inc & Hg & Hm & Ho1 & Him & Hw & Hc & Hi).
    destruct (requested_list _ _ _ _ _ _ _ Ho1 Hm Hbi Him) as (gl & Hr & ->).
    exists m, lib1, gl, (map to_submodule gl), os, lib2, ms, lib3, inc. repeat (split; [assumption|]).
    split; [apply submodules|]. split; [exact Hw|]. split; [exact Hc|].
    pose proof (module_objects_inv _ _ _ _ _ _ _ _ H2) as [Hsame _].
    set (own := mod_opts lib1 m) in *. set (others := os ++ map (mod_opts lib3) ms) in *.
    assert (V : forall k f v, sget (table tool) k = Some f -> special k = false -> f_merge f = f_include f -> sget base k = Some v ->
      exists w, sget o0 k = Some w /\ vals f k v (own :: others) w).
    { intros k fd v Ef Es Em Ev. exact (made_vals k fd own others base o1 o0 v Ef Es Em Ho1 Hi Ev). }
    split.
    - intros k l Hk Hb. rewrite Hsame by (intros ->; cbn in Hk; intuition discriminate).
      assert (A : exists fd, sget (table tool) k = Some fd /\ special k = false /\ f_merge fd = f_include fd /\ f_include fd = KConcat).
      { cbn in Hk. repeat destruct Hk as [<-|Hk]; try destruct Hk; (eexists; split; [reflexivity|]; repeat split). }
      destruct A as (fd & Ef & Es & Em & Ei). destruct (V k fd _ Ef Es Em Hb) as (w & -> & Hv). f_equal. exact (vals_raw _ _ _ _ _ Ei Hv _ eq_refl).
    - intros k l Hk Hb. rewrite Hsame by (intros ->; cbn in Hk; intuition discriminate).
      assert (A : exists fd, sget (table tool) k = Some fd /\ special k = false /\ f_merge fd = f_include fd /\ f_include fd = KStrconcat).
      { cbn in Hk. repeat destruct Hk as [<-|Hk]; try destruct Hk; (eexists; split; [reflexivity|]; repeat split). }
      destruct A as (fd & Ef & Es & Em & Ei). destruct (V k fd _ Ef Es Em Hb) as (w & -> & Hv). f_equal. exact (vals_flag _ _ _ _ _ Ei Hv _ eq_refl).
    - intros T k Hk Hb. rewrite Hsame by (intros ->; cbn in Hk; intuition discriminate).
      assert (A : exists fd, sget (table tool) k = Some fd /\ special k = false /\ f_merge fd = f_include fd /\ f_include fd = KLocalIf /\ f_type fd = "str").
      { cbn in Hk. repeat destruct Hk as [<-|Hk]; try destruct Hk; (eexists; split; [reflexivity|]; repeat split). }
      destruct A as (fd & Ef & Es & Em & Ei & Et). destruct (sget base k) as [v|] eqn:Ev; [|congruence].
      destruct (V k fd v Ef Es Em Ev) as (w & -> & Hv). exact (vals_standard _ _ _ _ _ Ei Et Hv T).
    - intros l Hb. rewrite Hsame by discriminate. destruct (V "ldscripts" _ _ eq_refl eq_refl eq_refl Hb) as (w & -> & Hv).
      destruct ((fun E => vals_located _ _ _ _ _ E Hv _ eq_refl) eq_refl) as (cs & Hcs & ->). eauto.
    - intros l Hb. rewrite Hsame by discriminate. destruct (V "local_headers" _ _ eq_refl eq_refl eq_refl Hb) as (w & -> & Hv).
      destruct ((fun E => vals_headers _ _ _ _ E Hv _ eq_refl) eq_refl) as (cs & Hcs & ->). eauto.
    - intros ps Hb. destruct (V "include_paths" _ _ eq_refl eq_refl eq_refl Hb) as (w & Ew & Hv).
      destruct ((fun E => vals_located _ _ _ _ _ E Hv _ eq_refl) eq_refl) as (cs & Hcs & ->). rewrite <- map_app in Ew.
      destruct (objects_paths _ _ _ _ _ _ H2 Ew) as (extra & b & Hbd & E & A). exists cs, extra, b. repeat (split; [assumption|]).
      intros Hh. apply A. destruct (V "local_headers" _ _ eq_refl eq_refl eq_refl Hh) as (w & -> & Hv').
      destruct ((fun E => vals_headers _ _ _ _ E Hv' _ eq_refl) eq_refl) as (cs' & _ & ->). eauto.
    - intros k Hk Hb. rewrite Hsame by (intros ->; cbn in Hk; intuition discriminate). eapply made_chosen; eauto.
    - intros k d Hk Hb. rewrite Hsame by (intros ->; cbn in Hk; intuition discriminate). eapply made_own; eauto.
    - intros T Hb. rewrite Hsame by discriminate. eapply made_modules; eauto.
  Qed.

  Lemma defaults_fold (l : list (string * field)) k : forall o,
    sget (fold_left (fun o kf => if shas o (fst kf) then o else sset o (fst kf) (f_default (snd kf))) l o) k =
    match sget o k with Some v => Some v | None => option_map f_default (sget l k) end.
  Proof.
    induction l as [|[k0 f0] l IH]; intros o; [cbn; now destruct (sget o k)|]. cbn [fold_left fst snd]. rewrite IH. cbn [dget].
    destruct (String.eqb_spec k k0) as [->|N].
    - unfold dhas. destruct (sget o k0) as [v|] eqn:E; [now rewrite E|]. now rewrite (dget_dset_eq _ string_eqb_spec').
    - destruct (shas o k0); [reflexivity|]. rewrite (dget_dset_neq _ string_eqb_spec') by congruence. reflexivity.
  Qed.
  Lemma table_defaults k : option_map f_default (sget (table tool) k) = sget (initial_options tool) k.
  Proof.
    destruct (sget (table tool) k) as [f|] eqn:E.
    - pose proof E as E'. apply (dget_In _ string_eqb_spec') in E'. cbn [table In] in E'.
      repeat destruct E' as [[= <- <-]|E']; try reflexivity. destruct E'.
    - cbn [option_map]. destruct (sget (initial_options tool) k) as [v|] eqn:D; [|reflexivity]. exfalso.
      apply (dget_In _ string_eqb_spec') in D. cbn in D. repeat destruct D as [[= <- _]|D]; try discriminate E. destruct D.
  Qed.
  Lemma defaults_get o k : sget (set_default_if_empty tool o) k =
    match sget o k with Some v => Some v | None => sget (initial_options tool) k end.
  Proof. unfold set_default_if_empty. now rewrite defaults_fold, table_defaults. Qed.
End S.
