(** Lemmas about modmake. *)
From Verif Require Import PyBase PyPath PathProofs UtilModel FormatModel UtilProofs RegModel ModulesModel ModulesProofs SpecUtil CxxModel SpecCxx CxxProofs.
Local Open Scope string_scope.
Local Open Scope list_scope.

Lemma iter_members v l ps : iter_oval v = Ok l -> l = map EStr ps -> members v ps.
Proof.
  destruct v as [s|l'| | |]; cbn; intros [= <-] E.
  - right. exists s. split; [reflexivity|]. revert ps E. induction s as [|c s IH]; intros [|p ps] E; try discriminate; [reflexivity|].
    cbn in E. injection E as <- E. cbn. f_equal. now apply IH.
  - left. now rewrite E.
Qed.

Section S.
  Variable home : string.
  Variable tool : toolchain.
  Notation merge := (merge home tool).
  Notation included := (fold_res (merge Include)).

  Definition joined (dir sub : string) (p : string) : string := path_joins dir [sub; expanduser home p].
  Lemma srcdir_one o e r : srcdir_path home o e = Ok r -> exists p dir sub, e = EStr p /\
    sget o "__dir__" = Some (VStr dir) /\ (sget o "srcdir" = Some (VStr sub) \/ (sget o "srcdir" = None /\ sub = "")) /\
    r = EStr (joined dir sub p).
  Proof.
    unfold srcdir_path, dir_of. intros H. apply bind_ok in H as (d & Hd & H). apply bind_ok in H as (s & Hs & H).
    apply bind_ok in H as (p & Hp & H). inversion H; subst. clear H.
    destruct (sget o "__dir__") as [v|]; [|discriminate]. destruct v; try discriminate Hd. injection Hd as ->.
    destruct e; try discriminate Hp. injection Hp as ->. exists p, d.
    destruct (sget o "srcdir") as [v|].
    - destruct v; try discriminate Hs. injection Hs as ->. exists s. repeat split; auto.
    - injection Hs as <-. exists "". repeat split; auto.
  Qed.
  Lemma srcdir_all o l r : map_res (srcdir_path home o) l = Ok r ->
    (l = [] /\ r = []) \/ exists ps dir sub, l = map EStr ps /\ sget o "__dir__" = Some (VStr dir) /\
      (sget o "srcdir" = Some (VStr sub) \/ (sget o "srcdir" = None /\ sub = "")) /\
      r = map EStr (map (joined dir sub) ps).
  Proof.
    intros H. apply map_res_ok in H. induction H as [|e x l r He H IH]; [now left|]. right.
    apply srcdir_one in He as (p & dir & sub & -> & Hd & Hs & ->). destruct IH as [[-> ->]|(ps & dir' & sub' & -> & Hd' & Hs' & ->)].
    - exists [p], dir, sub. auto.
    - assert (dir' = dir) by congruence. assert (sub' = sub) by (destruct Hs as [?|[? ?]], Hs' as [?|[? ?]]; congruence). subst.
      exists (p :: ps), dir, sub. auto.
  Qed.
  Definition srcdir_keys : list string := ["objects"; "sources"; "qt_moc"; "qt_ui"].
  Lemma srcdir_kind k md f : In k srcdir_keys -> sget (table tool) k = Some f ->
    kind_of md f = match md with Merge => KLocalSrcdir | Include => KConcatSrcdir end.
  Proof.
    intros Hk Hf. cbn in Hk. destruct md; repeat destruct Hk as [<-|Hk]; try destruct Hk; cbn in Hf; inversion Hf; reflexivity.
  Qed.
  Lemma given_contributes k inc l r : iter_oval (given inc k) = Ok l -> map_res (srcdir_path home inc) l = Ok r ->
    exists ps, contributes home inc k ps /\ r = map EStr ps.
  Proof.
    intros Hl Hr. assert (Hv : exists v, sget inc k = Some v /\ iter_oval v = Ok l).
    { unfold given in Hl. destruct (sget inc k) as [v|]; [eauto|discriminate]. }
    destruct Hv as (v & Hv & Hi). apply srcdir_all in Hr as [[-> ->]|(ps & dir & sub & -> & Hd & Hs & ->)].
    - exists []. split; [|reflexivity]. eapply con_empty; eauto. eapply iter_members; eauto.
    - eexists. split; [|reflexivity]. eapply con_paths; eauto. eapply iter_members; eauto.
  Qed.
  Lemma include_sources o inc r k l : merge Include o inc = Ok r -> In k srcdir_keys -> sget o k = Some (VList l) ->
    exists ps, contributes home inc k ps /\ sget r k = Some (VList (l ++ map EStr ps)).
  Proof.
    intros H Hk Hl. apply (merge_get _ _ _ _ _ _ k) in H. rewrite Hl in H. destruct H as (f & w & Ef & -> & Hc).
    rewrite (srcdir_kind k Include f Hk Ef) in Hc. cbn [CxxModel.combine] in Hc.
    assert (A : given inc k = VNone \/ exists x y, iter_oval (given inc k) = Ok x /\ map_res (srcdir_path home inc) x = Ok y /\ w = VList (l ++ y)).
    { destruct (given inc k); [| |right|now left|right]; try right; apply bind_ok in Hc as (x & Hx & Hc);
        apply bind_ok in Hc as (y & Hy & Hc); exists x, y; repeat split; auto; now injection Hc as <-. }
    destruct A as [G|(x & y & Hx & Hy & ->)].
    - rewrite G in Hc. injection Hc as <-. exists []. split; [|reflexivity].
      apply con_none. unfold given in G. destruct (sget inc k); [subst; auto|auto].
    - destruct (given_contributes k inc x y Hx Hy) as (ps & Hps & ->). eauto.
  Qed.
  Lemma merge_sources o m r k v : merge Merge o m = Ok r -> mk_options tool m = Ok m -> In k srcdir_keys ->
    sget o k = Some v -> exists ps, contributes home m k ps /\ sget r k = Some (VList (map EStr ps)).
  Proof.
    intros H Ha Hk Hl. apply (merge_get _ _ _ _ _ _ k) in H. rewrite Hl in H. destruct H as (f & w & Ef & -> & Hc).
    rewrite (srcdir_kind k Merge f Hk Ef) in Hc. cbn [CxxModel.combine] in Hc.
    destruct (given m k) eqn:G; try discriminate Hc.
    - exfalso. assert (Hv : In (k, VStr s) m).
      { unfold given in G. destruct (sget m k) as [x|] eqn:E; [|discriminate]. subst x. now apply (dget_In _ string_eqb_spec') in E. }
      apply mk_options_ok in Ha as [_ Ha]. apply check_ok with (kv := (k, VStr s)) in Ha; [|exact Hv].
      cbn in Hk. repeat destruct Hk as [<-|Hk]; try destruct Hk; discriminate Ha.
    - apply bind_ok in Hc as (x & Hx & Hc). apply bind_ok in Hc as (y & Hy & Hc). inversion Hc; subst.
      rewrite <- G in Hx. destruct (given_contributes k m x y Hx Hy) as (ps & Hps & ->). eauto.
    - exists []. split; [|inversion Hc; reflexivity]. apply con_none. unfold given in G. destruct (sget m k); [subst; auto|auto].
  Qed.
  Lemma included_sources incs o r k l : included incs o = Ok r -> In k srcdir_keys -> sget o k = Some (VList l) ->
    exists cs, Forall2 (fun i c => contributes home i k c) incs cs /\ sget r k = Some (VList (l ++ map EStr (List.concat cs))).
  Proof.
    intros H Hk. revert o l r H. induction incs as [|i incs IH]; intros o l r H Hl; cbn [fold_res] in H.
    - inversion H; subst. exists []. cbn. rewrite app_nil_r. auto.
    - apply bind_ok in H as (o1 & H1 & H). destruct (include_sources _ _ _ _ _ H1 Hk Hl) as (ps & Hp & Hs).
      destruct (IH _ _ _ H Hs) as (cs & Hcs & Hr). exists (ps :: cs). split; [now constructor|].
      cbn [List.concat]. now rewrite map_app, app_assoc.
  Qed.

  Variable glob_ : string -> list string.
  Variable dfile : string -> option string.

  Lemma fold_res_app {A B} (f : A -> B -> res A) l1 l2 a : fold_res f (l1 ++ l2) a = (do! b <- fold_res f l1 a; fold_res f l2 b).
  Proof. revert a. induction l1 as [|x l1 IH]; intros a; cbn; [reflexivity|]. destruct (f a x); cbn; auto. Qed.

  Lemma include_modules_walk fuel st l st' : include_modules home tool fuel st l = Ok st' ->
    exists os, walk (snd st) l os (snd st') /\ included os (fst st) = Ok (fst st').
  Proof.
    revert st l st'. induction fuel as [|fuel IH]; intros st l st'; [discriminate|]. cbn [include_modules].
    revert st. induction l as [|e l IHl]; intros st; cbn [fold_res]; intros H.
    - inversion H; subst. exists []. split; [constructor|reflexivity].
    - apply bind_ok in H as (st1 & H1 & H). destruct e as [| |n i|]; try discriminate.
      apply bind_ok in H1 as ([m lib] & Hg & H1). apply bind_ok in H1 as (o & Ho & H1).
      apply IHl in H as (os & Hw & Hi).
      destruct (sget (mod_opts lib m) "include_modules") as [v|] eqn:E.
      + apply bind_ok in H1 as (sub & Hs & H1). apply IH in H1 as (os1 & Hw1 & Hi1). cbn [fst snd] in *.
        exists (mod_opts lib m :: os1 ++ os). split; [eapply walk_node; eauto|].
        cbn [fold_res]. rewrite Ho. cbn [bind]. rewrite fold_res_app, Hi1. exact Hi.
      + inversion H1; subst. cbn [fst snd] in *. exists (mod_opts lib m :: os). split; [eapply walk_leaf; eauto|].
        cbn [fold_res]. rewrite Ho. exact Hi.
  Qed.

  Lemma fold_map {A B C} (f : A -> B -> res A) (g : C -> B) l a : fold_res (fun x c => f x (g c)) l a = fold_res f (map g l) a.
  Proof. revert a. induction l as [|c l IH]; intros a; cbn; [reflexivity|]. destruct (f a (g c)); cbn; auto. Qed.

  (** What the options of a module are made from. *)
  Lemma local_options_parts fuel lib name impl base m o lib' :
    local_options home tool fuel lib name impl base = Ok (m, o, lib') ->
    exists lib1 o1 im os lib2 ms inc,
      get lib name impl = Ok (m, lib1) /\ mk_options tool (mod_opts lib1 m) = Ok (mod_opts lib1 m) /\
      merge Merge base (mod_opts lib1 m) = Ok o1 /\
      olist o1 "include_modules" = Ok im /\ walk lib1 im os lib2 /\
      collect_modules fuel lib2 m = Ok (ms, lib', inc) /\
      included (os ++ map (mod_opts lib') ms) o1 = Ok o.
  Proof.
    unfold local_options. intros H. apply bind_ok in H as ([m0 lib1] & Hg & H).
    apply bind_ok in H as (mo & Hm & H). pose proof Hm as Hm'. apply mk_options_ok in Hm' as [-> _].
    apply bind_ok in H as (o1 & Ho1 & H). apply bind_ok in H as (im & Him & H).
    apply bind_ok in H as ([o2 lib2] & Ho2 & H). apply bind_ok in H as ([[ms lib3] inc] & Hc & H).
    apply bind_ok in H as (o3 & Ho3 & H). inversion H; subst.
    apply include_modules_walk in Ho2 as (os & Hw & Hi). cbn [fst snd] in *.
    exists lib1, o1, im, os, lib2, ms, inc. repeat (split; [assumption|]).
    rewrite fold_res_app, Hi. cbn [bind]. rewrite <- fold_map. exact Ho3.
  Qed.

  (** ** The objects of a module *)
  Lemma expand_expands l : expands glob_ l (expand glob_ l).
  Proof.
    induction l as [|s l IH]; [constructor|]. unfold expand. cbn [flat_map]. fold (expand glob_ l).
    destruct (has_star s) eqn:E.
    - apply ex_star; [|exact IH]. unfold has_star in E. apply existsb_exists in E as (c & Hc & Ec).
      apply Ascii.eqb_eq in Ec. now subst.
    - cbn [app]. apply ex_name; [|exact IH]. intros Hc. unfold has_star in E.
      assert (existsb (Ascii.eqb "*"%char) (list_ascii_of_string s) = true); [|congruence].
      apply existsb_exists. exists "*"%char. split; [exact Hc|reflexivity].
  Qed.
  Lemma compiled_app a b : compiled (a ++ b) = compiled a ++ compiled b.
  Proof. unfold compiled. apply flat_map_app. Qed.
  Lemma linked_app a b : linked (a ++ b) = linked a ++ linked b.
  Proof. unfold linked. apply flat_map_app. Qed.
  Lemma sources_silent l : compiled (map VSource l) = [] /\ linked (map VSource l) = [].
  Proof. unfold compiled, linked. induction l; cbn; auto. Qed.
  Lemma link_objects_compiled srcs objs deps co ad ev : link_objects dfile srcs objs deps co ad = Ok ev ->
    List.length objs = List.length srcs -> List.length deps = List.length srcs ->
    compiled ev = List.combine srcs objs /\ linked ev = [].
  Proof.
    revert objs deps ev. induction srcs as [|s srcs IH]; intros [|o objs] [|d deps] ev H Lo Ld; try discriminate.
    - inversion H. split; reflexivity.
    - cbn [link_objects] in H. apply bind_ok in H as (e1 & H1 & H). apply bind_ok in H as (e2 & H2 & H).
      apply bind_ok in H as (es & H3 & H). inversion H; subst. clear H.
      unfold depend in H1. apply bind_ok in H1 as (l1 & _ & H1). inversion H1; subst.
      unfold object in H2. apply bind_ok in H2 as (l2 & _ & H2). inversion H2; subst.
      apply IH in H3 as [Hc Hl]; [|cbn in Lo; lia|cbn in Ld; lia].
      set (hs := match cxx_read_depends (dfile d) with Some h => h | None => [] end).
      change ([VSource s] ++ map VSource hs ++ ?x) with (VSource s :: map VSource hs ++ x).
      rewrite <- (app_nil_l (VSource s :: _)). 
      assert (Ec : forall x, compiled (VSource s :: map VSource hs ++ x) = compiled x /\ linked (VSource s :: map VSource hs ++ x) = linked x).
      { intros x. change (VSource s :: map VSource hs ++ x) with (map VSource (s :: hs) ++ x).
        rewrite compiled_app, linked_app. destruct (sources_silent (s :: hs)) as [-> ->]. auto. }
      cbn [app]. destruct (Ec ([VRule RDepend d s (s :: ad ++ hs) (match l1 with LCxx => cxxdeprule | _ => ccdeprule end) co
          (match cxx_read_depends (dfile d) with Some _ => false | None => true end);
        VRule RObject o s (s :: d :: ad ++ hs) (match l2 with LCxx => cxxobjrule | _ => ccobjrule end) co false] ++ es)) as [E1 E2].
      split.
      + etransitivity; [exact E1|]. cbn. now rewrite <- Hc.
      + etransitivity; [exact E2|]. cbn. exact Hl.
  Qed.
  Lemma link_qt_silent k rule srcs tgts co ad : k = RMoc \/ k = RUic ->
    compiled (link_qt k rule srcs tgts co ad) = [] /\ linked (link_qt k rule srcs tgts co ad) = [].
  Proof.
    intros Hk. unfold link_qt, compiled, linked. generalize (List.combine srcs tgts). intros l.
    induction l as [|[a b] l [IH1 IH2]]; [split; reflexivity|].
    destruct Hk as [->| ->]; cbn in *; rewrite IH1, IH2; split; reflexivity.
  Qed.
  Lemma sget_append_path o p o' k : append_path o p = Ok o' -> k <> "include_paths" -> sget o' k = sget o k.
  Proof.
    unfold append_path. intros H Hk. apply bind_ok in H as (v & _ & H). destruct v; inversion H; subst.
    apply (dget_dset_neq _ string_eqb_spec'). congruence.
  Qed.
  Lemma local_headers_same name o o' ev : local_headers name o = Ok (o', ev) ->
    (forall k, k <> "include_paths" -> sget o' k = sget o k) /\ compiled ev = [] /\ linked ev = [].
  Proof.
    unfold local_headers. intros H. apply bind_ok in H as (l & _ & H). apply bind_ok in H as (ps & _ & H).
    apply bind_ok in H as (b & _ & H). apply bind_ok in H as (o1 & H1 & H). inversion H; subst. clear H. split.
    - intros k Hk. destruct l; [inversion H1; reflexivity|]. eapply sget_append_path; eauto.
    - rewrite compiled_app, linked_app. cbn. rewrite !app_nil_r. unfold compiled, linked.
      induction ps as [|[a c] ps [IH1 IH2]]; [auto|]. cbn. auto.
  Qed.
  Lemma qt_ui_same o co ad o' co' ad' ev : qt_ui_part home glob_ o co ad = Ok (o', co', ad', ev) ->
    (forall k, k <> "include_paths" -> sget o' k = sget o k) /\ compiled ev = [] /\ linked ev = [].
  Proof.
    unfold qt_ui_part. intros H. apply bind_ok in H as (ui & _ & H).
    destruct ui as [|u ui]; [inversion H; subst; auto|].
    apply bind_ok in H as (b & _ & H). apply bind_ok in H as (l & _ & H). apply bind_ok in H as (inc & _ & H).
    apply bind_ok in H as (o1 & H1 & H). apply bind_ok in H as (co1 & _ & H). inversion H; subst. split.
    - intros k Hk. destruct (mem _ inc); [inversion H1; reflexivity|]. eapply sget_append_path; eauto.
    - apply link_qt_silent. auto.
  Qed.

  Lemma ostrs_texts o k ps : ostrs o k = Ok ps -> texts o k ps.
  Proof.
    unfold ostrs, olist, oget. intros H. apply bind_ok in H as (l & Hl & H). apply bind_ok in Hl as (v & Hv & Hl).
    destruct (sget o k) as [w|] eqn:E; [|discriminate]. injection Hv as <-. exists w. split; [exact E|].
    eapply iter_members; [exact Hl|]. clear Hl E. apply map_res_ok in H. induction H as [|e p l ps He _ IH]; [reflexivity|].
    destruct e; try discriminate He. injection He as ->. cbn. now f_equal.
  Qed.
  Lemma ostr_text o k s : ostr o k = Ok s -> text o k s.
  Proof.
    unfold ostr, oget, text. intros H. apply bind_ok in H as (v & Hv & H).
    destruct (sget o k) as [w|]; [|discriminate]. injection Hv as <-. destruct w; try discriminate H. now injection H as ->.
  Qed.
  Lemma otool_text o t : otool o = Ok t -> sget o "toolchain" = Some (VTool t).
  Proof.
    unfold otool, oget. intros H. apply bind_ok in H as (v & Hv & H).
    destruct (sget o _) as [w|]; [|discriminate]. injection Hv as <-. destruct w; try discriminate H. now injection H as ->.
  Qed.
  Lemma ostrs_same o o' k : sget o' k = sget o k -> ostrs o' k = ostrs o k.
  Proof. unfold ostrs, olist, oget. now intros ->. Qed.
  Lemma ostr_same o o' k : sget o' k = sget o k -> ostr o' k = ostr o k.
  Proof. unfold ostr, oget. now intros ->. Qed.

  (** *** Commands *)
  Lemma last_split s : split_dot s = [s] \/ exists b, s = (b ++ "." ++ last (split_dot s) "")%string.
  Proof.
    induction s as [|c s IH]; [left; reflexivity|]. cbn [split_dot].
    destruct (Ascii.eqb_spec c ch_dot) as [->|Hc].
    - right. assert (E : last ("" :: split_dot s) "" = last (split_dot s) "").
      { pose proof (split_dot_cons s). destruct (split_dot s); [congruence|reflexivity]. }
      rewrite E. destruct IH as [IH|[b IH]].
      + exists "". now rewrite IH.
      + exists (String ch_dot b). cbn [String.append]. f_equal. exact IH.
    - destruct IH as [IH|[b IH]].
      + left. now rewrite IH.
      + right. destruct (split_dot s) as [|h [|h2 t]] eqn:E.
        * now apply split_dot_cons in E.
        * exists (String c b). exfalso. cbn [last] in IH. assert (L : split_dot s = split_dot b ++ split_dot h) by (rewrite IH; apply (split_dot_app b h)).
          rewrite E in L. pose proof (split_dot_cons b). pose proof (split_dot_cons h).
          destruct (split_dot b) as [|? [|? ?]], (split_dot h) as [|? ?]; try congruence; discriminate.
        * exists (String c b). cbn [String.append]. f_equal. exact IH.
  Qed.
  Lemma lang_written src l : lang_of src = Ok l -> match l with LCxx => cxx_source src | _ => c_source src end.
  Proof.
    unfold lang_of. set (e := last (split_dot (basename src)) "").
    assert (D : basename src = e \/ exists b, basename src = (b ++ "." ++ e)%string).
    { destruct (last_split (basename src)) as [H|H]; [left|right; exact H]. unfold e. now rewrite H. }
    assert (M : forall l, mem e l = true -> In e l).
    { intros l0 H. apply existsb_exists in H as (x & Hx & Ex). apply String.eqb_eq in Ex. now subst x. }
    destruct (mem e ["cpp"; "cxx"; "cc"]) eqn:E1; [intros [= <-]; exists e; auto|].
    destruct (mem e ["c"]) eqn:E2; [intros [= <-]; exists e; split; [apply M in E2; cbn in *; tauto|exact D]|].
    destruct (mem e ["asm"; "s"; "S"]) eqn:E3; [intros [= <-]; exists e; split; [apply M in E3; cbn in *; tauto|exact D]|].
    discriminate.
  Qed.
  Lemma app_assoc_s (a b c : string) : ((a ++ b) ++ c)%string = (a ++ (b ++ c))%string.
  Proof. induction a; cbn; congruence. Qed.
  Lemma ok_inj {A} (a b : A) : Ok a = Ok b -> b = a.
  Proof. congruence. Qed.
  Ltac open_cxx H :=
    unfold cxx_options in H;
    repeat (let x := fresh "x" in let Hx := fresh "Hx" in apply bind_ok in H as (x & Hx & H)); apply ok_inj in H; subst.
  Lemma app_nil_s (a : string) : (a ++ "")%string = a.
  Proof. induction a; cbn; congruence. Qed.
  Lemma run_cxxobj cwd t inc def lds cxx cc ld srcs opt src tgt deps :
    command cwd (VRule RObject tgt src deps cxxobjrule (CO t inc def lds cxx cc ld srcs opt) false) =
    FOk (tc_cxx t ++ " -c " ++ src ++ " -o " ++ realpath cwd tgt ++ " " ++ inc ++ " " ++ def ++ " " ++ cxx ++ " " ++ opt ++ "").
  Proof. reflexivity. Qed.
  Lemma run_ccobj cwd t inc def lds cxx cc ld srcs opt src tgt deps :
    command cwd (VRule RObject tgt src deps ccobjrule (CO t inc def lds cxx cc ld srcs opt) false) =
    FOk (tc_cc t ++ " -c " ++ src ++ " -o " ++ realpath cwd tgt ++ " " ++ inc ++ " " ++ def ++ " " ++ cc ++ " " ++ opt ++ "").
  Proof. reflexivity. Qed.
  Lemma run_cxxdep cwd t inc def lds cxx cc ld srcs opt src tgt deps f :
    command cwd (VRule RDepend tgt src deps cxxdeprule (CO t inc def lds cxx cc ld srcs opt) f) =
    FOk (tc_cxx t ++ " -MM " ++ src ++ " > " ++ realpath cwd tgt ++ " " ++ inc ++ " " ++ def ++ " " ++ cxx ++ "").
  Proof. reflexivity. Qed.
  Lemma run_ccdep cwd t inc def lds cxx cc ld srcs opt src tgt deps f :
    command cwd (VRule RDepend tgt src deps ccdeprule (CO t inc def lds cxx cc ld srcs opt) f) =
    FOk (tc_cc t ++ " -MM " ++ src ++ " > " ++ realpath cwd tgt ++ " " ++ inc ++ " " ++ def ++ " " ++ cc ++ "").
  Proof. reflexivity. Qed.
  Lemma run_exec cwd t inc def lds cxx cc ld srcs opt src tgt deps f :
    command cwd (VRule RLink tgt src deps execrule (CO t inc def lds cxx cc ld srcs opt) f) =
    FOk (tc_cxx t ++ " " ++ ld ++ " -Wl,--start-group " ++ src ++ " " ++ srcs ++ " -Wl,--end-group -o " ++ realpath cwd tgt ++ " " ++ lds ++ "").
  Proof. reflexivity. Qed.
  Lemma run_dyn cwd t inc def lds cxx cc ld srcs opt src tgt deps f :
    command cwd (VRule RLink tgt src deps dynlibrule (CO t inc def lds cxx cc ld srcs opt) f) =
    FOk (tc_cxx t ++ " --shared " ++ ld ++ " -Wl,--start-group " ++ src ++ " " ++ srcs ++ " -Wl,--end-group -o " ++ realpath cwd tgt ++ " " ++ lds ++ "").
  Proof. reflexivity. Qed.
  Lemma run_stat cwd t inc def lds cxx cc ld srcs opt src tgt deps f :
    command cwd (VRule RLink tgt src deps statlibrule (CO t inc def lds cxx cc ld srcs opt) f) =
    FOk (tc_ar t ++ " rcs " ++ realpath cwd tgt ++ " " ++ src ++ "").
  Proof. reflexivity. Qed.
  Ltac texts :=
    repeat match goal with
    | H : ostr _ _ = Ok _ |- _ => apply ostr_text in H
    | H : ostrs _ _ = Ok _ |- _ => apply ostrs_texts in H
    | H : otool _ = Ok _ |- _ => apply otool_text in H
    end.
  Lemma std_line a b c x : (" " ++ String.concat " " ["-std=" ++ a; b; c] ++ x)%string = (" -std=" ++ a ++ " " ++ b ++ " " ++ c ++ x)%string.
  Proof. cbn [String.concat String.append]. rewrite !app_assoc_s. cbn [String.append]. rewrite !app_assoc_s. cbn [String.append]. reflexivity. Qed.
  Lemma object_command cwd o co src tgt deps e : cxx_options home o = Ok co -> object src tgt co deps = Ok e ->
    exists c, command cwd e = FOk c /\ compile_line o src (realpath cwd tgt) c.
  Proof.
    intros Hco H. open_cxx Hco. unfold object in H. apply bind_ok in H as (l & Hl & H). apply ok_inj in H. subst e.
    apply lang_written in Hl. texts.
    destruct l.
    - eexists. split; [apply run_cxxobj|]. rewrite app_nil_s, std_line. eapply cl_cxx; eassumption.
    - eexists. split; [apply run_ccobj|]. rewrite app_nil_s, std_line. eapply cl_c; eassumption.
    - eexists. split; [apply run_ccobj|]. rewrite app_nil_s, std_line. eapply cl_c; eassumption.
  Qed.
  Lemma depend_command cwd o co src tgt deps f e : cxx_options home o = Ok co -> depend src tgt co deps f = Ok e ->
    exists c, command cwd e = FOk c /\ depend_line o src (realpath cwd tgt) c.
  Proof.
    intros Hco H. open_cxx Hco. unfold depend in H. apply bind_ok in H as (l & Hl & H). apply ok_inj in H. subst e.
    apply lang_written in Hl. texts.
    destruct l.
    - eexists. split; [apply run_cxxdep|]. rewrite std_line, app_nil_s. eapply dl_cxx; eassumption.
    - eexists. split; [apply run_ccdep|]. rewrite std_line, app_nil_s. eapply dl_c; eassumption.
    - eexists. split; [apply run_ccdep|]. rewrite std_line, app_nil_s. eapply dl_c; eassumption.
  Qed.
  Lemma rstrs_ok l ss : rstrs l = Ok ss -> l = map RStr ss.
  Proof.
    unfold rstrs. intros H. apply map_res_ok in H. induction H as [|r s l ss Hr _ IH]; [reflexivity|].
    destruct r; try discriminate Hr. injection Hr as ->. cbn. now f_equal.
  Qed.
  Lemma finish_inv l o r ev : finish home l o = Ok (r, ev) ->
    (text o "type" "objects" /\ r = l /\ ev = []) \/
    exists ty t objs e deps rule co, text o "type" ty /\ text o "target" t /\ l = map RStr objs /\ r = [RTarget t] /\
      ev = [e] /\ e = VRule RLink t deps objs rule co false /\ forall cwd, exists c, command cwd e = FOk c /\ link_line home o objs (realpath cwd t) ty c.
  Proof.
    unfold finish. intros H. apply bind_ok in H as (ty & Hty & H). apply ostr_text in Hty.
    assert (L : forall rule, link home rule l o = Ok (r, ev) ->
      (forall co t objs, cxx_options home o = Ok co -> forall cwd, exists c, command cwd (VRule RLink t (String.concat " " objs) objs rule co false) = FOk c /\ link_line home o objs (realpath cwd t) ty c) ->
      exists t objs e deps rule co, text o "target" t /\ l = map RStr objs /\ r = [RTarget t] /\
      ev = [e] /\ e = VRule RLink t deps objs rule co false /\ forall cwd, exists c, command cwd e = FOk c /\ link_line home o objs (realpath cwd t) ty c).
    { intros rule Hl Hc. unfold link in Hl. apply bind_ok in Hl as (co & Hco & Hl). apply bind_ok in Hl as (t & Ht & Hl).
      apply bind_ok in Hl as (ss & Hss & Hl). injection Hl as <- <-. apply rstrs_ok in Hss. apply ostr_text in Ht.
      specialize (Hc co t ss Hco).
      exists t, ss, (VRule RLink t (String.concat " " ss) ss rule co false), (String.concat " " ss), rule, co. auto 10. }
    destruct (String.eqb_spec ty "application") as [->|_].
    { right. apply L in H; [destruct H as (t & objs & e & deps & rule & co & H); exists "application", t, objs, e, deps, rule, co; tauto|].
      intros co t objs Hco cwd. open_cxx Hco. texts. eexists. split; [apply run_exec|]. rewrite app_nil_s. rewrite !app_assoc_s.
      econstructor; eassumption. }
    destruct (String.eqb_spec ty "shared_library") as [->|_].
    { right. apply L in H; [destruct H as (t & objs & e & deps & rule & co & H); exists "shared_library", t, objs, e, deps, rule, co; tauto|].
      intros co t objs Hco cwd. open_cxx Hco. texts. eexists. split; [apply run_dyn|]. rewrite app_nil_s. rewrite !app_assoc_s.
      econstructor; eassumption. }
    destruct (String.eqb_spec ty "static_library") as [->|_].
    { right. apply L in H; [destruct H as (t & objs & e & deps & rule & co & H); exists "static_library", t, objs, e, deps, rule, co; tauto|].
      intros co t objs Hco cwd. open_cxx Hco. texts. eexists. split; [apply run_stat|]. rewrite app_nil_s.
      econstructor; eassumption. }
    destruct (String.eqb_spec ty "objects") as [->|_]; [|discriminate]. left. injection H as <- <-. auto.
  Qed.

  (** *** Everything about module_objects *)
  Definition no_rules (ev : list event) : Prop :=
    forall t s d r o f k, In (VRule k t s d r o f) ev -> k <> RObject /\ k <> RDepend /\ k <> RLink.
  Lemma no_rules_sources l : no_rules (map VSource l).
  Proof. intros t s d r o f k H. apply in_map_iff in H as (x & Hx & _). discriminate. Qed.
  Lemma no_rules_qt k rule srcs tgts co ad : k = RMoc \/ k = RUic -> no_rules (link_qt k rule srcs tgts co ad).
  Proof.
    intros Hk t s d r o f k' H. unfold link_qt in H. apply in_flat_map in H as ([a b] & _ & H).
    cbn in H. destruct H as [H|[H|[]]]; [discriminate|]. injection H as <- <- <- <- <- <- <-.
    destruct Hk as [->| ->]; repeat split; discriminate.
  Qed.
  Lemma no_rules_headers name o o' ev : local_headers name o = Ok (o', ev) -> no_rules ev.
  Proof.
    unfold local_headers. intros H. apply bind_ok in H as (l & _ & H). apply bind_ok in H as (ps & _ & H).
    apply bind_ok in H as (b & _ & H). apply bind_ok in H as (o1 & H1 & H). inversion H; subst. clear H.
    intros t s d r o2 f k Hi. apply in_app_or in Hi as [Hi|[Hi|[]]]; [|discriminate].
    apply in_flat_map in Hi as ([x y] & _ & [Hi|[Hi|[]]]); discriminate.
  Qed.
  Lemma link_objects_wired srcs objs deps co ad ev : link_objects dfile srcs objs deps co ad = Ok ev ->
    forall t s dp rule o f k, In (VRule k t s dp rule o f) ev ->
      o = co /\ ((k = RObject /\ object s t co dp = Ok (VRule k t s dp rule o f) /\ wired dfile ev t s dp) \/
      (k = RDepend /\ depend s t co dp f = Ok (VRule k t s dp rule o f))).
  Proof.
    revert objs deps ev. induction srcs as [|s0 srcs IH]; intros objs deps ev H; [inversion H; intros ? ? ? ? ? ? ? []|].
    destruct objs as [|ob objs]; [inversion H; intros ? ? ? ? ? ? ? []|].
    destruct deps as [|d deps]; [inversion H; intros ? ? ? ? ? ? ? []|].
    cbn [link_objects] in H. apply bind_ok in H as (e1 & H1 & H). apply bind_ok in H as (e2 & H2 & H).
    apply bind_ok in H as (es & H3 & H). apply ok_inj in H.
    set (hs := match cxx_read_depends (dfile d) with Some h => h | None => [] end) in *.
    set (fc := match cxx_read_depends (dfile d) with Some h => false | None => true end) in *.
    intros t s dp rule o f k Hi. rewrite H in Hi.
    assert (L : In (VRule k t s dp rule o f) es -> In (VRule k t s dp rule o f) es) by auto.
    apply in_app_or in Hi as [[Hi|[]]|Hi]; [discriminate|].
    apply in_app_or in Hi as [Hi|Hi]; [apply in_map_iff in Hi as (? & ? & _); discriminate|].
    apply in_app_or in Hi as [[Hi|[Hi|[]]]|Hi].
    - subst e1. pose proof H1 as H1'. unfold depend in H1'. apply bind_ok in H1' as (l & _ & H1'). injection H1' as <- <- <- <- <- <- <-.
      split; [reflexivity|]. right. split; [reflexivity|exact H1].
    - subst e2. pose proof H2 as H2'. unfold object in H2'. apply bind_ok in H2' as (l & _ & H2'). injection H2' as <- <- <- <- <- <- <-.
      split; [reflexivity|]. left. split; [reflexivity|]. split; [exact H2|].
      unfold depend in H1. apply bind_ok in H1 as (l1 & _ & H1). apply ok_inj in H1.
      exists d, ad, hs, (match l1 with LCxx => cxxdeprule | _ => ccdeprule end), co, fc.
      split; [reflexivity|]. split; [|split; [|split]].
      + rewrite H. apply in_or_app. right. apply in_or_app. right. apply in_or_app. left. left. exact H1.
      + unfold hs, fc. destruct (cxx_read_depends (dfile d)); auto.
      + rewrite H. now left.
      + intros h Hh. rewrite H. apply in_or_app. right. apply in_or_app. left. now apply in_map.
    - destruct (IH _ _ _ H3 _ _ _ _ _ _ _ Hi) as [-> [(-> & Ho & Hw)|Hd]]; split; auto.
      left. repeat split; [exact Ho|]. destruct Hw as (d' & ex & h & rl & o' & f' & E1 & E2 & E3 & E4 & E5).
      assert (W : forall x, In x es -> In x ev).
      { intros x Hx. rewrite H. apply in_or_app. right. apply in_or_app. right. apply in_or_app. now right. }
      exists d', ex, h, rl, o', f'. repeat split; auto.
  Qed.

  Lemma qt_ui_options o co ad o' co' ad' ev : qt_ui_part home glob_ o co ad = Ok (o', co', ad', ev) ->
    cxx_options home o = Ok co -> cxx_options home o' = Ok co' /\ no_rules ev.
  Proof.
    unfold qt_ui_part. intros H Hco. apply bind_ok in H as (ui & _ & H).
    destruct ui as [|u ui]; [inversion H; subst; split; [auto|intros ? ? ? ? ? ? ? []]|].
    apply bind_ok in H as (b & _ & H). apply bind_ok in H as (l & _ & H). apply bind_ok in H as (inc & _ & H).
    apply bind_ok in H as (o1 & H1 & H). apply bind_ok in H as (co1 & Hco1 & H). inversion H; subst.
    split; [exact Hco1|]. apply no_rules_qt. auto.
  Qed.
  Lemma qt_moc_inv o co ad a b c ev : qt_moc_part glob_ o co ad = Ok (a, b, c, ev) ->
    exists bd ml, text o "builddir" bd /\ texts o "qt_moc" ml /\ a = build_paths (expand glob_ ml) bd "h.cxx" None /\
      b = build_paths (expand glob_ ml) bd "h.cxx.o" None /\ List.length c = List.length b /\
      no_rules ev /\ compiled ev = [] /\ linked ev = [].
  Proof.
    unfold qt_moc_part. intros H. apply bind_ok in H as (bd & Hb & H). apply bind_ok in H as (l & Hl & H).
    apply ostr_text in Hb. apply ostrs_texts in Hl. exists bd, l. split; [exact Hb|]. split; [exact Hl|].
    destruct l as [|m l].
    - inversion H; subst. cbn. repeat split; auto; intros [].
    - apply ok_inj in H. injection H as -> -> -> ->. split; [reflexivity|]. split; [reflexivity|].
      split; [unfold build_paths; now rewrite !map_length|]. split; [apply no_rules_qt; auto|]. apply link_qt_silent; auto.
  Qed.

  Lemma module_objects_inv name o objs o2 ev : module_objects home glob_ dfile name o = Ok (objs, o2, ev) ->
    (forall k, k <> "include_paths" -> sget o2 k = sget o k) /\
    exists b sl ml ol co,
      text o "builddir" b /\ texts o "sources" sl /\ texts o "qt_moc" ml /\ texts o "objects" ol /\
      cxx_options home o2 = Ok co /\
      compiled ev = List.combine (expand glob_ sl ++ build_paths (expand glob_ ml) b "h.cxx" None)
                      (build_paths (expand glob_ sl) b "o" None ++ build_paths (expand glob_ ml) b "h.cxx.o" None) /\
      linked ev = [] /\ objs = map snd (compiled ev) ++ ol /\
      (forall t s dp rule o f k, In (VRule k t s dp rule o f) ev -> k <> RLink) /\
      (forall t s dp rule o f, In (VRule RObject t s dp rule o f) ev ->
         o = co /\ object s t co dp = Ok (VRule RObject t s dp rule o f) /\ wired dfile ev t s dp) /\
      (forall t s dp rule o f, In (VRule RDepend t s dp rule o f) ev ->
         o = co /\ depend s t co dp f = Ok (VRule RDepend t s dp rule o f)).
  Proof.
    unfold module_objects. intros H. apply bind_ok in H as ([o1 ev1] & H1 & H).
    apply bind_ok in H as (dl & Hdl & H). apply bind_ok in H as (sl & Hsl & H). apply bind_ok in H as (b & Hb & H).
    apply bind_ok in H as (co & Hco & H). apply bind_ok in H as ([[[o2' co2] ad2] ev2] & H2 & H).
    apply bind_ok in H as ([[[ms mo] md] ev3] & H3 & H). apply bind_ok in H as (ev4 & H4 & H).
    apply bind_ok in H as (ol & Hol & H). apply ok_inj in H. injection H as -> -> ->.
    pose proof (no_rules_headers _ _ _ _ H1) as N1. apply local_headers_same in H1 as (S1 & C1 & L1).
    destruct (qt_ui_options _ _ _ _ _ _ _ H2 Hco) as [Hco2 N2]. apply qt_ui_same in H2 as (S2 & C2 & L2).
    apply qt_moc_inv in H3 as (bd & ml & Hbd & Hml & -> & -> & Lc & N3 & C3 & L3).
    apply ostr_text in Hb. apply ostrs_texts in Hsl, Hol.
    assert (G : forall k, k <> "include_paths" -> sget o2' k = sget o k) by (intros k Hk; rewrite S2, S1 by exact Hk; reflexivity).
    split; [exact G|]. unfold text, texts in *.
    rewrite S1 in Hb, Hsl by discriminate. rewrite G in Hbd, Hml, Hol by discriminate.
    assert (bd = b) by congruence. subst bd.
    exists b, sl, ml, ol, co2. split; [exact Hb|]. split; [exact Hsl|]. split; [exact Hml|]. split; [exact Hol|]. split; [exact Hco2|].
    pose proof (link_objects_wired _ _ _ _ _ _ H4) as W.
    apply link_objects_compiled in H4 as [C4 L4];
      [|unfold build_paths; rewrite !app_length, !map_length; reflexivity|rewrite !app_length, Lc; unfold build_paths; rewrite !map_length; reflexivity].
    assert (Ec : compiled (ev1 ++ ev2 ++ ev3 ++ ev4 ++ map VSource ol) = compiled ev4).
    { rewrite !compiled_app, C1, C2, C3. destruct (sources_silent ol) as [-> _]. now rewrite app_nil_r. }
    split; [now rewrite Ec|]. split; [|split].
    - rewrite !linked_app, L1, L2, L3, L4. destruct (sources_silent ol) as [_ ->]. reflexivity.
    - rewrite Ec, C4. f_equal. set (x := expand glob_ sl ++ _). set (y := build_paths _ b "o" None ++ _).
      assert (Lxy : List.length x = List.length y).
      { unfold x, y, build_paths. rewrite !app_length, !map_length. reflexivity. }
      revert Lxy. generalize x y. clear. induction x as [|a x IH]; intros [|c y] L; try discriminate; [reflexivity|].
      cbn. f_equal. apply IH. now injection L.
    - assert (I4 : forall t s dp rule o f k, In (VRule k t s dp rule o f) (ev1 ++ ev2 ++ ev3 ++ ev4 ++ map VSource ol) ->
        k = RObject \/ k = RDepend \/ k = RLink -> In (VRule k t s dp rule o f) ev4).
      { intros t s dp rule o' f k Hi Hk. apply in_app_or in Hi as [Hi|Hi]; [apply N1 in Hi; tauto|].
        apply in_app_or in Hi as [Hi|Hi]; [apply N2 in Hi; tauto|]. apply in_app_or in Hi as [Hi|Hi]; [apply N3 in Hi; tauto|].
        apply in_app_or in Hi as [Hi|Hi]; [exact Hi|]. apply no_rules_sources in Hi; tauto. }
      split; [|split].
      + intros t s dp rule o' f k Hi ->. apply I4 in Hi; [|tauto]. apply W in Hi as [_ [[? _]|[? _]]]; discriminate.
      + intros t s dp rule o' f Hi. apply I4 in Hi; [|tauto]. apply W in Hi as [-> [(_ & Ho & Hw)|[Hd _]]]; [|discriminate].
        split; [reflexivity|]. split; [exact Ho|]. destruct Hw as (d' & ex & h & rl & o'' & f' & E1 & E2 & E3 & E4 & E5).
        assert (I : forall e, In e ev4 -> In e (ev1 ++ ev2 ++ ev3 ++ ev4 ++ map VSource ol)).
        { intros e He. do 3 (apply in_or_app; right). apply in_or_app. now left. }
        exists d', ex, h, rl, o'', f'. repeat split; auto.
      + intros t s dp rule o' f Hi. apply I4 in Hi; [|tauto]. apply W in Hi as [-> [(Hd & _)|[_ Hd]]]; [discriminate|]. auto.
  Qed.

  (** *** modmake *)
  Notation modmake := (modmake home tool glob_ dfile).
  Definition sub_step (f : nat) (o1 : opts) (st : list relem * mlib * list event) (e : elem) :=
    let '(rs, lib, evs) := st in
    match e with
    | ESub n i =>
        do! (r, o', lib', ev) <- modmake f lib n i o1;
        Ok (rs ++ [RList r; ROpts o'], lib', evs ++ ev)
    | _ => Raise (AttributeError "name")
    end.
  Lemma modmake_inv f lib name impl base r o lib' ev : modmake (S f) lib name impl base = Ok (r, o, lib', ev) ->
    exists m o0 lib1 objs ev1 subs rs ev2 ev3,
      local_options home tool f lib name impl base = Ok (m, o0, lib1) /\
      module_objects home glob_ dfile name o0 = Ok (objs, o, ev1) /\ olist o "modules" = Ok subs /\
      fold_res (sub_step f o) subs ([], lib1, []) = Ok (rs, lib', ev2) /\
      finish home (map RStr objs ++ rs) o = Ok (r, ev3) /\ ev = ev1 ++ ev2 ++ ev3.
  Proof.
    cbn [CxxModel.modmake]. intros H. apply bind_ok in H as ([[m o0] lib1] & H1 & H).
    apply bind_ok in H as ([[objs o1] ev1] & H2 & H). apply bind_ok in H as (subs & H3 & H).
    apply bind_ok in H as ([[rs lib2] ev2] & H4 & H). apply bind_ok in H as ([r' ev3] & H5 & H).
    inversion H; subst. exists m, o0, lib1, objs, ev1, subs, rs, ev2, ev3. auto 10.
  Qed.
  Lemma subs_results f o subs st rs lib ev : fold_res (sub_step f o) subs st = Ok (rs, lib, ev) ->
    exists tl, rs = fst (fst st) ++ tl /\ (subs = [] -> tl = []) /\
      (subs <> [] -> exists r0 o0, In (RList r0) tl /\ In (ROpts o0) tl).
  Proof.
    revert st. induction subs as [|e subs IH]; intros st H; cbn [fold_res] in H.
    - injection H as ->. exists []. cbn. rewrite app_nil_r. repeat split; auto; congruence.
    - apply bind_ok in H as (st1 & H1 & H). destruct st as [[rs0 lib0] ev0]. unfold sub_step in H1. destruct e as [| |n i|]; try discriminate.
      apply bind_ok in H1 as ([[[r o'] lib'] ev'] & _ & H1). injection H1 as <-.
      apply IH in H as (tl & -> & _ & _). cbn [fst]. exists ([RList r; ROpts o'] ++ tl). rewrite app_assoc.
      split; [reflexivity|]. split; [discriminate|]. intros _. exists r, o'. cbn. auto.
  Qed.
  Lemma olist_texts_nil o k l : olist o k = Ok l -> texts o k [] <-> l = [].
  Proof.
    unfold olist, oget, texts. intros H. apply bind_ok in H as (v & Hv & H). destruct (sget o k) as [w|]; [|discriminate]. injection Hv as ->.
    split.
    - intros (v' & [= <-] & [->|(s & -> & E)]); cbn in H; injection H as <-; [reflexivity|].
      destruct s; [reflexivity|discriminate].
    - intros ->. exists v. split; [reflexivity|]. eapply iter_members; [exact H|reflexivity].
  Qed.

  (** With submodules the result contains a list and an options object, so that linking fails. *)
  Lemma submodules_results f lib name impl base r o lib' ev : modmake f lib name impl base = Ok (r, o, lib', ev) ->
    ~ texts o "modules" [] -> text o "type" "objects" /\ exists r0 o0, In (RList r0) r /\ In (ROpts o0) r.
  Proof.
    destruct f; [discriminate|]. intros H Hm. apply modmake_inv in H as (m & o0 & lib1 & objs & ev1 & subs & rs & ev2 & ev3 & _ & _ & H3 & H4 & H5 & _).
    apply olist_texts_nil in H3. apply subs_results in H4 as (tl & E & _ & Ht). cbn in E. subst rs.
    assert (Hs : subs <> []) by tauto. destruct (Ht Hs) as (r0 & o0' & I1 & I2).
    apply finish_inv in H5 as [(Hty & -> & _)|(ty & t & ss & e & d & rl & co & _ & _ & E & _)].
    - split; [exact Hty|]. exists r0, o0'. split; apply in_or_app; now right.
    - exfalso. assert (I3 : In (RList r0) (map RStr ss)) by (rewrite <- E; apply in_or_app; now right).
      apply in_map_iff in I3 as (x & Hx & _). discriminate.
  Qed.

  Definition simple_modmake f lib name impl base r o lib' ev :=
    exists m o0 objs ev1 ev3,
      local_options home tool f lib name impl base = Ok (m, o0, lib') /\
      module_objects home glob_ dfile name o0 = Ok (objs, o, ev1) /\
      finish home (map RStr objs) o = Ok (r, ev3) /\ ev = ev1 ++ ev3.
  Lemma modmake_simple f lib name impl base r o lib' ev : modmake (S f) lib name impl base = Ok (r, o, lib', ev) ->
    texts o "modules" [] -> simple_modmake f lib name impl base r o lib' ev.
  Proof.
    intros H Hm. apply modmake_inv in H as (m & o0 & lib1 & objs & ev1 & subs & rs & ev2 & ev3 & H1 & H2 & H3 & H4 & H5 & ->).
    apply olist_texts_nil in H3. assert (subs = []) as -> by tauto. cbn in H4. injection H4 as <- <- <-.
    rewrite app_nil_r in H5. exists m, o0, objs, ev1, ev3. auto.
  Qed.

  (** *** Where the paths come from *)
  Lemma requested_list base m o1 im bl : merge Merge base m = Ok o1 -> mk_options tool m = Ok m ->
    sget base "include_modules" = Some (VList bl) -> olist o1 "include_modules" = Ok im ->
    exists gl, requested m gl /\ im = bl ++ map to_submodule gl.
  Proof.
    intros H Ha Hb Hi. apply (merge_get _ _ _ _ _ _ "include_modules") in H. rewrite Hb in H. destruct H as (f & w & Ef & Ew & Hc).
    cbn in Ef. injection Ef as <-. unfold kind_of in Hc. cbn [f_merge f_default CxxModel.combine] in Hc.
    unfold olist, oget in Hi. rewrite Ew in Hi. cbn [bind] in Hi.
    apply bind_ok in Hc as (l & Hl & Hc). cbn [padd] in Hc. injection Hc as <-. cbn in Hi. injection Hi as <-.
    exists l. split; [|reflexivity]. unfold requested. unfold given in Hl. destruct (sget m "include_modules") as [v|] eqn:E.
    - destruct v as [s|l'| | |]; cbn in Hl; try discriminate Hl; [|injection Hl as ->; now left|injection Hl as <-; auto].
      exfalso. apply mk_options_ok in Ha as [_ Ha]. apply (dget_In _ string_eqb_spec') in E.
      apply check_ok with (kv := ("include_modules", VStr s)) in Ha; [discriminate Ha|exact E].
    - cbn in Hl. injection Hl as <-. auto.
  Qed.
  Lemma make_paths f lib name impl base r o lib' ev k bl : modmake (S f) lib name impl base = Ok (r, o, lib', ev) ->
    In k srcdir_keys -> sget base k <> None -> sget base "include_modules" = Some (VList bl) ->
    exists m lib1 gl os lib2 ms lib3 inc own mids colls,
      get lib name impl = Ok (m, lib1) /\ requested (mod_opts lib1 m) gl /\
      walk lib1 (bl ++ map to_submodule gl) os lib2 /\ collect_modules f lib2 m = Ok (ms, lib3, inc) /\
      contributes home (mod_opts lib1 m) k own /\ Forall2 (fun i c => contributes home i k c) os mids /\
      Forall2 (fun i c => contributes home (mod_opts lib3 i) k c) ms colls /\
      texts o k (own ++ List.concat mids ++ List.concat colls).
  Proof.
    intros H Hk Hb Hbi. apply modmake_inv in H as (m & o0 & lib3 & objs & ev1 & subs & rs & ev2 & ev3 & H1 & H2 & _).
    apply local_options_parts in H1 as (lib1 & o1 & im & os & lib2 & ms & inc & Hg & Hm & Ho1 & Him & Hw & Hc & Hi).
    destruct (requested_list _ _ _ _ _ Ho1 Hm Hbi Him) as (gl & Hr & ->).
    destruct (sget base k) as [v|] eqn:Ek; [|congruence].
    destruct (merge_sources _ _ _ _ _ Ho1 Hm Hk Ek) as (own & Hown & Eown).
    destruct (included_sources _ _ _ _ _ Hi Hk Eown) as (cs & Hcs & Ecs).
    apply Forall2_app_inv_l in Hcs as (mids & colls & Hmids & Hcolls & ->).
    apply module_objects_inv in H2 as [Hsame _].
    exists m, lib1, gl, os, lib2, ms, lib3, inc, own, mids, colls. repeat (split; [assumption|]). split.
    - clear - Hcolls. revert colls Hcolls. induction ms; intros colls Hc; inversion Hc; subst; constructor; auto.
    - exists (VList (map EStr own ++ map EStr (List.concat (mids ++ colls)))). split.
      + rewrite Hsame; [exact Ecs|]. intros ->. cbn in Hk. intuition discriminate.
      + left. now rewrite concat_app, <- map_app.
  Qed.

  (** Objects and links of a module without submodules. *)
  Lemma simple_built f lib name impl base r o lib' ev : simple_modmake f lib name impl base r o lib' ev ->
    exists b sl ml ol srcs mocs,
      text o "builddir" b /\ texts o "sources" sl /\ texts o "qt_moc" ml /\ texts o "objects" ol /\
      expands glob_ sl srcs /\ expands glob_ ml mocs /\
      compiled ev = List.combine (srcs ++ map (build_path b "h.cxx" None) mocs)
                                 (map (build_path b "o" None) srcs ++ map (build_path b "h.cxx.o" None) mocs) /\
      ((text o "type" "objects" /\ r = map RStr (map snd (compiled ev) ++ ol) /\ linked ev = []) \/
       exists t, text o "target" t /\ r = [RTarget t] /\ linked ev = [(t, map snd (compiled ev) ++ ol)]).
  Proof.
    intros (m & o0 & objs & ev1 & ev3 & _ & H2 & H3 & ->).
    apply module_objects_inv in H2 as (Hs & b & sl & ml & ol & co & Hb & Hsl & Hml & Hol & _ & Hc & Hl & Ho & _).
    exists b, sl, ml, ol, (expand glob_ sl), (expand glob_ ml). unfold text, texts in *.
    rewrite !Hs by discriminate. repeat (split; [assumption|]). split; [apply expand_expands|]. split; [apply expand_expands|].
    apply finish_inv in H3 as [(Hty & -> & ->)|(ty & t & ss & e & d & rl & co' & Hty & Ht & E & -> & -> & He & _)].
    - rewrite app_nil_r. split; [exact Hc|]. left. split; [unfold text in Hty; now rewrite Hs in Hty by discriminate|]. split; [now rewrite Ho|exact Hl].
    - assert (ss = objs) as ->.
      { clear - E. revert ss E. induction objs as [|x objs IH]; intros [|s ss] E; try discriminate; [reflexivity|].
        cbn in E. injection E as -> E. f_equal. now apply IH. }
      rewrite compiled_app, linked_app, Hl. subst e.
      assert (Ecc : compiled [VRule RLink t d objs rl co' false] = []) by reflexivity. rewrite Ecc, app_nil_r.
      split; [exact Hc|]. right. exists t. unfold text in Ht. rewrite Hs in Ht by discriminate.
      split; [exact Ht|]. split; [reflexivity|]. now rewrite Ho.
  Qed.
  Lemma simple_commands cwd f lib name impl base r o lib' ev : simple_modmake f lib name impl base r o lib' ev ->
    forall k t s dp rule co fo, In (VRule k t s dp rule co fo) ev ->
    match k with
    | RObject => wired dfile ev t s dp /\ exists c, command cwd (VRule k t s dp rule co fo) = FOk c /\ compile_line o s (realpath cwd t) c
    | RDepend => exists c, command cwd (VRule k t s dp rule co fo) = FOk c /\ depend_line o s (realpath cwd t) c
    | RLink => exists c ty, command cwd (VRule k t s dp rule co fo) = FOk c /\ text o "type" ty /\ text o "target" t /\ link_line home o dp (realpath cwd t) ty c
    | _ => True
    end.
  Proof.
    intros (m & o0 & objs & ev1 & ev3 & _ & H2 & H3 & ->) k t s dp rule co fo Hi.
    apply module_objects_inv in H2 as (Hs & b & sl & ml & ol & co' & _ & _ & _ & _ & Hco & _ & _ & _ & Hl & Ho & Hd).
    apply finish_inv in H3 as [(Hty & -> & ->)|(ty & t' & ss & e & d & rl & co2 & Hty & Ht & E & -> & -> & He & Hcmd)].
    - rewrite app_nil_r in *. destruct k; trivial.
      + apply Hd in Hi as [-> Hi]. eapply depend_command; eauto.
      + apply Ho in Hi as (-> & Hi & Hw). split; [exact Hw|]. eapply object_command; eauto.
      + apply Hl in Hi. congruence.
    - apply in_app_or in Hi as [Hi|[Hi|[]]].
      + destruct k; trivial.
        * apply Hd in Hi as [-> Hi]. eapply depend_command; eauto.
        * apply Ho in Hi as (-> & Hi & Hw). split.
          { destruct Hw as (d' & ex & h & rl' & o'' & f' & E1 & E2 & E3 & E4 & E5).
            exists d', ex, h, rl', o'', f'. repeat split; auto; try (apply in_or_app; now left). intros x Hx. apply in_or_app. left. auto. }
          eapply object_command; eauto.
        * apply Hl in Hi. congruence.
      + rewrite Hi in *. injection He as -> -> -> -> -> -> ->. destruct (Hcmd cwd) as (c & Hc & Hline). exists c, ty. auto.
  Qed.

  (** *** Options of the returned result *)
  Lemma made_fixed f lib name impl base r o lib' ev : modmake f lib name impl base = Ok (r, o, lib', ev) ->
    exists m lib1 o1, get lib name impl = Ok (m, lib1) /\ merge Merge base (mod_opts lib1 m) = Ok o1 /\
      forall k, In k fixed_options -> sget o k = sget o1 k.
  Proof.
    destruct f; [discriminate|]. intros H. apply modmake_inv in H as (m & o0 & lib3 & objs & ev1 & subs & rs & ev2 & ev3 & H1 & H2 & _).
    apply local_options_parts in H1 as (lib1 & o1 & im & os & lib2 & ms & inc & Hg & Hm & Ho1 & Him & Hw & Hc & Hi).
    exists m, lib1, o1. repeat (split; [assumption|]). intros k Hk.
    apply module_objects_inv in H2 as [Hsame _]. rewrite Hsame by (intros ->; cbn in Hk; intuition discriminate).
    eapply included_fixed; eauto.
  Qed.

  (** *** task *)
  Lemma module_get lib n impl d below top kw lib1 : module lib n impl d below top kw = Ok lib1 ->
    impl = None \/ d = true ->
    exists m, get lib1 n None = Ok (m, lib1) /\ mod_opts lib1 m = mk_opts (VStr top) (VStr (dirname top)) kw.
  Proof.
    intros H Hd. set (i := match impl with Some i => i | None => "__default__" end).
    assert (E : exists l, implementation lib n i true below top kw = Ok lib1 /\ register_impl lib n i (below ++ [top]) (mk_opts (VStr top) (VStr (dirname top)) kw) = Ok l /\ set_defimpl l n i true = Ok lib1).
    { assert (implementation lib n i true below top kw = Ok lib1).
      { unfold i. destruct impl; cbn in H; [destruct Hd as [?| ->]; [discriminate|exact H]|exact H]. }
      pose proof H0 as H1. unfold implementation in H1. apply bind_ok in H1 as (l & Hl & Hs). eauto. }
    destruct E as (l & _ & Hl & Hs). unfold set_defimpl in Hs.
    assert (lib1 = ML (l_heap l) (l_mods l) (sset (l_def l) n i)) as -> by (destruct (sget (l_def l) n); now injection Hs).
    clear Hs. exists (List.length (l_heap lib)).
    assert (Eh : exists st im, l = ML (l_heap lib ++ [MR n (Some i) st (mk_opts (VStr top) (VStr (dirname top)) kw)])
       (sset (l_mods lib) n (Variant (sset im i (List.length (l_heap lib))))) (l_def lib)).
    { unfold register_impl, addimpl in Hl. destruct (sget (l_mods lib) n) as [[|im]|]; [discriminate|exists (Some (below ++ [top])), im|exists (Some (below ++ [top])), []]; now injection Hl as <-. }
    destruct Eh as (st & im & ->). cbn [l_heap l_mods l_def]. unfold get, get_default, get_impl.
    cbn [l_heap l_mods l_def]. rewrite (proj2 (shas_get _ n)) by (eexists; apply (dget_dset_eq _ string_eqb_spec')).
    rewrite !sget_eq. split; [reflexivity|].
    unfold mod_opts. cbn [l_heap]. rewrite nth_error_app2, Nat.sub_diag by lia. reflexivity.
  Qed.

  Notation base0 := (set_default_if_empty tool []).
  Lemma prepare_nil fuel lib name impl : prepare_targets home tool glob_ dfile fuel lib name impl [] = modmake fuel lib name impl base0.
  Proof. reflexivity. Qed.
  (** The options that decide what is linked are those of the call. *)
  Lemma made_type_target f lib name impl r o lib' ev m lib1 ty t :
    modmake f lib name impl base0 = Ok (r, o, lib', ev) -> get lib name impl = Ok (m, lib1) ->
    sget (mod_opts lib1 m) "type" = Some (VStr ty) -> sget (mod_opts lib1 m) "target" = Some (VStr t) ->
    text o "type" ty /\ text o "target" t.
  Proof.
    intros H Hg Hty Ht. apply made_fixed in H as (m' & lib1' & o1 & Hg' & Hm & Hf).
    rewrite Hg in Hg'. injection Hg' as <- <-. unfold text. rewrite !Hf by (cbn; tauto).
    split.
    - apply (merge_get _ _ _ _ _ _ "type") in Hm.
      assert (Eb : sget base0 "type" = Some (VStr "objects")) by reflexivity. rewrite Eb in Hm.
      destruct Hm as (fd & w & Ef & -> & Hc). cbn in Ef. injection Ef as <-. unfold kind_of, given in Hc. rewrite Hty in Hc.
      cbn in Hc. now injection Hc as <-.
    - apply (merge_get _ _ _ _ _ _ "target") in Hm.
      assert (Eb : sget base0 "target" = Some (VStr "target")) by reflexivity. rewrite Eb in Hm.
      destruct Hm as (fd & w & Ef & -> & Hc). cbn in Ef. injection Ef as <-. unfold kind_of, given in Hc. rewrite Ht in Hc.
      cbn in Hc. now injection Hc as <-.
  Qed.
  Lemma sget_mk_opts a b kw k : k <> "__script__" -> k <> "__dir__" -> sget (mk_opts a b kw) k = sget kw k.
  Proof. intros H1 H2. unfold mk_opts. rewrite !sget_neq by congruence. reflexivity. Qed.

  Lemma task_without_submodules fuel lib below top name target impl type default kw r o lib' ev :
    task home tool glob_ dfile fuel lib below top name target impl type default kw = Ok (r, o, lib', ev) ->
    impl = None \/ default = true -> texts o "modules" [].
  Proof.
    unfold task. intros H Hd. destruct (String.eqb_spec type "objects") as [->|Hty].
    - apply bind_ok in H as (lib1 & _ & H). apply bind_ok in H as ([[[r' o'] lib2] ev'] & H1 & H).
      apply bind_ok in H as (ss & Hss & H). injection H as -> -> -> _. rewrite prepare_nil in H1.
      destruct fuel; [discriminate|]. pose proof H1 as H2.
      apply modmake_inv in H2 as (m & o0 & lib3 & objs & ev1 & subs & rs & ev2 & ev3 & _ & _ & H3 & _).
      apply (olist_texts_nil _ _ _ H3). destruct subs as [|e subs]; [reflexivity|]. exfalso.
      apply submodules_results in H1 as (_ & r0 & o0' & I1 & _).
      + apply rstrs_ok in Hss. rewrite Hss in I1. apply in_map_iff in I1 as (x & Hx & _). discriminate.
      + intros Ht. apply (olist_texts_nil _ _ _ H3) in Ht. discriminate.
    - apply bind_ok in H as (lib1 & Hm & H). rewrite prepare_nil in H. destruct fuel; [discriminate|].
      pose proof H as H2. apply modmake_inv in H2 as (m & o0 & lib3 & objs & ev1 & subs & rs & ev2 & ev3 & _ & _ & H3 & _).
      apply (olist_texts_nil _ _ _ H3). destruct subs as [|e subs]; [reflexivity|]. exfalso.
      pose proof H as H4. apply submodules_results in H as (Hobj & _).
      + destruct (module_get _ _ _ _ _ _ _ _ Hm Hd) as (m1 & Hg & Eo).
        destruct (made_type_target _ _ _ _ _ _ _ _ _ _ type (match target with Some t => t | None => name end) H4 Hg) as [Ht _];
          [rewrite Eo, sget_mk_opts by discriminate; reflexivity|rewrite Eo, sget_mk_opts by discriminate; reflexivity|].
        unfold text in Ht, Hobj. congruence.
      + intros Ht. apply (olist_texts_nil _ _ _ H3) in Ht. discriminate.
  Qed.

  Lemma task_makes fuel lib below top name target impl type default kw r o lib' ev :
    task home tool glob_ dfile (S fuel) lib below top name target impl type default kw = Ok (r, o, lib', ev) ->
    impl = None \/ default = true -> type <> "objects" -> requested kw [] ->
    exists lib1 m ms inc own colls srcs gen ol,
      module lib (name ++ "__module") impl default below top
        (("type", VStr type) :: ("target", VStr (match target with Some t => t | None => name end)) :: kw) = Ok lib1 /\
      get lib1 (name ++ "__module") None = Ok (m, lib1) /\ collect_modules fuel lib1 m = Ok (ms, lib', inc) /\
      contributes home (("__dir__", VStr (dirname top)) :: kw) "sources" own /\
      Forall2 (fun i c => contributes home (mod_opts lib' i) "sources" c) ms colls /\
      expands glob_ (own ++ List.concat colls) srcs /\
      map fst (compiled ev) = srcs ++ gen /\ (texts o "qt_moc" [] -> gen = []) /\ texts o "objects" ol /\
      linked ev = [(match target with Some t => t | None => name end, map snd (compiled ev) ++ ol)].
  Proof.
    intros H Hd Hty Hr. pose proof (task_without_submodules _ _ _ _ _ _ _ _ _ _ _ _ _ _ H Hd) as Hno.
    unfold task in H. destruct (String.eqb_spec type "objects") as [?|_]; [congruence|].
    apply bind_ok in H as (lib1 & Hm & H). rewrite prepare_nil in H.
    destruct (module_get _ _ _ _ _ _ _ _ Hm Hd) as (m & Hg & Eo).
    destruct (made_type_target _ _ _ _ _ _ _ _ _ _ type (match target with Some t => t | None => name end) H Hg) as [Ht Htg];
      [rewrite Eo, sget_mk_opts by discriminate; reflexivity|rewrite Eo, sget_mk_opts by discriminate; reflexivity|].
    destruct (make_paths _ _ _ _ _ _ _ _ _ "sources" [] H) as (m' & lib1' & gl & os & lib2 & ms & lib3 & inc & own & mids & colls & Hg' & Hrq & Hw & Hc & Hown & Hmid & Hcoll & Hsrc);
      [cbn; tauto|assert (Eb : sget base0 "sources" = Some (VList [])) by reflexivity; rewrite Eb; discriminate|reflexivity|].
    rewrite Hg in Hg'. injection Hg' as <- <-. rewrite Eo in Hown.
    assert (gl = []) as ->.
    { unfold requested in Hrq. rewrite Eo, sget_mk_opts in Hrq by discriminate. cbn in Hrq.
      destruct Hrq as [E|[_ ->]]; [|reflexivity]. destruct Hr as [E'|[[E'|E'] _]]; congruence. }
    cbn in Hw. assert (lib2 = lib1 /\ os = []) as [-> ->] by (inversion Hw; auto).
    assert (mids = []) as -> by (inversion Hmid; auto). cbn [List.concat app] in Hsrc.
    apply modmake_simple in H; [|exact Hno].
    assert (lib' = lib3) as ->.
    { destruct H as (m'' & o0 & objs & ev1 & ev3 & H & _). apply local_options_parts in H as (l1 & o1 & im & os & l2 & ms' & inc' & G1 & G2 & G3 & G4 & G5 & G6 & _).
      rewrite Hg in G1. injection G1 as <- <-.
      assert (im = []) as ->.
      { destruct (requested_list _ _ _ _ [] G3 G2 eq_refl G4) as (gl & Hrq' & ->).
        unfold requested in Hrq'. rewrite Eo, sget_mk_opts in Hrq' by discriminate. cbn in Hrq'.
        destruct Hrq' as [E|[_ ->]]; [|reflexivity]. destruct Hr as [E'|[[E'|E'] _]]; [|congruence|congruence].
        rewrite E' in E. now injection E as <-. }
      assert (l2 = lib1) as -> by (inversion G5; auto). rewrite Hc in G6. now injection G6. }
    apply simple_built in H as (b & sl & ml & ol & srcs & mocs & Hb & Hsl & Hml & Hol & Hes & Hem & Hcomp & Hl).
    exists lib1, m, ms, inc, own, colls, srcs, (map (build_path b "h.cxx" None) mocs), ol.
    assert (sl = own ++ List.concat colls) as ->.
    { destruct Hsl as (v & Ev & Mv), Hsrc as (v' & Ev' & Mv'). rewrite Ev in Ev'. injection Ev' as <-.
      clear - Mv Mv'. destruct Mv as [->|(s & -> & ->)], Mv' as [E|(s' & E & ->)]; try discriminate.
      - injection E as E. revert E. generalize (own ++ List.concat colls). clear. induction sl as [|x sl IH]; intros [|y l] E; try discriminate; [reflexivity|].
        cbn in E. injection E as -> E. f_equal. auto.
      - now injection E as <-. }
    repeat (split; [assumption|]). split.
    { clear - Hown. set (a := mk_opts _ _ _) in Hown.
      assert (Ek : forall k, k <> "__script__" -> k <> "__dir__" -> k <> "type" -> k <> "target" -> sget a k = sget kw k).
      { intros k H1 H2 H3 H4. unfold a. rewrite sget_mk_opts by assumption. cbn.
        destruct (String.eqb_spec k "type") as [Ht|_]; [congruence|]. destruct (String.eqb_spec k "target") as [Ht|_]; [congruence|]. reflexivity. }
      assert (Ed : sget a "__dir__" = Some (VStr (dirname top))) by apply sget_eq.
      inversion Hown as [Hn|v Hv Hmm|v ps dir sub Hv Hmm Hdd Hss]; subst.
      - apply con_none. cbn. rewrite <- Ek by discriminate. exact Hn.
      - eapply con_empty; [cbn; rewrite <- Ek by discriminate; exact Hv|exact Hmm].
      - rewrite Ed in Hdd. injection Hdd as <-. eapply con_paths; [cbn; rewrite <- Ek by discriminate; exact Hv|exact Hmm|reflexivity|].
        cbn. rewrite <- Ek by discriminate. exact Hss. }
    split; [exact Hcoll|]. split; [exact Hes|]. split; [|split; [|split]].
    - rewrite Hcomp. set (x := srcs ++ _). set (y := map _ srcs ++ _).
      assert (Lxy : List.length x = List.length y) by (unfold x, y; rewrite !app_length, !map_length; reflexivity).
      revert Lxy. generalize x y. clear. induction x as [|a x IH]; intros [|c y] L; try discriminate; [reflexivity|].
      cbn. f_equal. apply IH. now injection L.
    - intros (v & Ev & Mv). destruct Hml as (v' & Ev' & Mv'). rewrite Ev in Ev'. injection Ev' as <-.
      assert (ml = []) as ->.
      { destruct Mv as [->|(s & -> & E0)], Mv' as [E|(s' & E & ->)]; try discriminate.
        - now destruct ml. - injection E as <-. now rewrite <- E0. }
      inversion Hem. reflexivity.
    - exact Hol.
    - destruct Hl as [(Hobj & _)|(t & Htt & _ & Hll)]; [unfold text in *; congruence|].
      unfold text in *. rewrite Htg in Htt. injection Htt as <-. exact Hll.
  Qed.

  Lemma run_moc cwd co tgt src deps f : command cwd (VRule RMoc tgt src deps mocrule co f) = FOk (tc_moc (co_tool co) ++ " " ++ src ++ " > " ++ realpath cwd tgt ++ "").
  Proof. reflexivity. Qed.
  Lemma run_uic cwd co tgt src deps f : command cwd (VRule RUic tgt src deps uicrule co f) = FOk (tc_uic (co_tool co) ++ " " ++ src ++ " > " ++ realpath cwd tgt ++ "").
  Proof. reflexivity. Qed.
  Lemma options_tool o co : cxx_options home o = Ok co -> sget o "toolchain" = Some (VTool (co_tool co)).
  Proof. intros H. open_cxx H. texts. assumption. Qed.
  Lemma in_link_qt k rule srcs tgts co ad k' t s dp r o f : In (VRule k' t s dp r o f) (link_qt k rule srcs tgts co ad) ->
    k' = k /\ r = rule /\ o = co.
  Proof.
    unfold link_qt. intros H. apply in_flat_map in H as ([x y] & _ & [H|[H|[]]]); [discriminate|]. now injection H.
  Qed.
  Lemma module_objects_qt name o objs o2 ev : module_objects home glob_ dfile name o = Ok (objs, o2, ev) ->
    forall k t s dp rule co f, In (VRule k t s dp rule co f) ev ->
    (k = RMoc -> rule = mocrule) /\ (k = RUic -> rule = uicrule) /\
    (k = RMoc \/ k = RUic -> sget o2 "toolchain" = Some (VTool (co_tool co))).
  Proof.
    unfold module_objects. intros H. apply bind_ok in H as ([o1 ev1] & H1 & H).
    apply bind_ok in H as (dl & Hdl & H). apply bind_ok in H as (sl & Hsl & H). apply bind_ok in H as (b & Hb & H).
    apply bind_ok in H as (co & Hco & H). apply bind_ok in H as ([[[o2' co2] ad2] ev2] & H2 & H).
    apply bind_ok in H as ([[[ms mo] md] ev3] & H3 & H). apply bind_ok in H as (ev4 & H4 & H).
    apply bind_ok in H as (ol & Hol & H). apply ok_inj in H. injection H as -> -> ->.
    destruct (qt_ui_options _ _ _ _ _ _ _ H2 Hco) as [Hco2 _]. destruct (qt_ui_same _ _ _ _ _ _ _ H2) as (Hs & _).
    intros k t s dp rule co' f Hi. apply in_app_or in Hi as [Hi|Hi].
    { exfalso. unfold local_headers in H1. apply bind_ok in H1 as (l & _ & H1). apply bind_ok in H1 as (ps & _ & H1).
      apply bind_ok in H1 as (bb & _ & H1). apply bind_ok in H1 as (oo & _ & H1). inversion H1; subst. clear H1.
      apply in_app_or in Hi as [Hi|[Hi|[]]]; [|discriminate]. apply in_flat_map in Hi as ([x y] & _ & [Hi|[Hi|[]]]); discriminate. }
    apply in_app_or in Hi as [Hi|Hi].
    { unfold qt_ui_part in H2. apply bind_ok in H2 as (ui & _ & H2). destruct ui as [|u ui].
      - inversion H2; subst. destruct Hi.
      - apply bind_ok in H2 as (bb & _ & H2). apply bind_ok in H2 as (l & _ & H2). apply bind_ok in H2 as (inc & _ & H2).
        apply bind_ok in H2 as (oo & _ & H2). apply bind_ok in H2 as (cc & _ & H2). apply ok_inj in H2. injection H2 as -> -> -> ->.
        apply in_link_qt in Hi as (-> & -> & ->). split; [discriminate|]. split; [reflexivity|]. intros _.
        rewrite Hs by discriminate. now apply options_tool. }
    apply in_app_or in Hi as [Hi|Hi].
    { unfold qt_moc_part in H3. apply bind_ok in H3 as (bb & _ & H3). apply bind_ok in H3 as (l & _ & H3). destruct l as [|m l].
      - inversion H3; subst. destruct Hi.
      - apply ok_inj in H3. injection H3 as -> -> -> ->. apply in_link_qt in Hi as (-> & -> & ->).
        split; [reflexivity|]. split; [discriminate|]. intros _. now apply options_tool. }
    apply in_app_or in Hi as [Hi|Hi]; [|apply in_map_iff in Hi as (? & ? & _); discriminate].
    apply (link_objects_wired _ _ _ _ _ _ H4) in Hi as [_ [[-> _]|[-> _]]];
      (split; [discriminate|split; [discriminate|intros [?|?]; discriminate]]).
  Qed.
  Lemma made_commands cwd f lib name impl base r o lib' ev : modmake (S f) lib name impl base = Ok (r, o, lib', ev) ->
    texts o "modules" [] -> forall k t s dp rule co fo, In (VRule k t s dp rule co fo) ev ->
    exists c, command cwd (VRule k t s dp rule co fo) = FOk c /\
    match k with
    | RObject => compile_line o s (realpath cwd t) c
    | RDepend => depend_line o s (realpath cwd t) c
    | RMoc => exists tc, sget o "toolchain" = Some (VTool tc) /\ c = (tc_moc tc ++ " " ++ s ++ " > " ++ realpath cwd t)%string
    | RUic => exists tc, sget o "toolchain" = Some (VTool tc) /\ c = (tc_uic tc ++ " " ++ s ++ " > " ++ realpath cwd t)%string
    | RLink => exists ty, text o "type" ty /\ text o "target" t /\ link_line home o dp (realpath cwd t) ty c
    end.
  Proof.
    intros H Hm k t s dp rule co fo Hi. apply modmake_simple in H; [|exact Hm].
    pose proof (simple_commands cwd _ _ _ _ _ _ _ _ _ H _ _ _ _ _ _ _ Hi) as Hc.
    assert (Q : k = RMoc \/ k = RUic -> (k = RMoc -> rule = mocrule) /\ (k = RUic -> rule = uicrule) /\ sget o "toolchain" = Some (VTool (co_tool co))).
    { intros Hk. destruct H as (m & o0 & objs & ev1 & ev3 & _ & H2 & H3 & ->). apply in_app_or in Hi as [Hi|Hi].
      - destruct (module_objects_qt _ _ _ _ _ H2 _ _ _ _ _ _ _ Hi) as (Q1 & Q2 & Q3). auto.
      - exfalso. apply finish_inv in H3 as [(_ & _ & ->)|(ty & t' & ss & e & d & rl & co2 & _ & _ & _ & _ & -> & He & _)]; [destruct Hi|].
        destruct Hi as [Hi|[]]. rewrite Hi in He. destruct Hk; subst k; discriminate. }
    destruct k.
    - exact Hc.
    - destruct Hc as [_ Hc]; exact Hc.
    - destruct Q as (-> & _ & Ht); auto. eexists. split; [apply run_moc|]. eexists. split; [exact Ht|]. now rewrite app_nil_s.
    - destruct Q as (_ & -> & Ht); auto. eexists. split; [apply run_uic|]. eexists. split; [exact Ht|]. now rewrite app_nil_s.
    - destruct Hc as (c & ty & ? & ? & ? & ?); exists c; eauto.
  Qed.
  Lemma made_wired f lib name impl base r o lib' ev : modmake (S f) lib name impl base = Ok (r, o, lib', ev) ->
    texts o "modules" [] -> forall t s dp rule co fo, In (VRule RObject t s dp rule co fo) ev -> wired dfile ev t s dp.
  Proof.
    intros H Hm t s dp rule co fo Hi. apply modmake_simple in H; [|exact Hm].
    apply (simple_commands "" _ _ _ _ _ _ _ _ _ H _ _ _ _ _ _ _ Hi).
  Qed.
  Lemma wired_headers ev t s dp : wired dfile ev t s dp ->
    exists d, In d dp /\ forall sep l, separator sep -> separated l -> l <> [] -> dfile d = Some (sep ++ lay_out l)%string ->
      forall h, In h (skipn 2 (map fst l)) -> In h dp /\ In (VSource h) ev.
  Proof.
    intros (d & ex & hs & rl & o & fo & -> & _ & Hr & _ & Hh). exists d. split; [cbn; tauto|].
    intros sep l Hsep Hl Hn Hd h Hi. rewrite Hd, (read_depends_leading sep l Hsep Hl Hn) in Hr.
    destruct Hr as [[[= <-] _]|[? _]]; [|discriminate]. split; [|auto]. apply in_or_app. right. apply in_or_app. now right.
  Qed.

  Lemma walk_objects lib l os lib' : walk lib l os lib' ->
    (forall e, In e l -> exists n i, e = ESub n i) /\
    (forall o sub e, In o os -> sget o "include_modules" = Some (VList sub) -> In e sub -> exists n i, e = ESub n i).
  Proof.
    induction 1 as [lib|lib n i m lib1 l os lib2 Hg Hn _ [IH1 IH2]|lib n i m lib1 v sub os1 lib2 l os2 lib3 Hg Hv Hi _ [IH1 IH2] _ [IH3 IH4]].
    - split; [intros e []|intros o sub e []].
    - split.
      + intros e [<-|He]; eauto.
      + intros o sub e [<-|Ho] Hs He; [congruence|]. eapply IH2; eauto.
    - split.
      + intros e [<-|He]; eauto.
      + intros o sub' e [<-|Ho] Hs He.
        * rewrite Hs in Hv. injection Hv as <-. cbn in Hi. injection Hi as <-. auto.
        * apply in_app_or in Ho as [Ho|Ho]; [eapply IH2|eapply IH4]; eauto.
  Qed.
  Lemma made_walk f lib name impl base r o lib' ev bl : modmake (S f) lib name impl base = Ok (r, o, lib', ev) ->
    sget base "include_modules" = Some (VList bl) ->
    exists m lib1 gl os lib2, get lib name impl = Ok (m, lib1) /\ requested (mod_opts lib1 m) gl /\
      walk lib1 (bl ++ map to_submodule gl) os lib2 /\
      forall i sub e, In i os -> sget i "include_modules" = Some (VList sub) -> In e sub -> exists n j, e = ESub n j.
  Proof.
    intros H Hbi. apply modmake_inv in H as (m & o0 & lib3 & objs & ev1 & subs & rs & ev2 & ev3 & H1 & _).
    apply local_options_parts in H1 as (lib1 & o1 & im & os & lib2 & ms & inc & Hg & Hm & Ho1 & Him & Hw & Hc & Hi).
    destruct (requested_list _ _ _ _ _ Ho1 Hm Hbi Him) as (gl & Hr & ->).
    exists m, lib1, gl, os, lib2. repeat (split; [assumption|]). apply (walk_objects _ _ _ _ Hw).
  Qed.

  (** A module that includes itself is included for ever. *)
  Lemma include_self lib n i m : get lib n i = Ok (m, lib) -> well_formed (mod_opts lib m) -> has_dir (mod_opts lib m) ->
    plain_paths (mod_opts lib m) -> sget (mod_opts lib m) "include_modules" = Some (VList [ESub n i]) ->
    forall fuel o, well_formed o -> (forall k v, In (k, v) o -> CxxModel.special k = false) ->
    include_modules home tool fuel (o, lib) [ESub n i] = OutOfFuel.
  Proof.
    intros Hg W D P Hi. induction fuel as [|fuel IH]; intros o Wo So; [reflexivity|].
    cbn [include_modules fold_res snd fst]. rewrite Hg. cbn [bind].
    destruct (merge_total home tool Include o (mod_opts lib m) Wo So W D P) as (r & Hr & Wr). rewrite Hr. cbn [bind].
    rewrite Hi. cbn [iter_oval bind]. rewrite IH; [reflexivity|exact Wr|].
    intros k v Hk. assert (Ek : map fst r = map fst o).
    { apply (included_keys home tool [mod_opts lib m] o r). cbn [fold_res]. rewrite Hr. reflexivity. }
    apply (in_map fst) in Hk. rewrite Ek in Hk. apply in_map_iff in Hk as ([k' v'] & E & Hk). cbn in E. subst k'. eauto.
  Qed.
End S.
