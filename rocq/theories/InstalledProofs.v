(** Lemmas: commands that install (C94). *)
From Coq Require Import Relations.
From Verif Require Import PyBase PyPath PathProofs UtilProofs SolverModel SpecGraph InvokerModel InvokerProofs CoreModel MakeModel SpecMake MakeThms RegModel CliModel SpecUtil SpecReg
  SpecProject ProjectProofs CommandModel SpecCommand CommandProofs InstallModel SpecInstall InstallProofs WalkModel SpecWalk WalkProofs SpecInstalled.
Local Open Scope string_scope.
Local Open Scope list_scope.

Lemma op_of_inj a b : op_of a = op_of b -> a = b.
Proof. destruct a, b; cbn; intros H; try discriminate; injection H; intros; subst; reflexivity. Qed.
Lemma stmt_of l ops a b s : map op_of l = a ++ ops ++ b -> In (op_of s) ops -> In s l.
Proof.
  intros E H. assert (Hi : In (op_of s) (map op_of l)) by (rewrite E; apply in_or_app; right; apply in_or_app; now left).
  apply in_map_iff in Hi. destruct Hi as (s' & Es & Hs). apply op_of_inj in Es. now subst.
Qed.
Lemma expand_abs home p : starts_slash p = true -> expanduser home p = p.
Proof. intros H. destruct (starts_slash_inv _ H) as [q ->]. unfold expanduser. cbn. reflexivity. Qed.

Lemma star_prefix a b : has_star (a ++ b)%string = false -> has_star a = false.
Proof. induction a as [|c a IH]; [reflexivity|]. unfold has_star in *. cbn [String.append list_ascii_of_string existsb]. intros H.
  apply Bool.orb_false_iff in H. destruct H as [H1 H2]. now rewrite H1, IH. Qed.

Section Installed.
  Variables (cwd home : string) (exists_ : string -> bool) (glob_ : string -> list string) (l : list stmt).
  Hypothesis ok : in_order cwd home glob_ exists_ l.
  Notation P := (project_of cwd home glob_ l).

  Lemma keep_name ds d : has_star d = false -> In d ds -> In d (expand_names glob_ ds).
  Proof. intros H Hd. unfold expand_names. apply in_flat_map. exists d. split; [exact Hd|]. rewrite H. now left. Qed.
  Lemma abs_meaning p : starts_slash p = true -> meaning cwd l p = realpath cwd p.
  Proof.
    intros H. apply meaning_file. destruct (is_name l p) eqn:E; [|reflexivity]. apply (io_names _ _ _ _ _ ok) in E. congruence.
  Qed.
  Lemma set_dep nm ds d : In (SSet nm ds) l -> has_star d = false -> In d ds -> p_dep P nm (meaning cwd l d).
  Proof.
    intros Hs Hst Hd. exists (map (meaning cwd l) (expand_names glob_ ds)). split; [apply in_map; now apply keep_name|].
    left. exact (P_set cwd home exists_ glob_ l ok (SSet nm ds) nm _ Hs eq_refl).
  Qed.
  Lemma set_means nm ds : In (SSet nm ds) l -> meaning cwd l nm = nm.
  Proof. intros H. apply meaning_name. exact (set_name glob_ l (SSet nm ds) nm _ H eq_refl). Qed.
  Lemma set_made nm ds : In (SSet nm ds) l -> In nm (flat_map (makes cwd home glob_) l).
  Proof. intros H. apply in_flat_map. exists (SSet nm ds). split; [exact H|]. now left. Qed.

  (** A copy in the cone of what was made. *)
  Lemma copy_right src F t ds x : reads_only P -> In (SCopy t src ds (cp cwd home src)) l ->
    is_name l (expanduser home src) = false ->
    (forall p, is_file P p -> p_cone P x p -> right_content P F p (F p)) ->
    p_cone P x (realpath cwd (expanduser home t)) ->
    exists v, F (realpath cwd (expanduser home src)) = Some v /\ F (realpath cwd (expanduser home t)) = Some v.
  Proof.
    intros R Hs Hn H C. set (tp := realpath cwd (expanduser home t)) in *. set (sp := realpath cwd (expanduser home src)).
    set (s := SCopy t src ds (cp cwd home src)) in *.
    assert (EP : P tp = Some (DRule false (map (meaning cwd l) (expand_names glob_ (expanduser home src :: ds))) (cp cwd home src)))
      by exact (P_rule cwd home exists_ glob_ l ok s tp _ (false, cp cwd home src) Hs eq_refl).
    assert (Ft : is_file P tp) by (right; do 3 eexists; exact EP).
    assert (Hst : has_star (expanduser home src) = false) by (apply (io_star _ _ _ _ _ ok s); [exact Hs|right; now left]).
    assert (Fs : is_file P sp).
    { apply (mention_file cwd home exists_ glob_ l ok s); [exact Hs| |exact Hn]. now left. }
    assert (Dp : p_dep P tp sp).
    { exists (map (meaning cwd l) (expand_names glob_ (expanduser home src :: ds))). split; [|right; do 2 eexists; exact EP].
      replace sp with (meaning cwd l (expanduser home src)) by now apply meaning_file. apply in_map, keep_name; [exact Hst|now left]. }
    assert (Cs : p_cone P x sp) by (eapply rt_trans; [exact C|apply rt_step; exact Dp]).
    pose proof (H tp Ft C) as Rt. pose proof (H sp Fs Cs) as Rs.
    remember (F tp) as vt eqn:Et. destruct Rt as [p HP|p f ds' b s' v HP Hin Hb]; [congruence|].
    rewrite EP in HP. injection HP as <- <- <-. exists v. split; [|reflexivity].
    change (s' sp = Some v) in Hb. rewrite <- Hb. symmetry.
    exact (right_content_fun P R F F sp (s' sp) (Hin sp (pi_file P p sp Dp Fs)) (fun q _ _ => eq_refl) (F sp) Rs).
  Qed.
End Installed.

Lemma header_abs cwd pl tgtdir srcdir h : starts_slash (pl_include pl) = true -> starts_slash (header_tgt cwd pl tgtdir srcdir h) = true.
Proof. intros H. unfold header_tgt. cbn [path_joins fold_left]. now rewrite !join_starts, H, !Bool.orb_true_r. Qed.
Lemma library_abs pl src n : starts_slash (pl_lib pl) = true -> starts_slash (library_tgt pl src n) = true.
Proof. intros H. unfold library_tgt. now rewrite join_starts, H, Bool.orb_true_r. Qed.
Lemma joins_starts a k : starts_slash a = true -> starts_slash (path_joins a k) = true.
Proof.
  revert a. induction k as [|x k IH]; intros a H; [exact H|]. apply IH. now rewrite join_starts, H, Bool.orb_true_r.
Qed.

Section Command.
  Variables (cwd home : string) (exists_ : string -> bool) (glob_ : string -> list string) (l : list stmt).
  Hypothesis ok : in_order cwd home glob_ exists_ l.
  Notation P := (project_of cwd home glob_ l).
  Hypothesis R : reads_only P.
  (** What was made for [x] is right. *)
  Variables (fs' : fsys) (x : string).
  Hypothesis Hright : forall p, is_file P p -> p_cone P (meaning cwd l x) p -> right_content P (contents fs') p (contents fs' p).

  Lemma command_copy nm ds t src adds : In (SSet nm ds) l -> x = nm ->
    In (SCopy t src adds (cp cwd home src)) l -> is_name l (expanduser home src) = false ->
    p_cone P nm (realpath cwd (expanduser home t)) -> installed cwd home fs' src t.
  Proof.
    intros Hs -> Hc Hn Hp. unfold installed. rewrite (set_means cwd glob_ l nm ds Hs) in Hright.
    exact (copy_right cwd home exists_ glob_ l ok src (contents fs') t adds nm R Hc Hn Hright Hp).
  Qed.

  Variables (pl : places) (disk : string -> option entry) (fnmatch : string -> string -> bool).
  Lemma library_installed tgt hroot headers pats u libs e ops t a b :
    install_library cwd home pl (walk disk) fnmatch tgt hroot headers pats u libs = Some (ops, t) ->
    starts_slash cwd = true -> starts_slash (pl_include pl) = true -> starts_slash (pl_lib pl) = true ->
    disk (abspath cwd headers) = Some e -> proper_tree e ->
    map op_of l = a ++ ops ++ b -> x = tgt ->
    (forall ds f pat, file_at e (ds ++ [f]) -> In pat pats -> fnmatch pat f = true ->
       installed cwd home fs' (path_joins (abspath cwd headers) (ds ++ [f])) (path_joins (pl_include pl) (hroot :: ds ++ [f]))) /\
    (forall lib, In lib (lib_list libs) -> lib <> "" -> is_name l (expanduser home lib) = false ->
       installed cwd home fs' lib (path_join (pl_lib pl) (basename lib))).
  Proof.
    intros HI Hc Ai Al Hd Pe El Ex. unfold install_library in HI. destruct (pl_error pl); [discriminate|].
    destruct (install_headers cwd home pl (walk disk) fnmatch hroot headers pats (lib_list libs)) as [[hops htgt] rawtgts] eqn:Eh.
    injection HI as Eo _. set (tgts := if lib_true libs then _ else _) in Eo.
    assert (Is : In (SSet tgt tgts) l).
    { apply (stmt_of l ops a b _ El). rewrite <- Eo. rewrite !in_app_iff. right; right; right. now left. }
    assert (Ih : forall o, In o hops -> In o ops) by (intros o Ho; rewrite <- Eo; rewrite !in_app_iff; right; left; exact Ho).
    assert (Ehh := Eh). unfold install_headers in Ehh. injection Ehh as Ehops Ehtgt Eraw.
    assert (If : In (SSet htgt rawtgts) l).
    { apply (stmt_of l ops a b _ El). apply Ih. rewrite <- Ehops, <- Ehtgt, <- Eraw. rewrite !in_app_iff. right; right. now left. }
    split.
    - intros ds f pat Ff Hp Hm. set (src := path_joins (abspath cwd headers) (ds ++ [f])). set (dst := path_joins (pl_include pl) (hroot :: ds ++ [f])).
      assert (Ic : In (OCopyFn dst src (lib_list libs) (cp cwd home src)) hops).
      { apply (headers_copied cwd home pl disk fnmatch hroot headers pats (lib_list libs) e Hc Hd Pe hops htgt rawtgts Eh).
        split; [reflexivity|]. split; [reflexivity|]. exists ds, f, pat. now repeat split. }
      assert (As : starts_slash src = true) by (apply joins_starts, abspath_starts, Hc).
      assert (At : starts_slash dst = true) by (apply joins_starts; exact Ai).
      assert (Icl : In (SCopy dst src (lib_list libs) (cp cwd home src)) l) by (apply (stmt_of l ops a b _ El); now apply Ih).
      apply (command_copy tgt tgts dst src (lib_list libs) Is Ex Icl).
      + rewrite (expand_abs home src As). destruct (is_name l src) eqn:E; [|reflexivity]. apply (io_names _ _ _ _ _ ok) in E. congruence.
      + rewrite (expand_abs home dst At).
        assert (Sd : has_star dst = false).
        { rewrite <- (expand_abs home dst At). apply (io_star _ _ _ _ _ ok _ _ Icl). now left. }
        assert (Ss : has_star src = false).
        { rewrite <- (expand_abs home src As). apply (io_star _ _ _ _ _ ok _ _ Icl). right. now left. }
        assert (Fp : Forall proper (ds ++ [f])) by exact (file_at_proper e _ Pe Ff).
        assert (Nn : ds ++ [f] <> []) by (destruct ds; discriminate).
        assert (Sh : has_star htgt = false).
        { rewrite <- Ehtgt. change (has_star (abspath cwd headers) = false).
          unfold src in Ss. rewrite (joins_form _ _ (starts_not_empty _ (abspath_starts cwd headers Hc)) Fp Nn) in Ss.
          now apply star_prefix in Ss. }
        assert (S1 : p_dep P tgt htgt).
        { pose proof (set_dep cwd home exists_ glob_ l ok tgt tgts htgt Is Sh) as Q.
          rewrite (set_means cwd glob_ l htgt rawtgts If) in Q. apply Q. unfold tgts. destruct (lib_true libs); now left. }
        assert (S2 : p_dep P htgt (realpath cwd dst)).
        { pose proof (set_dep cwd home exists_ glob_ l ok htgt rawtgts dst If Sd) as Q.
          rewrite (abs_meaning cwd home exists_ glob_ l ok dst At) in Q. apply Q. rewrite <- Eraw. apply in_map_iff. exists src. split.
          - unfold src. rewrite (header_tgt_place cwd pl hroot headers (ds ++ [f]) Hc (file_at_names e _ Pe Ff) Nn). now apply expand_abs.
          - apply (headers_in cwd disk fnmatch headers pats e Hc Hd). exists ds, f, pat. now repeat split. }
        eapply rt_trans; apply rt_step; [exact S1|exact S2].
    - intros lib Hl Hne Hn. change (path_join (pl_lib pl) (basename lib)) with (library_tgt pl lib None). set (dst := library_tgt pl lib None).
      assert (At : starts_slash dst = true) by now apply library_abs.
      assert (Icl : In (SCopy dst lib [] (cp cwd home lib)) l).
      { apply (stmt_of l ops a b _ El). rewrite <- Eo. rewrite !in_app_iff. left. apply in_map_iff. exists lib. now split. }
      apply (command_copy tgt tgts dst lib [] Is Ex Icl Hn). rewrite (expand_abs home dst At).
      assert (Sd : has_star dst = false).
      { rewrite <- (expand_abs home dst At). apply (io_star _ _ _ _ _ ok _ _ Icl). now left. }
      apply rt_step. pose proof (set_dep cwd home exists_ glob_ l ok tgt tgts dst Is Sd) as Q.
      rewrite (abs_meaning cwd home exists_ glob_ l ok dst At) in Q. apply Q.
      assert (T : lib_true libs = true) by (destruct libs as [|[|? ?]|[|? ?]]; cbn in *; try reflexivity; try contradiction; intuition congruence).
      unfold tgts. rewrite T. right. apply in_map_iff. now exists lib.
  Qed.
  Lemma application_installed src dst nm ops t a b :
    install_application cwd home pl src dst (Some nm) = Some (ops, t) ->
    starts_slash (pl_bin pl) = true -> map op_of l = a ++ ops ++ b -> x = nm -> is_name l (expanduser home src) = false ->
    installed cwd home fs' src (path_join (pl_bin pl) dst).
  Proof.
    intros HI Ab El Ex Hn. unfold install_application in HI. destruct (pl_error pl); [discriminate|]. injection HI as Eo _.
    set (app := path_join (pl_bin pl) dst) in *. assert (At : starts_slash app = true) by (unfold app; now rewrite join_starts, Ab, Bool.orb_true_r).
    assert (Is : In (SSet nm [app]) l) by (apply (stmt_of l ops a b _ El); rewrite <- Eo; right; now left).
    assert (Icl : In (SCopy app src [] (cp cwd home src)) l) by (apply (stmt_of l ops a b _ El); rewrite <- Eo; now left).
    apply (command_copy nm [app] app src [] Is Ex Icl Hn). rewrite (expand_abs home app At).
    assert (Sd : has_star app = false).
    { rewrite <- (expand_abs home app At). apply (io_star _ _ _ _ _ ok _ _ Icl). now left. }
    apply rt_step. pose proof (set_dep cwd home exists_ glob_ l ok nm [app] app Is Sd) as Q.
    rewrite (abs_meaning cwd home exists_ glob_ l ok app At) in Q. apply Q. now left.
  Qed.
End Command.

Lemma library_set cwd home pl walk_ fnmatch tgt hroot headers pats u libs ops t l a b :
  install_library cwd home pl walk_ fnmatch tgt hroot headers pats u libs = Some (ops, t) -> map op_of l = a ++ ops ++ b -> exists ds, In (SSet tgt ds) l.
Proof.
  intros HI El. unfold install_library in HI. destruct (pl_error pl); [discriminate|].
  destruct (install_headers cwd home pl walk_ fnmatch hroot headers pats (lib_list libs)) as [[hops htgt] rawtgts].
  injection HI as Eo _. eexists. apply (stmt_of l ops a b _ El). rewrite <- Eo. rewrite !in_app_iff. right; right; right. left. reflexivity.
Qed.
Lemma application_set cwd home pl src dst nm ops t l a b :
  install_application cwd home pl src dst (Some nm) = Some (ops, t) -> map op_of l = a ++ ops ++ b -> exists ds, In (SSet nm ds) l.
Proof.
  intros HI El. unfold install_application in HI. destruct (pl_error pl); [discriminate|]. injection HI as Eo _.
  eexists. apply (stmt_of l ops a b _ El). rewrite <- Eo. right. left. reflexivity.
Qed.
