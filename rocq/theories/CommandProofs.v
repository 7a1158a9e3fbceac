(** Lemmas: the command line on scripts in order (C90). *)
From Coq Require Import Permutation Relations.
From Verif Require Import PyBase PyPath PathProofs SolverModel SpecGraph InvokerModel SpecTrace InvokerProofs
  CoreModel SpecCore CoreProofs NeedProofs RuProofs CoreThms MakeModel MakeEval SpecMake MakeProofs MakeFacts MakeBuild MakeClaims MakeClean
  RegModel CliModel SpecCli SpecUtil UtilProofs SpecReg RegProofs RegScript RegBuild RegTotal BuildSafe SpecProject ProjectProofs CliProofs ProjectBuild InstallProofs InvokerExamples CommandModel SpecCommand.
Local Open Scope string_scope.
Local Open Scope list_scope.

(** *** The command line in two steps *)
Lemma cli_dispatch canon u fuel info c default args : cli canon u fuel info c default args =
  do! (c1, i, act, a) <- dispatch canon info c default args; invoke canon u fuel info c1 i act a.
Proof.
  unfold cli, dispatch, execute_with_default_action, invoke_star. destruct args as [|w rest].
  - destruct default as [d|]; [|reflexivity]. now destruct (core_get canon c d).
  - destruct (core_has canon c w) as [[|] c1].
    + destruct (core_get canon c1 w) as [i| |]; cbn [bind]; try reflexivity. destruct rest as [|act more]; [reflexivity|].
      destruct (i_routine (info i)); [reflexivity|]. destruct (hasaction _ _); [|reflexivity]. now destruct (bind_star more).
    + destruct default as [d|]; cbn [bind]; [|reflexivity]. destruct (core_get canon c1 d) as [i| |]; cbn [bind]; try reflexivity.
      destruct (hasaction _ _); [|reflexivity]. now destruct (bind_star rest).
Qed.
Lemma invoke_check canon u fuel info c i act a : invoke canon u fuel info c i act a =
  do! c1 <- update_update_needity canon u fuel c; do! _ <- check_call (info i) act a; Ok (CA i act a c1).
Proof.
  unfold invoke, check_call. destruct (update_update_needity canon u fuel c) as [c1| |]; cbn [bind]; try reflexivity.
  destruct (i_attr (info i) act) as [[x|x|]|]; try reflexivity; now destruct (takes x _).
Qed.

Lemma mrun_join canon exists_ glob_ home fuel k b : forall a st, mrun canon exists_ glob_ home fuel k (a ++ b) st =
  do! st' <- mrun canon exists_ glob_ home fuel k a st; mrun canon exists_ glob_ home fuel k b st'.
Proof.
  induction a as [|o a IH]; intros st; [reflexivity|]. cbn [app mrun]. destruct (mstep canon exists_ glob_ home fuel k st o); cbn [bind]; auto.
Qed.
(** core.has only adds a name that core.get knew already. *)
Lemma get_has canon c x y : (forall p, canon (canon p) = canon p) -> core_get canon (snd (core_has canon c x)) y = core_get canon c y.
Proof.
  intros Hi. unfold core_has. destruct (sget (c_targets c) x) eqn:Ex; [reflexivity|].
  destruct (sget (c_targets c) (canon x)) as [i|] eqn:Ec; [|reflexivity]. unfold core_get. cbn [snd c_targets].
  destruct (string_dec x y) as [<-|N].
  - rewrite (dget_dset_eq _ string_eqb_spec'), Ex, Ec. reflexivity.
  - rewrite (dget_dset_neq _ string_eqb_spec') by congruence. destruct (sget (c_targets c) y); [reflexivity|].
    destruct (string_dec x (canon y)) as [->|N2].
    + rewrite (dget_dset_eq _ string_eqb_spec'), Ex. rewrite Hi in Ec. congruence.
    + now rewrite (dget_dset_neq _ string_eqb_spec') by congruence.
Qed.
Lemma has_get canon c x i : core_get canon c x = Ok i -> fst (core_has canon c x) = true.
Proof. unfold core_get, core_has. destruct (sget (c_targets c) x); [reflexivity|]. destruct (sget (c_targets c) (canon x)); [reflexivity|discriminate]. Qed.
Lemma has_threads canon c th x : core_has canon (set_threads c th) x = (fst (core_has canon c x), set_threads (snd (core_has canon c x)) th).
Proof. unfold core_has, set_threads. cbn [c_targets]. destruct (sget (c_targets c) x); [reflexivity|]. destruct (sget (c_targets c) (canon x)); reflexivity. Qed.
Lemma get_threads canon c th x : core_get canon (set_threads c th) x = core_get canon c x.
Proof. reflexivity. Qed.

Section Queried.
  Variables (cwd home : string) (fs : fsys) (exists_ : string -> bool) (glob_ : string -> list string) (l : list stmt).
  Hypothesis disk : disk_ok cwd (present fs) exists_.
  Hypothesis ok : in_order cwd home glob_ exists_ l.
  Notation canon := (realpath cwd).
  Notation P := (project_of cwd home glob_ l).
  Notation declares := (declares cwd home glob_).
  Notation makes := (makes cwd home glob_).
  Notation mentions := (mentions home glob_).
  Notation meaning := (meaning cwd).

  Section Word.
    Variable x : string.
    Hypothesis nx : is_name l x = false.
    Hypothesis mx : In (canon x) (flat_map makes l).
    Hypothesis sx : has_star x = false.
    Notation l' := (l ++ [SSource x]).

    Lemma q_name nm : is_name l' nm = is_name l nm.
    Proof. unfold is_name. rewrite existsb_app. cbn [existsb]. now rewrite !orb_false_r. Qed.
    Lemma q_meaning d : meaning l' d = meaning l d.
    Proof. unfold SpecProject.meaning. now rewrite q_name. Qed.
    Lemma q_makes : flat_map makes l' = flat_map makes l.
    Proof. rewrite flat_map_app. cbn. now rewrite app_nil_r. Qed.
    Lemma q_declares : flat_map declares l' = flat_map declares l.
    Proof. rewrite flat_map_app. cbn. now rewrite app_nil_r. Qed.
    Lemma q_decl s p : decl_of cwd home glob_ l' s p = decl_of cwd home glob_ l s p.
    Proof.
      unfold decl_of. destruct (rule_of cwd home glob_ s) as [[[q ds] r]|]; [|destruct (set_of glob_ s) as [[q ds]|]; [|reflexivity]].
      - destruct (String.eqb q p); [|reflexivity]. f_equal. f_equal. apply map_ext. intros d. apply q_meaning.
      - destruct (String.eqb q p); [|reflexivity]. f_equal. f_equal. apply map_ext. intros d. apply q_meaning.
    Qed.
    Lemma q_first k p : first_decl cwd home glob_ l' (k ++ [SSource x]) p = first_decl cwd home glob_ l k p.
    Proof. induction k as [|s k IH]; [reflexivity|]. cbn [first_decl app]. rewrite q_decl, IH. reflexivity. Qed.
    Lemma made_first k p : In p (flat_map makes k) -> first_decl cwd home glob_ l k p <> None.
    Proof.
      induction k as [|s k IH]; [intros []|]. cbn [flat_map first_decl]. intros H. destruct (decl_of cwd home glob_ l s p) eqn:E; [discriminate|].
      apply IH. apply in_app_iff in H. destruct H as [H|H]; [|exact H]. exfalso. unfold SpecProject.makes in H. unfold decl_of in E.
      destruct (rule_of cwd home glob_ s) as [[[q ds] r]|].
      - destruct H as [->|[]]. rewrite String.eqb_refl in E. discriminate.
      - destruct (set_of glob_ s) as [[q ds]|]; [|destruct H]. destruct H as [->|[]]. rewrite String.eqb_refl in E. discriminate.
    Qed.
    Lemma q_project p : project_of cwd home glob_ l' p = P p.
    Proof.
      unfold project_of. rewrite q_first. destruct (first_decl cwd home glob_ l l p) as [d|] eqn:E; [reflexivity|]. rewrite q_name.
      destruct (is_name l p); [reflexivity|]. f_equal. rewrite flat_map_app. rewrite existsb_app. cbn [flat_map SpecProject.mentions sources_of deps_of app existsb].
      rewrite orb_false_r, q_meaning.
      assert (N : String.eqb (meaning l x) p = false).
      { destruct (String.eqb_spec (meaning l x) p) as [<-|]; [|reflexivity]. exfalso. apply (made_first l (meaning l x)); [|exact E]. unfold SpecProject.meaning. now rewrite nx. }
      rewrite N, orb_false_r.
      assert (X : forall k, existsb (fun d => String.eqb (meaning l' d) p) k = existsb (fun d => String.eqb (meaning l d) p) k).
      { induction k as [|d k IH]; [reflexivity|]. cbn [existsb]. now rewrite q_meaning, IH. }
      now rewrite X.
    Qed.
    (** The word is the path of some statement. *)
    Lemma q_place : exists s t, In s l /\ In t (places_of home s) /\ canon t = canon x.
    Proof.
      apply in_flat_map in mx. destruct mx as (s & Hs & Hx). unfold SpecProject.makes in Hx. destruct (rule_of cwd home glob_ s) as [[[q ds] r]|] eqn:E.
      - destruct Hx as [->|[]]. destruct s as [p|f t d b|t s d b|nm d|u nm d]; try discriminate; cbn in E; remember (canon t) as ct eqn:Et; remember (canon x) as cx eqn:Ex; injection E as E _ _; subst; eexists _, _; (split; [exact Hs|]); (split; [now left|exact E]).
      - destruct (set_of glob_ s) as [[q ds]|] eqn:E2; [|destruct Hx]. destruct Hx as [->|[]]. exfalso.
        assert (N : is_name l (canon x) = true) by (eapply set_name; eauto). apply (io_names _ _ _ _ _ ok) in N. rewrite realpath_starts in N. discriminate.
    Qed.
    Lemma q_in_order : in_order cwd home glob_ exists_ l'.
    Proof.
      split.
      - apply ok.
      - intros s p Hs Hp. apply in_app_iff in Hs. destruct Hs as [Hs|[<-|[]]]; [now apply (io_star _ _ _ _ _ ok s)|]. destruct Hp as [<-|[]]. exact sx.
      - rewrite q_declares. apply ok.
      - intros nm. rewrite q_name. apply ok.
      - intros s d u ds Hs Hd Ht. apply in_app_iff in Ht. destruct Ht as [Ht|[Ht|[]]]; [|discriminate].
        apply in_app_iff in Hs. destruct Hs as [Hs|[<-|[]]]; [now apply (io_others _ _ _ _ _ ok s d u ds)|]. exfalso. destruct Hd as [<-|[]].
        assert (X : is_name l x = true) by (apply existsb_exists; eexists; split; [exact Ht|apply String.eqb_refl]). congruence.
      - intros l1 s l2 d E Hd. rewrite q_meaning, q_declares. intros Hl. destruct (exists_last (l := s :: l2)) as (k & z & Ek); [discriminate|].
        rewrite Ek, app_assoc in E. apply app_inj_tail in E. destruct E as [E <-]. destruct k as [|s' k].
        + injection Ek as -> _. rewrite app_nil_r in E. subst l1. exact Hl.
        + injection Ek as <- _. now apply (io_before _ _ _ _ _ ok l1 s k d).
      - intros s d Hs Hd. apply in_app_iff in Hs. destruct Hs as [Hs|[<-|[]]]; [|destruct Hd].
        rewrite q_declares, q_meaning. destruct (io_there _ _ _ _ _ ok s d Hs Hd) as [H|[H|H]]; [now left| |now right; right].
        right; left. rewrite flat_map_app, map_app. apply in_app_iff. left. apply in_map_iff in H. destruct H as (d' & E & H). apply in_map_iff. exists d'. now rewrite q_meaning.
      - intros s p a Hs Hp Ha Hf.
        assert (F : is_file P a) by (unfold is_file, is_rule in *; rewrite q_project in Hf; exact Hf).
        apply in_app_iff in Hs. destruct Hs as [Hs|[<-|[]]]; [now apply (io_files _ _ _ _ _ ok s p a)|]. destruct Hp as [<-|[]].
        destruct q_place as (s & t & Hs & Ht & E). rewrite <- E in Ha. now apply (io_files _ _ _ _ _ ok s t a).
    Qed.
    Lemma q_run fuel st : mrun canon exists_ glob_ home fuel 0 (map op_of l) [empty_reg] = Ok st -> fst (core_has canon (fst (reg st 0)) x) = true ->
      mrun canon exists_ glob_ home fuel 0 (map op_of l') [empty_reg] = Ok (put st 0 (snd (core_has canon (fst (reg st 0)) x), snd (reg st 0))).
    Proof.
      intros Hr Hh. rewrite map_app. rewrite mrun_join, Hr. cbn [bind map op_of mrun mstep]. unfold RegModel.source, rhas.
      destruct (core_has canon (fst (reg st 0)) x) as [b c'] eqn:E. cbn in Hh. subst b. reflexivity.
    Qed.
  End Word.

  Section Started.
    Variables (fuel : nat) (st : regs).
    Hypothesis run : mrun canon exists_ glob_ home fuel 0 (map op_of l) [empty_reg] = Ok st.
    Notation r := (reg st 0).
    Lemma st_inv : inv cwd home (present fs) exists_ glob_ l l r.
    Proof. eapply script_inv; eauto. Qed.
    Lemma st_len : 0 < List.length st.
    Proof. pose proof (InstallProofs.len_run canon exists_ glob_ home fuel 0 _ _ _ run) as E. cbn in E. lia. Qed.
    Lemma made_file x : is_name l x = false -> In (meaning l x) (flat_map makes l) -> is_file P (meaning l x).
    Proof.
      intros N Hx. rewrite (meaning_file cwd l x N) in *. apply in_flat_map in Hx. destruct Hx as (s & Hs & Hx).
      destruct (declared_abs cwd home exists_ glob_ l ok (canon x)) as (s' & ds & b & Hs' & Er); [|apply realpath_starts|].
      - apply in_flat_map. exists s. split; [exact Hs|]. now apply makes_declares.
      - eapply rule_file; eauto.
    Qed.
    Lemma get_meaning x i : In (meaning l x) (flat_map makes l) -> core_get canon (fst r) x = Ok i -> core_get canon (fst r) (meaning l x) = Ok i.
    Proof.
      intros Hx Hg. destruct (is_name l x) eqn:N; [unfold SpecProject.meaning; now rewrite N|].
      destruct (made_get cwd home fs exists_ glob_ l disk ok fuel st run _ Hx) as (j & Hj & Hn & Hd & _ & nm & Hi).
      unfold core_get in Hg. destruct (sget (c_targets (fst r)) x) as [k|] eqn:E.
      - injection Hg as ->. apply (dget_In _ string_eqb_spec') in E. destruct (proj1 st_inv) as (L & ND & V). 
        assert (F : is_file P (canon x)).
        { rewrite <- (meaning_file cwd l x N). now apply made_file. }
        assert (K : kind_of r i <> MDir) by (eapply file_not_dir; eauto using st_inv).
        assert (M : nm_of r i = meaning l x) by (eapply key_meaning; [apply incl_refl|apply st_inv|exact E|exact K]).
        destruct (V x i E) as (_ & B & _). rewrite M in B. unfold core_get. rewrite (dget_of_In _ string_eqb_spec' _ _ _ ND B). reflexivity.
      - rewrite (meaning_file cwd l x N) in *. unfold core_get. destruct (sget (c_targets (fst r)) (canon x)); [exact Hg|discriminate].
    Qed.
    Lemma meaning_get x : In (meaning l x) (flat_map makes l) -> exists i, core_get canon (fst r) x = Ok i /\ core_get canon (fst r) (meaning l x) = Ok i /\
      (exists nm, In (nm, i) (c_targets (fst r))) /\ t_name (obj (fst r) i) = meaning l x /\ kind_of r i <> MDir /\ kind_of r i <> MOther.
    Proof.
      intros Hx. destruct (made_get cwd home fs exists_ glob_ l disk ok fuel st run _ Hx) as (j & Hj & Hn & Hd & Ho & Hi).
      assert (G : exists i, core_get canon (fst r) x = Ok i).
      { unfold core_get. destruct (sget (c_targets (fst r)) x) as [k|] eqn:E; [eauto|]. unfold SpecProject.meaning in Hj. destruct (is_name l x).
        - exists j. unfold core_get in Hj. now rewrite E in Hj.
        - unfold core_get in Hj. destruct (sget (c_targets (fst r)) (canon x)) as [k|] eqn:E2; [eauto|]. rewrite realpath_idem, E2 in Hj. discriminate. }
      destruct G as [i G]. pose proof (get_meaning x i Hx G) as G'. rewrite Hj in G'. injection G' as <-. exists j. auto 8.
    Qed.
    Lemma free_has w : free_word cwd home glob_ l w -> core_has canon (fst r) w = (false, fst r).
    Proof.
      intros (N & F & Ab). destruct (proj1 st_inv) as (L & ND & V).
      assert (X : forall k i, k = w \/ k = canon w -> ~ In (k, i) (c_targets (fst r))).
      { intros k i Hk Hi. destruct (V k i Hi) as (_ & _ & _ & C).
        assert (Ck : canon k = canon w) by (destruct Hk as [->| ->]; [reflexivity|apply realpath_idem]).
        assert (Nk : is_name l k = false) by (destruct Hk as [->| ->]; [exact N|eapply canon_no_name; eauto]).
        destruct (kind_of r i) as [f b| | | |].
        - destruct C as (_ & _ & s & ds & Hs & Er & _). apply F. rewrite <- Ck. eapply rule_file; eauto.
        - destruct C as (_ & _ & Ps & _). apply F. rewrite <- Ck. now left.
        - destruct C as (_ & _ & (_ & s & p & Hs & Hp & Ha) & _). apply (Ab s p Hs Hp). rewrite <- Ck. exact Ha.
        - destruct C as (_ & s & ds & Hs & Er & _). erewrite set_name in Nk; eauto. discriminate.
        - destruct C as (_ & s & u & ds & Hs & Er & _). erewrite other_name in Nk; eauto. discriminate. }
      unfold core_has. destruct (sget (c_targets (fst r)) w) as [i|] eqn:E; [apply (dget_In _ string_eqb_spec') in E; exfalso; exact (X _ _ (or_introl eq_refl) E)|].
      destruct (sget (c_targets (fst r)) (canon w)) as [j|] eqn:E2; [apply (dget_In _ string_eqb_spec') in E2; exfalso; exact (X _ _ (or_intror eq_refl) E2)|]. reflexivity.
    Qed.
    (** What the command line makes of the words. *)
    Lemma info_make other i : kind_of r i <> MOther -> i_routine (info_of (kind_of r) other i) = false /\ i_default (info_of (kind_of r) other i) = "makefile" /\ (forall act, In act ["makefile"; "clean"] -> hasaction (i_actions (info_of (kind_of r) other i)) act = true /\ check_call (info_of (kind_of r) other i) act [] = Ok tt).
    Proof.
      intros Ho. unfold info_of. destruct (kind_of r i); try congruence; (split; [reflexivity|]); (split; [reflexivity|]);
        intros act [<-|[<-|[]]]; (split; vm_compute; reflexivity).
    Qed.
    Lemma dispatched other th default ws x act : calls_for cwd home glob_ l default ws x act -> In (meaning l x) (flat_map makes l) ->
      exists i c1, dispatch canon (info_of (kind_of r) other) (set_threads (fst r) th) default ws = Ok (set_threads c1 th, i, act, []) /\
        core_get canon (fst r) (meaning l x) = Ok i /\ check_call (info_of (kind_of r) other i) act [] = Ok tt /\ (c1 = fst r \/ c1 = snd (core_has canon (fst r) x) /\ has_star x = false).
    Proof.
      intros Hc Hx. destruct (meaning_get x Hx) as (i & Hg & Hgm & Hi & _ & Hd & Ho). destruct (info_make other i Ho) as (Hrt & Hdf & Ha).
      pose proof (has_get canon _ _ _ Hg) as Hh.
      destruct Hc as [x Ed|x Hst|x act Hst Hact|x act Ed Hact Hf].
      - exists i, (fst r). unfold dispatch. rewrite Ed, get_threads, Hg. cbn [bind]. rewrite Hdf.
        split; [reflexivity|]. split; [exact Hgm|]. split; [apply Ha; now left|now left].
      - exists i, (snd (core_has canon (fst r) x)). unfold dispatch. rewrite has_threads, Hh, get_threads, get_has by apply realpath_idem.
        rewrite Hg. cbn [bind]. rewrite Hdf. split; [reflexivity|]. split; [exact Hgm|]. split; [apply Ha; now left|now right].
      - exists i, (snd (core_has canon (fst r) x)). unfold dispatch. rewrite has_threads, Hh, get_threads, get_has by apply realpath_idem.
        rewrite Hg. cbn [bind]. rewrite Hrt, (proj1 (Ha act Hact)). split; [reflexivity|]. split; [exact Hgm|]. split; [now apply Ha|now right].
      - exists i, (fst r). unfold dispatch. rewrite has_threads, (free_has act Hf), Ed. cbn [fst snd]. rewrite get_threads, Hg. cbn [bind].
        rewrite (proj1 (Ha act Hact)). split; [reflexivity|]. split; [exact Hgm|]. split; [now apply Ha|now left].
    Qed.
    (** The registry at the end of the dispatch is that of the script, or of the script followed
        by a mention of the word. *)
    Lemma followed x c1 : In (meaning l x) (flat_map makes l) -> c1 = fst r \/ c1 = snd (core_has canon (fst r) x) /\ has_star x = false ->
      exists l' st', (l' = l \/ is_name l x = false /\ l' = l ++ [SSource x]) /\ in_order cwd home glob_ exists_ l' /\ (forall p, project_of cwd home glob_ l' p = P p) /\
        mrun canon exists_ glob_ home fuel 0 (map op_of l') [empty_reg] = Ok st' /\ reg st' 0 = (c1, snd r) /\ flat_map makes l' = flat_map makes l.
    Proof.
      intros Hx Hc1.
      assert (Same : c1 = fst r -> exists l' st', (l' = l \/ is_name l x = false /\ l' = l ++ [SSource x]) /\ in_order cwd home glob_ exists_ l' /\ (forall p, project_of cwd home glob_ l' p = P p) /\
        mrun canon exists_ glob_ home fuel 0 (map op_of l') [empty_reg] = Ok st' /\ reg st' 0 = (c1, snd r) /\ flat_map makes l' = flat_map makes l).
      { intros ->. exists l, st. split; [now left|]. split; [exact ok|]. split; [reflexivity|]. split; [exact run|]. split; [|reflexivity]. now destruct (reg st 0). }
      destruct Hc1 as [E|[E Hst]]; [auto|]. destruct (is_name l x) eqn:N.
      - apply Same. rewrite E. unfold core_has.
        assert (K : In x (keys r)).
        { destruct st_inv as (_ & Ik & _). apply Ik. rewrite <- (meaning_name cwd l x N). apply name_declared. exact N. }
        destruct (key_In r x K) as [i Hi]. destruct (proj1 st_inv) as (_ & ND & _). now rewrite (dget_of_In _ string_eqb_spec' _ _ _ ND Hi).
      - destruct (meaning_get x Hx) as (i & Hg & _). rewrite (meaning_file cwd l x N) in Hx.
        exists (l ++ [SSource x]), (put st 0 (c1, snd r)). split; [right; auto|]. split; [now apply q_in_order|]. split; [intros p; now apply q_project|].
        split; [|split; [apply reg0_put, st_len|apply q_makes]]. rewrite E. apply q_run; [exact run|eapply has_get; eauto].
    Qed.
  End Started.

  Lemma kinds_of r r' : snd r = snd r' -> kind_of r = kind_of r'.
  Proof. unfold kind_of. now intros ->. Qed.
  (** A command that makes [x] is a build of what [x] means. *)
  Lemma command_building other partial default ws x th now kind c1 objs sv s : calls_for cwd home glob_ l default ws x "makefile" -> In (meaning l x) (flat_map makes l) ->
    commanded cwd home exists_ glob_ partial other l default ws th fs now kind c1 objs sv s ->
    exists l', (l' = l \/ is_name l x = false /\ l' = l ++ [SSource x]) /\ in_order cwd home glob_ exists_ l' /\ (forall p, project_of cwd home glob_ l' p = P p) /\ flat_map makes l' = flat_map makes l /\
      building cwd home exists_ glob_ partial l' (meaning l x) th fs now kind c1 objs sv s.
  Proof.
    intros Hc Hx (fuel & st & i & other_if & fuel' & ca1 & order & so & Hr & Ek & Hm & Ho & Hso & Hru & Hex).
    destruct (dispatched fuel st Hr other th default ws x "makefile" Hc Hx) as (i' & c0 & Hd & Hg & Hcc & Hc0).
    unfold mcli in Hm. rewrite Ek, Hd in Hm. cbn [bind] in Hm.
    destruct (mevaluate canon (kind_of (reg st 0)) other_if fs fuel' (set_threads c0 th, [])) as [[c2 ca2]| |] eqn:Ev; cbn [bind] in Hm; try discriminate.
    rewrite Hcc in Hm. cbn [bind] in Hm. injection Hm as <- <- <-.
    destruct (followed fuel st Hr x c0 Hx Hc0) as (l' & st' & Hl & Hio & Hp & Hr' & Er & Hmk). exists l'. split; [exact Hl|]. split; [exact Hio|]. split; [exact Hp|]. split; [exact Hmk|].
    exists fuel, st', i', other_if, fuel', ca2, order, so. split; [exact Hr'|]. split; [rewrite Ek; apply kinds_of; now rewrite Er|].
    split; [|split; [rewrite Er, Ek; exact Ev|auto]]. rewrite Er. cbn [fst]. destruct Hc0 as [->|[-> _]]; [exact Hg|]. now rewrite get_has by apply realpath_idem.
  Qed.
End Queried.

(** *** Projects that agree everywhere *)
Section Agree.
  Variables P P' : project.
  Hypothesis agree : forall p, P' p = P p.
  Lemma rule_agree p : is_rule P' p <-> is_rule P p.
  Proof. unfold is_rule. now rewrite agree. Qed.
  Lemma file_agree p : is_file P' p <-> is_file P p.
  Proof. unfold is_file, is_rule. now rewrite agree. Qed.
  Lemma cone_agree p q : p_cone P' p q -> p_cone P p q.
  Proof.
    intros H. induction H as [p q (ds & Hd & H)|p|p q s _ IH1 _ IH2]; [|apply rt_refl|eapply rt_trans; eauto].
    apply rt_step. exists ds. split; [exact Hd|]. now rewrite <- agree.
  Qed.
  Lemma implements_agree canon kind c i : implements canon kind P' c i -> implements canon kind P c i.
  Proof.
    intros H j Hj. destruct (H j Hj) as [A B]. split; [exact A|]. destruct (kind j).
    - rewrite agree in B. exact B.
    - rewrite agree in B. exact B.
    - destruct B as [B1 B2]. split; [|exact B2]. intros p Hp Hf. apply (B1 p Hp). now apply file_agree.
    - rewrite agree in B. exact B.
    - exact B.
  Qed.
End Agree.

Section Cleans.
  Variables (cwd home : string) (fs : fsys) (exists_ : string -> bool) (glob_ : string -> list string) (l : list stmt).
  Hypothesis disk : disk_ok cwd (present fs) exists_.
  Hypothesis ok : in_order cwd home glob_ exists_ l.
  Notation canon := (realpath cwd).
  Notation P := (project_of cwd home glob_ l).
  Notation makes := (makes cwd home glob_).
  Lemma script_cleans fuel st x i th other_if fuel' c1 ca1 : mrun canon exists_ glob_ home fuel 0 (map op_of l) [empty_reg] = Ok st ->
    In x (flat_map makes l) -> core_get canon (fst (reg st 0)) x = Ok i ->
    mevaluate canon (kind_of (reg st 0)) other_if fs fuel' (set_threads (fst (reg st 0)) th, []) = Ok (c1, ca1) ->
    exists fs' ca', clean canon (kind_of (reg st 0)) c1 i (fs, ca1) = Ok (fs', ca') /\
      (forall p, is_rule P p -> p_cone P x p -> is_reg fs p = true -> fs' p = None) /\
      (forall p, fs' p <> fs p -> is_reg fs p = true /\ fs' p = None /\ is_rule P p /\ p_cone P x p).
  Proof.
    intros Hr Hx Hg He. destruct (made_get cwd home fs exists_ glob_ l disk ok fuel st Hr x Hx) as (i' & Hg' & Hn & Hk & Hko & nm & Hi).
    rewrite Hg in Hg'. injection Hg' as <-.
    pose proof (threads_inv cwd home fs exists_ glob_ l _ th (script_inv cwd home fs exists_ glob_ l disk ok fuel st Hr)) as I.
    set (r := (set_threads (fst (reg st 0)) th, snd (reg st 0))) in *.
    destruct (script_process cwd home exists_ glob_ l fuel st Hr th) as (cops & _ & Pc).
    pose proof (process_ready canon _ _ Pc) as R.
    destruct (mevaluate_right canon _ other_if fs fuel' _ [] c1 ca1 R He) as (R1 & S & V & _).
    assert (Hi1 : exists nm, In (nm, i) (c_targets c1)) by (exists nm; destruct S as (<- & _); exact Hi).
    assert (Hco : coherent canon c1).
    { eapply coherent_static; [exact S|]. exact (whole_coherent cwd home (present fs) exists_ glob_ l r I). }
    destruct (whole_cone cwd home (present fs) exists_ glob_ disk l ok r I i (ex_intro _ nm Hi)) as (_ & A & _).
    pose proof (whole_implements cwd home (present fs) exists_ glob_ disk l ok r I i (ex_intro _ nm Hi) Hko) as Him.
    assert (Hcr : cone_registered canon c1 i).
    { intros j d Hj Hd. apply (static_cone canon c1) with (c' := fst r) in Hj; [|now apply static_sym].
      assert (Ed : t_deps (obj c1 j) = t_deps (obj (fst r) j)) by (destruct S as (_ & _ & _ & S4); destruct (S4 j) as (_ & E4 & _); symmetry; exact E4).
      rewrite Ed in Hd. destruct (A j d Hj Hd) as [k Hkk]. exists k. now apply (static_resolves canon (fst r) c1). }
    assert (Hcc : cache_current canon (kind_of (reg st 0)) c1 i fs ca1).
    { intros j v _ _ Hv. specialize (V (t_name (obj c1 j))). unfold view in V. rewrite Hv in V. exact V. }
    assert (Hw : wf_core (fst r)) by (destruct R as (Hw & _); exact Hw).
    assert (Hcor : coherent canon (fst r)) by exact (whole_coherent cwd home (present fs) exists_ glob_ l r I).
    assert (Nm : forall j, t_name (obj c1 j) = t_name (obj (fst r) j)) by (intros j; destruct S as (_ & _ & _ & S4); destruct (S4 j) as (E4 & _); symmetry; exact E4).
    destruct (clean_spec canon (kind_of (reg st 0)) c1 i fs ca1) as (fs' & ca' & Hc & _ & C1 & C2);
      [eapply pc_evaluated; [exact Pc|exact He]|exact Hco|exact Hi1|exact Hcr|exact Hcc|].
    exists fs', ca'. split; [exact Hc|].
    assert (Once : forall p, is_rule P p -> p_cone P x p -> is_reg fs p = true -> fs' p = None).
    { intros p Hp Hpc Hrg. rewrite <- Hn in Hpc.
      destruct (p_cone_obj canon (kind_of (reg st 0)) P (fst r) i Hw Him i p (rt_refl _ _ _) Hk Hpc) as (j & Hj & Hkj & Ej).
      assert (Kj : exists f b, kind_of (reg st 0) j = MFile f b).
      { destruct (Him j Hj) as [_ Hm]. change (kind_of r) with (kind_of (reg st 0)) in Hm. destruct Hp as (f & ds & b & Hp). unfold kind_of in *. destruct (nth j (snd (reg st 0)) MOther) eqn:Kj; cbn in *.
        - eauto.
        - rewrite Ej, Hp in Hm. destruct Hm. discriminate.
        - congruence.
        - rewrite Ej, Hp in Hm. destruct Hm as (? & Hm & _). discriminate.
        - contradiction. }
      destruct Kj as (f & b & Kj). rewrite <- Ej, <- Nm. apply (C1 j f b); [now apply (static_cone canon (fst r) c1)|exact Kj|]. rewrite Nm, Ej. exact Hrg. }
    split; [exact Once|]. intros p Hd. destruct (C2 p Hd) as (Hrg & j & f & b & Hj & Kj & Ej). split; [exact Hrg|].
    apply (static_cone canon c1) with (c' := fst r) in Hj; [|now apply static_sym]. rewrite Nm in Ej.
    assert (Hp : is_rule P p).
    { destruct (Him j Hj) as [_ Hm]. change (kind_of r) with (kind_of (reg st 0)) in Hm. rewrite Kj in Hm. destruct Hm as (ds & Hm & _). rewrite Ej in Hm. exists f, ds, b. exact Hm. }
    assert (Hpc : p_cone P x p).
    { rewrite <- Hn, <- Ej. eapply (cone_p canon (kind_of (reg st 0)) P (fst r) i Hw Him i j (rt_refl _ _ _) Hj). now rewrite Kj. }
    split; [now apply Once|]. auto.
  Qed.
End Cleans.

(** *** Commands *)
Section Commands.
  Variables (cwd home : string) (fs : fsys) (exists_ : string -> bool) (glob_ : string -> list string) (l : list stmt).
  Hypothesis disk : disk_ok cwd (present fs) exists_.
  Hypothesis ok : in_order cwd home glob_ exists_ l.
  Notation canon := (realpath cwd).
  Notation P := (project_of cwd home glob_ l).
  Notation makes := (makes cwd home glob_).
  Notation meaning := (meaning cwd).
  Notation calls := (calls_for cwd home glob_ l).

  Lemma command_of other partial default ws x th now kind c1 objs sv s : calls default ws x "makefile" -> In (meaning l x) (flat_map makes l) ->
    commanded cwd home exists_ glob_ partial other l default ws th fs now kind c1 objs sv s ->
    exists c i other_if, implements canon kind P c i /\ build_of canon kind other_if partial c i fs now [] c1 objs s /\
      t_name (obj c i) = meaning l x /\ kind i <> MDir.
  Proof.
    intros Hc Hx H. destruct (command_building cwd home fs exists_ glob_ l disk ok other partial default ws x th now kind c1 objs sv s Hc Hx H)
      as (l' & _ & Hio & Hp & Hm & Hb). rewrite <- Hm in Hx.
    destruct (building_of cwd home fs exists_ glob_ l' disk Hio partial _ th now kind c1 objs sv s Hx Hb) as (c & i & other_if & Him & Hr).
    exists c, i, other_if. split; [|exact Hr]. eapply implements_agree; eauto.
  Qed.
  Lemma command_right other default ws x th now kind c1 objs sv s : calls default ws x "makefile" -> In (meaning l x) (flat_map makes l) ->
    commanded cwd home exists_ glob_ false other l default ws th fs now kind c1 objs sv s -> succeeded objs s -> reads_only P -> history canon P fs now ->
    forall p, is_file P p -> p_cone P (meaning l x) p -> right_content P (contents (w_fs (s_world s))) p (contents (w_fs (s_world s)) p).
  Proof.
    intros Hc Hx H Hs Hro Hh p Hp Hpc. destruct (command_of other false default ws x th now kind c1 objs sv s Hc Hx H) as (c & i & other_if & Him & Hbo & Hn & Hk).
    eapply success_right; eauto. now rewrite Hn.
  Qed.
  Lemma free_after x l' : In (meaning l x) (flat_map makes l) -> l' = l \/ is_name l x = false /\ l' = l ++ [SSource x] -> in_order cwd home glob_ exists_ l' ->
    dirs_free cwd home l fs -> dirs_free cwd home l' fs.
  Proof.
    intros Hx [->|[N ->]] Hio Hf; [exact Hf|]. intros s p a m v Hs Hp. apply in_app_iff in Hs. destruct Hs as [Hs|[<-|[]]]; [now apply (Hf s)|].
    destruct Hp as [<-|[]]. unfold SpecProject.meaning in Hx. rewrite N in Hx.
    destruct (q_place cwd home exists_ glob_ l ok x Hx) as (s & t & Hs & Ht & E). rewrite <- E. now apply (Hf s).
  Qed.
  (** The set-up of a command succeeds. *)
  Lemma set_up other default ws x act th fuel st other_if : calls default ws x act -> In (meaning l x) (flat_map makes l) -> (forall i, exists b, other_if i = Ok b) ->
    mrun canon exists_ glob_ home fuel 0 (map op_of l) [empty_reg] = Ok st ->
    exists l' st' i, in_order cwd home glob_ exists_ l' /\ (forall p, project_of cwd home glob_ l' p = P p) /\ flat_map makes l' = flat_map makes l /\
      mrun canon exists_ glob_ home fuel 0 (map op_of l') [empty_reg] = Ok st' /\ kind_of (reg st' 0) = kind_of (reg st 0) /\
      core_get canon (fst (reg st' 0)) (meaning l x) = Ok i /\ (exists nm, In (nm, i) (c_targets (fst (reg st' 0)))) /\
      exists f1, forall fuel', f1 <= fuel' -> exists c1 ca1,
        mevaluate canon (kind_of (reg st 0)) other_if fs fuel' (set_threads (fst (reg st' 0)) th, []) = Ok (c1, ca1) /\
        mcli canon (kind_of (reg st 0)) other_if fs fuel' other (set_threads (fst (reg st 0)) th) default ws = Ok (MC i act [] c1 ca1).
  Proof.
    intros Hc Hx Hoi Hr. destruct (dispatched cwd home fs exists_ glob_ l disk ok fuel st Hr other th default ws x act Hc Hx) as (i & c0 & Hd & Hg & Hcc & Hc0).
    destruct (followed cwd home fs exists_ glob_ l disk ok fuel st Hr x c0 Hx Hc0) as (l' & st' & Hl & Hio & Hp & Hr' & Er & Hm).
    assert (Ek : kind_of (reg st' 0) = kind_of (reg st 0)) by (apply kinds_of; now rewrite Er).
    assert (Hg' : core_get canon (fst (reg st' 0)) (meaning l x) = Ok i).
    { rewrite Er. cbn [fst]. destruct Hc0 as [->|[-> _]]; [exact Hg|]. now rewrite get_has by apply realpath_idem. }
    exists l', st', i. split; [exact Hio|]. split; [exact Hp|]. split; [exact Hm|]. split; [exact Hr'|]. split; [exact Ek|]. split; [exact Hg'|].
    split.
    { rewrite <- Hm in Hx. destruct (made_get cwd home fs exists_ glob_ l' disk Hio fuel st' Hr' _ Hx) as (j & Hj & _ & _ & _ & Hn). rewrite Hg' in Hj. injection Hj as <-. exact Hn. }
    destruct (script_evaluates cwd home fs exists_ glob_ l' disk Hio fuel st' Hr' th other_if [] Hoi) as [f1 H1]. exists f1. intros fuel' Hf.
    destruct (H1 fuel' Hf) as (c1 & ca1 & He). rewrite Ek in He. exists c1, ca1. split; [exact He|].
    unfold mcli. rewrite Hd. cbn [bind]. rewrite Er in He. cbn [fst] in He. match goal with |- context [mevaluate ?a ?b ?c ?d ?e ?f] => change (mevaluate a b c d e f = Ok (c1, ca1)) in He end. rewrite He. cbn [bind]. now rewrite Hcc.
  Qed.
  Lemma command_starts other partial default ws x th now order so other_if : (forall i, exists b, other_if i = Ok b) -> calls default ws x "makefile" ->
    In (meaning l x) (flat_map makes l) -> (forall k, Permutation k (order k)) -> fair_order so ->
    exists f0, forall fuel, f0 <= fuel -> exists st, mrun canon exists_ glob_ home fuel 0 (map op_of l) [empty_reg] = Ok st /\
      exists f1, forall fuel', f1 <= fuel' -> exists i c1 ca1 objs sv,
      mcli canon (kind_of (reg st 0)) other_if fs fuel' other (set_threads (fst (reg st 0)) th) default ws = Ok (MC i "makefile" [] c1 ca1) /\
      recurse_update canon c1 order so i None = RuExec objs sv /\
      commanded cwd home exists_ glob_ partial other l default ws th fs now (kind_of (reg st 0)) c1 objs sv (init_state sv (WD fs ca1 now now [])).
  Proof.
    intros Hoi Hc Hx Ho Hso. destruct (stmts_total cwd home (present fs) exists_ glob_ disk l) as [f0 H0]. exists f0. intros fuel Hf.
    destruct (H0 fuel [empty_reg] Hf) as [st Hr]. exists st. split; [exact Hr|].
    destruct (set_up other default ws x "makefile" th fuel st other_if Hc Hx Hoi Hr) as (l' & st' & i & Hio & _ & _ & Hr' & Ek & _ & Hi & f1 & H1).
    exists f1. intros fuel' Hf'. destruct (H1 fuel' Hf') as (c1 & ca1 & He & Hm). rewrite <- Ek in He.
    destruct (script_runs cwd home fs exists_ glob_ l' disk Hio fuel st' Hr' th other_if fuel' c1 ca1 He i order so Hi Ho Hso) as (objs & sv & Hru).
    exists i, c1, ca1, objs, sv. split; [exact Hm|]. split; [exact Hru|].
    exists fuel, st, i, other_if, fuel', ca1, order, so. repeat (split; [assumption || reflexivity|]). constructor.
  Qed.
  Lemma clean_runs other default ws x th (other_if : nat -> res bool) : (forall i, exists b, other_if i = Ok b) -> calls default ws x "clean" -> In (meaning l x) (flat_map makes l) ->
    exists f0, forall fuel, f0 <= fuel -> exists st, mrun canon exists_ glob_ home fuel 0 (map op_of l) [empty_reg] = Ok st /\
      exists f1, forall fuel', f1 <= fuel' -> exists i c1 ca1 fs' ca',
      mcli canon (kind_of (reg st 0)) other_if fs fuel' other (set_threads (fst (reg st 0)) th) default ws = Ok (MC i "clean" [] c1 ca1) /\
      clean canon (kind_of (reg st 0)) c1 i (fs, ca1) = Ok (fs', ca') /\
      cleaned cwd home exists_ glob_ other l default ws th fs fs'.
  Proof.
    intros Hoi Hc Hx. destruct (stmts_total cwd home (present fs) exists_ glob_ disk l) as [f0 H0]. exists f0. intros fuel Hf.
    destruct (H0 fuel [empty_reg] Hf) as [st Hr]. exists st. split; [exact Hr|].
    destruct (set_up other default ws x "clean" th fuel st other_if Hc Hx Hoi Hr) as (l' & st' & i & Hio & _ & Hm & Hr' & Ek & Hg & Hi & f1 & H1).
    exists f1. intros fuel' Hf'. destruct (H1 fuel' Hf') as (c1 & ca1 & He & Hcm). rewrite <- Hm in Hx. rewrite <- Ek in He.
    destruct (script_cleans cwd home fs exists_ glob_ l' disk Hio fuel st' _ i th other_if fuel' c1 ca1 Hr' Hx Hg He) as (fs' & ca' & Hcl & _). rewrite Ek in Hcl.
    exists i, c1, ca1, fs', ca'. split; [exact Hcm|]. split; [exact Hcl|]. exists fuel, st, i, other_if, fuel', c1, ca1, ca'. auto.
  Qed.
  Lemma clean_removes other default ws x th fs' : calls default ws x "clean" -> In (meaning l x) (flat_map makes l) ->
    cleaned cwd home exists_ glob_ other l default ws th fs fs' ->
    (forall p, is_rule P p -> p_cone P (meaning l x) p -> is_reg fs p = true -> fs' p = None) /\
    (forall p, fs' p <> fs p -> is_reg fs p = true /\ fs' p = None /\ is_rule P p /\ p_cone P (meaning l x) p).
  Proof.
    intros Hc Hx (fuel & st & i & other_if & fuel' & c1 & ca1 & ca2 & Hr & Hm & Hcl).
    destruct (dispatched cwd home fs exists_ glob_ l disk ok fuel st Hr other th default ws x "clean" Hc Hx) as (i' & c0 & Hd & Hg & Hcc & Hc0).
    unfold mcli in Hm. rewrite Hd in Hm. cbn [bind] in Hm.
    destruct (mevaluate canon (kind_of (reg st 0)) other_if fs fuel' (set_threads c0 th, [])) as [[c2 ca0]| |] eqn:Ev; cbn [bind] in Hm; try discriminate.
    rewrite Hcc in Hm. cbn [bind] in Hm. injection Hm as -> -> ->.
    destruct (followed cwd home fs exists_ glob_ l disk ok fuel st Hr x c0 Hx Hc0) as (l' & st' & Hl & Hio & Hp & Hr' & Er & Hmk).
    assert (Ek : kind_of (reg st' 0) = kind_of (reg st 0)) by (apply kinds_of; now rewrite Er).
    rewrite <- Hmk in Hx. destruct (script_cleans cwd home fs exists_ glob_ l' disk Hio fuel st' (meaning l x) i th other_if fuel' c1 ca1 Hr' Hx) as (fs2 & ca3 & Hcl2 & A & B).
    - rewrite Er. cbn [fst]. destruct Hc0 as [->|[-> _]]; [exact Hg|]. now rewrite get_has by apply realpath_idem.
    - rewrite Ek, Er. exact Ev.
    - rewrite Ek, Hcl in Hcl2. injection Hcl2 as <- _. assert (Hq : forall p, P p = project_of cwd home glob_ l' p) by (intros p; symmetry; apply Hp). split.
      + intros p Hpr Hpc Hrg. apply A; [now apply (rule_agree _ _ Hp)|now apply (cone_agree _ _ Hq)|exact Hrg].
      + intros p Hd'. destruct (B p Hd') as (B1 & B2 & B3 & B4). split; [exact B1|]. split; [exact B2|]. split; [now apply (rule_agree _ _ Hp)|now apply (cone_agree _ _ Hp)].
  Qed.
  Lemma command_goes_on other partial default ws x th now kind c1 objs sv s : calls default ws x "makefile" -> In (meaning l x) (flat_map makes l) ->
    dirs_free cwd home l fs -> (1 <= th)%Z ->
    commanded cwd home exists_ glob_ partial other l default ws th fs now kind c1 objs sv s -> no_rule_failed P (s_world s) ->
    succeeded objs s \/ s_main s = MJoin /\ exists s', step (inv_of (sv_inv sv)) (mk_task canon kind partial c1 objs) s s'.
  Proof.
    intros Hc Hx Hf Ht H Hn. destruct (command_building cwd home fs exists_ glob_ l disk ok other partial default ws x th now kind c1 objs sv s Hc Hx H)
      as (l' & Hl & Hio & Hp & Hm & Hb). 
    eapply (building_goes_on cwd home fs exists_ glob_ l' disk Hio); [rewrite Hm; exact Hx|eapply free_after; eauto|exact Ht|exact Hb|].
    intros p Hpr. apply Hn. eapply rule_agree; [|exact Hpr]. intros q. symmetry. apply Hp.
  Qed.
End Commands.

Lemma command_history_ok cwd home glob_ l fs now : command_history cwd home glob_ l fs now -> history (realpath cwd) (project_of cwd home glob_ l) fs now.
Proof.
  induction 1 as [fs now A B C|fs now fs' now' _ IH O|fs now exists_ other default ws x th kind c1 objs sv s _ IH D K C X B|fs now exists_ other default ws x th fs' _ IH D K C X B].
  - now apply h_start.
  - eapply h_outside; eauto.
  - destruct (command_of cwd home fs exists_ glob_ l D K other false default ws x th now kind c1 objs sv s C X B) as (c & i & other_if & Him & Hbo & _). eapply h_build; eauto.
  - eapply h_outside; [exact IH|]. split; [lia|]. intros p. destruct (clean_removes cwd home fs exists_ glob_ l D K other default ws x th fs' C X B) as [_ H].
    assert (E : fs' p = None \/ fs' p <> None) by (destruct (fs' p); [now right|now left]). destruct E as [E|E]; [auto|].
    assert (E2 : fs' p = fs p \/ fs' p <> fs p).
    { destruct (fs' p) as [[m [v|]]|] eqn:E1; [| |congruence]; destruct (fs p) as [[m' [v'|]]|] eqn:E2; try (right; congruence).
      - destruct (Nat.eq_dec m m') as [->|N]; [|right; congruence]. destruct (string_dec v v') as [->|N]; [now left|right; congruence].
      - destruct (Nat.eq_dec m m') as [->|N]; [now left|right; congruence]. }
    destruct E2 as [E2|E2]; [now left|]. destruct (H p E2) as (_ & E3 & _). now right; left.
Qed.
Lemma commands_right cwd home fs exists_ glob_ l : disk_ok cwd (present fs) exists_ -> in_order cwd home glob_ exists_ l ->
  forall other default ws x th now kind c1 objs sv s, calls_for cwd home glob_ l default ws x "makefile" -> In (meaning cwd l x) (flat_map (makes cwd home glob_) l) ->
  commanded cwd home exists_ glob_ false other l default ws th fs now kind c1 objs sv s -> succeeded objs s ->
  reads_only (project_of cwd home glob_ l) -> command_history cwd home glob_ l fs now ->
  forall p, is_file (project_of cwd home glob_ l) p -> p_cone (project_of cwd home glob_ l) (meaning cwd l x) p ->
  right_content (project_of cwd home glob_ l) (contents (w_fs (s_world s))) p (contents (w_fs (s_world s)) p).
Proof. intros D K other default ws x th now kind c1 objs sv s C X B Su R H. eapply command_right; eauto. now apply command_history_ok. Qed.

(** *** What is called is what the words ask for *)
Lemma mcli_asks canon kind other_if fs fuel other c default ws q : wf_core c -> mcli canon kind other_if fs fuel other c default ws = Ok q ->
  exists args, asks canon c (info_of kind other) default ws (q_obj q) (q_act q) args /\ (args = [] -> q_args q = []).
Proof.
  intros Hw H. unfold mcli in H. destruct (dispatch canon (info_of kind other) c default ws) as [[[[c1 i] act] a]| |] eqn:Ed; cbn [bind] in H; try discriminate.
  destruct (mevaluate _ _ _ _ _ _) as [[c2 ca]| |]; cbn [bind] in H; try discriminate.
  destruct (check_call (info_of kind other i) act a) as [[]| |] eqn:Ec; cbn [bind] in H; try discriminate. injection H as <-.
  destruct ws as [|nm rest].
  - unfold dispatch in Ed. destruct default as [d|]; [|discriminate Ed]. destruct (core_get canon c d) as [j| |] eqn:Eg; cbn [bind] in Ed; try discriminate.
    injection Ed as <- <- <- <-. exists []. split; [|reflexivity]. apply (asks_nothing _ _ _ _ d); [reflexivity|]. now apply (get_resolves canon c d j Hw).
  - destruct (resolves_dec canon c nm Hw) as [[j Hj]|Hn].
    + pose proof (has_true canon c nm j Hw Hj) as Hb. pose proof (proj2 (get_resolves _ _ _ _ Hw) Hj) as Hg.
      pose proof (has_get_same canon c nm j Hg) as Hg2. unfold dispatch in Ed. destruct (core_has canon c nm) as [b c'] eqn:E. cbn [fst snd] in *. subst b.
      rewrite Hg2 in Ed. cbn [bind] in Ed. destruct rest as [|act' more].
      * injection Ed as <- <- <- <-. exists []. split; [now apply asks_target|reflexivity].
      * destruct (i_routine (info_of kind other j)) eqn:Er.
        { injection Ed as <- <- <- <-. exists (act' :: more). split; [now apply asks_routine|discriminate]. }
        destruct (hasaction _ act') eqn:Ea; [|discriminate Ed]. apply hasaction_In in Ea. destruct (bind_star more) as [args| |] eqn:Eb; cbn [bind] in Ed; try discriminate.
        injection Ed as <- <- <- <-. exists more. split; [now apply (asks_action canon c _ default nm)|]. intros ->. injection Eb as <-. reflexivity.
    + unfold dispatch in Ed. rewrite (has_false canon c nm Hw Hn) in Ed. destruct default as [d|]; cbn [bind] in Ed; [|discriminate Ed].
      destruct (core_get canon c d) as [j| |] eqn:Eg; cbn [bind] in Ed; try discriminate. destruct (hasaction _ nm) eqn:Ea; [|discriminate Ed]. apply hasaction_In in Ea.
      destruct (bind_star rest) as [args| |] eqn:Eb; cbn [bind] in Ed; try discriminate. injection Ed as <- <- <- <-. exists rest.
      split; [apply (asks_of_default canon c _ (Some d) nm d); auto; now apply (get_resolves canon c d j Hw)|]. intros ->. injection Eb as <-. reflexivity.
Qed.

(** *** The other way round: a build of a script that ends with a mention is a command *)
Lemma building_command cwd home fs exists_ glob_ l : disk_ok cwd (present fs) exists_ -> in_order cwd home glob_ exists_ l ->
  forall other partial default x th now kind c1 objs sv s, In (meaning cwd l x) (flat_map (makes cwd home glob_) l) ->
  building cwd home exists_ glob_ partial (l ++ [SSource x]) (meaning cwd l x) th fs now kind c1 objs sv s ->
  commanded cwd home exists_ glob_ partial other l default [x] th fs now kind c1 objs sv s.
Proof.
  intros D K other partial default x th now kind c1 objs sv s Hx (fuel & st' & i & other_if & fuel' & ca1 & order & so & Hr & Ek & Hg & He & Ho & Hso & Hru & Hex).
  rewrite map_app in Hr. destruct (InstallProofs.mrun_app _ _ _ _ _ _ _ _ _ _ Hr) as (st & Hr1 & Hr2).
  destruct (meaning_get cwd home fs exists_ glob_ l D K fuel st Hr1 x Hx) as (i' & Hgx & Hgm & Hi & _ & Hd & Hno).
  pose proof (has_get _ _ _ _ Hgx) as Hh.
  assert (Er : reg st' 0 = (snd (core_has (realpath cwd) (fst (reg st 0)) x), snd (reg st 0))).
  { cbn [map op_of mrun mstep] in Hr2. unfold RegModel.source, rhas in Hr2. destruct (core_has (realpath cwd) (fst (reg st 0)) x) as [b c'] eqn:E. cbn in Hh. subst b.
    cbn [bind] in Hr2. injection Hr2 as <-. apply reg0_put. eapply st_len; eauto. }
  assert (Ek' : kind = kind_of (reg st 0)) by (rewrite Ek; apply kinds_of; now rewrite Er).
  rewrite Er in Hg. cbn [fst] in Hg. rewrite get_has in Hg by apply realpath_idem. rewrite Hgm in Hg. injection Hg as ->.
  exists fuel, st, i, other_if, fuel', ca1, order, so. split; [exact Hr1|]. split; [exact Ek'|]. split; [|auto].
  unfold mcli, dispatch. rewrite has_threads, Hh. cbv iota. rewrite get_threads, get_has, Hgx by apply realpath_idem. cbn [bind].
  rewrite Er in He. cbn [fst] in He. match goal with |- context [mevaluate ?a ?b ?c ?d ?e ?f] => change (mevaluate a b c d e f = Ok (c1, ca1)) in He end. rewrite He. cbn [bind].
  destruct (info_make st other i Hno) as (_ & Hdf & Ha). rewrite Ek', Hdf. rewrite (proj2 (Ha "makefile" (or_introl eq_refl))). reflexivity.
Qed.

(** Without threads nothing happens. *)
Lemma command_no_threads cwd home fs exists_ glob_ l : disk_ok cwd (present fs) exists_ -> in_order cwd home glob_ exists_ l ->
  forall other partial default ws x th now kind c1 objs sv s, calls_for cwd home glob_ l default ws x "makefile" -> In (meaning cwd l x) (flat_map (makes cwd home glob_) l) ->
  (th <= 0)%Z -> commanded cwd home exists_ glob_ partial other l default ws th fs now kind c1 objs sv s ->
  w_fs (s_world s) = fs /\ hangs sv (mk_task (realpath cwd) kind partial c1 objs) s.
Proof.
  intros D K other partial default ws x th now kind c1 objs sv s Hc Hx Ht H.
  destruct (command_building cwd home fs exists_ glob_ l D K other partial default ws x th now kind c1 objs sv s Hc Hx H) as (l' & _ & Hio & _ & Hm & Hb).
  rewrite <- Hm in Hx. destruct Hb as (fuel & st & i & other_if & fuel' & ca1 & order & so & Hr & -> & Hg & He & Ho & Hso & Hru & Hex).
  destruct (made_get cwd home fs exists_ glob_ l' D Hio fuel st Hr _ Hx) as (i2 & Hg' & Hn' & Hk & _ & nm & Hi). rewrite Hg in Hg'. injection Hg' as <-.
  destruct (evaluated cwd home fs exists_ glob_ l' D Hio fuel st Hr th other_if fuel' c1 ca1 He) as ((Hw & _ & _ & _ & Hnp) & S & Hco & Hth).
  assert (Hi1 : resolves (realpath cwd) c1 (t_name (obj c1 i)) i) by (apply (Hco nm); destruct S as (<- & _); exact Hi).
  destruct (ru_exec_facts (realpath cwd) c1 Hw Hco Hnp i Hi1 order Ho so Hso None th Hth objs sv Hru) as (dts & _ & _ & _ & Hs & _).
  destruct (no_threads_hang _ _ dts th sv (WD fs ca1 now now []) (ex_intro _ so (conj Hso Hs)) Ht s Hex) as [-> Hh]. auto.
Qed.
