(** Lemmas: what the argument [core] of the functions of cxx_modules.py does (C98). *)
From Coq Require Import Permutation Relations.
From Verif Require Import PyBase PyPath PathProofs SolverModel SpecGraph InvokerModel CoreModel SpecCore CoreProofs NeedProofs RuProofs CoreThms ExtProofs
  CliModel CliProofs MakeModel MakeEval SpecMake MakeProofs UtilModel RegModel SpecReg RegProofs RegCopy RegBuild RegTotal SpecProject SpecInstall InstallProofs FormatModel ModulesModel CxxModel SpecCxxScript
  MakeCoreProofs CoreArgModel.
Local Open Scope string_scope.
Local Open Scope list_scope.

Section Arg.
  Variables (sh : string -> string -> buildfun) (cwd home : string) (tool : toolchain).
  Variables (exists_ : string -> bool) (glob_ : string -> list string) (dfile : string -> option string).
  Variables (fuel rfuel : nat).
  Notation canon := (realpath cwd).
  Notation task_in := (task_in sh cwd home tool exists_ glob_ dfile fuel rfuel).
  Notation register := (register sh cwd home exists_ glob_ rfuel).
  Notation ops ev := (map (fun e => op_of (event_stmt sh cwd home e)) ev).

  Lemma event_aside k st e st' : k <> 0 -> mstep canon exists_ glob_ home rfuel 0 st (op_of (event_stmt sh cwd home e)) = Ok st' ->
    reg st' k = reg st k /\ List.length st' = List.length st.
  Proof.
    intros Hk E. split; [|eapply len_step; eauto].
    destruct e as [p|s t|nm ts|r t s ds x co f]; cbn [event_stmt op_of mstep] in E.
    - eapply source_core0; eauto.
    - unfold copy in E. destruct (RegModel.source canon exists_ glob_ rfuel st _) as [st1| |] eqn:E1; cbn [bind] in E; try discriminate.
      rewrite <- (source_core0 _ _ _ _ _ _ _ E1 k Hk). eapply keys_fnew0; eauto.
    - unfold fileset, plain_new in E. destruct (source_existing _ _ _ _ _ _) as [st1| |] eqn:E1; cbn [bind] in E; try discriminate.
      injection E as <-. destruct (existing_aside cwd exists_ glob_ k Hk _ _ _ _ E1) as [A _]. rewrite <- A.
      unfold reg, put. rewrite NeedProofs.lupd_nth. apply Nat.eqb_neq in Hk. now rewrite Hk.
    - unfold makefile in E. eapply keys_fnew0; eauto.
  Qed.
  Lemma register_aside k ev : k <> 0 -> forall st st', register ev st = Ok st' -> reg st' k = reg st k /\ List.length st' = List.length st.
  Proof.
    intros Hk. unfold CoreArgModel.register. induction ev as [|e ev IH]; intros st st' E; [injection E as <-; auto|]. cbn [map mrun] in E.
    destruct (mstep canon exists_ glob_ home rfuel 0 st _) as [st1| |] eqn:E1; cbn [bind] in E; try discriminate.
    destruct (event_aside k st e st1 Hk E1) as [A B], (IH _ _ E) as [C D]. split; congruence.
  Qed.

  (** The call is the call of [task], whose events are registered in turn. *)
  Lemma task_in_task k st lib below top name target impl type default kw lib' st' :
    task_in k st lib below top name target impl type default kw = Ok (lib', st') ->
    exists r o ev, task home tool glob_ dfile fuel lib below top name target impl type default kw = Ok (r, o, lib', ev) /\
      (type <> "objects" -> register ev st = Ok st') /\
      (type = "objects" -> exists ev0 ss st1, ev = ev0 ++ [VFileset name ss] /\ r = map RStr ss /\ register ev0 st = Ok st1 /\
         fileset canon exists_ glob_ rfuel st1 k name ss [] = Ok st').
  Proof.
    unfold CoreArgModel.task_in, task. destruct (String.eqb type "objects") eqn:Et.
    - apply String.eqb_eq in Et. subst type. intros E.
      destruct (module _ _ _ _ _ _ _) as [lib1| |]; cbn [bind] in *; try discriminate.
      destruct (prepare_targets _ _ _ _ _ _ _ _ _) as [[[[r o] lib2] ev]| |]; cbn [bind] in *; try discriminate.
      destruct (rstrs r) as [ss| |] eqn:Er; cbn [bind] in *; try discriminate.
      destruct (register ev st) as [st1| |] eqn:Ereg; cbn [bind] in E; try discriminate.
      destruct (fileset canon exists_ glob_ rfuel st1 k name ss []) as [st2| |] eqn:Ef; cbn [bind] in E; try discriminate.
      injection E as <- <-. exists r, o, (ev ++ [VFileset name ss]). split; [reflexivity|]. split; [congruence|]. intros _.
      exists ev, ss, st1. repeat split; auto. clear - Er. revert ss Er. unfold rstrs. induction r as [|a r IH]; intros ss E; cbn [map_res] in E.
      + now injection E as <-.
      + destruct a; cbn [bind] in E; try discriminate. destruct (map_res _ r) as [ss'| |] eqn:Er; cbn [bind] in E; try discriminate.
        injection E as <-. cbn [map]. f_equal. now apply IH.
    - apply String.eqb_neq in Et. intros E.
      destruct (module _ _ _ _ _ _ _) as [lib1| |]; cbn [bind] in *; try discriminate.
      destruct (prepare_targets _ _ _ _ _ _ _ _ _) as [[[[r o] lib2] ev]| |]; cbn [bind] in *; try discriminate.
      destruct (register ev st) as [st1| |] eqn:Ereg; cbn [bind] in E; try discriminate.
      injection E as <- <-. exists r, o, ev. split; [reflexivity|]. split; [auto|congruence].
  Qed.
  Lemma task_in_default st lib below top name target impl type default kw lib' st' :
    task_in 0 st lib below top name target impl type default kw = Ok (lib', st') ->
    exists r o ev, task home tool glob_ dfile fuel lib below top name target impl type default kw = Ok (r, o, lib', ev) /\
      mrun canon exists_ glob_ home rfuel 0 (map op_of (map (event_stmt sh cwd home) ev)) st = Ok st'.
  Proof.
    intros E. destruct (task_in_task _ _ _ _ _ _ _ _ _ _ _ _ _ E) as (r & o & ev & Et & A & B). exists r, o, ev. split; [exact Et|].
    rewrite map_map. destruct (string_dec type "objects") as [Q|Q]; [|now apply A].
    destruct (B Q) as (ev0 & ss & st1 & -> & _ & E0 & E1). unfold CoreArgModel.register in E0. rewrite map_app.
    clear - E0 E1. cbn [map op_of event_stmt]. revert st E0. generalize (ops ev0) as l. induction l as [|a l IH]; intros st E0; cbn [app mrun] in *.
    - injection E0 as ->. cbn [mstep]. rewrite E1. reflexivity.
    - destruct (mstep canon exists_ glob_ home rfuel 0 st a) as [st2| |]; cbn [bind] in *; try discriminate. now apply IH.
  Qed.

  Lemma program_elsewhere k st lib below top name target impl type default kw lib' st' :
    task_in k st lib below top name target impl type default kw = Ok (lib', st') -> type <> "objects" ->
    forall j, j <> 0 -> reg st' j = reg st j.
  Proof.
    intros E Ht j Hj. destruct (task_in_task _ _ _ _ _ _ _ _ _ _ _ _ _ E) as (r & o & ev & _ & A & _). exact (proj1 (register_aside j ev Hj _ _ (A Ht))).
  Qed.
  Lemma objects_elsewhere k st lib below top name target impl default kw lib' st' :
    task_in k st lib below top name target impl "objects" default kw = Ok (lib', st') -> k <> 0 -> k < List.length st ->
    exists r o ev ss, task home tool glob_ dfile fuel lib below top name target impl "objects" default kw = Ok (r, o, lib', ev) /\ r = map RStr ss /\
      reg st' k = reg_add (reg st k) Updatable MSet name (expand_names glob_ ss) /\ forall j, j <> 0 -> j <> k -> reg st' j = reg st j.
  Proof.
    intros E Hk L. destruct (task_in_task _ _ _ _ _ _ _ _ _ _ _ _ _ E) as (r & o & ev & Et & _ & B).
    destruct (B eq_refl) as (ev0 & ss & st1 & -> & Er & E0 & E1). exists r, o, (ev0 ++ [VFileset name ss]), ss. split; [exact Et|]. split; [exact Er|].
    destruct (register_aside k ev0 Hk _ _ E0) as [A1 L1]. unfold fileset in E1. cbn [app] in E1. split.
    - destruct (plain_here cwd exists_ glob_ k Hk _ _ _ _ _ _ _ E1) as [A _]; [lia|]. now rewrite A, A1.
    - intros j Hj Hjk. destruct (register_aside j ev0 Hj _ _ E0) as [A2 _]. rewrite <- A2. unfold plain_new in E1.
      destruct (source_existing _ _ _ _ _ _) as [st2| |] eqn:E2; cbn [bind] in E1; try discriminate.
      injection E1 as <-. destruct (existing_aside cwd exists_ glob_ j Hj _ _ _ _ E2) as [A _]. rewrite <- A.
      unfold reg, put. rewrite NeedProofs.lupd_nth. apply Nat.eqb_neq in Hjk. now rewrite Hjk.
  Qed.

  (** The file set cannot be made. *)
  Lemma objects_unusable k st lib below top name target impl default kw lib' st' r o ev ob :
    made canon exists_ glob_ home st -> task_in k st lib below top name target impl "objects" default kw = Ok (lib', st') -> k <> 0 -> k < List.length st ->
    task home tool glob_ dfile fuel lib below top name target impl "objects" default kw = Ok (r, o, lib', ev) -> In (RStr ob) r ->
    has_star ob = false -> ~ registered canon (fst (reg st k)) ob -> ob <> name -> canon ob <> name ->
    exists i, core_get canon (fst (reg st' k)) name = Ok i /\
      forall th kind other_if fs f ca c1 ca1, mevaluate canon kind other_if fs f (set_threads (fst (reg st' k)) th, ca) = Ok (c1, ca1) ->
      forall order so threads, (forall l, Permutation l (order l)) ->
      exists x, recurse_update canon c1 order so i threads = RuExn (exit_unregistered x) /\ ~ registered canon (fst (reg st' k)) x.
  Proof.
    intros Hm E Hk L Et Hob Hstar Hnr Hne Hnc. destruct (objects_elsewhere _ _ _ _ _ _ _ _ _ _ _ _ E Hk L) as (r' & o' & ev' & ss & Et' & Er & Hreg & _).
    rewrite Et in Et'. injection Et' as <- <- <-. subst r. apply in_map_iff in Hob. destruct Hob as (ob' & [= ->] & Hob).
    destruct (made_history canon exists_ glob_ home st Hm k) as [cops Hc].
    set (c := fst (reg st k)) in *. set (c' := fst (reg st' k)) in *. pose (i := List.length (c_heap c)).
    assert (Ec : c' = core_new c Updatable name (expand_names glob_ ss)).
    { unfold c'. rewrite Hreg. reflexivity. }
    assert (Hin : In (name, i) (c_targets c')).
    { rewrite Ec, core_new_targets. apply (dget_In String.eqb string_eqb_spec'). apply (dget_dset_eq String.eqb string_eqb_spec'). }
    exists i. split; [apply get_resolves; [rewrite Ec; apply CoreProofs.wf_new; rewrite Hc; apply wf_run, CoreThms.wf_new|now left]|]. intros th kind other_if fs f ca c1 ca1 He order so threads Ho.
    assert (Hp : process_core canon kind (set_threads c' th)).
    { rewrite Ec, Hc. change (core_new (crun canon cops (new_core None)) Updatable name (expand_names glob_ ss))
        with (cstep canon (crun canon cops (new_core None)) (OpNew Updatable name (expand_names glob_ ss))).
      rewrite <- set_threads_step, <- set_threads_run.
      replace (cstep canon (crun canon cops (set_threads (new_core None) th)) (OpNew Updatable name (expand_names glob_ ss)))
        with (crun canon (cops ++ [OpNew Updatable name (expand_names glob_ ss)]) (new_core (Some th))); [apply pc_registered|].
      unfold crun. now rewrite fold_left_app. }
    destruct (mevaluate_right canon kind other_if fs f _ ca c1 ca1 (process_ready canon kind _ Hp) He) as ((Hw1 & _ & _ & _ & Hnp) & S & _).
    assert (Hob' : t_name (obj c' i) = name /\ t_deps (obj c' i) = expand_names glob_ ss).
    { rewrite Ec. unfold obj, i. rewrite core_new_heap, app_nth2, Nat.sub_diag by lia. auto. }
    destruct Hob' as (Hn & Hd). pose proof S as (St & _ & _ & S3). destruct (S3 i) as (S4 & S5 & _).
    change (obj (set_threads c' th) i) with (obj c' i) in *. change (c_targets (set_threads c' th)) with (c_targets c') in *.
    assert (Hreg1 : forall x, registered canon c1 x <-> registered canon c' x).
    { intros x. unfold registered, resolves. rewrite <- St. reflexivity. }
    assert (Hr1 : resolves canon c1 (t_name (obj c1 i)) i).
    { rewrite <- S4, Hn. left. now rewrite <- St. }
    destruct (ru_objects_spec canon c1 Hw1 Hnp i Hr1 order Ho) as [[Hcone _]|(x & _ & Hx & Eu)].
    - exfalso. destruct (proj1 (Hreg1 ob)) as [j Hj].
      + apply (Hcone i ob (rt_refl _ _ _)). rewrite <- S5, Hd. apply expand_keeps; [|exact Hob]. now apply has_star_free.
      + apply Hnr. exists j. unfold resolves in *. rewrite Ec, core_new_targets in Hj. destruct Hj as [Hj|[Hj' Hj]]; apply In_dset in Hj.
        * destruct Hj as [[Q _]|Hj]; [congruence|now left].
        * destruct Hj as [[Q _]|Hj]; [congruence|]. right. split; [|exact Hj]. intros Q. apply Hj'. apply (dkeys_dset String.eqb string_eqb_spec'). now left.
    - exists x. split; [|intros Q; apply Hx; now apply Hreg1]. unfold recurse_update. now rewrite Eu.
  Qed.
End Arg.
