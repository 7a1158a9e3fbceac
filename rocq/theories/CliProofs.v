(** Lemmas about the command line (CliModel.v). *)
From Coq Require Import Permutation Relations.Operators_Properties.
From Verif Require Import PyBase SolverModel InvokerModel CoreModel SpecGraph SpecTrace InvokerThms SpecCore CoreProofs NeedProofs
  CoreThms ExtProofs CliModel SpecCli.
Local Open Scope string_scope.
Local Open Scope list_scope.

Lemma hasaction_In l a : hasaction l a = true <-> In a l.
Proof. apply (smem_In String.eqb string_eqb_spec'). Qed.

Lemma bind_star_ok rest args : bind_star rest = Ok args ->
  (rest = [] /\ args = []) \/ exists a, rest = [a] /\ args = chars a.
Proof.
  destruct rest as [|a [|b r]]; simpl; intros H; try discriminate; injection H as <-; eauto.
Qed.

Lemma chars_length s : List.length (chars s) = String.length s.
Proof. induction s; simpl; congruence. Qed.
Lemma chars_single s : chars s = [s] <-> String.length s = 1.
Proof.
  split.
  - intros H. rewrite <- chars_length, H. reflexivity.
  - destruct s as [|a [|b s]]; simpl; intros H; try discriminate. reflexivity.
Qed.

Section Cli.
  Variable canon : string -> string.
  Variable update_if : nat -> res bool.
  Variable fuel : nat.
  Variable info : nat -> tinfo.
  Notation cli := (cli canon update_if fuel info).
  Notation invoke := (invoke canon update_if fuel info).
  Notation asks := (asks canon).

  Lemma has_get_same c nm i : core_get canon c nm = Ok i -> core_get canon (snd (core_has canon c nm)) nm = Ok i.
  Proof.
    unfold core_has, core_get. destruct (sget (c_targets c) nm) eqn:E; cbn [snd]; [now rewrite E|].
    destruct (sget (c_targets c) (canon nm)) eqn:E2; cbn [snd c_targets]; [|discriminate].
    now rewrite (dget_dset_eq String.eqb string_eqb_spec').
  Qed.

  Lemma has_true c nm i : wf_core c -> resolves canon c nm i -> fst (core_has canon c nm) = true.
  Proof. intros Hw H. apply has_fst. exists i. now apply get_resolves. Qed.
  Lemma has_false c nm : wf_core c -> ~ registered canon c nm -> core_has canon c nm = (false, c).
  Proof.
    intros Hw Hn. destruct (fst (core_has canon c nm)) eqn:E.
    - exfalso. apply has_fst in E. destruct E as [i Hi]. apply Hn. exists i. now apply get_resolves.
    - unfold core_has in *. destruct (sget _ nm); [discriminate|]. destruct (sget _ (canon nm)); [discriminate|reflexivity].
  Qed.
  Lemma obj_has c nm i : obj (snd (core_has canon c nm)) i = obj c i.
  Proof. unfold obj. now rewrite (proj1 (has_alias canon c nm)). Qed.

  Lemma get_not c nm : wf_core c -> ~ registered canon c nm -> exists m, core_get canon c nm = Raise (SystemExit m).
  Proof.
    intros Hw Hn. destruct (core_get canon c nm) eqn:E.
    - exfalso. apply Hn. exists a. now apply get_resolves.
    - unfold core_get in E. destruct (sget _ nm); [discriminate|]. destruct (sget _ (canon nm)); [discriminate|].
      injection E as <-. unfold exit_unregistered. eauto.
    - unfold core_get in E. destruct (sget _ nm); [discriminate|]. destruct (sget _ (canon nm)); discriminate.
  Qed.
  Lemma resolves_dec c nm : wf_core c -> (exists i, resolves canon c nm i) \/ ~ registered canon c nm.
  Proof.
    intros Hw. destruct (core_get canon c nm) eqn:E.
    - left. exists a. now apply get_resolves.
    - right. intros [i Hi]. apply (proj2 (get_resolves canon c nm i Hw)) in Hi. congruence.
    - right. intros [i Hi]. apply (proj2 (get_resolves canon c nm i Hw)) in Hi. congruence.
  Qed.

  (** What the words ask for is what is invoked. *)
  Lemma cli_nothing c d i : wf_core c -> resolves canon c d i ->
    cli c (Some d) [] = invoke c i (i_default (info i)) [].
  Proof. intros Hw H. apply (proj2 (get_resolves _ _ _ _ Hw)) in H. unfold CliModel.cli. rewrite H. reflexivity. Qed.
  Lemma cli_found c default nm i rest : wf_core c -> resolves canon c nm i ->
    let c1 := snd (core_has canon c nm) in
    cli c default (nm :: rest) =
      match rest with
      | [] => invoke c1 i (i_default (info i)) []
      | act :: more =>
          if i_routine (info i) then invoke c1 i (i_default (info i)) rest
          else if hasaction (i_actions (info i)) act then invoke_star canon update_if fuel info c1 i act more
          else Raise (SystemExit "is not action of target")
      end.
  Proof.
    intros Hw H c1. pose proof (has_true c nm i Hw H) as Hb. apply (proj2 (get_resolves _ _ _ _ Hw)) in H.
    pose proof (has_get_same c nm i H) as Hg. 
    unfold CliModel.cli, execute_with_default_action.
    destruct (core_has canon c nm) as [b c'] eqn:E. cbn [fst snd] in *. subst c1 b. cbn [snd].
    rewrite Hg. cbn [bind]. reflexivity.
  Qed.
  Lemma cli_not_found c default fnd rest : wf_core c -> ~ registered canon c fnd ->
    cli c default (fnd :: rest) =
      match default with
      | None => Raise (SystemExit "Can't find routine")
      | Some d =>
          do! i <- core_get canon c d;
          if hasaction (i_actions (info i)) fnd then invoke_star canon update_if fuel info c i fnd rest
          else Raise (SystemExit "Can't find routine")
      end.
  Proof.
    intros Hw H. unfold CliModel.cli. rewrite (has_false c fnd Hw H). destruct default as [d|]; [|reflexivity].
    destruct (core_get canon c d); cbn [bind]; try reflexivity. now destruct (hasaction _ fnd).
  Qed.

  Lemma invoke_ok c i a args k : invoke c i a args = Ok k ->
    k_obj k = i /\ k_act k = a /\ k_args k = args /\ callable_with info i a (List.length args) /\
    update_update_needity canon update_if fuel c = Ok (k_core k).
  Proof.
    unfold CliModel.invoke, callable_with. destruct (update_update_needity _ _ _ c) as [c1| |]; cbn [bind]; try discriminate.
    destruct (i_attr (info i) a) as [[r|r|]|]; try discriminate;
    unfold takes; intros H;
    match type of H with context [Nat.leb (ar_min r) ?n] => destruct (Nat.leb_spec (ar_min r) n) end;
    cbn [andb] in H; try discriminate; destruct (ar_max r) as [m|] eqn:E; cbn in H;
    try match type of H with context [match ?m with O => false | S _ => _ end] => change (match m with O => false | S m' => Nat.leb (List.length args) m' end) with (Nat.leb (S (List.length args)) m) in H end;
    try match type of H with context [Nat.leb ?n m] => destruct (Nat.leb_spec n m) end;
    try discriminate; injection H as <-; cbn; repeat split; auto; intros ? [= <-]; assumption.
  Qed.
  Lemma invoke_callable c i a args c1 : update_update_needity canon update_if fuel c = Ok c1 ->
    callable_with info i a (List.length args) -> invoke c i a args = Ok (CA i a args c1).
  Proof.
    intros He. unfold CliModel.invoke, callable_with. rewrite He. cbn [bind].
    destruct (i_attr (info i) a) as [[r|r|]|]; intros H; try contradiction; destruct H as [H1 H2]; unfold takes;
    rewrite (proj2 (Nat.leb_le _ _) H1); cbn [andb]; destruct (ar_max r) as [m|] eqn:E; auto;
    now rewrite (proj2 (Nat.leb_le _ _) (H2 m eq_refl)).
  Qed.

  Lemma cli_only_asked c default ws k : wf_core c -> cli c default ws = Ok k ->
    exists args, asks c info default ws (k_obj k) (k_act k) args /\ (args = [] -> k_args k = []).
  Proof.
    intros Hw H. destruct ws as [|nm rest].
    - destruct default as [d|]; [|discriminate H]. destruct (resolves_dec c d Hw) as [[i Hi]|Hn].
      + rewrite (cli_nothing c d i Hw Hi) in H. destruct (invoke_ok _ _ _ _ _ H) as (-> & -> & -> & _).
        exists []. split; [now apply (asks_nothing _ _ _ _ d)|reflexivity].
      + destruct (get_not c d Hw Hn) as [m Hm]. unfold CliModel.cli in H. rewrite Hm in H. discriminate.
    - destruct (resolves_dec c nm Hw) as [[i Hi]|Hn].
      + rewrite (cli_found c default nm i rest Hw Hi) in H. cbv zeta in H. destruct rest as [|act more].
        * destruct (invoke_ok _ _ _ _ _ H) as (-> & -> & -> & _). exists []. split; [now apply asks_target|reflexivity].
        * destruct (i_routine (info i)) eqn:Er.
          { destruct (invoke_ok _ _ _ _ _ H) as (-> & -> & -> & _). exists (act :: more).
            split; [now apply asks_routine|discriminate]. }
          destruct (hasaction _ act) eqn:Ea; [|discriminate H]. apply hasaction_In in Ea.
          unfold invoke_star in H. destruct (bind_star more) as [args| |] eqn:Eb; cbn [bind] in H; try discriminate.
          destruct (invoke_ok _ _ _ _ _ H) as (-> & -> & -> & _). exists more.
          split; [now apply (asks_action canon c info default nm)|]. intros ->. injection Eb as <-. reflexivity.
      + rewrite (cli_not_found c default nm rest Hw Hn) in H. destruct default as [d|]; [|discriminate H].
        destruct (resolves_dec c d Hw) as [[i Hi]|Hd].
        * rewrite (proj2 (get_resolves _ _ _ _ Hw) Hi) in H. cbn [bind] in H.
          destruct (hasaction _ nm) eqn:Ea; [|discriminate H]. apply hasaction_In in Ea.
          unfold invoke_star in H. destruct (bind_star rest) as [args| |] eqn:Eb; cbn [bind] in H; try discriminate.
          destruct (invoke_ok _ _ _ _ _ H) as (-> & -> & -> & _). exists rest.
          split; [now apply (asks_of_default canon c info (Some d) nm d)|]. intros ->. injection Eb as <-. reflexivity.
        * destruct (get_not c d Hw Hd) as [m Hm]. rewrite Hm in H. discriminate.
  Qed.

  Lemma asks_det c default ws i a args i' a' args' : wf_core c ->
    asks c info default ws i a args -> asks c info default ws i' a' args' ->
    i = i' /\ a = a' /\ args = args'.
  Proof.
    intros Hw H1 H2.
    assert (F : forall nm x y, resolves canon c nm x -> resolves canon c nm y -> x = y).
    { intros nm x y Hx Hy. apply (proj2 (get_resolves _ _ _ _ Hw)) in Hx, Hy. congruence. }
    inversion H1; subst; inversion H2; subst;
      repeat match goal with
      | E : Some _ = Some _ |- _ => injection E as E; subst
      | R : resolves canon c ?n ?x, R' : resolves canon c ?n ?y |- _ =>
          assert (x = y) by (eapply F; eassumption); subst; clear R'
      | N : ~ registered canon c ?n, R : resolves canon c ?n _ |- _ => exfalso; apply N; eexists; exact R
      end; auto; congruence.
  Qed.

  Lemma cli_nothing_asked c default ws : wf_core c ->
    (forall i a args, ~ asks c info default ws i a args) ->
    exists m, cli c default ws = Raise (SystemExit m).
  Proof.
    intros Hw Hn. destruct ws as [|nm rest].
    - destruct default as [d|]; [|eexists; reflexivity]. destruct (resolves_dec c d Hw) as [[i Hi]|Hr].
      + exfalso. apply (Hn i (i_default (info i)) []). now apply (asks_nothing _ _ _ _ d).
      + destruct (get_not c d Hw Hr) as [m Hm]. exists m. unfold CliModel.cli. now rewrite Hm.
    - destruct (resolves_dec c nm Hw) as [[i Hi]|Hr].
      + rewrite (cli_found c default nm i rest Hw Hi). cbv zeta. destruct rest as [|act more].
        * exfalso. apply (Hn i (i_default (info i)) []). now apply asks_target.
        * destruct (i_routine (info i)) eqn:Er.
          { exfalso. apply (Hn i (i_default (info i)) (act :: more)). now apply asks_routine. }
          destruct (hasaction _ act) eqn:Ea; [|eauto]. apply hasaction_In in Ea.
          exfalso. apply (Hn i act more). now apply asks_action.
      + rewrite (cli_not_found c default nm rest Hw Hr). destruct default as [d|]; [|eauto].
        destruct (resolves_dec c d Hw) as [[i Hi]|Hd].
        * rewrite (proj2 (get_resolves _ _ _ _ Hw) Hi). cbn [bind].
          destruct (hasaction _ nm) eqn:Ea; [|eauto]. apply hasaction_In in Ea.
          exfalso. apply (Hn i nm rest). now apply (asks_of_default canon c info (Some d) nm d).
        * destruct (get_not c d Hw Hd) as [m Hm]. rewrite Hm. cbn [bind]. eauto.
  Qed.

  Lemma invoke_star_core c i a l k : invoke_star canon update_if fuel info c i a l = Ok k ->
    update_update_needity canon update_if fuel c = Ok (k_core k).
  Proof.
    unfold invoke_star. destruct (bind_star l) as [args| |]; cbn [bind]; try discriminate.
    intros H. now apply invoke_ok in H.
  Qed.
  Lemma cli_core c default ws k : wf_core c -> cli c default ws = Ok k ->
    exists c2, same_but_aliases canon c c2 /\ update_update_needity canon update_if fuel c2 = Ok (k_core k).
  Proof.
    intros Hw H. destruct ws as [|nm rest].
    - destruct default as [d|]; [|discriminate H]. unfold CliModel.cli in H.
      destruct (core_get canon c d); cbn [bind] in H; try discriminate.
      exists c. split; [now left|]. now apply invoke_ok in H.
    - destruct (resolves_dec c nm Hw) as [[i Hi]|Hr].
      + rewrite (cli_found c default nm i rest Hw Hi) in H. cbv zeta in H.
        exists (snd (core_has canon c nm)). split; [right; eauto|].
        destruct rest as [|act more]; [now apply invoke_ok in H|].
        destruct (i_routine (info i)); [now apply invoke_ok in H|].
        destruct (hasaction _ act); [|discriminate H]. eapply invoke_star_core; exact H.
      + rewrite (cli_not_found c default nm rest Hw Hr) in H. destruct default as [d|]; [|discriminate H].
        destruct (core_get canon c d); cbn [bind] in H; try discriminate.
        destruct (hasaction _ nm); [|discriminate H]. exists c. split; [now left|]. eapply invoke_star_core; exact H.
  Qed.

  (** Arguments of an action that is not a routine's. *)
  Lemma cli_words c default ws i a args : wf_core c -> asks c info default ws i a args ->
    (match ws with [] => True | nm :: _ => forall j, resolves canon c nm j -> i_routine (info j) = false end) ->
    exists c1, same_but_aliases canon c c1 /\ cli c default ws = invoke_star canon update_if fuel info c1 i a args.
  Proof.
    intros Hw Ha Hr. destruct Ha as [d i -> Hd|nm i Hi|nm i args Hi Hi2|nm i act args Hi Hi2 Hact|act d i args Hn -> Hd Hact].
    - exists c. split; [now left|]. rewrite (cli_nothing c d i Hw Hd). reflexivity.
    - exists (snd (core_has canon c nm)). split; [right; eauto|]. rewrite (cli_found c default nm i [] Hw Hi). reflexivity.
    - rewrite (Hr i Hi) in Hi2. discriminate.
    - exists (snd (core_has canon c nm)). split; [right; eauto|]. rewrite (cli_found c default nm i _ Hw Hi). cbv zeta.
      rewrite Hi2. rewrite (proj2 (hasaction_In _ _) Hact). reflexivity.
    - exists c. split; [now left|]. rewrite (cli_not_found c (Some d) act args Hw Hn).
      rewrite (proj2 (get_resolves _ _ _ _ Hw) Hd). cbn [bind]. now rewrite (proj2 (hasaction_In _ _) Hact).
  Qed.
  Lemma cli_routine c default nm i args : wf_core c -> resolves canon c nm i -> i_routine (info i) = true ->
    cli c default (nm :: args) = invoke (snd (core_has canon c nm)) i (i_default (info i)) args.
  Proof.
    intros Hw Hi Hr. rewrite (cli_found c default nm i args Hw Hi). cbv zeta. rewrite Hr. now destruct args.
  Qed.
End Cli.

(** ** Evaluation before the call succeeds on healthy registries. *)
Section Evaluation.
Variable canon : string -> string.
Hypothesis canon_idem : forall p, canon (canon p) = canon p.
Lemma resolves_has c nm q i : wf_core c ->
  resolves canon (snd (core_has canon c nm)) q i <-> resolves canon c q i.
Proof.
  intros Hw. rewrite <- (get_resolves canon _ q i (wf_has canon c nm Hw)), <- (get_resolves canon _ q i Hw).
  pose proof (has_invisible canon canon_idem c nm [] (Forall_nil _) q) as E. cbn [crun fold_left] in E. unfold crun in E.
  cbn [fold_left] in E. now rewrite E.
Qed.
Lemma targets_has c nm q i : wf_core c -> In (q, i) (c_targets (snd (core_has canon c nm))) ->
  exists q', In (q', i) (c_targets c).
Proof.
  intros Hw H. unfold core_has in H. destruct (sget _ nm); [eauto|].
  destruct (sget (c_targets c) (canon nm)) as [j|] eqn:E; [|eauto]. cbn [snd c_targets] in H.
  apply In_dset in H. destruct H as [[_ ->]|H]; [|eauto]. exists (canon nm).
  now apply (dget_In _ string_eqb_spec').
Qed.
Lemma clos_mono {A} (R R' : A -> A -> Prop) : (forall x y, R x y -> R' x y) ->
  forall x y, clos_trans A R x y -> clos_trans A R' x y.
Proof. intros H x y C. induction C; [apply t_step; auto|eapply t_trans; eauto]. Qed.
Lemma healthy_has u c nm : wf_core c -> healthy canon u c -> healthy canon u (snd (core_has canon c nm)).
Proof.
  intros Hw (H1 & H2 & H3 & H4).
  assert (O : forall i, obj (snd (core_has canon c nm)) i = obj c i) by (intros; apply obj_has).
  assert (D : forall i j, obj_dep canon (snd (core_has canon c nm)) i j -> obj_dep canon c i j).
  { intros i j (d & Hd & R). exists d. rewrite O in Hd. split; [exact Hd|]. now apply (resolves_has c nm). }
  split; [|split; [|split]]; intros q i.
  - intros d Hi Hd. rewrite O in Hd. destruct (targets_has _ _ _ _ Hw Hi) as [q' Hq].
    destruct (H1 q' i d Hq Hd) as [j Hj]. exists j. now apply resolves_has.
  - intros j Hi Hd. rewrite O. destruct (targets_has _ _ _ _ Hw Hi) as [q' Hq]. eauto.
  - intros Hi C. destruct (targets_has _ _ _ _ Hw Hi) as [q' Hq]. apply (H3 q' i Hq). eapply clos_mono; eauto.
  - intros Hi. rewrite O. destruct (targets_has _ _ _ _ Hw Hi) as [q' Hq]. eauto.
Qed.

Lemma wf_new_core th : wf_core (new_core th).
Proof. split; [constructor|intros ? ? []]. Qed.
Lemma crun_app a b c : crun canon (a ++ b) c = crun canon b (crun canon a c).
Proof. apply fold_left_app. Qed.

Lemma heap_has c nm : c_heap (snd (core_has canon c nm)) = c_heap c.
Proof. symmetry. apply (has_alias canon c nm). Qed.

Lemma evaluates_has u fuel ops th nm : let c := crun canon ops (new_core th) in
  healthy canon u c -> List.length (c_heap c) < fuel ->
  exists c1, update_update_needity canon u fuel (snd (core_has canon c nm)) = Ok c1.
Proof.
  intros c Hh Hf. apply (session_evaluates canon (ops ++ [OpHas nm]) th).
  - unfold c. change (snd (core_has canon (crun canon ops (new_core th)) nm)) with (crun canon [OpHas nm] (crun canon ops (new_core th))).
    rewrite <- crun_app. constructor.
  - apply healthy_has; [|exact Hh]. apply wf_run, wf_new_core.
  - now rewrite heap_has.
Qed.
Lemma evaluates_aliased u fuel ops th c1 : let c := crun canon ops (new_core th) in
  healthy canon u c -> List.length (c_heap c) < fuel -> same_but_aliases canon c c1 ->
  exists c2, update_update_needity canon u fuel c1 = Ok c2.
Proof.
  intros c Hh Hf [->|[nm ->]]; [|now apply evaluates_has].
  apply (session_evaluates canon ops th); [constructor|exact Hh|exact Hf].
Qed.

(** The words that ask for something without arguments run it. *)
Lemma cli_runs u fuel info ops th default ws i a : let c := crun canon ops (new_core th) in
  healthy canon u c -> List.length (c_heap c) < fuel ->
  asks canon c info default ws i a [] -> callable_with info i a 0 ->
  exists c1, cli canon u fuel info c default ws = Ok (CA i a [] c1).
Proof.
  intros c Hh Hf Ha Hc. assert (Hw : wf_core c) by apply wf_run, wf_new_core.
  assert (E : exists c1, same_but_aliases canon c c1 /\
     cli canon u fuel info c default ws = invoke canon u fuel info c1 i a []).
  { remember [] as args eqn:Ea. destruct Ha as [d i Hd Hr|nm i Hi|nm i args Hi Hi2|nm i act args Hi Hi2 Hact|act d i args Hn Hd Hr Hact]; subst.
    - exists c. split; [now left|]. now rewrite (cli_nothing canon u fuel info c d i Hw Hr).
    - exists (snd (core_has canon c nm)). split; [right; eauto|]. now rewrite (cli_found canon u fuel info c default nm i [] Hw Hi).
    - exists (snd (core_has canon c nm)). split; [right; eauto|]. now rewrite (cli_found canon u fuel info c default nm i [] Hw Hi).
    - exists (snd (core_has canon c nm)). split; [right; eauto|]. rewrite (cli_found canon u fuel info c default nm i _ Hw Hi).
      cbv zeta. now rewrite Hi2, (proj2 (hasaction_In _ _) Hact).
    - exists c. split; [now left|]. rewrite (cli_not_found canon u fuel info c (Some d) act [] Hw Hn).
      rewrite (proj2 (get_resolves _ _ _ _ Hw) Hr). cbn [bind]. now rewrite (proj2 (hasaction_In _ _) Hact). }
  destruct E as (c1 & Hs & E). destruct (evaluates_aliased u fuel ops th c1 Hh Hf Hs) as [c2 H2].
  exists c2. rewrite E. now apply invoke_callable.
Qed.
Lemma cli_routine_runs u fuel info ops th default nm i args : let c := crun canon ops (new_core th) in
  healthy canon u c -> List.length (c_heap c) < fuel ->
  resolves canon c nm i -> i_routine (info i) = true -> callable_with info i (i_default (info i)) (List.length args) ->
  exists c1, cli canon u fuel info c default (nm :: args) = Ok (CA i (i_default (info i)) args c1).
Proof.
  intros c Hh Hf Hi Hr Hc. assert (Hw : wf_core c) by apply wf_run, wf_new_core.
  rewrite (cli_routine canon u fuel info c default nm i args Hw Hi Hr).
  destruct (evaluates_has u fuel ops th nm Hh Hf) as [c2 H2]. exists c2. now apply invoke_callable.
Qed.
Lemma cli_one_word u fuel info ops th default ws i a w : let c := crun canon ops (new_core th) in
  healthy canon u c -> List.length (c_heap c) < fuel ->
  asks canon c info default ws i a [w] ->
  (forall nm l j, ws = nm :: l -> resolves canon c nm j -> i_routine (info j) = false) ->
  callable_with info i a (String.length w) ->
  exists c1, cli canon u fuel info c default ws = Ok (CA i a (chars w) c1).
Proof.
  intros c Hh Hf Ha Hr Hc. assert (Hw : wf_core c) by apply wf_run, wf_new_core.
  destruct (cli_words canon u fuel info c default ws i a [w] Hw Ha) as (c1 & Hs & E).
  { destruct ws; [exact Logic.I|]. intros j. now apply (Hr s ws). }
  destruct (evaluates_aliased u fuel ops th c1 Hh Hf Hs) as [c2 H2]. exists c2. rewrite E. cbn.
  apply invoke_callable; [exact H2|]. now rewrite chars_length.
Qed.
End Evaluation.
Lemma cli_more_words canon u fuel info c default ws i a w1 w2 rest : wf_core c ->
  asks canon c info default ws i a (w1 :: w2 :: rest) ->
  (forall nm l j, ws = nm :: l -> resolves canon c nm j -> i_routine (info j) = false) ->
  cli canon u fuel info c default ws = Raise (TypeError "invoke").
Proof.
  intros Hw Ha Hr. destruct (cli_words canon u fuel info c default ws i a _ Hw Ha) as (c1 & Hs & E).
  { destruct ws; [exact Logic.I|]. intros j. now apply (Hr s ws). }
  rewrite E. reflexivity.
Qed.

(** ** cliexecute *)
Lemma das_set_threads canon n : forall fuel c t acc,
  das_impl canon fuel (set_threads c n) t acc = das_impl canon fuel c t acc.
Proof.
  induction fuel as [|fuel IH]; intros c t acc; [reflexivity|]. cbn [das_impl].
  change (core_get canon (set_threads c n) t) with (core_get canon c t).
  destruct (core_get canon c t) as [i| |]; cbn [bind]; try reflexivity.
  change (obj (set_threads c n) i) with (obj c i). generalize (t_deps (obj c i)) as ds. intros ds. revert acc.
  induction ds as [|d ds IHd]; intros acc; [reflexivity|]. destruct (smem String.eqb d acc); [apply IHd|].
  rewrite IH. destruct (das_impl canon fuel c d (acc ++ [d])); cbn [bind]; try reflexivity. apply IHd.
Qed.
Lemma set_threads_step canon n c o : cstep canon (set_threads c n) o = set_threads (cstep canon c o) n.
Proof.
  destruct o as [cls nm deps|nm|a b]; cbn [cstep].
  - reflexivity.
  - unfold core_has. cbn [set_threads c_targets]. destruct (sget (c_targets c) nm); [reflexivity|].
    now destruct (sget (c_targets c) (canon nm)).
  - unfold depends_as_set. change (c_lazy (set_threads c n)) with (c_lazy c).
    destruct (dget ckey_eqb (c_lazy c) (KPair (arg_key a) b)); [reflexivity|].
    rewrite das_set_threads. change (das_fuel (set_threads c n)) with (das_fuel c).
    change (arg_str (set_threads c n) a) with (arg_str c a).
    now destruct (das_impl canon (das_fuel c) c (arg_str c a) _).
Qed.
Lemma set_threads_run canon n ops : forall c, crun canon ops (set_threads c n) = set_threads (crun canon ops c) n.
Proof.
  induction ops as [|o ops IH]; intros c; [reflexivity|]. change (crun canon (o :: ops) ?x) with (crun canon ops (cstep canon x o)).
  rewrite set_threads_step. apply IH.
Qed.
Lemma set_threads_session canon n ops th :
  set_threads (crun canon ops (new_core th)) n = crun canon ops (new_core (Some n)).
Proof. rewrite <- set_threads_run. reflexivity. Qed.

Section Build.
Variable canon : string -> string.
Hypothesis canon_idem : forall p, canon (canon p) = canon p.

(** The registry when the action starts: the one of the script, with runtime["threads"] and
    perhaps one more name. *)
Lemma threaded_alias ops th n c2 : same_but_aliases canon (set_threads (crun canon ops (new_core th)) n) c2 ->
  exists ops', c2 = crun canon ops' (new_core (Some n)) /\ new_names ops' = new_names ops.
Proof.
  rewrite set_threads_session. intros [->|[nm ->]].
  - exists ops. auto.
  - exists (ops ++ [OpHas nm]). split.
    + rewrite crun_app. reflexivity.
    + unfold new_names. rewrite flat_map_app. cbn. apply app_nil_r.
Qed.
Lemma alias_resolves c c2 q i : wf_core c -> same_but_aliases canon c c2 -> resolves canon c2 q i <-> resolves canon c q i.
Proof. intros Hw [->|[nm ->]]; [tauto|now apply resolves_has]. Qed.
Lemma alias_obj c c2 i : same_but_aliases canon c c2 -> obj c2 i = obj c i.
Proof. intros [->|[nm ->]]; [reflexivity|apply obj_has]. Qed.
Lemma alias_dep c c2 i j : wf_core c -> same_but_aliases canon c c2 -> obj_dep canon c2 i j <-> obj_dep canon c i j.
Proof.
  intros Hw Hs. unfold obj_dep. rewrite (alias_obj c c2 i Hs).
  split; intros (d & Hd & R); exists d; (split; [exact Hd|]); now apply (alias_resolves c c2).
Qed.
Lemma alias_cone c c2 i j : wf_core c -> same_but_aliases canon c c2 -> in_cone canon c2 i j <-> in_cone canon c i j.
Proof.
  intros Hw Hs. split; intros H; induction H as [x y H|x|x y z _ IH1 _ IH2];
    try apply rt_refl; try (eapply rt_trans; eassumption); apply rt_step; now apply (alias_dep c c2).
Qed.
Lemma alias_out_of_date u c c2 i : wf_core c -> same_but_aliases canon c c2 ->
  out_of_date_below canon u c2 i <-> out_of_date_below canon u c i.
Proof.
  intros Hw Hs. split; intros (j & Hj & Hu); exists j; (split; [now apply (alias_cone c c2)|exact Hu]).
Qed.
Lemma alias_healthy u c c2 : wf_core c -> same_but_aliases canon c c2 -> healthy canon u c -> healthy canon u c2.
Proof. intros Hw [->|[nm ->]] H; [exact H|now apply healthy_has]. Qed.
Lemma alias_heap c c2 : same_but_aliases canon c c2 -> c_heap c2 = c_heap c.
Proof. intros [->|[nm ->]]; [reflexivity|apply heap_has]. Qed.

Lemma asks_threads c n info default ws i a args :
  asks canon c info default ws i a args -> asks canon (set_threads c n) info default ws i a args.
Proof.
  intros [d j H1 H2|nm j H1|nm j l H1 H2|nm j act l H1 H2 H3|act d j l H1 H2 H3 H4].
  - exact (asks_nothing canon (set_threads c n) info default d j H1 H2).
  - exact (asks_target canon (set_threads c n) info default nm j H1).
  - exact (asks_routine canon (set_threads c n) info default nm j l H1 H2).
  - exact (asks_action canon (set_threads c n) info default nm j act l H1 H2 H3).
  - exact (asks_of_default canon (set_threads c n) info default act d j l H1 H2 H3 H4).
Qed.

(** [licant], [licant target] and [licant routine args]: from the command line to the calls of
    update. *)
Lemma command_builds u fuel info ops th n default ws i args :
  NoDup (new_names ops) -> let c := crun canon ops (new_core th) in
  healthy canon u c -> List.length (c_heap c) < fuel ->
  asks canon c info default ws i (i_default (info i)) args ->
  (args = [] \/ exists nm, ws = nm :: args /\ resolves canon c nm i /\ i_routine (info i) = true) ->
  callable_with info i (i_default (info i)) (List.length args) -> t_class (obj c i) = Updatable ->
  exists c1, cli canon u fuel info (set_threads c n) default ws = Ok (CA i (i_default (info i)) args c1) /\
  forall order, (forall l, Permutation l (order l)) -> forall so, fair_order so -> forall threads,
  exists objs sv, recurse_update canon c1 order so i threads = RuExec objs sv /\
  forall W (upd : nat -> W -> tres -> W -> Prop) w0 s,
  exec_reaches sv (task_behaviour c1 (recording upd) objs) ([], w0) s ->
  let calls := fst (s_world s) in
  NoDup calls /\
  (forall j, In j calls -> in_cone canon c i j /\ out_of_date_below canon u c j) /\
  (forall l1 j l2, calls = l1 ++ j :: l2 -> forall d, obj_dep canon c j d ->
     out_of_date_below canon u c d -> In d l1) /\
  (s_main s = MReturned -> exec_result (List.length objs) s = Ok true ->
     forall j, in_cone canon c i j -> out_of_date_below canon u c j -> In j calls).
Proof.
  intros Hd c Hh Hf Ha Hargs Hc Hu. set (ct := set_threads c n).
  assert (Hw : wf_core c) by apply wf_run, wf_new_core.
  assert (Hwt : wf_core ct) by exact Hw.
  assert (E : exists c2, same_but_aliases canon ct c2 /\
     cli canon u fuel info ct default ws = invoke canon u fuel info c2 i (i_default (info i)) args).
  { destruct Hargs as [->|(nm & -> & Hi & Hr)].
    2: { exists (snd (core_has canon ct nm)). split; [right; eauto|].
         exact (cli_routine canon u fuel info ct default nm i args Hwt Hi Hr). }
    pose proof Ha as Ha'.
    apply (asks_threads c n) in Ha'. fold ct in Ha'. 
    remember [] as args eqn:Ea. remember (i_default (info i)) as act eqn:Et.
    destruct Ha' as [d i Hr0 Hr|nm i Hi|nm i args Hi Hi2|nm i act args Hi Hi2 Hact|act d i args Hn Hr0 Hr Hact]; subst.
    - exists ct. split; [now left|]. now rewrite (cli_nothing canon u fuel info ct d i Hwt Hr).
    - exists (snd (core_has canon ct nm)). split; [right; eauto|]. now rewrite (cli_found canon u fuel info ct default nm i [] Hwt Hi).
    - exists (snd (core_has canon ct nm)). split; [right; eauto|]. now rewrite (cli_found canon u fuel info ct default nm i [] Hwt Hi).
    - exists (snd (core_has canon ct nm)). split; [right; eauto|]. rewrite (cli_found canon u fuel info ct default nm i _ Hwt Hi).
      cbv zeta. now rewrite Hi2, (proj2 (hasaction_In _ _) Hact).
    - exists ct. split; [now left|]. rewrite (cli_not_found canon u fuel info ct (Some d) _ [] Hwt Hn).
      rewrite (proj2 (get_resolves _ _ _ _ Hwt) Hr). cbn [bind]. now rewrite (proj2 (hasaction_In _ _) Hact). }
  destruct E as (c2 & Hs & E).
  destruct (threaded_alias ops th n c2 Hs) as (ops' & Ec2 & En).
  assert (Hh2 : healthy canon u c2) by (apply (alias_healthy u ct c2); [exact Hwt|exact Hs|exact Hh]).
  assert (Hf2 : List.length (c_heap c2) < fuel) by (rewrite (alias_heap ct c2 Hs); exact Hf).
  assert (S2 : session canon ops' (Some n) c2) by (rewrite Ec2; constructor).
  destruct (session_evaluates canon ops' (Some n) c2 S2 u Hh2 fuel Hf2) as [c1 H1].
  exists c1. split; [rewrite E; now apply invoke_callable|].
  assert (S1 : session canon ops' (Some n) c1) by (eapply ses_evaluated; eassumption).
  assert (Hd' : NoDup (new_names ops')) by now rewrite En.
  destruct (session_ok canon ops' (Some n) c2 S2) as (I1 & I2 & I3 & I4 & _).
  destruct (evaluation_right canon u fuel c2 c1 I1 I2 I3 I4 H1) as (Hst & _).
  pose proof (static_sym _ _ Hst) as Hst'.
  assert (Hreg : forall j, in_cone canon c i j -> exists nm, In (nm, j) (c_targets c2)).
  { assert (R0 : exists q, resolves canon c2 q i).
    { destruct Ha as [d i Hr0 Hr|nm i Hi|nm i l Hi Hi2|nm i act l Hi Hi2 Hact|act d i l Hn Hr0 Hr Hact];
        eexists; apply (alias_resolves ct c2 _ _ Hwt Hs); eassumption. }
    assert (T : forall q j, resolves canon c2 q j -> exists nm, In (nm, j) (c_targets c2)) by (intros q j [H|[_ H]]; eauto).
    intros j Hj. apply clos_rt_rtn1 in Hj. destruct Hj as [|y z (d & _ & R) _].
    - destruct R0. eauto.
    - apply (T d). now apply (alias_resolves ct c2 _ _ Hwt Hs). }
  assert (Cone : forall j, in_cone canon c1 i j <-> in_cone canon c i j).
  { intros j. change (in_cone canon c i j) with (in_cone canon ct i j). rewrite <- (alias_cone ct c2 i j Hwt Hs).
    split; now apply static_cone. }
  assert (Dep : forall j d, obj_dep canon c1 j d <-> obj_dep canon c j d).
  { intros j d. change (obj_dep canon c j d) with (obj_dep canon ct j d). rewrite <- (alias_dep ct c2 j d Hwt Hs).
    split; now apply static_obj_dep. }
  assert (Cls : forall j, t_class (obj c1 j) = t_class (obj c j)).
  { intros j. destruct Hst as (_ & _ & _ & Hst). destruct (Hst j) as (_ & _ & <-).
    rewrite (alias_obj ct c2 j Hs). reflexivity. }
  assert (Upd : forall j, in_cone canon c i j -> t_class (obj c j) = Updatable).
  { intros j Hj. apply clos_rt_rtn1 in Hj. destruct Hj as [|y z R Hj]; [exact Hu|].
    destruct Hh as (_ & Hh & _). apply clos_rtn1_rt in Hj. destruct (Hreg y Hj) as [q Hq].
    assert (Hq' : exists q', In (q', y) (c_targets c)).
    { destruct Hs as [->|[nm ->]]; [exists q; exact Hq|]. destruct (targets_has canon ct nm q y Hwt Hq) as [q' H]. exists q'. exact H. }
    destruct Hq' as [q' Hq']. now apply (Hh q' y z). }
  assert (Need : forall j, in_cone canon c i j ->
            (t_need (obj c1 j) = Some true /\ out_of_date_below canon u c j) \/
            (t_need (obj c1 j) = Some false /\ ~ out_of_date_below canon u c j)).
  { intros j Hj. destruct (Hreg j Hj) as [q Hq].
    assert (Hcl : t_class (obj c2 j) = Updatable).
    { rewrite (alias_obj ct c2 j Hs). exact (Upd j Hj). }
    destruct (session_needs canon ops' (Some n) c2 S2 u fuel c1 H1 q j Hq Hcl) as [[Hn Ho]|[Hn Ho]];
      rewrite (alias_out_of_date u ct c2 j Hwt Hs) in Ho; [left|right]; split; auto. }
  intros order Hord so Hso threads. destruct (Hreg i (rt_refl _ _ _)) as [q Hq].
  assert (Hq1 : In (q, i) (c_targets c1)) by (destruct Hst as (<- & _); exact Hq).
  pose proof (static_healthy canon u c2 c1 Hst Hh2) as (A1 & A2 & A3 & A4).
  assert (Treg : forall j, in_cone canon c1 i j -> exists nm, In (nm, j) (c_targets c1)).
  { intros j Hj. apply Cone in Hj. destruct (Hreg j Hj) as [nm H]. exists nm. destruct Hst as (<- & _). exact H. }
  assert (B1 : cone_registered canon c1 i) by (intros j d Hj Hdj; destruct (Treg j Hj) as [nm H]; eauto).
  assert (B2 : acyclic_cone canon c1 i) by (intros j Hj; destruct (Treg j Hj) as [nm H]; eauto).
  destruct (ses_default_action canon ops' n Hd' c1 S1 q i Hq1 order Hord so Hso B1 B2) as (objs & sv & Hru).
  assert (Ht : c_threads c1 = Some n) by apply (session_distinct canon ops' (Some n) c1 S1 Hd').
  assert (Hth : ru_threads c1 (c_threads c1) = Some n) by (unfold ru_threads; now rewrite Ht).
  exists objs, sv. split.
  { rewrite <- Hru. unfold recurse_update_get_args, recurse_update, ru_threads. now rewrite Ht. }
  intros W upd w0 s Hx calls.
  destruct (updates_facts canon ops' (Some n) Hd' c1 S1 q i Hq1 order Hord so Hso (c_threads c1) n Hth objs sv Hru upd)
    with (w0 := w0) (s := s) as (U1 & U2 & U3 & U4); [|exact Hx|].
  { intros j Hj. apply Cone in Hj. rewrite Cls. split; [now apply Upd|]. destruct (Need j Hj) as [[-> _]|[-> _]]; discriminate. }
  fold calls in U1, U2, U3, U4. split; [exact U1|]. split; [|split].
  - intros j Hj. destruct (U2 j Hj) as [V1 V2]. apply Cone in V1. split; [exact V1|].
    destruct (Need j V1) as [[_ H]|[H _]]; [exact H|congruence].
  - intros l1 j l2 El d Hdd Hod. assert (Hj : In j calls) by (rewrite El; apply in_elt).
    apply (U3 l1 j l2 El d); [now apply Dep|]. destruct (U2 j Hj) as [V1 _]. apply Cone in V1.
    assert (Hcd : in_cone canon c i d) by (eapply rt_trans; [exact V1|apply rt_step; exact Hdd]).
    destruct (Need d Hcd) as [[H _]|[_ H]]; [exact H|contradiction].
  - intros Hm Hr j Hj Ho. apply U4; auto; [now apply Cone|].
    destruct (Need j Hj) as [[H _]|[_ H]]; [exact H|contradiction].
Qed.
End Build.

(** Every build started by the command uses the threads of the command line. *)
Lemma command_threads canon u fuel info ops th n default ws k : 
  cli canon u fuel info (set_threads (crun canon ops (new_core th)) n) default ws = Ok k ->
  forall order so i threads,
  recurse_update canon (k_core k) order so i threads = recurse_update canon (k_core k) order so i (Some n).
Proof.
  intros H. destruct (cli_core canon u fuel info (set_threads (crun canon ops (new_core th)) n) default ws k (wf_run canon ops _ (wf_new_core th)) H) as (c2 & Hs & He).
  destruct (threaded_alias canon ops th n c2 Hs) as (ops' & E & _).
  assert (S2 : session canon ops' (Some n) c2) by (rewrite E; constructor).
  destruct (session_ok canon ops' (Some n) c2 S2) as (I1 & I2 & I3 & I4 & _).
  destruct (evaluation_right canon u fuel c2 (k_core k) I1 I2 I3 I4 He) as ((_ & Ht & _) & _).
  assert (T : c_threads (k_core k) = Some n).
  { rewrite <- Ht. destruct Hs as [->|[nm ->]]; [reflexivity|]. unfold core_has.
    destruct (sget _ nm); [reflexivity|]. now destruct (sget _ (canon nm)). }
  intros. unfold recurse_update, ru_threads. now rewrite T.
Qed.

(** ** Exit status and kept options. *)
Section Execute.
  Context {S : Type}.
  Variables (canon : string -> string) (u : nat -> res bool) (fuel : nat) (info : nat -> tinfo).
  Variables (parse_args : list string -> res opts) (py_int : string -> option Z) (cpu : Z).
  Notation ex := (@cliexecute canon u fuel info parse_args py_int cpu S).

  Lemma on_interrupt_ok {A} (r : res A) a : on_interrupt r = Ok a <-> r = Ok a.
  Proof.
    destruct r as [x|e|]; cbn; [tauto| |tauto].
    split; [|discriminate]. intros H. exfalso. destruct e; try discriminate H.
    cbn in H. destruct (String.eqb msg _); discriminate.
  Qed.
  Lemma ex_inv perform memo c d argv s o v s' : ex perform memo c d argv s = Ok (o, (v, s')) ->
    v = PyNone /\ exists op n k v', parse parse_args memo argv = Ok op /\ o = Some op /\
      threads_of py_int cpu (o_threads op) = Ok n /\
      cli canon u fuel info (set_threads c n) d (o_free op) = Ok k /\ perform k s = Ok (v', s').
  Proof.
    unfold cliexecute. destruct (parse parse_args memo argv) as [op| |]; cbn [bind]; try discriminate.
    destruct (threads_of py_int cpu (o_threads op)) as [n| |] eqn:En; cbn [bind]; try discriminate.
    set (r := bind (cli canon u fuel info (set_threads c n) d (o_free op)) _).
    destruct (on_interrupt r) as [[v' s1]| |] eqn:Er; cbn [bind]; try discriminate.
    intros H. injection H as <- <- <-. apply (proj1 (on_interrupt_ok _ _)) in Er. unfold r in Er.
    destruct (cli canon u fuel info (set_threads c n) d (o_free op)) as [k| |] eqn:Ek; cbn [bind] in Er; try discriminate.
    split; [reflexivity|]. exists op, n, k, v'. split; [reflexivity|]. split; [reflexivity|]. split; [exact En|]. split; [exact Ek|exact Er].
  Qed.
  (** The status does not depend on what the command returned. *)
  Lemma status_zero perform memo c d argv s :
    exit_status (ex perform memo c d argv s) = Some 0%Z <->
    exists op n k v s', parse parse_args memo argv = Ok op /\ threads_of py_int cpu (o_threads op) = Ok n /\
      cli canon u fuel info (set_threads c n) d (o_free op) = Ok k /\ perform k s = Ok (v, s').
  Proof.
    split.
    - intros H. destruct (ex perform memo c d argv s) as [[o [v s']]|e|] eqn:E.
      + destruct (ex_inv _ _ _ _ _ _ _ _ _ E) as (_ & op & n & k & v' & H1 & _ & H2 & H3 & H4). exists op, n, k, v', s'. repeat split; auto.
      + destruct e; discriminate.
      + discriminate.
    - intros (op & n & k & v & s' & H1 & H2 & H3 & H4). unfold cliexecute. rewrite H1. cbn [bind]. rewrite H2. cbn [bind].
      rewrite H3. cbn [bind]. rewrite H4. reflexivity.
  Qed.
  Lemma option_threads perform memo ops th d argv s op :
    parse parse_args memo argv = Ok op -> let c := crun canon ops (new_core th) in
    (o_threads op <> "j" -> py_int (o_threads op) = None ->
       ex perform memo c d argv s = Raise (ValueError (o_threads op))) /\
    forall r, ex perform memo c d argv s = Ok r ->
    exists n k v s', ((o_threads op = "j" /\ n = cpu) \/ (o_threads op <> "j" /\ py_int (o_threads op) = Some n)) /\
      cli canon u fuel info (set_threads c n) d (o_free op) = Ok k /\ perform k s = Ok (v, s') /\
      forall order so i threads,
      recurse_update canon (k_core k) order so i threads = recurse_update canon (k_core k) order so i (Some n).
  Proof.
    intros Hp c. split.
    - intros Hj Hn. unfold cliexecute. rewrite Hp. cbn [bind]. unfold threads_of. apply String.eqb_neq in Hj.
      now rewrite Hj, Hn.
    - intros [o [v s']] H. destruct (ex_inv _ _ _ _ _ _ _ _ _ H) as (_ & op' & n & k & v' & H1 & _ & H2 & H3 & H4).
      rewrite Hp in H1. injection H1 as <-. exists n, k, v', s'. split; [|split; [exact H3|split; [exact H4|]]].
      + unfold threads_of in H2. destruct (String.eqb_spec (o_threads op) "j") as [E|E]; [left|right]; (split; [exact E|]).
        * congruence.
        * destruct (py_int (o_threads op)); congruence.
      + intros. now apply (command_threads canon u fuel info ops th n d (o_free op) k).
  Qed.
  Lemma argv_ignored perform o c d argv argv' s : ex perform (Some o) c d argv s = ex perform (Some o) c d argv' s.
  Proof. reflexivity. Qed.
  Lemma first_argv_kept perform c d argv s o v s' : ex perform None c d argv s = Ok (o, (v, s')) ->
    forall perform' c' d' argv' s'', ex perform' o c' d' argv' s'' = ex perform' None c' d' argv s''.
  Proof.
    intros H. destruct (ex_inv _ _ _ _ _ _ _ _ _ H) as (_ & op & n & k & v' & H1 & -> & _).
    intros. unfold cliexecute, parse in *. now rewrite H1.
  Qed.
End Execute.

Lemma world_invariant {W} sv (run : nat -> W -> tres -> W -> Prop) (P : W -> Prop) w0 s :
  P w0 -> (forall t w r w', P w -> run t w r w' -> P w') -> exec_reaches sv run w0 s -> P (s_world s).
Proof.
  intros H0 Hr R.
  assert (L : world_path run (s_log s) w0 (s_world s)).
  { unfold exec_reaches in R. remember (init_state sv w0) as s0 eqn:E0.
    induction R as [|s1 s2 s3 R IH St]; [subst; constructor|]. eapply step_world; [exact St|now apply IH]. }
  clear R. induction L; eauto.
Qed.

(** [licant routine args]: the function gets the arguments, the functions of the routines it
    depends on get none. *)
Lemma routine_arguments canon u fuel info ops th n default nm i args :
  (forall p, canon (canon p) = canon p) ->
  NoDup (new_names ops) -> let c := crun canon ops (new_core th) in
  healthy canon u c -> List.length (c_heap c) < fuel ->
  resolves canon c nm i -> i_routine (info i) = true ->
  callable_with info i (i_default (info i)) (List.length args) -> t_class (obj c i) = Updatable ->
  u i = Ok true ->
  exists c1, cli canon u fuel info (set_threads c n) default (nm :: args) = Ok (CA i (i_default (info i)) args c1) /\
  forall order, (forall l, Permutation l (order l)) -> forall so, fair_order so -> forall threads,
  exists objs sv, recurse_update canon c1 order so i threads = RuExec objs sv /\
  forall W (func : nat -> list string -> W -> tres -> W -> Prop) w0 s,
  exec_reaches sv (task_behaviour c1 (recording (routine_update (store_args no_args i args) (recording_calls func))) objs)
    ([], ([], w0)) s ->
  let log := fst (snd (s_world s)) in
  NoDup (map fst log) /\
  (forall a, In (i, a) log -> a = args) /\ (forall j a, In (j, a) log -> j <> i -> a = []) /\
  (s_main s = MReturned -> exec_result (List.length objs) s = Ok true -> In (i, args) log).
Proof.
  intros Hid Hd c Hh Hf Hi Hr Hc Hu Hui.
  destruct (command_builds canon Hid u fuel info ops th n default (nm :: args) i args Hd Hh Hf) as (c1 & Ek & H); auto.
  { now apply asks_routine. }
  { right. exists nm. auto. }
  exists c1. split; [exact Ek|]. intros order Hord so Hso threads. destruct (H order Hord so Hso threads) as (objs & sv & Hru & Hx).
  exists objs, sv. split; [exact Hru|]. intros W func w0 s R log.
  destruct (Hx _ _ _ _ R) as (U1 & _ & _ & U4). clear Hx H.
  set (ra := store_args no_args i args) in *.
  assert (P : fst (snd (s_world s)) = map (fun j => (j, ra j)) (fst (s_world s))).
  { refine (world_invariant sv _ (fun w => fst (snd w) = map (fun j => (j, ra j)) (fst w)) _ s _ _ R); [reflexivity|].
    intros t w r w' Hw Ht. unfold task_behaviour in Ht. set (j := nth t objs _) in Ht.
    destruct (t_class (obj c1 j)); [destruct Ht as [_ ->]; exact Hw|].
    destruct (t_need (obj c1 j)) as [[|]|]; try (destruct Ht as [_ ->]; exact Hw).
    destruct Ht as (E1 & E2 & _). rewrite E1, E2, Hw, map_app. reflexivity. }
  assert (M : map fst log = fst (s_world s)).
  { unfold log. rewrite P, map_map. cbn. apply map_id. }
  assert (L : forall j a, In (j, a) log -> a = ra j).
  { intros j a Hj. unfold log in Hj. rewrite P in Hj. apply in_map_iff in Hj. destruct Hj as (x & E & _). now injection E as -> <-. }
  split; [now rewrite M|]. split; [|split].
  - intros a Ha. apply L in Ha. subst a. unfold ra, store_args. now rewrite Nat.eqb_refl.
  - intros j a Ha Hn. apply L in Ha. subst a. unfold ra, store_args. now destruct (Nat.eqb_spec j i).
  - intros Hm He. assert (Hin : In i (fst (s_world s))).
    { apply U4; auto; [apply rt_refl|]. exists i. split; [apply rt_refl|exact Hui]. }
    unfold log. rewrite P. apply in_map_iff. exists i. split; [|exact Hin]. unfold ra, store_args. now rewrite Nat.eqb_refl.
Qed.
