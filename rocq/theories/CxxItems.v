(** Lemmas: the calls of a C++ module are a script with sources to be compiled. *)
From Verif Require Import PyBase PyPath SolverModel SpecGraph InvokerModel SpecTrace CoreModel SpecCore MakeModel UtilModel SpecMake
  RegModel CliModel SpecUtil SpecReg SpecProject SpecTrack SpecCxxTrack FormatModel ModulesModel CxxModel SpecCxxScript.
Local Open Scope string_scope.
Local Open Scope list_scope.

Section Items.
  Variables (sh : string -> string -> buildfun) (cwd home : string) (tool : toolchain) (glob_ : string -> list string).
  Notation path := (realpath cwd).
  Notation st_of := (event_stmt sh cwd home).
  Notation at_ s := (fun d : string => s (path d)).
  Notation script := (script_at cwd).

  Definition says (its : list item) (s : ctx) (ev : list event) : Prop := map st_of ev = script its s.
  Lemma says_app its1 its2 s ev1 ev2 : says its1 s ev1 -> says its2 s ev2 -> says (its1 ++ its2) s (ev1 ++ ev2).
  Proof. unfold says, script_at. intros A B. now rewrite map_app, flat_map_app, A, B. Qed.
  Definition fixed (ev : list event) : list item := map (fun e => IStmt (st_of e)) ev.
  Lemma says_fixed s ev : says (fixed ev) s ev.
  Proof. unfold says, fixed, script_at. induction ev as [|e ev IH]; [reflexivity|]. cbn. now rewrite IH. Qed.

  Lemma fixed_compiled ev : Forall (compiled_item sh cwd) (fixed ev).
  Proof. unfold fixed. apply Forall_forall. intros it H. apply in_map_iff in H. destruct H as (e & <- & _). exact Logic.I. Qed.

  Lemma link_items dfile0 co adddeps : forall srcs objs deps ev,
    link_objects dfile0 srcs objs deps co adddeps = Ok ev -> exists its, Forall (compiled_item sh cwd) its /\ forall s : ctx, exists ev',
      link_objects (at_ s) srcs objs deps co adddeps = Ok ev' /\ says its s ev'.
  Proof.
    induction srcs as [|src srcs IH]; intros objs deps ev H; [exists []; split; [constructor|]; intros s; exists []; split; reflexivity|].
    destruct objs as [|ob objs]; [exists []; split; [constructor|]; intros s; exists []; split; reflexivity|].
    destruct deps as [|d deps]; [exists []; split; [constructor|]; intros s; exists []; split; reflexivity|].
    cbn [link_objects] in H. unfold depend, object in H. destruct (lang_of src) as [l| |] eqn:El; try discriminate. cbn [bind] in H.
    destruct (link_objects dfile0 srcs objs deps co adddeps) as [es| |] eqn:Es; try discriminate. cbn [bind] in H.
    destruct (IH _ _ _ Es) as (its & Fc & Hits).
    exists (IUnit (CU src ob d adddeps
              (run_command sh (command cwd (VRule RDepend d src [] (match l with LCxx => cxxdeprule | _ => ccdeprule end) co false)) (realpath cwd d))
              (run_command sh (command cwd (VRule RObject ob src [] (match l with LCxx => cxxobjrule | _ => ccobjrule end) co false)) (realpath cwd ob))) :: its).
    split; [constructor; [exists co, l; auto|exact Fc]|].
    intros s. destruct (Hits s) as (es' & E & S). cbn [link_objects]. unfold depend, object. rewrite El. cbn [bind]. rewrite E. cbn [bind].
    eexists. split; [reflexivity|]. unfold says, script_at in *. cbn [flat_map item_stmts u_src u_obj u_dep u_adds u_list u_comp].
    cbn [map app]. rewrite map_app, map_map. cbn [map app]. rewrite S, <- app_assoc. cbn [app]. reflexivity.
  Qed.

  Lemma bind_ok {A B} (r : res A) (k : A -> res B) b : bind r k = Ok b -> exists a, r = Ok a /\ k a = Ok b.
  Proof. destruct r; try discriminate. cbn. eauto. Qed.

  Lemma objects_items dfile0 name o objs o' ev : module_objects home glob_ dfile0 name o = Ok (objs, o', ev) ->
    exists its, Forall (compiled_item sh cwd) its /\ forall s : ctx, exists ev', module_objects home glob_ (at_ s) name o = Ok (objs, o', ev') /\ says its s ev'.
  Proof.
    unfold module_objects. intros H.
    apply bind_ok in H. destruct H as ([o1 ev1] & E1 & H). apply bind_ok in H. destruct H as (dl & E2 & H).
    apply bind_ok in H. destruct H as (sl & E3 & H). apply bind_ok in H. destruct H as (b & E4 & H).
    apply bind_ok in H. destruct H as (co & E5 & H). apply bind_ok in H. destruct H as ([[[o2 co2] adddeps2] ev2] & E6 & H).
    apply bind_ok in H. destruct H as ([[[msrcs mobjs] mdeps] ev3] & E7 & H). apply bind_ok in H. destruct H as (ev4 & E8 & H).
    apply bind_ok in H. destruct H as (ol & E9 & H). injection H as <- <- <-.
    destruct (link_items _ _ _ _ _ _ _ E8) as (its & Fc & Hits).
    exists (fixed ev1 ++ fixed ev2 ++ fixed ev3 ++ its ++ fixed (map VSource ol)). split; [repeat (apply Forall_app; split); try apply fixed_compiled; exact Fc|]. intros s. destruct (Hits s) as (ev4' & E & S).
    rewrite E1. cbn [bind]. rewrite E2. cbn [bind]. rewrite E3. cbn [bind]. rewrite E4. cbn [bind]. rewrite E5. cbn [bind]. rewrite E6. cbn [bind].
    rewrite E7. cbn [bind]. rewrite E. cbn [bind]. rewrite E9. cbn [bind]. eexists. split; [reflexivity|].
    repeat apply says_app; try apply says_fixed. exact S.
  Qed.

  Lemma modmake_items fuel : forall dfile0 lib name impl base r o lib' ev,
    modmake home tool glob_ dfile0 fuel lib name impl base = Ok (r, o, lib', ev) -> exists its, Forall (compiled_item sh cwd) its /\ forall s : ctx, exists ev',
      modmake home tool glob_ (at_ s) fuel lib name impl base = Ok (r, o, lib', ev') /\ says its s ev'.
  Proof.
    induction fuel as [|fuel IH]; intros dfile0 lib name impl base r o lib' ev H; [discriminate|]. cbn [modmake] in H |- *.
    apply bind_ok in H. destruct H as ([[m o0] lib1] & E1 & H). apply bind_ok in H. destruct H as ([[objs o1] ev1] & E2 & H).
    apply bind_ok in H. destruct H as (subs & E3 & H). apply bind_ok in H. destruct H as ([[rs lib2] ev2] & E4 & H).
    apply bind_ok in H. destruct H as ([r' ev3] & E5 & H). injection H as <- <- <- <-.
    destruct (objects_items _ _ _ _ _ _ E2) as (its1 & Fc1 & H1).
    assert (F : forall l rs0 lib0 evs0 its0, fold_res (fun st e => let '(rs, lib, evs) := st in
            match e with
            | ESub n i => do! (r, o', lib', ev) <- modmake home tool glob_ dfile0 fuel lib n i o1; Ok (rs ++ [RList r; ROpts o'], lib', evs ++ ev)
            | _ => Raise (AttributeError "name")
            end) l (rs0, lib0, evs0) = Ok (rs, lib2, ev2) ->
          Forall (compiled_item sh cwd) its0 -> exists its, Forall (compiled_item sh cwd) its /\ forall (s : ctx) evs0', says its0 s evs0' -> exists ev2', fold_res (fun st e => let '(rs, lib, evs) := st in
            match e with
            | ESub n i => do! (r, o', lib', ev) <- modmake home tool glob_ (at_ s) fuel lib n i o1; Ok (rs ++ [RList r; ROpts o'], lib', evs ++ ev)
            | _ => Raise (AttributeError "name")
            end) l (rs0, lib0, evs0') = Ok (rs, lib2, ev2') /\ says its s ev2').
    { induction l as [|e l IHl]; intros rs0 lib0 evs0 its0 Hf Hc; cbn [fold_res] in Hf |- *.
      - injection Hf as <- <- <-. exists its0. split; [exact Hc|]. intros s evs0' Hs. eauto.
      - destruct e as [| |n i|]; try discriminate. cbn [bind] in Hf. apply bind_ok in Hf. destruct Hf as ([[rs1 lib1'] evs1] & Ha & Hf).
        apply bind_ok in Ha. destruct Ha as ([[[ra oa] liba] eva] & Em & Ha). injection Ha as <- <- <-.
        destruct (IH _ _ _ _ _ _ _ _ _ Em) as (itsa & Fa & Ia). destruct (IHl _ _ _ (its0 ++ itsa) Hf ltac:(apply Forall_app; auto)) as (its & Fi & Hi).
        exists its. split; [exact Fi|]. intros s evs0' Hs. destruct (Ia s) as (eva' & Ea & Sa). destruct (Hi s (evs0' ++ eva')) as (ev2' & E & S); [now apply says_app|].
        exists ev2'. rewrite Ea. cbn [bind]. auto. }
    destruct (F subs [] lib1 [] [] E4 ltac:(constructor)) as (its2 & Fc2 & H2).
    exists (its1 ++ its2 ++ fixed ev3). split; [repeat (apply Forall_app; split); auto; apply fixed_compiled|]. intros s. destruct (H1 s) as (ev1' & E1' & S1). destruct (H2 s [] eq_refl) as (ev2' & E2' & S2).
    rewrite E1. cbn [bind]. rewrite E1'. cbn [bind]. rewrite E3. cbn [bind]. rewrite E2'. cbn [bind]. rewrite E5. cbn [bind].
    eexists. split; [reflexivity|]. repeat apply says_app; auto. apply says_fixed.
  Qed.

  Lemma task_items fuel dfile0 lib below top name target impl type default kw r o lib' ev :
    task home tool glob_ dfile0 fuel lib below top name target impl type default kw = Ok (r, o, lib', ev) ->
    exists its, Forall (compiled_item sh cwd) its /\ forall s : ctx, exists ev',
      task home tool glob_ (at_ s) fuel lib below top name target impl type default kw = Ok (r, o, lib', ev') /\ says its s ev'.
  Proof.
    unfold task, prepare_targets. destruct (String.eqb type "objects"); intros H.
    - apply bind_ok in H. destruct H as (lib1 & E1 & H). apply bind_ok in H. destruct H as ([[[r1 o1] lib2] ev1] & E2 & H).
      apply bind_ok in H. destruct H as (ss & E3 & H). injection H as <- <- <- <-.
      apply bind_ok in E2. destruct E2 as (o0 & E0 & E2). destruct (modmake_items _ _ _ _ _ _ _ _ _ _ E2) as (its & Fi & Hi).
      exists (its ++ fixed [VFileset name ss]). split; [apply Forall_app; split; [exact Fi|apply fixed_compiled]|]. intros s. destruct (Hi s) as (ev' & E & S). rewrite E1. cbn [bind]. rewrite E0. cbn [bind].
      rewrite E. cbn [bind]. rewrite E3. cbn [bind]. eexists. split; [reflexivity|]. apply says_app; [exact S|apply says_fixed].
    - apply bind_ok in H. destruct H as (lib1 & E1 & H). apply bind_ok in H. destruct H as (o0 & E0 & H).
      destruct (modmake_items _ _ _ _ _ _ _ _ _ _ H) as (its & Fi & Hi). exists its. split; [exact Fi|]. intros s. destruct (Hi s) as (ev' & E & S).
      rewrite E1. cbn [bind]. rewrite E0. cbn [bind]. eauto.
  Qed.
End Items.
