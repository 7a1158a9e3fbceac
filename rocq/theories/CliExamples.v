(** Concrete command lines: witnesses and non-vacuity examples for PropertiesCli.v. *)
From Coq Require Import Permutation Relations.Operators_Properties.
From Verif Require Import PyBase SolverModel SpecGraph InvokerModel SpecTrace InvokerExec
  CoreModel SpecCore CoreProofs CoreThms CoreExamples CliModel SpecCli CliProofs.
Local Open Scope string_scope.
Local Open Scope list_scope.

(** The registry of CoreExamples.v ("/app", "/o", "/s"), with a fourth target: a routine. *)
Definition cl_ops : list cop := ex_ops ++ [OpNew Updatable "deploy" ["/app"]].
Definition cl_core : core := crun root_canon cl_ops (new_core None).
Definition cl_info (i : nat) : tinfo := if Nat.eqb i 3 then routine_info else updatable_info.
Definition cl (default : option string) (ws : list string) : res (nat * string * list string) :=
  do! k <- cli root_canon ex_update_if 10 cl_info cl_core default ws; Ok (k_obj k, k_act k, k_args k).

Lemma cl_wf : wf_core cl_core.
Proof.
  split.
  - apply (NoDup_count_occ' String.string_dec). intros x [<-|[<-|[<-|[<-|[]]]]]; reflexivity.
  - intros nm i [[= <- <-]|[[= <- <-]|[[= <- <-]|[[= <- <-]|[]]]]]; vm_compute; lia.
Qed.

(** C54: the words after a routine are its arguments, also if they name a declared action. *)
Lemma routine_action_not_run :
  exists canon u fuel info c default ws i act k,
  wf_core c /\ names_action canon c info ws i act [] /\ callable_with info i act 0 /\
  cli canon u fuel info c default ws = Ok k /\ k_act k <> act.
Proof.
  exists root_canon, ex_update_if, 10, cl_info, cl_core, None, ["deploy"; "recurse_update"], 3, "recurse_update".
  eexists. split; [exact cl_wf|]. split; [|split; [|split; [vm_compute; reflexivity|cbn; discriminate]]].
  - exists "deploy". split; [reflexivity|]. split; [left; vm_compute; tauto|vm_compute; tauto].
  - vm_compute. split; [lia|]. intros m [= <-]. lia.
Qed.

(** C55 *)
Lemma argument_spread :
  exists canon u fuel info c default ws i act args k,
  wf_core c /\ asks canon c info default ws i act args /\ (forall n, callable_with info i act n) /\
  cli canon u fuel info c default ws = Ok k /\ k_args k <> args.
Proof.
  exists root_canon, ex_update_if, 10, cl_info, cl_core, None, ["app"; "update"; "fast"], 0, "update", ["fast"].
  eexists. split; [exact cl_wf|]. split; [|split; [|split; [vm_compute; reflexivity|cbn; discriminate]]].
  - apply (asks_action root_canon cl_core cl_info None "app" 0 "update" ["fast"]).
    + right. split; [vm_compute; intros [E|[E|[E|[E|[]]]]]; discriminate E|vm_compute; tauto].
    + reflexivity.
    + vm_compute. tauto.
  - intros n. cbn. split; [lia|discriminate].
Qed.

(** C56: one target whose update returns False. *)
Definition cf_ops : list cop := [OpNew Updatable "t" []].
Definition cf_parse (argv : list string) : res opts := Ok (OP "1" argv).
Definition cf_int (s : string) : option Z := if String.eqb s "1" then Some 1%Z else None.
Definition cf_core : core := crun id cf_ops (new_core None).
Definition cf_call : call :=
  match cli id (fun _ => Ok true) 5 (fun _ => updatable_info) (set_threads cf_core 1) (Some "t") [] with
  | Ok k => k | _ => CA 9 "" [] empty_core end.

Lemma steps_mono {W} inv (run run' : nat -> W -> tres -> W -> Prop) :
  (forall t w r w', run t w r w' -> run' t w r w') ->
  forall s s', steps inv run s s' -> steps inv run' s s'.
Proof.
  intros H s s' R. induction R as [|s1 s2 s3 R IH St]; [constructor|].
  eapply steps_snoc; [exact IH|]. destruct St; econstructor; eauto.
Qed.

Lemma failed_build_status_zero :
  exists canon u fuel info c n default k objs sv (upd : nat -> unit -> tres -> unit -> Prop) s,
  cli canon u fuel info (set_threads c n) default [] = Ok k /\ k_act k = "recurse_update_get_args" /\
  recurse_update_get_args canon (k_core k) (fun l => l) id_order (k_obj k) = RuExec objs sv /\
  exec_reaches sv (task_behaviour (k_core k) upd objs) tt s /\ s_main s = MReturned /\
  exec_result (List.length objs) s = Ok false /\
  forall parse_args py_int cpu argv, parse_args argv = Ok (OP "1" []) -> py_int "1" = Some n ->
  forall St (perform : call -> St -> res (pyval * St)) st st', perform k st = Ok (PyBool false, st') ->
  exit_status (cliexecute canon u fuel info parse_args py_int cpu perform None c default argv st) = Some 0%Z.
Proof.
  set (f := fun (k : nat) (_ : unit) => if Nat.eqb k 0 then (RFalse, tt) else (RExn, tt)).
  set (r := recurse_update_get_args id (k_core cf_call) (fun l => l) id_order 0).
  assert (Er : exists sv, r = RuExec [0] sv /\
     exists s, sched (inv_of (sv_inv sv)) f [CGet 0; CFin 0; CJoin] (init_state sv tt) = Some s /\
               s_main s = MReturned /\ exec_result 1 s = Ok false).
  { eexists. split; [vm_compute; reflexivity|]. eexists. split; [vm_compute; reflexivity|]. split; vm_compute; reflexivity. }
  destruct Er as (sv & Er & s & Es & Em & Ex).
  exists id, (fun _ => Ok true), 5, (fun _ => updatable_info), cf_core, 1%Z, (Some "t"), cf_call, [0], sv,
    (fun _ _ r w' => r = RFalse /\ w' = tt), s.
  split; [vm_compute; reflexivity|]. split; [reflexivity|]. split; [exact Er|]. split; [|split; [exact Em|split; [exact Ex|]]].
  - apply sched_reaches in Es. revert Es. unfold exec_reaches. apply steps_mono.
    intros t [] res' [] E. unfold frun, f in E. destruct (Nat.eqb_spec t 0) as [->|nt].
    + injection E as <-. vm_compute. auto.
    + injection E as <-. destruct t as [|[|t]]; [contradiction| |]; vm_compute; auto.
  - intros parse_args py_int cpu argv Ha Hi St perform st st' Hp. apply status_zero.
    exists (OP "1" []), 1%Z, cf_call, (PyBool false), st'. repeat split; auto.
    cbn. now rewrite Hi.
Qed.

(** C71: the second licant.ex of a script repeats the words of the first. *)
Lemma second_argv_not_obeyed :
  exists canon u fuel info parse_args py_int cpu c default argv1 argv2 o,
  let ex := fun memo argv => cliexecute canon u fuel info parse_args py_int cpu
              (fun k (s : list (nat * string)) => Ok (PyNone, s ++ [(k_obj k, k_act k)])) memo c default argv [] in
  (exists v, ex None argv1 = Ok (o, v)) /\
  (exists s, ex None argv2 = Ok (Some (OP "1" argv2), (PyNone, s)) /\
   exists o' s', ex o argv2 = Ok (o', (PyNone, s')) /\ s' <> s).
Proof.
  exists root_canon, ex_update_if, 10, cl_info, cf_parse, cf_int, 8%Z, cl_core, (Some "app"), ["/o"], ["/s"].
  eexists. cbv zeta. split; [eexists; vm_compute; reflexivity|].
  eexists. split; [vm_compute; reflexivity|]. eexists. eexists. split; [vm_compute; reflexivity|]. discriminate.
Qed.

(** The declared actions of the built-in classes can be called without arguments, except the
    misspelt one of Routine (C63). *)
Lemma builtin_actions : 
  (forall info, In info [target_info; updatable_info] -> forall act, In act (i_actions info) ->
     callable_with (fun _ => info) 0 act 0) /\
  (forall act, In act (i_actions routine_info) -> act <> "invoke_routineupdate" ->
     callable_with (fun _ => routine_info) 0 act 0).
Proof.
  assert (C : forall m, ar_min m <= 0 -> (forall k, ar_max m = Some k -> 0 <= k) -> ar_min m <= 0 /\ forall k, ar_max m = Some k -> 0 <= k) by auto.
  split.
  - intros info [<-|[<-|[]]] act H; vm_compute in H; repeat (destruct H as [<-|H]; [vm_compute; split; [lia|intros; lia]|]); destruct H.
  - intros act H Hn. vm_compute in H. destruct H as [<-|[<-|[<-|[<-|[]]]]]; try (vm_compute; split; [lia|intros; lia]).
    contradiction.
Qed.

(** The registry of the examples is healthy. *)
Lemma cl_healthy : healthy root_canon ex_update_if cl_core.
Proof.
  assert (T : forall nm i, In (nm, i) (c_targets cl_core) -> i < 4).
  { intros nm i H. vm_compute in H. repeat (destruct H as [H|H]; [injection H as <- <-; lia|]). destruct H. }
  assert (D : forall i j, obj_dep root_canon cl_core i j -> i <> j /\
     ((i = 0 /\ (j = 1 \/ j = 2)) \/ (i = 1 /\ j = 2) \/ (i = 3 /\ j = 0))).
  { intros i j (d & Hd & R).
    assert (G : core_get root_canon cl_core d = Ok j) by (apply get_resolves; [exact cl_wf|exact R]).
    destruct i as [|[|[|[|i]]]]; try (vm_compute in Hd; contradiction).
    - vm_compute in Hd. destruct Hd as [<-|[<-|[]]]; vm_compute in G; injection G as <-; lia.
    - vm_compute in Hd. destruct Hd as [<-|[]]; vm_compute in G; injection G as <-; lia.
    - vm_compute in Hd. destruct Hd as [<-|[]]; vm_compute in G; injection G as <-; lia.
    - exfalso. unfold obj in Hd. rewrite nth_overflow in Hd; [exact Hd|]. cbn. lia. }
  split; [|split; [|split]].
  - intros nm i d Hi Hd. apply T in Hi.
    assert (G : exists j, core_get root_canon cl_core d = Ok j).
    { destruct i as [|[|[|[|i]]]]; [| | | |lia]; vm_compute in Hd; try contradiction;
      repeat (destruct Hd as [<-|Hd]; [eexists; vm_compute; reflexivity|]); destruct Hd. }
    destruct G as [j G]. exists j. apply get_resolves; [exact cl_wf|exact G].
  - intros nm i j _ H. apply D in H. destruct H as (_ & H). destruct H as [(_ & H)|[(_ & H)|(_ & H)]]; [destruct H as [H|H]| |]; subst j; reflexivity.
  - intros nm i _ C.
    assert (Q : forall x y, clos_trans nat (obj_dep root_canon cl_core) x y ->
              (match x with 3 => 0 | x => S x end) < (match y with 3 => 0 | y => S y end)).
    { intros x y H. induction H as [x y H|]; [|lia]. apply D in H. destruct H as (_ & H). destruct H as [(H & H')|[(H & H')|(H & H')]]; [destruct H' as [H'|H']| |]; subst x y; lia. }
    apply Q in C. lia.
  - intros nm i _ _. eexists. reflexivity.
Qed.

(** C74: a routine run as a dependency is called again with the arguments of an earlier call. *)
Definition ra_ops : list cop := [OpNew Updatable "r1" []; OpNew Updatable "r2" ["r1"]].
Definition ra_eval : core :=
  match update_update_needity id (fun _ => Ok true) 10 (crun id ra_ops (new_core (Some 1%Z))) with
  | Ok c => c | _ => empty_core end.
Lemma stale_arguments :
  exists (canon : string -> string) ops u fuel c1 i j args objs sv,
  i <> j /\ update_update_needity canon u fuel (crun canon ops (new_core (Some 1%Z))) = Ok c1 /\
  recurse_update canon c1 (fun l => l) id_order j None = RuExec objs sv /\
  exists s, exec_reaches sv (task_behaviour c1 (routine_update (store_args (store_args no_args i args) j [])
               (recording_calls (fun _ _ w r w' => r = RNotFalse /\ w' = w))) objs) ([], tt) s /\
  s_main s = MReturned /\ exec_result (List.length objs) s = Ok true /\ In (i, args) (fst (s_world s)) /\ args <> [].
Proof.
  set (ra := store_args (store_args no_args 0 ["x"]) 1 []).
  set (f := fun objs (k : nat) (w : list (nat * list string) * unit) =>
              if Nat.ltb k 2 then (RNotFalse, (fst w ++ [(nth k objs 0, ra (nth k objs 0))], snd w)) else (RExn, w)).
  assert (Er : exists objs sv, recurse_update id ra_eval (fun l => l) id_order 1 None = RuExec objs sv /\ objs = [0; 1] /\
     exists s, sched (inv_of (sv_inv sv)) (f objs) [CGet 0; CFin 0; CFin 0; CJoin] (init_state sv ([], tt)) = Some s /\
               s_main s = MReturned /\ exec_result 2 s = Ok true /\ In (0, ["x"]) (fst (s_world s))).
  { eexists. eexists. split; [vm_compute; reflexivity|]. split; [reflexivity|]. eexists. split; [vm_compute; reflexivity|].
    split; [vm_compute; reflexivity|]. split; [vm_compute; reflexivity|]. vm_compute. auto. }
  destruct Er as (objs & sv & Er & Eo & s & Es & Em & Ex & Ei).
  exists id, ra_ops, (fun _ => Ok true), 10, ra_eval, 0, 1, ["x"], objs, sv.
  split; [discriminate|]. split; [vm_compute; reflexivity|]. split; [exact Er|]. subst objs. exists s.
  split; [|split; [exact Em|split; [exact Ex|split; [exact Ei|discriminate]]]].
  apply sched_reaches in Es. revert Es. unfold exec_reaches. apply steps_mono.
  intros t [l []] r w' E. unfold frun, f in E. destruct t as [|[|t]]; cbn [Nat.ltb Nat.leb] in E; injection E as <- <-.
  - cbv. auto.
  - cbv. auto.
  - unfold task_behaviour. destruct t; cbv; auto.
Qed.
