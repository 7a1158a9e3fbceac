(** C54-C56 and C71-C74: the command line. *)
From Coq Require Import Permutation.
From Verif Require Import PyBase SolverModel SpecGraph InvokerModel SpecTrace CoreModel SpecCore CoreThms
  CoreExamples CliModel SpecCli CliProofs CliExamples.
Local Open Scope string_scope.
Local Open Scope list_scope.

(** C54.  What is called is what the words ask for ... *)
Theorem C54_only_what_is_asked :
  forall canon u fuel info c default ws k, wf_core c -> cli canon u fuel info c default ws = Ok k ->
  exists args, asks canon c info default ws (k_obj k) (k_act k) args /\ (args = [] -> k_args k = []).
Proof. exact cli_only_asked. Qed.
Print Assumptions C54_only_what_is_asked.
(** ... words ask for at most one thing ... *)
Theorem C54_unambiguous :
  forall canon info c default ws i a args i' a' args', wf_core c ->
  asks canon c info default ws i a args -> asks canon c info default ws i' a' args' ->
  i = i' /\ a = a' /\ args = args'.
Proof. exact asks_det. Qed.
Print Assumptions C54_unambiguous.
(** ... it is called (in a registry that can be evaluated) ... *)
Theorem C54_what_is_asked_runs :
  forall canon, (forall p, canon (canon p) = canon p) ->
  forall u fuel info ops th default ws i a, let c := crun canon ops (new_core th) in
  healthy canon u c -> List.length (c_heap c) < fuel ->
  asks canon c info default ws i a [] -> callable_with info i a 0 ->
  exists c1, cli canon u fuel info c default ws = Ok (CA i a [] c1).
Proof. exact cli_runs. Qed.
Print Assumptions C54_what_is_asked_runs.
(** ... and words that ask for nothing end the program, whatever the update_if are. *)
Theorem C54_anything_else_exits :
  forall canon u fuel info c default ws, wf_core c ->
  (forall i a args, ~ asks canon c info default ws i a args) ->
  exists m, cli canon u fuel info c default ws = Raise (SystemExit m).
Proof. exact cli_nothing_asked. Qed.
Print Assumptions C54_anything_else_exits.
Theorem C54_builtin_actions_callable :
  (forall info, In info [target_info; updatable_info] -> forall act, In act (i_actions info) ->
     callable_with (fun _ => info) 0 act 0) /\
  (forall act, In act (i_actions routine_info) -> act <> "invoke_routineupdate" ->
     callable_with (fun _ => routine_info) 0 act 0).
Proof. exact builtin_actions. Qed.
Print Assumptions C54_builtin_actions_callable.
(** False for routines: a declared action named after a routine is not run. *)
Theorem C54_routine_action_refuted :
  exists canon u fuel info c default ws i act k,
  wf_core c /\ names_action canon c info ws i act [] /\ callable_with info i act 0 /\
  cli canon u fuel info c default ws = Ok k /\ k_act k <> act.
Proof. exact routine_action_not_run. Qed.
Print Assumptions C54_routine_action_refuted.
Example C54_case :
  healthy root_canon ex_update_if cl_core /\
  cl (Some "app") [] = Ok (0, "recurse_update_get_args", []) /\
  cl (Some "app") ["o"] = Ok (1, "recurse_update_get_args", []) /\
  cl (Some "app") ["o"; "dependies"] = Ok (1, "dependies", []) /\
  cl (Some "app") ["update"] = Ok (0, "update", []) /\
  cl (Some "app") ["nothing"] = Raise (SystemExit "Can't find routine") /\
  cl (Some "app") ["o"; "tgt"] = Raise (SystemExit "is not action of target") /\
  cl None [] = Raise (SystemExit "default target isn't set") /\
  cl (Some "gone") ["update"] = Raise (exit_unregistered "gone").
Proof. split; [exact cl_healthy|]. vm_compute. repeat split. Qed.

(** C55 *)
Theorem C55_refuted :
  exists canon u fuel info c default ws i act args k,
  wf_core c /\ asks canon c info default ws i act args /\ (forall n, callable_with info i act n) /\
  cli canon u fuel info c default ws = Ok k /\ k_args k <> args.
Proof. exact argument_spread. Qed.
Print Assumptions C55_refuted.
(** One word is spread into its characters (so only one-character words arrive) ... *)
Theorem C55_one_word_becomes_characters :
  forall canon, (forall p, canon (canon p) = canon p) ->
  forall u fuel info ops th default ws i a w, let c := crun canon ops (new_core th) in
  healthy canon u c -> List.length (c_heap c) < fuel ->
  asks canon c info default ws i a [w] ->
  (forall nm l j, ws = nm :: l -> resolves canon c nm j -> i_routine (info j) = false) ->
  callable_with info i a (String.length w) ->
  exists c1, cli canon u fuel info c default ws = Ok (CA i a (chars w) c1).
Proof. exact cli_one_word. Qed.
Print Assumptions C55_one_word_becomes_characters.
Theorem C55_one_character_arrives :
  forall s, chars s = [s] <-> String.length s = 1.
Proof. exact chars_single. Qed.
Print Assumptions C55_one_character_arrives.
(** ... and two or more words are a TypeError: nothing is called. *)
Theorem C55_more_words_raise :
  forall canon u fuel info c default ws i a w1 w2 rest, wf_core c ->
  asks canon c info default ws i a (w1 :: w2 :: rest) ->
  (forall nm l j, ws = nm :: l -> resolves canon c nm j -> i_routine (info j) = false) ->
  cli canon u fuel info c default ws = Raise (TypeError "invoke").
Proof. exact cli_more_words. Qed.
Print Assumptions C55_more_words_raise.
(** Right for the arguments of routines. *)
Theorem C55_routines_partial :
  forall canon, (forall p, canon (canon p) = canon p) ->
  forall u fuel info ops th default nm i args, let c := crun canon ops (new_core th) in
  healthy canon u c -> List.length (c_heap c) < fuel ->
  resolves canon c nm i -> i_routine (info i) = true ->
  callable_with info i (i_default (info i)) (List.length args) ->
  exists c1, cli canon u fuel info c default (nm :: args) = Ok (CA i (i_default (info i)) args c1).
Proof. exact cli_routine_runs. Qed.
Print Assumptions C55_routines_partial.
Example C55_case :
  cl None ["app"; "update"; "fast"] = Ok (0, "update", ["f"; "a"; "s"; "t"]) /\
  cl None ["app"; "recurse_update"; "4"] = Ok (0, "recurse_update", ["4"]) /\
  cl None ["app"; "recurse_update"; "16"] = Raise (TypeError "recurse_update") /\
  cl None ["app"; "update"; "a"; "b"] = Raise (TypeError "invoke") /\
  cl None ["deploy"; "host"; "now"] = Ok (3, "invoke_routine", ["host"; "now"]).
Proof. vm_compute. repeat split. Qed.

(** C56: a build that failed (exec returned False) ends with status 0. *)
Theorem C56_refuted :
  exists canon u fuel info c n default k objs sv (upd : nat -> unit -> tres -> unit -> Prop) s,
  cli canon u fuel info (set_threads c n) default [] = Ok k /\ k_act k = "recurse_update_get_args" /\
  recurse_update_get_args canon (k_core k) (fun l => l) id_order (k_obj k) = RuExec objs sv /\
  exec_reaches sv (task_behaviour (k_core k) upd objs) tt s /\ s_main s = MReturned /\
  exec_result (List.length objs) s = Ok false /\
  forall parse_args py_int cpu argv, parse_args argv = Ok (OP "1" []) -> py_int "1" = Some n ->
  forall St (perform : call -> St -> res (pyval * St)) st st', perform k st = Ok (PyBool false, st') ->
  exit_status (cliexecute canon u fuel info parse_args py_int cpu perform None c default argv st) = Some 0%Z.
Proof. exact failed_build_status_zero. Qed.
Print Assumptions C56_refuted.
(** In general: status 0 means that something was called and did not raise, no more. *)
Theorem C56_status_zero_partial :
  forall S canon u fuel info parse_args py_int cpu (perform : call -> S -> res (pyval * S)) memo c d argv s,
  exit_status (cliexecute canon u fuel info parse_args py_int cpu perform memo c d argv s) = Some 0%Z <->
  exists op n k v s', parse parse_args memo argv = Ok op /\ threads_of py_int cpu (o_threads op) = Ok n /\
    cli canon u fuel info (set_threads c n) d (o_free op) = Ok k /\ perform k s = Ok (v, s').
Proof. exact (@status_zero). Qed.
Print Assumptions C56_status_zero_partial.
(** The other statuses: 255 when the command exits or is interrupted, 1 when it raises. *)
Theorem C56_other_statuses :
  forall S canon u fuel info parse_args py_int cpu (perform : call -> S -> res (pyval * S)) memo c d argv s op n e,
  parse parse_args memo argv = Ok op -> threads_of py_int cpu (o_threads op) = Ok n ->
  cli canon u fuel info (set_threads c n) d (o_free op) = Raise e \/
  (exists k, cli canon u fuel info (set_threads c n) d (o_free op) = Ok k /\ perform k s = Raise e) ->
  exit_status (cliexecute canon u fuel info parse_args py_int cpu perform memo c d argv s) =
  Some (if match e with SystemExit _ => true | PlainException m => String.eqb m "KeyboardInterrupt" | _ => false end
        then 255%Z else 1%Z).
Proof.
  intros S canon u fuel info parse_args py_int cpu perform memo c d argv s op n e Hp Ht H. unfold cliexecute. rewrite Hp. cbn [bind].
  rewrite Ht. cbn [bind]. set (r := bind (cli canon u fuel info (set_threads c n) d (o_free op)) _).
  assert (E : r = Raise e).
  { unfold r. destruct H as [H|(k & H & H')]; rewrite H; [reflexivity|]. cbn [bind]. exact H'. }
  rewrite E. clear r E H. destruct e; cbn; try reflexivity. destruct (String.eqb msg "KeyboardInterrupt"); reflexivity.
Qed.
Print Assumptions C56_other_statuses.
Example C56_case_others :
  let ex := fun e argv => exit_status (cliexecute root_canon ex_update_if 10 cl_info cf_parse cf_int 8
              (fun k (s : unit) => Raise e) None cl_core (Some "app") argv tt) in
  ex (PlainException "KeyboardInterrupt") [] = Some 255%Z /\ ex (PlainException "x") [] = Some 1%Z.
Proof. vm_compute. repeat split. Qed.
Example C56_case :
  let ex := fun argv => exit_status (cliexecute root_canon ex_update_if 10 cl_info cf_parse cf_int 8
              (fun k (s : unit) => Ok (PyBool false, s)) None cl_core (Some "app") argv tt) in
  ex [] = Some 0%Z /\ ex ["nothing"] = Some 255%Z /\ ex ["o"; "update"; "a"; "b"] = Some 1%Z.
Proof. vm_compute. repeat split. Qed.

(** C71: a second licant.ex in one process does not look at its argv. *)
Theorem C71_refuted :
  exists canon u fuel info parse_args py_int cpu c default argv1 argv2 o,
  let ex := fun memo argv => cliexecute canon u fuel info parse_args py_int cpu
              (fun k (s : list (nat * string)) => Ok (PyNone, s ++ [(k_obj k, k_act k)])) memo c default argv [] in
  (exists v, ex None argv1 = Ok (o, v)) /\
  (exists s, ex None argv2 = Ok (Some (OP "1" argv2), (PyNone, s)) /\
   exists o' s', ex o argv2 = Ok (o', (PyNone, s')) /\ s' <> s).
Proof. exact second_argv_not_obeyed. Qed.
Print Assumptions C71_refuted.
(** It does what the first argv says; so the property holds when all argv are the same. *)
Theorem C71_first_argv_rules_partial :
  forall S canon u fuel info parse_args py_int cpu (perform : call -> S -> res (pyval * S)) c d argv s o v s',
  cliexecute canon u fuel info parse_args py_int cpu perform None c d argv s = Ok (o, (v, s')) ->
  forall (perform' : call -> S -> res (pyval * S)) c' d' argv' s'',
  cliexecute canon u fuel info parse_args py_int cpu perform' o c' d' argv' s'' =
  cliexecute canon u fuel info parse_args py_int cpu perform' None c' d' argv s''.
Proof. exact (@first_argv_kept). Qed.
Print Assumptions C71_first_argv_rules_partial.

(** C72: every build of the command uses the thread count of the command line. *)
Theorem C72_threads :
  forall canon u fuel info ops th n default ws k,
  cli canon u fuel info (set_threads (crun canon ops (new_core th)) n) default ws = Ok k ->
  forall order so i threads,
  recurse_update canon (k_core k) order so i threads = recurse_update canon (k_core k) order so i (Some n).
Proof. exact command_threads. Qed.
Print Assumptions C72_threads.
(** Which count that is: the number of processors for -j without a number, else the number given;
    with anything else no command is run. *)
Theorem C72_option :
  forall S canon u fuel info parse_args py_int cpu (perform : call -> S -> res (pyval * S)) memo ops th d argv s op,
  parse parse_args memo argv = Ok op -> let c := crun canon ops (new_core th) in
  let run := cliexecute canon u fuel info parse_args py_int cpu perform memo c d argv s in
  (o_threads op <> "j" -> py_int (o_threads op) = None -> run = Raise (ValueError (o_threads op))) /\
  forall r, run = Ok r ->
  exists n k v s', ((o_threads op = "j" /\ n = cpu) \/ (o_threads op <> "j" /\ py_int (o_threads op) = Some n)) /\
    cli canon u fuel info (set_threads c n) d (o_free op) = Ok k /\ perform k s = Ok (v, s') /\
    forall order so i threads,
    recurse_update canon (k_core k) order so i threads = recurse_update canon (k_core k) order so i (Some n).
Proof. exact (@option_threads). Qed.
Print Assumptions C72_option.
Example C72_case :
  match cli root_canon ex_update_if 10 cl_info (set_threads cl_core 7) (Some "app") [] with
  | Ok k => match recurse_update root_canon (k_core k) (fun l => l) id_order (k_obj k) (Some 1%Z) with
            | RuExec objs sv => (objs, sv_threads sv) = ([0; 1; 2], 7%Z)
            | _ => False end
  | _ => False end.
Proof. vm_compute. reflexivity. Qed.

(** C73: [licant], [licant target] and [licant routine a1 ... an] update what is out of date in
    the cone of the target, once each, dependencies first. *)
Theorem C73_command_builds :
  forall canon, (forall p, canon (canon p) = canon p) ->
  forall u fuel info ops th n default ws i args,
  NoDup (new_names ops) -> let c := crun canon ops (new_core th) in
  healthy canon u c -> List.length (c_heap c) < fuel ->
  asks canon c info default ws i (i_default (info i)) args ->
  (args = [] \/ exists nm, ws = nm :: args /\ resolves canon c nm i /\ i_routine (info i) = true) ->
  callable_with info i (i_default (info i)) (List.length args) -> t_class (obj c i) = Updatable ->
  exists c1, cli canon u fuel info (set_threads c n) default ws = Ok (CA i (i_default (info i)) args c1) /\
  forall order, (forall l, Permutation l (order l)) -> forall so, fair_order so -> forall threads,
  exists objs sv, recurse_update canon c1 order so i threads = RuExec objs sv /\
  forall W (upd : nat -> W -> tres -> W -> Prop) w0 s,
  exec_reaches sv (task_behaviour c1 (recording upd) objs) ([], w0) s ->
  let calls := fst (s_world s) in
  NoDup calls /\
  (forall j, In j calls -> in_cone canon c i j /\ out_of_date_below canon u c j) /\
  (forall l1 j l2, calls = l1 ++ j :: l2 -> forall d, obj_dep canon c j d ->
     out_of_date_below canon u c d -> In d l1) /\
  (s_main s = MReturned -> exec_result (List.length objs) s = Ok true ->
     forall j, in_cone canon c i j -> out_of_date_below canon u c j -> In j calls).
Proof. exact command_builds. Qed.
Print Assumptions C73_command_builds.
Example C73_case :
  NoDup (new_names cl_ops) /\ healthy root_canon ex_update_if cl_core /\
  asks root_canon cl_core cl_info None ["deploy"; "host"] 3 (i_default (cl_info 3)) ["host"] /\
  callable_with cl_info 3 (i_default (cl_info 3)) 1 /\ t_class (obj cl_core 3) = Updatable.
Proof.
  split; [|split; [exact cl_healthy|split; [|split; [|reflexivity]]]].
  - apply (NoDup_count_occ' String.string_dec). intros x [<-|[<-|[<-|[<-|[]]]]]; reflexivity.
  - apply asks_routine; [left; vm_compute; tauto|reflexivity].
  - cbn. split; [lia|discriminate].
Qed.

(** C74: arguments of routines.  In a fresh process: *)
Theorem C74_routine_arguments_partial :
  forall canon u fuel info ops th n default nm i args,
  (forall p, canon (canon p) = canon p) ->
  NoDup (new_names ops) -> let c := crun canon ops (new_core th) in
  healthy canon u c -> List.length (c_heap c) < fuel ->
  resolves canon c nm i -> i_routine (info i) = true ->
  callable_with info i (i_default (info i)) (List.length args) -> t_class (obj c i) = Updatable ->
  u i = Ok true ->
  exists c1, cli canon u fuel info (set_threads c n) default (nm :: args) = Ok (CA i (i_default (info i)) args c1) /\
  forall order, (forall l, Permutation l (order l)) -> forall so, fair_order so -> forall threads,
  exists objs sv, recurse_update canon c1 order so i threads = RuExec objs sv /\
  forall W (func : nat -> list string -> W -> tres -> W -> Prop) w0 s,
  exec_reaches sv (task_behaviour c1 (recording (routine_update (store_args no_args i args) (recording_calls func))) objs)
    ([], ([], w0)) s ->
  let log := fst (snd (s_world s)) in
  NoDup (map fst log) /\
  (forall a, In (i, a) log -> a = args) /\ (forall j a, In (j, a) log -> j <> i -> a = []) /\
  (s_main s = MReturned -> exec_result (List.length objs) s = Ok true -> In (i, args) log).
Proof. exact routine_arguments. Qed.
Print Assumptions C74_routine_arguments_partial.
(** False later on: arguments of an earlier call are used again. *)
Theorem C74_refuted :
  exists (canon : string -> string) ops u fuel c1 i j args objs sv,
  i <> j /\ update_update_needity canon u fuel (crun canon ops (new_core (Some 1%Z))) = Ok c1 /\
  recurse_update canon c1 (fun l => l) id_order j None = RuExec objs sv /\
  exists s, exec_reaches sv (task_behaviour c1 (routine_update (store_args (store_args no_args i args) j [])
               (recording_calls (fun _ _ w r w' => r = RNotFalse /\ w' = w))) objs) ([], tt) s /\
  s_main s = MReturned /\ exec_result (List.length objs) s = Ok true /\ In (i, args) (fst (s_world s)) /\ args <> [].
Proof. exact stale_arguments. Qed.
Print Assumptions C74_refuted.
