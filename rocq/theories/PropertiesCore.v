(** Theorems about the target registry and recurse_update: C16 - C26, C63. *)
From Coq Require Import Permutation.
From Verif Require Import PyBase SolverModel SpecGraph SolverProofs InvokerModel SpecTrace InvokerThms
  InvokerExec InvokerPath CoreModel SpecCore CoreProofs NeedProofs RuProofs CoreThms ExtProofs CoreExamples.
Local Open Scope string_scope.
Local Open Scope list_scope.

(** C16.  [canon] is any canonicalisation function. *)
Theorem C16_get_returns_what_was_added :
  forall canon c cls nm deps ops, Forall (fun o => ~ adds_name nm o) ops ->
  core_get canon (crun canon ops (core_new c cls nm deps)) nm = Ok (List.length (c_heap c)).
Proof. exact add_then_get. Qed.
Print Assumptions C16_get_returns_what_was_added.
Theorem C16_add_leaves_other_names :
  forall canon c cls nm deps nm', nm' <> nm -> canon nm' <> nm ->
  core_get canon (core_new c cls nm deps) nm' = core_get canon c nm'.
Proof. exact add_other_get. Qed.
Print Assumptions C16_add_leaves_other_names.
Theorem C16_get_by_name_or_canonical_path :
  forall canon ops th nm i, let c := crun canon ops (new_core th) in
  core_get canon c nm = Ok i <-> resolves canon c nm i.
Proof. exact (fun canon ops th nm i => get_resolves canon _ nm i (wf_run canon ops _ (wf_new th))). Qed.
Print Assumptions C16_get_by_name_or_canonical_path.
Theorem C16_get_exits_exactly_when_unregistered :
  forall canon ops th nm, let c := crun canon ops (new_core th) in
  core_get canon c nm = Raise (exit_unregistered nm) <-> ~ registered canon c nm.
Proof. exact (fun canon ops th nm => get_exit canon _ nm (wf_run canon ops _ (wf_new th))). Qed.
Print Assumptions C16_get_exits_exactly_when_unregistered.
Theorem C16_has_exactly_when_get_succeeds :
  forall canon ops th nm, let c := crun canon ops (new_core th) in
  fst (core_has canon c nm) = true <-> exists i, core_get canon c nm = Ok i.
Proof. exact (fun canon ops th nm => has_fst canon _ nm). Qed.
Print Assumptions C16_has_exactly_when_get_succeeds.
Example C16_case :
  (core_get root_canon (ex_core None) "app", core_get root_canon (ex_core None) "/app",
   core_get root_canon (ex_core None) "zz") = (Ok 0, Ok 0, Raise (exit_unregistered "zz")).
Proof. vm_compute. reflexivity. Qed.

(** C17: false, because has() inserts an alias that a later registration leaves behind ... *)
Theorem C17_refuted :
  exists canon c nm ops q, (forall x, canon (canon x) = canon x) /\
  core_get canon (crun canon ops (snd (core_has canon c nm))) q <> core_get canon (crun canon ops c) q.
Proof. exact has_visible. Qed.
Print Assumptions C17_refuted.
(** ... but true as long as the canonical name is not registered again. *)
Theorem C17_has_is_invisible_partial :
  forall canon, (forall x, canon (canon x) = canon x) ->
  forall c nm ops, Forall (fun o => ~ adds_name (canon nm) o) ops ->
  forall q, core_get canon (crun canon ops (snd (core_has canon c nm))) q
          = core_get canon (crun canon ops c) q.
Proof. exact has_invisible. Qed.
Print Assumptions C17_has_is_invisible_partial.
Example C17_case :
  Forall (fun o => ~ adds_name (root_canon "o") o) [OpNew Updatable "/z" ["o"]] /\
  core_get root_canon (crun root_canon [OpNew Updatable "/z" ["o"]] (snd (core_has root_canon (ex_core None) "o"))) "o" = Ok 1.
Proof. split; [constructor; [vm_compute; discriminate|constructor]|vm_compute; reflexivity]. Qed.

(** C18, on any registry, cyclic or not. *)
Theorem C18_depends_as_set_is_the_closure :
  forall canon ops th a incroot, let c := crun canon ops (new_core th) in
  (forall x, clos_refl_trans string (name_dep canon c) (arg_str c a) x -> registered canon c x) /\
  (exists l c', depends_as_set canon c a incroot = Ok (l, c') /\ strictly_sorted l /\
     forall x, In x l <-> (incroot = true /\ x = arg_str c a) \/
                          clos_trans string (name_dep canon c) (arg_str c a) x)
  \/ exists x, clos_refl_trans string (name_dep canon c) (arg_str c a) x /\ ~ registered canon c x /\
       depends_as_set canon c a incroot = Raise (exit_unregistered x).
Proof.
  exact (fun canon ops th a incroot =>
    depends_as_set_spec canon _ (wf_run canon ops _ (wf_new th)) a incroot
      (no_pair_run canon ops _ (no_pair_new th))).
Qed.
Print Assumptions C18_depends_as_set_is_the_closure.
Example C18_case :
  (do! (l, _) <- depends_as_set root_canon (ex_core None) (ByName "app") true; Ok l) = Ok ["/s"; "app"; "o"; "s"] /\
  (do! (l, _) <- depends_as_set id cyc_core (ByName "a") false; Ok l) = Ok ["a"; "b"].
Proof. vm_compute. split; reflexivity. Qed.

(** C19: whatever was asked and registered before, the answer is that of a core that has
    never been asked. *)
Theorem C19_never_stale :
  forall canon ops th a incroot, let c := crun canon ops (new_core th) in
  (do! (l, _) <- depends_as_set canon c a incroot; Ok l) =
  (do! (l, _) <- depends_as_set canon (CO (c_targets c) (c_heap c) [] (c_threads c)) a incroot; Ok l).
Proof. exact never_stale. Qed.
Print Assumptions C19_never_stale.
Example C19_case : exists ops, In (OpDepends (ByName "a") true) ops /\
  (do! (l, _) <- depends_as_set id (crun id ops (new_core None)) (ByName "a") true; Ok l) = Ok ["a"; "c"].
Proof.
  exists [OpNew Updatable "a" ["b"]; OpNew Updatable "b" []; OpDepends (ByName "a") true;
          OpNew Updatable "c" []; OpNew Updatable "a" ["c"]].
  split; [simpl; tauto|vm_compute; reflexivity].
Qed.

(** C20, for registrations followed by any number of evaluations. *)
Theorem C20_need_update_is_right :
  forall canon ops th c, session canon ops th c -> forall update_if fuel c',
  update_update_needity canon update_if fuel c = Ok c' ->
  forall nm i, In (nm, i) (c_targets c) -> t_class (obj c i) = Updatable ->
  (t_need (obj c' i) = Some true /\ out_of_date_below canon update_if c i) \/
  (t_need (obj c' i) = Some false /\ ~ out_of_date_below canon update_if c i).
Proof. exact session_needs. Qed.
Print Assumptions C20_need_update_is_right.
Theorem C20_evaluation_succeeds :
  forall canon ops th c, session canon ops th c -> forall update_if, healthy canon update_if c ->
  forall fuel, List.length (c_heap c) < fuel ->
  exists c', update_update_needity canon update_if fuel c = Ok c'.
Proof. exact session_evaluates. Qed.
Print Assumptions C20_evaluation_succeeds.
(** Not when a target is registered again between two evaluations: cached_deplist. *)
Theorem C20_reregistration_refuted :
  exists ops ops' u u' fuel c c',
  update_update_needity id u fuel (crun id ops empty_core) = Ok c /\
  update_update_needity id u' fuel (crun id ops' c) = Ok c' /\
  exists i, resolves id c' "a" i /\ out_of_date_below id u' c' i /\ t_need (obj c' i) = Some false.
Proof. exact stale_need. Qed.
Print Assumptions C20_reregistration_refuted.
Example C20_case : session root_canon ex_ops (Some 2%Z) ex_evaluated /\
  map (fun i => t_need (obj ex_evaluated i)) [0; 1; 2] = [Some true; Some true; Some false].
Proof.
  split; [eapply ses_evaluated; [apply ses_registered|exact ex_evaluation]|vm_compute; reflexivity].
Qed.

(** C21: false.  A target outside the cone with an unregistered dependency, or a cycle
    outside the cone, makes the evaluation that precedes every action fail. *)
Theorem C21_broken_elsewhere_refuted :
  exists c ops i u, resolves id c (t_name (obj c i)) i /\ cone_registered id c i /\
  acyclic_cone id c i /\ Forall (unrelated id c i) ops /\
  (exists c', update_update_needity id u 10 c = Ok c') /\
  forall fuel, 3 <= fuel ->
  exists e, update_update_needity id u fuel (crun id ops c) = Raise e.
Proof. exact broken_elsewhere. Qed.
Print Assumptions C21_broken_elsewhere_refuted.
Theorem C21_cycle_elsewhere_refuted :
  exists c ops i u, resolves id c (t_name (obj c i)) i /\ cone_registered id c i /\
  acyclic_cone id c i /\ Forall (unrelated id c i) ops /\
  (exists c', update_update_needity id u 10 c = Ok c') /\
  forall fuel, update_update_needity id u fuel (crun id ops c) = OutOfFuel.
Proof. exact cycle_elsewhere. Qed.
Print Assumptions C21_cycle_elsewhere_refuted.
(** What holds: what recurse_update hands to the solver, and what is out of date in the cone,
    do not depend on later unrelated registrations. *)
Theorem C21_recurse_update_unaffected_partial :
  forall canon, (forall x, canon (canon x) = canon x) ->
  forall ops0 th i ops order so threads, let c := crun canon ops0 (new_core th) in
  (forall l, Permutation l (order l)) ->
  resolves canon c (t_name (obj c i)) i -> cone_registered canon c i ->
  Forall (unrelated canon c i) ops ->
  recurse_update canon (crun canon ops c) order so i threads = recurse_update canon c order so i threads.
Proof.
  exact (fun canon Hc ops0 th i ops order so threads Hord =>
    unrelated_recurse_update canon Hc _ i ops order so threads Hord (wf_run canon ops0 _ (wf_new th))
      (no_pair_run canon ops0 _ (no_pair_new th))).
Qed.
Print Assumptions C21_recurse_update_unaffected_partial.
Theorem C21_out_of_date_unaffected_partial :
  forall canon, (forall x, canon (canon x) = canon x) ->
  forall ops0 th i ops update_if, let c := crun canon ops0 (new_core th) in
  resolves canon c (t_name (obj c i)) i -> Forall (unrelated canon c i) ops ->
  forall j, in_cone canon c i j ->
  out_of_date_below canon update_if (crun canon ops c) j <-> out_of_date_below canon update_if c j.
Proof.
  exact (fun canon Hc ops0 th i ops u =>
    unrelated_out_of_date canon Hc _ i ops u (wf_run canon ops0 _ (wf_new th))).
Qed.
Print Assumptions C21_out_of_date_unaffected_partial.

(** C22.  [recording] notes the calls of update methods, in the order in which they end. *)
Theorem C22_updates_exactly_what_is_out_of_date :
  forall canon ops rt, NoDup (new_names ops) -> forall c, session canon ops rt c ->
  forall nm i, In (nm, i) (c_targets c) ->
  forall order, (forall l, Permutation l (order l)) -> forall so, fair_order so ->
  forall threads th, ru_threads c threads = Some th ->
  forall objs sv, recurse_update canon c order so i threads = RuExec objs sv ->
  forall W (upd : nat -> W -> tres -> W -> Prop),
  (forall j, in_cone canon c i j -> t_class (obj c j) = Updatable /\ t_need (obj c j) <> None) ->
  forall w0 s, exec_reaches sv (task_behaviour c (recording upd) objs) ([], w0) s ->
  let calls := fst (s_world s) in
  NoDup calls /\
  (forall j, In j calls -> in_cone canon c i j /\ t_need (obj c j) = Some true) /\
  (forall l1 j l2, calls = l1 ++ j :: l2 -> forall d, obj_dep canon c j d ->
     t_need (obj c d) = Some true -> In d l1) /\
  (s_main s = MReturned -> exec_result (List.length objs) s = Ok true ->
     forall j, in_cone canon c i j -> t_need (obj c j) = Some true -> In j calls).
Proof.
  exact (fun canon ops rt Hd c Hs nm i Hi order Hord so Hso threads th Hth objs sv Hru W upd =>
    updates_facts canon ops rt Hd c Hs nm i Hi order Hord so Hso threads th Hth objs sv Hru upd).
Qed.
Print Assumptions C22_updates_exactly_what_is_out_of_date.
Theorem C22_update_starts_after_dependencies_ended :
  forall canon ops rt, NoDup (new_names ops) -> forall c, session canon ops rt c ->
  forall nm i, In (nm, i) (c_targets c) ->
  forall order, (forall l, Permutation l (order l)) -> forall so, fair_order so ->
  forall threads th, ru_threads c threads = Some th ->
  forall objs sv, recurse_update canon c order so i threads = RuExec objs sv ->
  forall W (upd : nat -> W -> tres -> W -> Prop),
  forall w0 s, exec_reaches sv (task_behaviour c (recording upd) objs) ([], w0) s ->
  forall l1 k l2, s_log s = l1 ++ EStart k :: l2 -> forall j d, nth_error objs k = Some j ->
  obj_dep canon c j d -> exists kd, nth_error objs kd = Some d /\ In (EFinish kd RNotFalse) l1.
Proof.
  exact (fun canon ops rt Hd c Hs nm i Hi order Hord so Hso threads th Hth objs sv Hru W upd =>
    updates_start canon ops rt Hd c Hs nm i Hi order Hord so Hso threads th Hth objs sv Hru upd).
Qed.
Print Assumptions C22_update_starts_after_dependencies_ended.
(** Called directly as a method, on a core that was never evaluated, recurse_update hangs. *)
Theorem C22_direct_call_refuted :
  exists ops th c i objs sv (w0 : unit), session id ops th c /\ NoDup (new_names ops) /\
  recurse_update id c (fun l => l) id_order i (Some 1%Z) = RuExec objs sv /\
  (forall j, in_cone id c i j -> t_class (obj c j) = Updatable) /\
  forall upd s, exec_reaches sv (task_behaviour c upd objs) w0 s -> s_main s = MJoin.
Proof. exact direct_call_hangs. Qed.
Print Assumptions C22_direct_call_refuted.
(** In general: a plain Target or an unevaluated one in the cone excludes success. *)
Theorem C22_unusable_target_excludes_success :
  forall canon ops rt, NoDup (new_names ops) -> forall c, session canon ops rt c ->
  forall nm i, In (nm, i) (c_targets c) ->
  forall order, (forall l, Permutation l (order l)) -> forall so, fair_order so ->
  forall threads th, ru_threads c threads = Some th ->
  forall objs sv, recurse_update canon c order so i threads = RuExec objs sv ->
  forall W (upd : nat -> W -> tres -> W -> Prop),
  (exists j, in_cone canon c i j /\ (t_class (obj c j) = Plain \/ t_need (obj c j) = None)) ->
  forall w0 s, exec_reaches sv (task_behaviour c upd objs) w0 s -> s_main s = MReturned ->
  exec_result (List.length objs) s = Ok false.
Proof.
  exact (fun canon ops rt Hd c Hs nm i Hi order Hord so Hso threads th Hth objs sv Hru W upd =>
    never_true canon ops rt Hd c Hs nm i Hi order Hord so Hso threads th Hth objs sv Hru upd).
Qed.
Print Assumptions C22_unusable_target_excludes_success.
(** Both out-of-date targets of the example are updated, in dependency order. *)
Example C22_case :
  match recurse_update root_canon ex_evaluated (fun l => l) id_order 0 None with
  | RuExec objs sv =>
      option_map (fun s => (s_main s, s_world s))
        (sched (inv_of (sv_inv sv))
           (fun k w => let i := nth k objs 9 in
                       (RNotFalse, match t_need (obj ex_evaluated i) with Some true => w ++ [i] | _ => w end))
           [CGet 0; CFin 0; CFin 0; CFin 0; CJoin] (init_state sv [])) = Some (MReturned, [1; 0])
  | _ => False
  end.
Proof. vm_compute. reflexivity. Qed.

(** C23 *)
Theorem C23_exits_exactly_when_unregistered :
  forall canon ops rt, NoDup (new_names ops) -> forall c, session canon ops rt c ->
  forall nm i, In (nm, i) (c_targets c) ->
  forall order, (forall l, Permutation l (order l)) -> forall so, fair_order so ->
  forall threads th, ru_threads c threads = Some th ->
  (exists e, recurse_update canon c order so i threads = RuExn e) <-> ~ cone_registered canon c i.
Proof. exact ses_ru_exits. Qed.
Print Assumptions C23_exits_exactly_when_unregistered.
Theorem C23_exit_names_the_unregistered :
  forall canon ops rt, NoDup (new_names ops) -> forall c, session canon ops rt c ->
  forall nm i, In (nm, i) (c_targets c) ->
  forall order, (forall l, Permutation l (order l)) -> forall so, fair_order so ->
  forall threads th, ru_threads c threads = Some th ->
  forall e, recurse_update canon c order so i threads = RuExn e ->
  exists x, e = exit_unregistered x /\ ~ registered canon c x.
Proof. exact ses_ru_exit_kind. Qed.
Print Assumptions C23_exit_names_the_unregistered.
Theorem C23_rejects_exactly_cycles :
  forall canon ops rt, NoDup (new_names ops) -> forall c, session canon ops rt c ->
  forall nm i, In (nm, i) (c_targets c) ->
  forall order, (forall l, Permutation l (order l)) -> forall so, fair_order so ->
  forall threads th, ru_threads c threads = Some th ->
  (exists e, recurse_update canon c order so i threads = RuRejected e) <->
  cone_registered canon c i /\ ~ acyclic_cone canon c i.
Proof. exact ses_ru_rejects. Qed.
Print Assumptions C23_rejects_exactly_cycles.
Theorem C23_rejection_is_about_cycles :
  forall canon ops rt, NoDup (new_names ops) -> forall c, session canon ops rt c ->
  forall nm i, In (nm, i) (c_targets c) ->
  forall order, (forall l, Permutation l (order l)) -> forall so, fair_order so ->
  forall threads th, ru_threads c threads = Some th ->
  forall e, recurse_update canon c order so i threads = RuRejected e ->
  match e with NoOneNonDependableTarget | CircularDependencyError _ | ConnectivityError _ => True | _ => False end.
Proof. exact ses_ru_reject_kind. Qed.
Print Assumptions C23_rejection_is_about_cycles.
Theorem C23_runs_exactly_healthy_cones :
  forall canon ops rt, NoDup (new_names ops) -> forall c, session canon ops rt c ->
  forall nm i, In (nm, i) (c_targets c) ->
  forall order, (forall l, Permutation l (order l)) -> forall so, fair_order so ->
  forall threads th, ru_threads c threads = Some th ->
  (exists objs sv, recurse_update canon c order so i threads = RuExec objs sv) <->
  cone_registered canon c i /\ acyclic_cone canon c i.
Proof. exact ses_ru_runs. Qed.
Print Assumptions C23_runs_exactly_healthy_cones.
Example C23_case :
  recurse_update id cyc_core (fun l => l) id_order 0 (Some 1%Z) = RuRejected NoOneNonDependableTarget /\
  recurse_update id (crun id [OpNew Updatable "a" ["z"]] empty_core) (fun l => l) id_order 0 (Some 1%Z)
    = RuExn (exit_unregistered "z").
Proof. vm_compute. split; reflexivity. Qed.

(** C24: false on every core whose runtime has no "threads": the default action never gets
    to run anything. *)
Theorem C24_refuted :
  exists ops c i, session id ops None c /\ In ("t", i) (c_targets c) /\
  cone_registered id c i /\ acyclic_cone id c i /\
  forall order so, (forall l, Permutation l (order l)) -> fair_order so ->
  recurse_update_get_args id c order so i = RuRejected SolverTypeError.
Proof. exact default_action_fails. Qed.
Print Assumptions C24_refuted.
Theorem C24_default_action_fails_without_threads :
  forall canon ops, NoDup (new_names ops) -> forall c, session canon ops None c ->
  forall nm i, In (nm, i) (c_targets c) ->
  forall order, (forall l, Permutation l (order l)) -> forall so, fair_order so ->
  cone_registered canon c i -> recurse_update_get_args canon c order so i = RuRejected SolverTypeError.
Proof. exact ses_default_fails. Qed.
Print Assumptions C24_default_action_fails_without_threads.
Theorem C24_default_action_runs_with_threads_partial :
  forall canon ops th, NoDup (new_names ops) -> forall c, session canon ops (Some th) c ->
  forall nm i, In (nm, i) (c_targets c) ->
  forall order, (forall l, Permutation l (order l)) -> forall so, fair_order so ->
  cone_registered canon c i -> acyclic_cone canon c i ->
  exists objs sv, recurse_update_get_args canon c order so i = RuExec objs sv.
Proof. exact ses_default_action. Qed.
Print Assumptions C24_default_action_runs_with_threads_partial.

(** C25: false: two outcomes of the action give the same result. *)
Theorem C25_refuted :
  exists get da (good bad : nat -> string -> nat -> res (pyval * nat)) t a s,
  good 0 "act" s = Ok (PyBool true, s) /\ bad 0 "act" s = Ok (PyBool false, s) /\
  core_do get da good s t a = core_do get da bad s t a.
Proof.
  exact (ex_intro _ (fun _ _ => Ok 0) (ex_intro _ (fun _ _ => "act")
    (ex_intro _ (fun _ _ s => Ok (PyBool true, s)) (ex_intro _ (fun _ _ s => Ok (PyBool false, s))
    (ex_intro _ (DName "t") (ex_intro _ None (ex_intro _ 7 (conj eq_refl (conj eq_refl eq_refl)))))))))
  .
Qed.
Print Assumptions C25_refuted.
Theorem C25_do_returns_nothing :
  forall S get da (invoke : nat -> string -> S -> res (pyval * S)) t s a v s',
  core_do get da invoke s t a = Ok (v, s') -> v = PyNone.
Proof. exact (fun S get da invoke => do_none get da invoke). Qed.
Print Assumptions C25_do_returns_nothing.
(** An action that the target does not have is no error for do: the needs of all targets are
    evaluated and nothing is called.  The command line ([critical]) refuses it. *)
Theorem C25_unknown_action :
  forall S (evaluate : S -> res S) attr get da s s1 nm i a,
  get s nm = Ok i -> evaluate s = Ok s1 -> attr i a = None ->
  core_do get da (target_invoke evaluate attr false) s (DName nm) (Some a) = Ok (PyNone, s1) /\
  (exists e, target_invoke evaluate attr true i a s = Raise e).
Proof.
  intros S evaluate attr get da s s1 nm i a Hg He Ha. cbn [core_do]. unfold do_object, target_invoke. rewrite Hg. cbn [bind].
  rewrite He. cbn [bind]. rewrite Ha. split; [reflexivity|eauto].
Qed.
Print Assumptions C25_unknown_action.
(** An action that it has is called once, after the evaluation, and the exception of either is raised. *)
Theorem C25_known_action :
  forall S (evaluate : S -> res S) attr get da s nm i a f,
  get s nm = Ok i -> attr i a = Some f ->
  only_state (core_do get da (target_invoke evaluate attr false) s (DName nm) (Some a)) =
  match evaluate s with Ok s1 => only_state (f s1) | Raise e => Raise e | OutOfFuel => OutOfFuel end.
Proof.
  intros S evaluate attr get da s nm i a f Hg Ha. cbn [core_do]. unfold do_object, target_invoke. rewrite Hg. cbn [bind].
  destruct (evaluate s) as [s1|e|]; cbn [bind]; [|reflexivity|reflexivity]. rewrite Ha. destruct (f s1) as [[v s2]|e|]; reflexivity.
Qed.
Print Assumptions C25_known_action.
Example C25_case :
  let attr (i : nat) (a : string) := if String.eqb a "act" then Some (fun s => Ok (PyBool true, s * 10)) else None in
  core_do (fun _ _ => Ok 0) (fun _ _ => "act") (target_invoke (fun s => Ok (S s)) attr false) 4 (DName "t") (Some "act") = Ok (PyNone, 50) /\
  core_do (fun _ _ => Ok 0) (fun _ _ => "act") (target_invoke (fun s => Ok (S s)) attr false) 4 (DName "t") (Some "atc") = Ok (PyNone, 5).
Proof. split; reflexivity. Qed.

(** C26 *)
Theorem C26_list_is_sequence :
  forall S get da (invoke : nat -> string -> S -> res (pyval * S)) t s a,
  only_state (core_do get da invoke s t a) =
  one_after_other (fun t s => only_state (core_do get da invoke s t a)) (leaves t) s.
Proof. exact (fun S get da invoke => do_list get da invoke). Qed.
Print Assumptions C26_list_is_sequence.
Theorem C26_default_action_of_each_target :
  forall S get da (invoke : nat -> string -> S -> res (pyval * S)) i s,
  core_do get da invoke s (DObj i) None = core_do get da invoke s (DObj i) (Some (da s i)).
Proof. exact (fun S get da invoke i s => eq_refl). Qed.
Print Assumptions C26_default_action_of_each_target.
Example C26_case :
  core_do (fun _ nm => if String.eqb nm "x" then Ok 5 else Raise (exit_unregistered nm)) (fun _ _ => "go")
          (fun i a s => Ok (PyNone, s ++ [(i, a)])) [] (DList [DObj 1; DList [DName "x"; DObj 2]]) None
  = Ok (PyNone, [(1, "go"); (5, "go"); (2, "go")]) /\
  core_do (fun _ nm => if String.eqb nm "x" then Ok 5 else Raise (exit_unregistered nm)) (fun _ _ => "go")
          (fun i a s => Ok (PyNone, s ++ [(i, a)])) [] (DList [DObj 1; DName "y"; DObj 2]) None
  = Raise (exit_unregistered "y").
Proof. vm_compute. split; reflexivity. Qed.

(** C63: false: a comma is missing in the set of actions. *)
Theorem C63_refuted :
  hasaction routine_actions "update" = false /\ hasaction routine_actions "invoke_routine" = false /\
  exists a, hasaction routine_actions a = true /\ ~ In a routine_methods.
Proof. exact routine_actions_wrong. Qed.
Print Assumptions C63_refuted.
Theorem C63_others_right_partial :
  (forall a, hasaction target_actions a = true -> In a target_methods) /\
  (forall a, hasaction updatable_actions a = true -> In a updatable_methods) /\
  (forall a, hasaction routine_actions a = true -> a <> "invoke_routineupdate" -> In a routine_methods).
Proof. exact declared_actions. Qed.
Print Assumptions C63_others_right_partial.
