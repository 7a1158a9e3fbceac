(** Theorems about executions of [InverseRecursiveSolver.exec]: C03 - C14.
    [W] is the world the tasks act on, [run] an arbitrary behaviour of what_to_do. *)
From Coq Require Import Permutation.
From Verif Require Import PyBase SolverModel SpecGraph InvokerModel SpecTrace InvokerThms InvokerExec InvokerExamples.
Local Open Scope string_scope.
Local Open Scope list_scope.

(** C03 *)
Theorem C03_dependencies_finish_first :
  forall W (run : nat -> W -> tres -> W -> Prop) ts th sv w0 s,
  constructed ts th sv -> exec_reaches sv run w0 s ->
  forall l1 t l2, s_log s = l1 ++ EStart t :: l2 ->
  forall j, depends_on ts t j ->
    In (EFinish j RNotFalse) l1 /\ ~ In (EFinish j RFalse) (s_log s) /\ ~ In (ERaise j) (s_log s).
Proof.
  exact (fun W run ts th sv w0 s '(ex_intro _ so (conj Hso H)) R l1 t l2 =>
           deps_first_full run so ts th sv Hso H s l1 t l2 (ex_intro _ w0 R)).
Qed.
Print Assumptions C03_dependencies_finish_first.
Example C03_case : diamond_run app_task diamond_schedule =
  Some (MReturned,
        [EStart 0; EFinish 0 RNotFalse; EStart 1; EStart 2; EFinish 2 RNotFalse;
         EFinish 1 RNotFalse; EStart 3; EFinish 3 RNotFalse], [0; 2; 1; 3], Ok true).
Proof. vm_compute. reflexivity. Qed.

(** C04 *)
Theorem C04_at_most_once :
  forall W (run : nat -> W -> tres -> W -> Prop) ts th sv w0 s,
  constructed ts th sv -> exec_reaches sv run w0 s -> NoDup (started (s_log s)).
Proof.
  exact (fun W run ts th sv w0 s '(ex_intro _ so (conj Hso H)) R =>
           start_once run so ts th sv Hso H s (ex_intro _ w0 R)).
Qed.
Print Assumptions C04_at_most_once.
Theorem C04_exactly_once_on_success :
  forall W (run : nat -> W -> tres -> W -> Prop) ts th sv w0 s,
  constructed ts th sv -> exec_reaches sv run w0 s ->
  s_main s = MReturned -> exec_result (List.length ts) s = Ok true ->
  forall i, i < List.length ts -> In (EStart i) (s_log s) /\ In (EFinish i RNotFalse) (s_log s).
Proof.
  exact (fun W run ts th sv w0 s '(ex_intro _ so (conj Hso H)) R =>
           true_all_ran run so ts th sv Hso H s (ex_intro _ w0 R)).
Qed.
Print Assumptions C04_exactly_once_on_success.

(** C05 *)
Theorem C05_parallelism_bound :
  forall W (run : nat -> W -> tres -> W -> Prop) ts th sv w0 s,
  constructed ts th sv -> exec_reaches sv run w0 s ->
  in_progress (s_log s) <= Z.to_nat th.
Proof.
  exact (fun W run ts th sv w0 s '(ex_intro _ so (conj Hso H)) R =>
           parallelism run so ts th sv Hso H s (ex_intro _ w0 R)).
Qed.
Print Assumptions C05_parallelism_bound.
(** The bound is reached. *)
Example C05_case :
  option_map (fun x => in_progress (snd (fst (fst x)))) (diamond_run app_task [CGet 0; CFin 0; CGet 1])
  = Some 2.
Proof. vm_compute. reflexivity. Qed.

(** C06 *)
Theorem C06_nothing_started_after_failure :
  forall W (run : nat -> W -> tres -> W -> Prop) ts th sv w0 s,
  constructed ts th sv -> exec_reaches sv run w0 s ->
  forall l1 t l2, s_log s = l1 ++ EFinish t RFalse :: l2 -> forall u, ~ In (EStart u) l2.
Proof.
  exact (fun W run ts th sv w0 s '(ex_intro _ so (conj Hso H)) R l1 t l2 =>
           nothing_after_failure run so ts th sv Hso H s l1 t l2 (ex_intro _ w0 R)).
Qed.
Print Assumptions C06_nothing_started_after_failure.
Theorem C06_dependents_of_failed_never_run :
  forall W (run : nat -> W -> tres -> W -> Prop) ts th sv w0 s,
  constructed ts th sv -> exec_reaches sv run w0 s ->
  forall t, In (EFinish t RFalse) (s_log s) ->
  forall u, clos_trans nat (depends_on ts) u t -> ~ In (EStart u) (s_log s).
Proof.
  exact (fun W run ts th sv w0 s '(ex_intro _ so (conj Hso H)) R t =>
           dependents_not_run run so ts th sv Hso H s t (ex_intro _ w0 R)).
Qed.
Print Assumptions C06_dependents_of_failed_never_run.
Example C06_case : diamond_run (fail_task 1) [CGet 0; CFin 0; CGet 1; CFin 0; CFin 1; CJoin] =
  Some (MReturned,
        [EStart 0; EFinish 0 RNotFalse; EStart 1; EStart 2; EFinish 1 RFalse; EFinish 2 RNotFalse;
         EDrop 3], [0; 1; 2], Ok false).
Proof. vm_compute. reflexivity. Qed.

(** C07 *)
Theorem C07_result_is_faithful :
  forall W (run : nat -> W -> tres -> W -> Prop) ts th sv w0 s,
  constructed ts th sv -> exec_reaches sv run w0 s -> s_main s = MReturned ->
  (failed_in (s_log s) /\ exec_result (List.length ts) s = Ok false) \/
  (~ failed_in (s_log s) /\ exec_result (List.length ts) s = Ok true /\
   forall i, i < List.length ts -> In (EFinish i RNotFalse) (s_log s)).
Proof.
  exact (fun W run ts th sv w0 s '(ex_intro _ so (conj Hso H)) R =>
           exec_result_cases run so ts th sv Hso H s (ex_intro _ w0 R)).
Qed.
Print Assumptions C07_result_is_faithful.

(** C08 *)
Theorem C08_no_deadlock :
  forall W (run : nat -> W -> tres -> W -> Prop) ts th sv w0 s,
  constructed ts th sv -> (1 <= th)%Z -> tasks_end run -> tasks_never_raise run ->
  exec_reaches sv run w0 s -> s_main s = MJoin ->
  exists s', step (inv_of (sv_inv sv)) run s s'.
Proof.
  exact (fun W run ts th sv w0 s '(ex_intro _ so (conj Hso H)) Hth He Hn R Hm =>
           progress run so ts th sv Hso H s He Hth (ex_intro _ w0 R) Hm
                    (no_raise run ts sv s w0 Hn R)).
Qed.
Print Assumptions C08_no_deadlock.
Theorem C08_bounded_number_of_steps :
  forall W (run : nat -> W -> tres -> W -> Prop) ts th sv w0 s k,
  constructed ts th sv -> nsteps (inv_of (sv_inv sv)) run k (init_state sv w0) s ->
  k <= 2 * List.length ts + 1.
Proof.
  exact (fun W run ts th sv w0 s k '(ex_intro _ so (conj Hso H)) =>
           steps_bounded run so ts th sv Hso H k w0 s).
Qed.
Print Assumptions C08_bounded_number_of_steps.
Example C08_case : tasks_end (frun app_task) /\ tasks_never_raise (frun app_task).
Proof. split; [intros t w; now exists RNotFalse, (w ++ [t])|intros t w w' H; discriminate H]. Qed.

(** C09 *)
Theorem C09_nothing_running_at_return :
  forall W (run : nat -> W -> tres -> W -> Prop) ts th sv w0 s,
  constructed ts th sv -> exec_reaches sv run w0 s -> s_main s = MReturned ->
  in_progress (s_log s) = 0 /\ s_queue s = [] /\
  forall t, In (EStart t) (s_log s) -> exists r, In (EFinish t r) (s_log s).
Proof.
  exact (fun W run ts th sv w0 s '(ex_intro _ so (conj Hso H)) R =>
           returned_idle run so ts th sv Hso H s (ex_intro _ w0 R)).
Qed.
Print Assumptions C09_nothing_running_at_return.

(** C10 *)
Theorem C10_no_internal_assertion_in_workers :
  forall W (run : nat -> W -> tres -> W -> Prop) ts th sv w0 s,
  constructed ts th sv -> exec_reaches sv run w0 s -> ~ In EAbort (s_log s).
Proof.
  exact (fun W run ts th sv w0 s '(ex_intro _ so (conj Hso H)) R =>
           no_abort run so ts th sv Hso H s (ex_intro _ w0 R)).
Qed.
Print Assumptions C10_no_internal_assertion_in_workers.
Theorem C10_no_assertion_in_exec :
  forall W (run : nat -> W -> tres -> W -> Prop) ts th sv w0 s,
  constructed ts th sv -> exec_reaches sv run w0 s -> s_main s = MReturned ->
  exists b, exec_result (List.length ts) s = Ok b.
Proof.
  exact (fun W run ts th sv w0 s '(ex_intro _ so (conj Hso H)) R =>
           no_assertion run so ts th sv Hso H s (ex_intro _ w0 R)).
Qed.
Print Assumptions C10_no_assertion_in_exec.

(** C11: the property is false of the code.  Whatever the graph, once a what_to_do has raised,
    exec() never returns; every such execution can only end in a hang. *)
Theorem C11_refuted :
  exists ts th sv (run : nat -> list nat -> tres -> list nat -> Prop) w0 s,
  constructed ts th sv /\ (1 <= th)%Z /\ tasks_end run /\ exec_reaches sv run w0 s /\
  (exists t, In (ERaise t) (s_log s)) /\ hangs sv run s.
Proof. exact raise_hang_witness. Qed.
Print Assumptions C11_refuted.
Theorem C11_raise_never_returns :
  forall W (run : nat -> W -> tres -> W -> Prop) ts th sv w0 s t,
  constructed ts th sv -> exec_reaches sv run w0 s -> In (ERaise t) (s_log s) -> s_main s = MJoin.
Proof.
  exact (fun W run ts th sv w0 s t '(ex_intro _ so (conj Hso H)) R =>
           raise_never_returns run so ts th sv Hso H s t (ex_intro _ w0 R)).
Qed.
Print Assumptions C11_raise_never_returns.
Theorem C11_raise_always_hangs :
  forall W (run : nat -> W -> tres -> W -> Prop) ts th sv w0 s t,
  constructed ts th sv -> tasks_end run -> exec_reaches sv run w0 s -> In (ERaise t) (s_log s) ->
  exists s', steps (inv_of (sv_inv sv)) run s s' /\ hangs sv run s'.
Proof.
  exact (fun W run ts th sv w0 s t '(ex_intro _ so (conj Hso H)) He R Hr =>
           raise_hangs run so ts th sv Hso H w0 s t He R Hr).
Qed.
Print Assumptions C11_raise_always_hangs.
Example C11_case : diamond_run (raise_task 1) [CGet 0; CFin 0; CGet 1; CFin 0; CFin 1] =
  Some (MJoin, [EStart 0; EFinish 0 RNotFalse; EStart 1; EStart 2; ERaise 1; EFinish 2 RNotFalse],
        [0; 1; 2], Raise AssertionError).
Proof. vm_compute. reflexivity. Qed.

(** C12: false: with zero or fewer threads exec() hangs at once. *)
Theorem C12_refuted :
  exists ts th sv (run : nat -> list nat -> tres -> list nat -> Prop) w0,
  constructed ts th sv /\ tasks_end run /\ tasks_never_raise run /\ hangs sv run (init_state sv w0).
Proof. exact no_threads_witness. Qed.
Print Assumptions C12_refuted.
Theorem C12_without_threads_always_hangs :
  forall W (run : nat -> W -> tres -> W -> Prop) ts th sv w0,
  constructed ts th sv -> (th <= 0)%Z ->
  forall s, exec_reaches sv run w0 s -> s = init_state sv w0 /\ hangs sv run s.
Proof. exact no_threads_hang. Qed.
Print Assumptions C12_without_threads_always_hangs.

(** C13 *)
Theorem C13_workers_leave_only_when_done :
  forall W (run : nat -> W -> tres -> W -> Prop) ts th sv w0 s,
  constructed ts th sv -> exec_reaches sv run w0 s -> ~ failed_in (s_log s) ->
  In WDrain (s_workers s) -> forall i, i < List.length ts -> In (EFinish i RNotFalse) (s_log s).
Proof.
  exact (fun W run ts th sv w0 s '(ex_intro _ so (conj Hso H)) R =>
           leave_only_when_done run so ts th sv Hso H s (ex_intro _ w0 R)).
Qed.
Print Assumptions C13_workers_leave_only_when_done.
Theorem C13_all_workers_stay_available :
  forall W (run : nat -> W -> tres -> W -> Prop) ts th sv w0 s i,
  constructed ts th sv -> exec_reaches sv run w0 s ->
  ~ failed_in (s_log s) -> raised (s_log s) = [] ->
  i < List.length ts -> ~ In (EFinish i RNotFalse) (s_log s) ->
  List.length (s_workers s) = Z.to_nat th /\
  forall w x, nth_error (s_workers s) w = Some x ->
    (x = WGet /\ (s_queue s <> [] -> exists t q, s_queue s = t :: q /\
                   exists s', step (inv_of (sv_inv sv)) run s s' /\
                     nth_error (s_workers s') w = Some (WRun t) /\
                     s_log s' = s_log s ++ [EStart t])) \/
    exists t, x = WRun t.
Proof. exact workers_available_full. Qed.
Print Assumptions C13_all_workers_stay_available.

(** C14 *)
Theorem C14_schedule_independent :
  forall W (run : nat -> W -> tres -> W -> Prop) ts th sv (act : nat -> W -> W) w0 s,
  constructed ts th sv ->
  (forall t w r w', run t w r w' -> r = RNotFalse /\ w' = act t w) ->
  (forall t u, ~ clos_trans nat (depends_on ts) t u -> ~ clos_trans nat (depends_on ts) u t -> t <> u ->
     forall w, act t (act u w) = act u (act t w)) ->
  exec_reaches sv run w0 s -> s_main s = MReturned ->
  forall l, Permutation l (seq 0 (List.length ts)) -> dependency_order (depends_on ts) l ->
  s_world s = fold_left (fun w t => act t w) l w0.
Proof.
  exact (fun W run ts th sv act w0 s '(ex_intro _ so (conj Hso H)) =>
           schedule_independent run so ts th sv act w0 s Hso H).
Qed.
Print Assumptions C14_schedule_independent.
(** Tasks that each write their own cell ([cell_task] in InvokerExamples.v) from their dependencies' cells commute. *)
Example C14_case_returns :
  option_map (fun s => (s_main s, s_world s))
    (sched (inv_of (sv_inv (diamond_solver 2))) (fun t w => (RNotFalse, cell_task t w))
       diamond_schedule (init_state (diamond_solver 2) (0, 0, 0, 0)))
  = Some (MReturned, fold_left (fun w t => cell_task t w) [0; 1; 2; 3] (0, 0, 0, 0)).
Proof. vm_compute. reflexivity. Qed.
Example C14_case_commutes : forall t u, ~ clos_trans nat (depends_on diamond) t u ->
  ~ clos_trans nat (depends_on diamond) u t -> t <> u ->
  forall w, cell_task t (cell_task u w) = cell_task u (cell_task t w).
Proof. exact diamond_cells_commute. Qed.
