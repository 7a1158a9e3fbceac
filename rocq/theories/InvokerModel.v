(** Model of the execution part of licant/solver.py: [TaskInvoker], [worker],
    [release_queue], [DependableTargetRuntime.doit] and [InverseRecursiveSolver.exec].

    Granularity.  asyncio runs one coroutine at a time and switches only at an await
    that really suspends.  In this code these are: [queue.get()] on an empty queue,
    [await asyncio.to_thread(...)], [queue.join()].  [queue.put] on an unbounded queue,
    [queue.get] on a non-empty one and acquiring the lock [mtx] (which is never held
    across a suspension) do not suspend.  An atomic step below is the stretch of code
    between two suspensions.  Which runnable coroutine goes next is left open (asyncio's
    FIFO order is one of the possibilities).

    Simplifications: KeyboardInterrupt is in InterruptModel, trace printing is left out; the effect of
    what_to_do on the world happens in one go when it finishes. *)
From Coq Require Import Permutation.
From Verif Require Import PyBase SolverModel.

(** What what_to_do delivers.  The code only asks [result is False]
    (solver.py:134); every other value counts as success. *)
Inductive tres := RNotFalse | RFalse | RExn.

Inductive wstate :=
| WGet               (* not started yet, or suspended in [await self.queue.get()] (116) *)
| WRun (t : nat)     (* suspended in [await task.doit()] (126), what_to_do in progress *)
| WDrain             (* suspended in [await self.queue.get()] of release_queue (153) *)
| WDead.             (* the worker coroutine ended with an exception *)

(** Instrumentation: what happened, oldest first. *)
Inductive event :=
| EStart (t : nat)             (* what_to_do of t is called *)
| EFinish (t : nat) (r : tres) (* what_to_do of t returned *)
| ERaise (t : nat)             (* what_to_do of t raised *)
| EDrop (t : nat)              (* t was taken from the queue and thrown away *)
| EAbort.                      (* an assert or a ValueError killed a worker *)

Inductive mstate := MJoin | MReturned.

Record state (W : Type) := ST {
  s_depcount : nat -> Z;       (* DependableTargetRuntime.depcount, solver.py:32 *)
  s_isdone : nat -> bool;      (* DependableTarget._is_done, solver.py:13 *)
  s_queue : list nat;          (* self.queue, solver.py:75, head is next *)
  s_unfinished : Z;            (* queue._unfinished_tasks *)
  s_released : bool;           (* queue._finished was set: join() may return *)
  s_workers : list wstate;     (* self.tasks *)
  s_on_base : list bool;       (* self.thread_on_base, solver.py:78 *)
  s_error : bool;              (* self.error_while_execution *)
  s_main : mstate;
  s_log : list event;
  s_world : W }.
Arguments ST {W} _ _ _ _ _ _ _ _ _ _ _.
Arguments s_depcount {W} _ _.
Arguments s_isdone {W} _ _.
Arguments s_queue {W} _.
Arguments s_unfinished {W} _.
Arguments s_released {W} _.
Arguments s_workers {W} _.
Arguments s_on_base {W} _.
Arguments s_error {W} _.
Arguments s_main {W} _.
Arguments s_log {W} _.
Arguments s_world {W} _.

Definition upd {A} (f : nat -> A) (i : nat) (v : A) : nat -> A :=
  fun j => if Nat.eqb j i then v else f j.

Fixpoint lupd {A} (l : list A) (i : nat) (v : A) : list A :=
  match l, i with
  | [], _ => []
  | _ :: l', 0 => v :: l'
  | x :: l', S i' => x :: lupd l' i' v
  end.

Section Invoker.
  Context {W : Type}.
  Implicit Types s : state W.

  (** Field updates. *)
  Definition set_worker (w : nat) (x : wstate) s : state W :=
    ST (s_depcount s) (s_isdone s) (s_queue s) (s_unfinished s) (s_released s)
       (lupd (s_workers s) w x) (s_on_base s) (s_error s) (s_main s) (s_log s) (s_world s).
  Definition set_base (w : nat) (b : bool) s : state W :=
    ST (s_depcount s) (s_isdone s) (s_queue s) (s_unfinished s) (s_released s)
       (s_workers s) (lupd (s_on_base s) w b) (s_error s) (s_main s) (s_log s) (s_world s).
  Definition set_error s : state W :=
    ST (s_depcount s) (s_isdone s) (s_queue s) (s_unfinished s) (s_released s)
       (s_workers s) (s_on_base s) true (s_main s) (s_log s) (s_world s).
  Definition set_queue (q : list nat) s : state W :=
    ST (s_depcount s) (s_isdone s) q (s_unfinished s) (s_released s)
       (s_workers s) (s_on_base s) (s_error s) (s_main s) (s_log s) (s_world s).
  Definition set_world (w : W) s : state W :=
    ST (s_depcount s) (s_isdone s) (s_queue s) (s_unfinished s) (s_released s)
       (s_workers s) (s_on_base s) (s_error s) (s_main s) (s_log s) w.
  Definition add_log (e : event) s : state W :=
    ST (s_depcount s) (s_isdone s) (s_queue s) (s_unfinished s) (s_released s)
       (s_workers s) (s_on_base s) (s_error s) (s_main s) (s_log s ++ [e]) (s_world s).

  (** solver.py:23-24 (DependableTarget.doit): [self._is_done = True]. *)
  Definition set_done (t : nat) s : state W :=
    ST (s_depcount s) (upd (s_isdone s) t true) (s_queue s) (s_unfinished s) (s_released s)
       (s_workers s) (s_on_base s) (s_error s) (s_main s) (s_log s) (s_world s).

  (** asyncio.Queue.put on an unbounded queue (solver.py:156-157 add_target). *)
  Definition put (t : nat) s : state W :=
    ST (s_depcount s) (s_isdone s) (s_queue s ++ [t]) (s_unfinished s + 1) (s_released s)
       (s_workers s) (s_on_base s) (s_error s) (s_main s) (s_log s) (s_world s).

  (** asyncio.Queue.task_done: ValueError ([None]) when called too often; reaching zero
      wakes join(). *)
  Definition task_done s : option (state W) :=
    if (s_unfinished s <=? 0)%Z then None
    else Some
      (ST (s_depcount s) (s_isdone s) (s_queue s) (s_unfinished s - 1)
          (s_released s || (s_unfinished s - 1 =? 0)%Z)
          (s_workers s) (s_on_base s) (s_error s) (s_main s) (s_log s) (s_world s)).

  (** A worker whose coroutine ends with an unexpected exception. *)
  Definition die (w : nat) (e : event) s : state W := add_log e (set_worker w WDead s).

  (** solver.py:45-49 [decrease_inverse_deps_count]; [inr s] = AssertionError raised. *)
  Definition decrease (d : nat) s : state W + state W :=
    let c := (s_depcount s d - 1)%Z in
    let s1 := ST (upd (s_depcount s) d c) (s_isdone s) (s_queue s) (s_unfinished s)
                 (s_released s) (s_workers s) (s_on_base s) (s_error s) (s_main s)
                 (s_log s) (s_world s) in
    let s2 := if (c =? 0)%Z then put d s1 else s1 in
    if (0 <=? c)%Z then inl s2 else inr s2.

  (** solver.py:54-55: [for dep in self.inverse_deps: await dep.decrease...()]. *)
  Fixpoint decrease_all (ds : list nat) s : state W + state W :=
    match ds with
    | [] => inl s
    | d :: ds' =>
        match decrease d s with
        | inl s' => decrease_all ds' s'
        | inr s' => inr s'
        end
    end.

  (** solver.py:151-154 [release_queue]: takes everything that is in the queue, calling
      task_done for each, then waits. *)
  Fixpoint drain_items (items : list nat) s : option (state W) :=
    match items with
    | [] => Some s
    | t :: items' =>
        match task_done (add_log (EDrop t) (set_queue items' s)) with
        | None => None
        | Some s' => drain_items items' s'
        end
    end.
  Definition release_queue (w : nat) s : state W :=
    match drain_items (s_queue s) s with
    | Some s' => set_worker w WDrain s'
    | None => die w EAbort s
    end.

  (** solver.py:114-126: head of the worker loop.  [queue.get()] suspends when the queue
      is empty; otherwise the worker goes on at once.  Under error the task just taken is
      NOT reported by task_done (118-119). *)
  Definition loop_head (w : nat) s : state W :=
    match s_queue s with
    | [] => set_worker w WGet s
    | t :: q =>
        let s1 := set_queue q s in
        if s_error s1 then release_queue w (add_log (EDrop t) s1)
        else add_log (EStart t) (set_worker w (WRun t) (set_base w false s1))
    end.

  (** solver.py:126-143: from the return of what_to_do to the next suspension. *)
  Definition after_task (w t : nat) (r : tres) (order : list nat) s : state W :=
    match r with
    | RExn => die w (ERaise t) s                       (* 126: exception leaves the loop *)
    | _ =>
        let s1 := add_log (EFinish t r) (set_done t s) in (* 22-23 *)
        match decrease_all order s1 with                (* 53-55 *)
        | inr s2 => die w EAbort s2
        | inl s2 =>
            match task_done s2 with                     (* 127 *)
            | None => die w EAbort s2
            | Some s3 =>
                if s_error s3 then release_queue w s3   (* 129-130, 149 *)
                else match r with
                     | RFalse => release_queue w (set_error s3)   (* 134-138, 149 *)
                     | _ =>
                         let s4 := set_base w true s3 in          (* 140-141 *)
                         if forallb (fun b => b) (s_on_base s4)
                            && match s_queue s4 with [] => true | _ => false end
                         then release_queue w s4                  (* 142-143, 149 *)
                         else loop_head w s4
                     end
            end
        end
    end.

  Variable inv : nat -> list nat.                   (* inverse_deps sets *)
  Variable run : nat -> W -> tres -> W -> Prop.     (* behaviour of what_to_do *)

  (** One scheduling step. *)
  Inductive step : state W -> state W -> Prop :=
  | step_get w s :
      s_main s = MJoin -> nth_error (s_workers s) w = Some WGet -> s_queue s <> [] ->
      step s (loop_head w s)
  | step_drain w s :
      s_main s = MJoin -> nth_error (s_workers s) w = Some WDrain -> s_queue s <> [] ->
      step s (release_queue w s)
  | step_finish w t r world' order s :
      s_main s = MJoin -> nth_error (s_workers s) w = Some (WRun t) ->
      run t (s_world s) r world' -> Permutation (inv t) order ->
      step s (after_task w t r order (set_world world' s))
  | step_join s :
      (* solver.py:105-111: join() returns, workers are cancelled, loop is closed *)
      s_main s = MJoin -> s_released s = true ->
      step s (ST (s_depcount s) (s_isdone s) (s_queue s) (s_unfinished s) (s_released s)
                 (s_workers s) (s_on_base s) (s_error s) MReturned (s_log s) (s_world s)).

  Inductive steps : state W -> state W -> Prop :=
  | steps_refl s : steps s s
  | steps_snoc s1 s2 s3 : steps s1 s2 -> step s2 s3 -> steps s1 s3.

  (** State in which exec() starts (solver.py:32, 72-81, 209-211). *)
  Definition init_state (sv : solver) (w0 : W) : state W :=
    let k := Z.to_nat (sv_threads sv) in
    ST (fun i => Z.of_nat (nth i (sv_depcount sv) 0)) (fun _ => false)
       (sv_queue sv) (Z.of_nat (List.length (sv_queue sv))) false
       (repeat WGet k) (repeat true k) false MJoin [] w0.

  (** solver.py:271-281 [exec] after run_until_complete has returned. *)
  Definition exec_result (n : nat) s : res bool :=
    if s_error s then Ok false
    else if match s_queue s with [] => true | _ => false end
            && forallb (fun i => (s_depcount s i =? 0)%Z) (seq 0 n)
            && forallb (s_isdone s) (seq 0 n)
         then Ok true
         else Raise AssertionError.
End Invoker.

(** All states an exec() of the solver can be in. *)
Definition exec_reaches {W} (sv : solver) (run : nat -> W -> tres -> W -> Prop) (w0 : W)
           (s : state W) : Prop :=
  steps (inv_of (sv_inv sv)) run (init_state sv w0) s.
