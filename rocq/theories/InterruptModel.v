(** Model of Ctrl-C during a build: licant/solver.py:83-94 and 144-146. *)
From Coq Require Import Permutation.
From Verif Require Import PyBase SolverModel InvokerModel CoreModel MakeModel.

Section Interrupt.
  Context {W : Type}.
  Variable run : nat -> W -> tres -> W -> Prop.      (* behaviour of what_to_do *)
  Variable killed : nat -> W -> W -> Prop.           (* what it leaves if its child processes are killed *)
  Implicit Types s : state W.

  (** The tasks whose what_to_do was handed to a thread and has not come back
      (solver.py:20-21, [await asyncio.to_thread(...)]). *)
  Definition in_threads s : list nat :=
    flat_map (fun x => match x with WRun t => [t] | _ => [] end) (s_workers s).

  (** solver.py:83-94: the worker coroutines are cancelled, so no task is started any more,
      but threads cannot be cancelled.  A call that a thread has begun goes on to its end
      (the interpreter waits for its threads before it exits), one still waiting for a free
      thread never begins, and a call that waits for a child process sees it die (the
      terminal sends the signal to the whole process group).
      Simplification: each of these happens in one go, in any order. *)
  Inductive settles : list nat -> W -> W -> Prop :=
  | settles_done w : settles [] w w
  | settles_cancelled t ts w w' : settles ts w w' -> settles (t :: ts) w w'
  | settles_finishes t ts r w w1 w' : run t w r w1 -> settles ts w1 w' -> settles (t :: ts) w w'
  | settles_killed t ts w w1 w' : killed t w w1 -> settles ts w1 w' -> settles (t :: ts) w w'.

  (** Ctrl-C in state [s], while the event loop waits (it is there nearly all the time);
      [w']: the world when the process is gone.  solver.py:94 raises the exception again;
      what cli.py does with it is in CliModel ([on_interrupt]). *)
  Definition interrupted s (w' : W) : Prop :=
    s_main s = MJoin /\ exists ts, Permutation (in_threads s) ts /\ settles ts (s_world s) w'.

  Variable inv : nat -> list nat.

  (** Ctrl-C while a worker coroutine is being executed: the exception is raised there and
      caught there (solver.py:144-146), the flag is set and the worker goes to release_queue
      (149).  [caught_taken]: after [queue.get()] (116) and before [task.doit()] (126).
      [caught_returned]: what_to_do is finished, some dependents have been told (54-55), but
      [task_done] (127) has not been called.
      Simplification: the exception does not strike inside a statement. *)
  Inductive caught : state W -> state W -> Prop :=
  | caught_taken w t q s :
      s_main s = MJoin -> nth_error (s_workers s) w = Some WGet -> s_queue s = t :: q ->
      caught s (release_queue w (set_error (set_queue q s)))
  | caught_returned w t r world' told untold s s1 :
      s_main s = MJoin -> nth_error (s_workers s) w = Some (WRun t) ->
      run t (s_world s) r world' -> r <> RExn -> Permutation (inv t) (told ++ untold) ->
      decrease_all told (add_log (EFinish t r) (set_done t (set_world world' s))) = inl s1 ->
      caught s (release_queue w (set_error s1)).
End Interrupt.

(** A rule whose commands are killed (make.py:44-60: [proc.wait()] returns a status that is
    not zero and the result is False): whatever the rule would have made, the target is left alone or deleted, or
    ([partial_outputs]) something is left there.  The other kinds of targets run no
    commands. *)
Inductive mk_killed (kind : nat -> mkind) (partial_outputs : bool) (c : core) (objs : list nat) (k : nat) (w : world) : world -> Prop :=
| killed_rule force b fs' now' ca' :
    let i := nth k objs (List.length (c_heap c)) in
    let p := t_name (obj c i) in
    kind i = MFile force b -> t_need (obj c i) = Some true ->
    (fs' = w_fs w /\ now' = w_now w \/
     fs' = fs_set (w_fs w) p None /\ now' = w_now w \/
     partial_outputs = true /\ (exists m v, (w_base w < m)%nat /\
       fs' = fs_set (w_fs w) p (Some (m, Reg v)) /\ now' = Nat.max (w_now w) m)) ->
    mk_killed kind partial_outputs c objs k w (WD fs' ca' (w_base w) now' (w_ran w ++ [(p, false)])).
