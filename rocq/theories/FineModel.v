(** Calls that take time.  In MakeModel the update of a target happens at one moment, the end
    of the call.  Here the rule of a file target reads its files at moments of its own between
    the beginning and the end of the call, and scribbles in its output meanwhile, while the
    calls of other threads go on (solver.py:16-24 [doit]: asyncio.to_thread; make.py:60-73
    [Executor], 179-182 [FileTarget.update]).
    Simplification: directories, sources and file sets are still handled at one moment (they
    run no command). *)
From Coq Require Import Permutation.
From Verif Require Import PyBase SolverModel InvokerModel SpecTrace CoreModel MakeModel.
Local Open Scope string_scope.
Local Open Scope list_scope.

(** The call for target number [t] has begun and has not ended. *)
Definition busy (l : list event) (t : nat) : Prop := In t (started l) /\ ~ In t (finished l) /\ ~ In t (raised l).

Section Fine.
  Variable canon : string -> string.
  Variable kind : nat -> mkind.
  Variable partial_outputs : bool.

  (** [h]: the states of the execution so far, the last one first. *)
  (** [f] is what the call has seen of the files: of each file its contents at some moment
      of the call. *)
  Definition seen (h : list (state world)) (t : nat) (f : string -> option string) : Prop :=
    forall q, exists s, In s h /\ busy (s_log s) t /\ f q = contents (w_fs (s_world s)) q.
  (** The call began in state [s0]. *)
  Definition began (h : list (state world)) (t : nat) (s0 : state world) : Prop :=
    exists h1 h2, h = h1 ++ s0 :: h2 /\ busy (s_log s0) t /\ forall s, In s h2 -> ~ busy (s_log s) t.

  (** The end of [FileTarget.update] (make.py:179-182), cf. [mk_update].  A rule that fails
      leaves its target as it was before the call, deletes it, or ([partial_outputs]) leaves
      something there. *)
  Inductive fine_update (c : core) (t : nat) (h : list (state world)) (i : nat) (w : world) : tres -> world -> Prop :=
  | fu_rule force b f v m :
      kind i = MFile force b -> seen h t f -> b f = Some v ->
      (w_base w < m)%nat ->
      (forall j mj nj, input canon kind c i j -> w_fs w (t_name (obj c j)) = Some (mj, nj) -> (mj <= m)%nat) ->
      let p := t_name (obj c i) in
      let fs' := fs_set (w_fs w) p (Some (m, Reg v)) in
      fine_update c t h i w RNotFalse
        (WD fs' (update_info fs' (w_cache w) p) (w_base w) (Nat.max (w_now w) m) (w_ran w ++ [(p, true)]))
  | fu_rule_fails force b f fs' now' r ca' :
      kind i = MFile force b -> seen h t f -> b f = None ->
      let p := t_name (obj c i) in
      (forall q, q <> p -> fs' q = w_fs w q) ->
      ((exists s0, began h t s0 /\ fs' p = w_fs (s_world s0) p) /\ now' = w_now w \/
       fs' p = None /\ now' = w_now w \/
       partial_outputs = true /\ (exists m v, (w_base w < m)%nat /\ fs' p = Some (m, Reg v) /\ now' = Nat.max (w_now w) m)) ->
      (r = RFalse /\ ca' = update_info fs' (w_cache w) p \/ r = RExn /\ ca' = w_cache w) ->
      fine_update c t h i w r (WD fs' ca' (w_base w) now' (w_ran w ++ [(p, false)]))
  | fu_plain r w' :
      (forall force b, kind i <> MFile force b) -> mk_update canon kind partial_outputs c i w r w' ->
      fine_update c t h i w r w'.

  Definition fine_task (c : core) (objs : list nat) (h : list (state world)) (k : nat) (w : world) (r : tres) (w' : world) : Prop :=
    match kind (nth k objs (List.length (c_heap c))) with
    | MDir => mk_dir c (nth k objs (List.length (c_heap c))) w r w'
    | _ => task_behaviour c (fine_update c k h) objs k w r w'
    end.

  (** What the scheduler does next, cf. [step]. *)
  Inductive fine_move (sv : solver) (c : core) (objs : list nat) (h : list (state world)) : state world -> state world -> Prop :=
  | fm_plain s s' : step (inv_of (sv_inv sv)) (fun _ _ _ _ => False) s s' -> fine_move sv c objs h s s'
  | fm_ends s w t r world' order :
      s_main s = MJoin -> nth_error (s_workers s) w = Some (WRun t) ->
      fine_task c objs (s :: h) t (s_world s) r world' -> Permutation (inv_of (sv_inv sv) t) order ->
      fine_move sv c objs h s (after_task w t r order (set_world world' s)).

  (** All executions, cf. [exec_reaches], with the number of moves of the scheduler. *)
  Inductive interleaved (sv : solver) (c : core) (objs : list nat) (w0 : world) : nat -> list (state world) -> Prop :=
  | il_start : interleaved sv c objs w0 0 [init_state sv w0]
  | il_moves n s h s' : interleaved sv c objs w0 n (s :: h) -> fine_move sv c objs h s s' -> interleaved sv c objs w0 (S n) (s' :: s :: h)
  | il_writes n s h t force b e : interleaved sv c objs w0 n (s :: h) ->
      s_main s = MJoin -> busy (s_log s) t ->
      let i := nth t objs (List.length (c_heap c)) in
      kind i = MFile force b -> t_need (obj c i) = Some true ->
      let w := s_world s in
      interleaved sv c objs w0 n
        (set_world (WD (fs_set (w_fs w) (t_name (obj c i)) e) (w_cache w) (w_base w) (w_now w) (w_ran w)) s :: s :: h).
End Fine.
