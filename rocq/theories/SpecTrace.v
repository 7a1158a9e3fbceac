(** Vocabulary for statements about executions: reads only the trace of events. *)
From Verif Require Import PyBase SolverModel InvokerModel.

Definition started (l : list event) : list nat :=
  flat_map (fun e => match e with EStart t => [t] | _ => [] end) l.
Definition finished (l : list event) : list nat :=
  flat_map (fun e => match e with EFinish t _ => [t] | _ => [] end) l.
Definition raised (l : list event) : list nat :=
  flat_map (fun e => match e with ERaise t => [t] | _ => [] end) l.
Definition dropped (l : list event) : list nat :=
  flat_map (fun e => match e with EDrop t => [t] | _ => [] end) l.

(** Some what_to_do has returned False. *)
Definition failed_in (l : list event) : Prop := exists t, In (EFinish t RFalse) l.

(** Calls of what_to_do that were made but have neither returned nor raised. *)
Definition in_progress (l : list event) : nat :=
  List.length (started l) - List.length (finished l) - List.length (raised l).

(** The world evolves by the what_to_do calls in the order in which they end. *)
Inductive world_path {W} (run : nat -> W -> tres -> W -> Prop) : list event -> W -> W -> Prop :=
| wp_nil w : world_path run [] w w
| wp_finish l t r w w1 w2 :
    world_path run l w w1 -> run t w1 r w2 -> world_path run (l ++ [EFinish t r]) w w2
| wp_raise l t w w1 w2 :
    world_path run l w w1 -> run t w1 RExn w2 -> world_path run (l ++ [ERaise t]) w w2
| wp_other l e w w1 :
    world_path run l w w1 ->
    match e with EFinish _ _ | ERaise _ => False | _ => True end ->
    world_path run (l ++ [e]) w w1.

(** Executions with their number of scheduling steps. *)
Inductive nsteps {W} (inv : nat -> list nat) (run : nat -> W -> tres -> W -> Prop)
  : nat -> state W -> state W -> Prop :=
| nsteps_0 s : nsteps inv run 0 s s
| nsteps_S k s1 s2 s3 : nsteps inv run k s1 s2 -> step inv run s2 s3 -> nsteps inv run (S k) s1 s3.

(** [l] lists the targets so that dependencies come first. *)
Definition dependency_order (dep : nat -> nat -> Prop) (l : list nat) : Prop :=
  forall l1 t l2 j, l = l1 ++ t :: l2 -> dep t j -> In j l1.

(** The constructor accepted [ts] with [th] threads and produced [sv], for some iteration
    order of the sets involved. *)
Definition constructed (ts : list dtarget) (th : Z) (sv : solver) : Prop :=
  exists so, fair_order so /\ solver_init so ts (Some th) = inr sv.

(** No step is possible although exec() has not returned. *)
Definition hangs {W} (sv : solver) (run : nat -> W -> tres -> W -> Prop) (s : state W) : Prop :=
  s_main s = MJoin /\ forall s', ~ step (inv_of (sv_inv sv)) run s s'.

(** Every call of what_to_do ends somehow (with a value or an exception). *)
Definition tasks_end {W} (run : nat -> W -> tres -> W -> Prop) : Prop :=
  forall t w, exists r w', run t w r w'.
Definition tasks_never_raise {W} (run : nat -> W -> tres -> W -> Prop) : Prop :=
  forall t w w', ~ run t w RExn w'.
