(** A scheduler for concrete executions: used only for examples and witnesses. *)
From Coq Require Import Permutation.
From Verif Require Import PyBase SolverModel InvokerModel SpecTrace.

Inductive choice := CGet (w : nat) | CDrain (w : nat) | CFin (w : nat) | CJoin.

Section Exec.
  Context {W : Type}.
  Variable inv : nat -> list nat.
  Variable f : nat -> W -> tres * W.
  Definition frun (t : nat) (w : W) (r : tres) (w' : W) : Prop := f t w = (r, w').
  Implicit Types s : state W.

  Definition sched1 (c : choice) s : option (state W) :=
    match s_main s with
    | MReturned => None
    | MJoin =>
        match c with
        | CGet w => match nth_error (s_workers s) w, s_queue s with
                    | Some WGet, _ :: _ => Some (loop_head w s) | _, _ => None end
        | CDrain w => match nth_error (s_workers s) w, s_queue s with
                      | Some WDrain, _ :: _ => Some (release_queue w s) | _, _ => None end
        | CFin w => match nth_error (s_workers s) w with
                    | Some (WRun t) =>
                        let '(r, w') := f t (s_world s) in
                        Some (after_task w t r (inv t) (set_world w' s))
                    | _ => None end
        | CJoin => if s_released s then
                     Some (ST (s_depcount s) (s_isdone s) (s_queue s) (s_unfinished s) (s_released s)
                              (s_workers s) (s_on_base s) (s_error s) MReturned (s_log s) (s_world s))
                   else None
        end
    end.

  Lemma sched1_step c s s' : sched1 c s = Some s' -> step inv frun s s'.
  Proof.
    unfold sched1. destruct (s_main s) eqn:Em; [|discriminate]. destruct c.
    - destruct (nth_error (s_workers s) w) as [[]|] eqn:Ew; try discriminate.
      destruct (s_queue s) eqn:Eq; [discriminate|]. intros [= <-]. apply step_get; auto. congruence.
    - destruct (nth_error (s_workers s) w) as [[]|] eqn:Ew; try discriminate.
      destruct (s_queue s) eqn:Eq; [discriminate|]. intros [= <-]. apply step_drain; auto. congruence.
    - destruct (nth_error (s_workers s) w) as [[]|] eqn:Ew; try discriminate.
      destruct (f t (s_world s)) as [r w'] eqn:Ef. intros [= <-]. eapply step_finish; eauto.
    - destruct (s_released s) eqn:Er; [|discriminate]. intros [= <-]. rewrite <- Er at 1. now apply step_join.
  Qed.

  Fixpoint sched (cs : list choice) s : option (state W) :=
    match cs with
    | [] => Some s
    | c :: cs' => match sched1 c s with Some s' => sched cs' s' | None => None end
    end.

  Lemma sched_steps cs s0 s s' : steps inv frun s0 s -> sched cs s = Some s' -> steps inv frun s0 s'.
  Proof.
    revert s; induction cs as [|c cs IH]; simpl; intros s H.
    - intros [= <-]. exact H.
    - destruct (sched1 c s) as [s1|] eqn:E; [|discriminate]. apply IH.
      eapply steps_snoc; [exact H|now apply sched1_step with c].
  Qed.
End Exec.

Lemma sched_reaches {W} sv (f : nat -> W -> tres * W) cs w0 s :
  sched (inv_of (sv_inv sv)) f cs (init_state sv w0) = Some s -> exec_reaches sv (frun f) w0 s.
Proof. apply sched_steps. constructor. Qed.
