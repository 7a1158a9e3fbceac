(** Concrete executions, used as witnesses and as non-vacuity cases. *)
From Coq Require Import Permutation.
From Verif Require Import PyBase SolverModel SpecGraph InvokerModel SpecTrace InvokerProofs InvokerInv InvokerThms InvokerExec.
Local Open Scope string_scope.
Local Open Scope list_scope.

(** Concrete case used below: a diamond, 2 workers, every task appends its number to the world. *)
Definition diamond := [DT "a" []; DT "b" ["a"]; DT "c" ["a"]; DT "d" ["b"; "c"]].
Definition diamond_solver (th : Z) : solver :=
  match solver_init id_order diamond (Some th) with inr sv => sv | inl _ => SV 0 0 [] [] [] [] end.
Definition app_task (t : nat) (w : list nat) : tres * list nat := (RNotFalse, w ++ [t]).
Definition fail_task (bad t : nat) (w : list nat) : tres * list nat :=
  (if Nat.eqb t bad then RFalse else RNotFalse, w ++ [t]).
Definition raise_task (bad t : nat) (w : list nat) : tres * list nat :=
  (if Nat.eqb t bad then RExn else RNotFalse, w ++ [t]).
Example diamond_constructed : constructed diamond 2 (diamond_solver 2).
Proof. exists id_order. split; [split; intros; apply Permutation_refl|vm_compute; reflexivity]. Qed.
Definition diamond_schedule :=
  [CGet 0; CFin 0; CGet 1; CFin 1; CFin 0; CFin 0; CJoin].
Definition diamond_run (f : nat -> list nat -> tres * list nat) (cs : list choice) :=
  option_map (fun s => (s_main s, s_log s, s_world s, exec_result 4 s))
    (sched (inv_of (sv_inv (diamond_solver 2))) f cs (init_state (diamond_solver 2) [])).

Definition cell_task (t : nat) (w : nat * nat * nat * nat) : nat * nat * nat * nat :=
  let '(a, b, c, d) := w in
  match t with 0 => (5, b, c, d) | 1 => (a, a + 1, c, d) | 2 => (a, b, a * 2, d) | 3 => (a, b, c, b + c) | _ => w end.

Lemma diamond_dep t u : In (t, u) [(1, 0); (2, 0); (3, 1); (3, 2)] -> depends_on diamond t u.
Proof.
  assert (D : forall i nm, nth_error (map dt_name diamond) i = Some nm -> denotes diamond nm i).
  { intros i nm H. split; [exact H|]. intros j Hj H'.
    destruct i as [|[|[|[|i]]]]; destruct j as [|[|[|[|j]]]]; simpl in *; try lia; try congruence;
      try (destruct i; discriminate); try (destruct j; discriminate). }
  intros H. simpl in H.
  destruct H as [H|[H|[H|[H|[]]]]]; injection H as <- <-;
    [exists (DT "b" ["a"]), "a"|exists (DT "c" ["a"]), "a"
    |exists (DT "d" ["b"; "c"]), "b"|exists (DT "d" ["b"; "c"]), "c"];
    (split; [reflexivity|]); (split; [simpl; tauto|apply D; reflexivity]).
Qed.

Lemma diamond_cells_commute : forall t u, ~ clos_trans nat (depends_on diamond) t u ->
  ~ clos_trans nat (depends_on diamond) u t -> t <> u ->
  forall w, cell_task t (cell_task u w) = cell_task u (cell_task t w).
Proof.
  assert (S : forall t u, In (t, u) [(1, 0); (2, 0); (3, 1); (3, 2)] -> clos_trans nat (depends_on diamond) t u)
    by (intros t u H; apply t_step; now apply diamond_dep).
  assert (S30 : clos_trans nat (depends_on diamond) 3 0)
    by (eapply t_trans; [apply (S 3 1)|apply (S 1 0)]; simpl; tauto).
  pose proof (S 1 0 ltac:(simpl; tauto)) as S10. pose proof (S 2 0 ltac:(simpl; tauto)) as S20.
  pose proof (S 3 1 ltac:(simpl; tauto)) as S31. pose proof (S 3 2 ltac:(simpl; tauto)) as S32. clear S.
  intros t u H1 H2 H3 [[[a b] c] d].
  destruct t as [|[|[|[|t]]]]; destruct u as [|[|[|[|u]]]]; try reflexivity; exfalso;
    first [exact (H3 eq_refl)|exact (H1 S10)|exact (H1 S20)|exact (H1 S30)|exact (H1 S31)|exact (H1 S32)
          |exact (H2 S10)|exact (H2 S20)|exact (H2 S30)|exact (H2 S31)|exact (H2 S32)].
Qed.

Lemma sched_log {W} sv (f : nat -> W -> tres * W) cs w0 l :
  option_map s_log (sched (inv_of (sv_inv sv)) f cs (init_state sv w0)) = Some l ->
  exists s, exec_reaches sv (frun f) w0 s /\ s_log s = l.
Proof.
  destruct (sched (inv_of (sv_inv sv)) f cs (init_state sv w0)) as [s|] eqn:E; [|discriminate].
  intros H. exists s. split; [eapply sched_reaches; exact E|now injection H].
Qed.
Lemma diamond_raises : exists s, exec_reaches (diamond_solver 2) (frun (raise_task 1)) [] s /\
  s_log s = [EStart 0; EFinish 0 RNotFalse; EStart 1; EStart 2; ERaise 1; EFinish 2 RNotFalse].
Proof.
  apply (sched_log _ _ [CGet 0; CFin 0; CGet 1; CFin 0; CFin 1]). vm_compute. reflexivity.
Qed.

Lemma raise_hang_witness :
  exists ts th sv (run : nat -> list nat -> tres -> list nat -> Prop) w0 s,
  constructed ts th sv /\ (1 <= th)%Z /\ tasks_end run /\ exec_reaches sv run w0 s /\
  (exists t, In (ERaise t) (s_log s)) /\ hangs sv run s.
Proof.
  assert (He : tasks_end (frun (raise_task 1))) by (intros t w; unfold frun, raise_task; eauto).
  destruct diamond_raises as (s & R & L).
  assert (Hr : In (ERaise 1) (s_log s)) by (rewrite L; simpl; tauto).
  destruct diamond_constructed as (so & Hso & Hc).
  destruct (raise_hangs _ so diamond 2 _ Hso Hc [] s 1 He R Hr) as (s' & H1 & H2).
  exists diamond, 2%Z, (diamond_solver 2), (frun (raise_task 1)), [], s'.
  split; [now exists so|]. split; [lia|]. split; [exact He|]. split; [|split; [|exact H2]].
  - unfold exec_reaches. eapply steps_trans; [exact R|exact H1].
  - exists 1. destruct (steps_log _ _ _ _ H1) as [l ->]. apply in_app_iff. now left.
Qed.

Lemma no_threads_hang :
  forall W (run : nat -> W -> tres -> W -> Prop) ts th sv w0,
  constructed ts th sv -> (th <= 0)%Z ->
  forall s, exec_reaches sv run w0 s -> s = init_state sv w0 /\ hangs sv run s.
Proof.
  intros W run ts th sv w0 (so & Hso & Hc) Hth s R.
  destruct (no_threads_stuck run so ts th sv Hso Hc w0 Hth s R) as [-> H].
  split; [reflexivity|]. split; [reflexivity|exact H].
Qed.

Lemma no_threads_witness :
  exists ts th sv (run : nat -> list nat -> tres -> list nat -> Prop) w0,
  constructed ts th sv /\ tasks_end run /\ tasks_never_raise run /\ hangs sv run (init_state sv w0).
Proof.
  exists diamond, 0%Z, (diamond_solver 0), (frun app_task), [].
  assert (C : constructed diamond 0 (diamond_solver 0)).
  { exists id_order. split; [split; intros; apply Permutation_refl|vm_compute; reflexivity]. }
  split; [exact C|]. split; [intros t w; unfold frun; eexists _, _; reflexivity|].
  split; [intros t w w' H; discriminate|].
  eapply no_threads_hang; [exact C|lia|constructor].
Qed.

Lemma workers_available_full :
  forall W (run : nat -> W -> tres -> W -> Prop) ts th sv w0 s i,
  constructed ts th sv -> exec_reaches sv run w0 s ->
  ~ failed_in (s_log s) -> raised (s_log s) = [] ->
  i < List.length ts -> ~ In (EFinish i RNotFalse) (s_log s) ->
  List.length (s_workers s) = Z.to_nat th /\
  forall w x, nth_error (s_workers s) w = Some x ->
    (x = WGet /\ (s_queue s <> [] -> exists t q, s_queue s = t :: q /\
                   exists s', step (inv_of (sv_inv sv)) run s s' /\
                     nth_error (s_workers s') w = Some (WRun t) /\
                     s_log s' = s_log s ++ [EStart t])) \/
    exists t, x = WRun t.
Proof.
  intros W run ts th sv w0 s i (so & Hso & Hc) R Hnf Hr Hi Hn.
  assert (Re : reach run sv s) by (exists w0; exact R).
  destruct (workers_available run so ts th sv Hso Hc s i Re Hnf Hr Hi Hn) as [H1 H2].
  split; [exact H1|]. intros w x Hw. destruct (H2 w x Hw) as [-> | Ht]; [left|right; exact Ht].
  split; [reflexivity|]. intros Hq. destruct (s_queue s) as [|t q] eqn:Eq; [contradiction|].
  exists t, q. split; [reflexivity|]. exists (loop_head w s).
  pose proof (reach_Inv run so ts th sv Hso Hc s Re) as HI.
  assert (Hm : s_main s = MJoin).
  { destruct (s_main s) eqn:Em; [reflexivity|].
    destruct (returned_facts run so ts th sv Hso Hc s Re Em) as (_ & Hq' & _). congruence. }
  assert (He : s_error s = false).
  { destruct (s_error s) eqn:E; [|reflexivity]. exfalso. apply Hq.
    now apply (v_errq _ _ _ HI) in E; rewrite Eq in E. }
  split; [apply step_get; auto; congruence|].
  unfold loop_head. rewrite Eq. simpl. rewrite He. simpl. split; [|reflexivity].
  apply nth_error_lupd_eq. now apply nth_error_lt in Hw.
Qed.
