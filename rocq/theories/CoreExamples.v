(** Concrete registries: witnesses of refutations and non-vacuity examples. *)
From Coq Require Import Permutation.
From Verif Require Import PyBase SolverModel SpecGraph SolverProofs InvokerModel SpecTrace InvokerThms
  InvokerExec InvokerPath CoreModel SpecCore CoreProofs NeedProofs RuProofs CoreThms ExtProofs.
Local Open Scope string_scope.
Local Open Scope list_scope.

(** canonical_path in the directory "/". *)
Definition root_canon (x : string) : string := if prefix "/" x then x else "/" ++ x.

Lemma root_canon_idem x : root_canon (root_canon x) = root_canon x.
Proof.
  unfold root_canon. destruct (prefix "/" x) eqn:E; [now rewrite E|].
  change (prefix "/" ("/" ++ x)) with (prefix "" x). destruct x; reflexivity.
Qed.

(** A source, an object file and a program; the names are spelt in two ways. *)
Definition ex_ops : list cop :=
  [OpNew Updatable "/app" ["o"; "/s"]; OpNew Updatable "/o" ["s"]; OpNew Updatable "/s" []].
Definition ex_core (th : option Z) : core := crun root_canon ex_ops (new_core th).
Definition ex_update_if (i : nat) : res bool := Ok (Nat.eqb i 1).   (* only /o is out of date *)

Definition the_core (r : res core) : core := match r with Ok c => c | _ => empty_core end.
Definition ex_evaluated : core :=
  the_core (update_update_needity root_canon ex_update_if 10 (ex_core (Some 2%Z))).

Lemma ex_evaluation : update_update_needity root_canon ex_update_if 10 (ex_core (Some 2%Z)) = Ok ex_evaluated.
Proof. vm_compute. reflexivity. Qed.

(** C17: a query makes an alias that a later registration does not update. *)
Lemma has_visible :
  exists canon c nm ops q, (forall x, canon (canon x) = canon x) /\
  core_get canon (crun canon ops (snd (core_has canon c nm))) q <> core_get canon (crun canon ops c) q.
Proof.
  exists root_canon, (crun root_canon [OpNew Updatable "/b" []] empty_core), "b",
    [OpNew Updatable "/b" []], "b".
  split; [exact root_canon_idem|]. vm_compute. discriminate.
Qed.

(** C20: a target registered again is not seen through cached_deplist. *)
Definition stale_ops : list cop := [OpNew Updatable "a" ["b"]; OpNew Updatable "b" []].
Definition stale_before : core :=
  the_core (update_update_needity id (fun _ => Ok false) 10 (crun id stale_ops empty_core)).
Definition stale_now : core := crun id [OpNew Updatable "b" []] stale_before.
Definition stale_if (i : nat) : res bool := Ok (Nat.eqb i 2).       (* the new b is out of date *)
Definition stale_after : core := the_core (update_update_needity id stale_if 10 stale_now).

Lemma stale_need :
  exists ops ops' u u' fuel c c',
  update_update_needity id u fuel (crun id ops empty_core) = Ok c /\
  update_update_needity id u' fuel (crun id ops' c) = Ok c' /\
  exists i, resolves id c' "a" i /\ out_of_date_below id u' c' i /\ t_need (obj c' i) = Some false.
Proof.
  exists stale_ops, [OpNew Updatable "b" []], (fun _ => Ok false), stale_if, 10, stale_before, stale_after.
  split; [vm_compute; reflexivity|]. split; [vm_compute; reflexivity|].
  exists 0. split; [left; vm_compute; tauto|]. split; [|vm_compute; reflexivity].
  exists 2. split; [|reflexivity]. apply rt_step. exists "b". split; [vm_compute; tauto|].
  left. vm_compute. tauto.
Qed.

(** C21: a broken target elsewhere ends every action, also an action on a healthy target. *)
Lemma broken_elsewhere :
  exists c ops i u, resolves id c (t_name (obj c i)) i /\ cone_registered id c i /\
  acyclic_cone id c i /\ Forall (unrelated id c i) ops /\
  (exists c', update_update_needity id u 10 c = Ok c') /\
  forall fuel, 3 <= fuel ->
  exists e, update_update_needity id u fuel (crun id ops c) = Raise e.
Proof.
  exists (crun id [OpNew Updatable "t" []] empty_core), [OpNew Updatable "x" ["missing"]], 0, (fun _ => Ok false).
  assert (D : forall j, ~ obj_dep id (crun id [OpNew Updatable "t" []] empty_core) 0 j).
  { intros j (d & Hd & _). vm_compute in Hd. exact Hd. }
  assert (C : forall j, in_cone id (crun id [OpNew Updatable "t" []] empty_core) 0 j -> j = 0).
  { intros j H. apply Operators_Properties.clos_rt_rt1n in H. destruct H as [|y z Hy _]; [reflexivity|].
    exfalso. eapply D; eauto. }
  split; [left; vm_compute; tauto|]. split; [|split; [|split; [|split]]].
  - intros j d Hj Hd. apply C in Hj. subst. vm_compute in Hd. contradiction.
  - intros j Hj Hc. apply C in Hj. subst. apply clos_trans_first in Hc. destruct Hc as [y Hy]. eapply D; eauto.
  - constructor; [|constructor]. intros x [->|(j & Hj & Hx)].
    + split; vm_compute; discriminate.
    + apply C in Hj. subst. vm_compute in Hx. contradiction.
  - eexists. vm_compute. reflexivity.
  - intros [|[|[|fuel]]] Hf; try lia. eexists. cbv. reflexivity.
Qed.

(** A cycle of up-to-date targets: the evaluation of any target recurses without end. *)
Definition cyc_core : core := crun id [OpNew Updatable "a" ["b"]; OpNew Updatable "b" ["a"]] empty_core.
Lemma cycle_elsewhere :
  exists c ops i u, resolves id c (t_name (obj c i)) i /\ cone_registered id c i /\
  acyclic_cone id c i /\ Forall (unrelated id c i) ops /\
  (exists c', update_update_needity id u 10 c = Ok c') /\
  forall fuel, update_update_needity id u fuel (crun id ops c) = OutOfFuel.
Proof.
  set (c0 := crun id [OpNew Updatable "t" []] empty_core).
  set (ops := [OpNew Updatable "a" ["b"]; OpNew Updatable "b" ["a"]]).
  exists c0, ops, 0, (fun _ => Ok false).
  assert (D : forall j, ~ obj_dep id c0 0 j).
  { intros j (d & Hd & _). vm_compute in Hd. exact Hd. }
  assert (C : forall j, in_cone id c0 0 j -> j = 0).
  { intros j H. apply Operators_Properties.clos_rt_rt1n in H. destruct H as [|y z Hy _]; [reflexivity|].
    exfalso. eapply D; eauto. }
  split; [left; vm_compute; tauto|]. split; [|split; [|split; [|split]]].
  - intros j d Hj Hd. apply C in Hj. subst. vm_compute in Hd. contradiction.
  - intros j Hj Hc. apply C in Hj. subst. apply clos_trans_first in Hc. destruct Hc as [y Hy]. eapply D; eauto.
  - assert (M : forall x, mentioned id c0 0 x -> x = "t").
    { intros x [->|(j & Hj & Hx)]; [reflexivity|]. apply C in Hj. subst. vm_compute in Hx. contradiction. }
    constructor; [|constructor; [|constructor]]; intros x Hx; apply M in Hx; subst; split; vm_compute; discriminate.
  - eexists. vm_compute. reflexivity.
  - intros [|[|fuel]]; try (vm_compute; reflexivity).
    (* the first target is evaluated, the second enters the cycle *)
    set (c1 := set_need (set_cached (crun id ops c0) 0 []) 0 (Some false)).
    change (update_update_needity id (fun _ => Ok false) (S (S fuel)) (crun id ops c0))
      with (do! c' <- eval_one id (fun _ => Ok false) (S (S fuel)) c1 1;
            eval_all id (fun _ => Ok false) (S (S fuel)) [2] c').
    unfold eval_one. change (t_class (obj c1 1)) with Updatable. cbn iota.
    assert (E : forall k, obj_dep id c1 1 k <-> k = 2).
    { intros k. split.
      - intros (d & Hd & Hr). vm_compute in Hd. destruct Hd as [<-|[]].
        destruct Hr as [Hr|[Hn Hr]]; vm_compute in Hr; intuition congruence.
      - intros ->. exists "b". split; [vm_compute; tauto|left; vm_compute; tauto]. }
    assert (E' : forall k, obj_dep id c1 2 k <-> k = 1).
    { intros k. split.
      - intros (d & Hd & Hr). vm_compute in Hd. destruct Hd as [<-|[]].
        destruct Hr as [Hr|[Hn Hr]]; vm_compute in Hr; intuition congruence.
      - intros ->. exists "a". split; [vm_compute; tauto|left; vm_compute; tauto]. }
    assert (Cn : forall j, in_cone id c1 1 j -> j = 1 \/ j = 2).
    { intros j H. apply Operators_Properties.clos_rt_rtn1 in H. induction H as [|y z Hyz _ IH]; [now left|].
      destruct IH as [->| ->]; [right; now apply E|left; now apply E']. }
    rewrite (rec_need_cycle id (fun _ => Ok false) (S (S fuel)) c1 1); [reflexivity|..].
    + split; [vm_compute; repeat constructor; simpl; intuition discriminate|].
      intros nm j Hj. vm_compute in Hj. simpl. vm_compute. intuition (match goal with H : (_, _) = _ |- _ => injection H as <- <- end; repeat constructor).
    + intros j b Hj. destruct j as [|[|[|j]]]; vm_compute in Hj; try discriminate.
      * injection Hj as <-. split; [discriminate|]. intros (k & _ & Hk). discriminate.
      * destruct j; discriminate.
    + intros j l Hj. destruct j as [|[|[|j]]]; vm_compute in Hj; try discriminate.
      * injection Hj as <-. reflexivity.
      * destruct j; discriminate.
    + intros j Hj. apply Cn in Hj. destruct Hj as [->| ->]; reflexivity.
    + intros j Hj. apply Cn in Hj. destruct Hj as [->| ->]; split; reflexivity.
    + intros j d Hj Hd. apply Cn in Hj. destruct Hj as [->| ->]; vm_compute in Hd; destruct Hd as [<-|[]].
      * exists 2. left. vm_compute. tauto.
      * exists 1. left. vm_compute. tauto.
    + exists 1. split; [apply rt_refl|]. eapply t_trans; apply t_step; [now apply E|now apply E'].
Qed.

(** C22: recurse_update called directly, without Target.invoke. *)
Definition direct_core : core := crun id [OpNew Updatable "t" []] (new_core None).
Definition direct_ru : ru_result := recurse_update id direct_core (fun l => l) id_order 0 (Some 1%Z).
Definition direct_parts : list nat * solver :=
  match direct_ru with RuExec o sv => (o, sv) | _ => ([], SV 0 0 [] [] [] []) end.
Lemma direct_ok : direct_ru = RuExec (fst direct_parts) (snd direct_parts).
Proof. vm_compute. reflexivity. Qed.

Lemma id_order_fair : fair_order id_order.
Proof. split; intros; apply Permutation_refl. Qed.

Lemma direct_call_hangs :
  exists ops th c i objs sv (w0 : unit), session id ops th c /\ NoDup (new_names ops) /\
  recurse_update id c (fun l => l) id_order i (Some 1%Z) = RuExec objs sv /\
  (forall j, in_cone id c i j -> t_class (obj c j) = Updatable) /\
  forall upd s, exec_reaches sv (task_behaviour c upd objs) w0 s -> s_main s = MJoin.
Proof.
  exists [OpNew Updatable "t" []], None, direct_core, 0, (fst direct_parts), (snd direct_parts), tt.
  assert (Hs : session id [OpNew Updatable "t" []] None direct_core) by apply ses_registered.
  assert (Hd : NoDup (new_names [OpNew Updatable "t" []])) by (vm_compute; repeat constructor; intuition).
  assert (D : forall j, ~ obj_dep id direct_core 0 j).
  { intros j (d & Hx & _). vm_compute in Hx. exact Hx. }
  assert (C : forall j, in_cone id direct_core 0 j -> j = 0).
  { intros j H. apply Operators_Properties.clos_rt_rt1n in H. destruct H as [|y z Hy _]; [reflexivity|].
    exfalso. eapply D; eauto. }
  split; [exact Hs|]. split; [exact Hd|]. split; [exact direct_ok|]. split.
  - intros j Hj. apply C in Hj. subst. reflexivity.
  - intros upd s. eapply (never_returns id _ _ Hd direct_core Hs "t" 0) with (order := fun l => l) (so := id_order).
    + vm_compute. tauto.
    + intros l. apply Permutation_refl.
    + exact id_order_fair.
    + reflexivity.
    + exact direct_ok.
    + intros j Hj. apply C in Hj. subst. reflexivity.
Qed.

(** C24 *)
Lemma default_action_fails :
  exists ops c i, session id ops None c /\ In ("t", i) (c_targets c) /\
  cone_registered id c i /\ acyclic_cone id c i /\
  forall order so, (forall l, Permutation l (order l)) -> fair_order so ->
  recurse_update_get_args id c order so i = RuRejected SolverTypeError.
Proof.
  exists [OpNew Updatable "t" []], direct_core, 0. split; [apply ses_registered|].
  split; [vm_compute; tauto|].
  assert (D : forall j, ~ obj_dep id direct_core 0 j).
  { intros j (d & Hx & _). vm_compute in Hx. exact Hx. }
  assert (C : forall j, in_cone id direct_core 0 j -> j = 0).
  { intros j H. apply Operators_Properties.clos_rt_rt1n in H. destruct H as [|y z Hy _]; [reflexivity|].
    exfalso. eapply D; eauto. }
  assert (R : cone_registered id direct_core 0).
  { intros j d Hj Hd. apply C in Hj. subst. vm_compute in Hd. contradiction. }
  split; [exact R|]. split.
  - intros j Hj Hc. apply C in Hj. subst. apply clos_trans_first in Hc. destruct Hc as [y Hy]. eapply D; eauto.
  - intros order so Ho Hso. eapply (ses_default_fails id [OpNew Updatable "t" []]); eauto.
    + vm_compute. repeat constructor. intuition.
    + apply ses_registered.
    + vm_compute. left. reflexivity.
Qed.

(** C63 *)
Lemma routine_actions_wrong :
  hasaction routine_actions "update" = false /\ hasaction routine_actions "invoke_routine" = false /\
  exists a, hasaction routine_actions a = true /\ ~ In a routine_methods.
Proof.
  split; [vm_compute; reflexivity|]. split; [vm_compute; reflexivity|].
  exists "invoke_routineupdate". split; [vm_compute; reflexivity|]. vm_compute. intuition discriminate.
Qed.
Lemma declared_actions :
  (forall a, hasaction target_actions a = true -> In a target_methods) /\
  (forall a, hasaction updatable_actions a = true -> In a updatable_methods) /\
  (forall a, hasaction routine_actions a = true -> a <> "invoke_routineupdate" -> In a routine_methods).
Proof.
  assert (G : forall l m, forallb (fun a => smem String.eqb a m) l = true ->
              forall a, hasaction l a = true -> In a m).
  { intros l m H a Ha. unfold hasaction in Ha. apply (smem_In String.eqb string_eqb_spec') in Ha.
    rewrite forallb_forall in H. specialize (H a Ha). now apply (smem_In String.eqb string_eqb_spec') in H. }
  split; [apply G; vm_compute; reflexivity|]. split; [apply G; vm_compute; reflexivity|].
  intros a Ha Hn. assert (In a (routine_methods ++ ["invoke_routineupdate"])).
  { revert a Ha Hn. intros a Ha _. revert a Ha. apply G. vm_compute. reflexivity. }
  apply in_app_iff in H. destruct H as [H|[H|[]]]; [exact H|congruence].
Qed.
