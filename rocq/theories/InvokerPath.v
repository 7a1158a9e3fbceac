(** An execution seen as the sequence of task calls in the order in which they ended. *)
From Coq Require Import Permutation.
From Verif Require Import PyBase SolverModel SpecGraph InvokerModel SpecTrace InvokerProofs InvokerInv InvokerThms.

(** Calls that ended, in order, with their outcome. *)
Definition ended (l : list event) : list (nat * tres) :=
  flat_map (fun e => match e with
                     | EFinish t r => [(t, r)]
                     | ERaise t => [(t, RExn)]
                     | _ => []
                     end) l.

(** The world evolves along a sequence of calls. *)
Inductive task_path {W} (run : nat -> W -> tres -> W -> Prop) : list (nat * tres) -> W -> W -> Prop :=
| tp_nil w : task_path run [] w w
| tp_snoc l t r w w1 w2 :
    task_path run l w w1 -> run t w1 r w2 -> task_path run (l ++ [(t, r)]) w w2.

Lemma ended_app a b : ended (a ++ b) = ended a ++ ended b.
Proof. apply flat_map_app. Qed.
Lemma ended_finished l : finished l = [] -> raised l = [] -> ended l = [].
Proof.
  induction l as [|e l IH]; simpl; intros H1 H2; [reflexivity|].
  destruct e; simpl in *; auto; discriminate.
Qed.
Lemma ended_In l t r : In (t, r) (ended l) <->
  In (EFinish t r) l \/ (r = RExn /\ In (ERaise t) l).
Proof.
  unfold ended. rewrite in_flat_map. split.
  - intros (e & He & H). destruct e as [u|u r'|u|u|]; simpl in H; try tauto.
    + destruct H as [[= -> ->]|[]]. now left.
    + destruct H as [[= -> <-]|[]]. now right.
  - intros [H|[-> H]]; [exists (EFinish t r)|exists (ERaise t)]; simpl; auto.
Qed.
Lemma ended_perm l : Permutation (map fst (ended l)) (finished l ++ raised l).
Proof.
  induction l as [|e l IH]; simpl; [constructor|].
  destruct e as [u|u r'|u|u|]; simpl; auto.
  apply Permutation_cons_app. exact IH.
Qed.

Lemma world_task_path {W} (run : nat -> W -> tres -> W -> Prop) l w w' :
  world_path run l w w' -> task_path run (ended l) w w'.
Proof.
  induction 1 as [w|l t r w w1 w2 H IH Hr|l t w w1 w2 H IH Hr|l e w w1 H IH He].
  - constructor.
  - rewrite ended_app. simpl. econstructor; eauto.
  - rewrite ended_app. simpl. econstructor; eauto.
  - rewrite ended_app. destruct e; simpl in *; try tauto; now rewrite app_nil_r.
Qed.

Section Path.
  Context {W : Type}.
  Variable run : nat -> W -> tres -> W -> Prop.
  Variables (so : set_order) (ts : list dtarget) (th : Z) (sv : solver).
  Hypothesis Hso : fair_order so.
  Hypothesis Hsv : solver_init so ts (Some th) = inr sv.

  Definition deps_ended_first (l : list (nat * tres)) : Prop :=
    forall l1 t r l2, l = l1 ++ (t, r) :: l2 -> forall j, depends_on ts t j -> In (j, RNotFalse) l1.

  Lemma ended_order w0 s : exec_reaches sv run w0 s -> deps_ended_first (ended (s_log s)).
  Proof.
    intros H. unfold exec_reaches in H. remember (init_state sv w0) as s0.
    induction H as [s0|a b c H IH St].
    - subst. intros l1 t r l2 E. destruct l1; discriminate.
    - subst a. specialize (IH eq_refl).
      assert (Hr : reach run sv b) by (exists w0; exact H).
      assert (Hsame : forall l, s_log c = s_log b ++ l -> finished l = [] -> raised l = [] ->
                deps_ended_first (ended (s_log c))).
      { intros l -> Hf Hra. rewrite ended_app, (ended_finished l Hf Hra), app_nil_r. exact IH. }
      destruct St as [w sb Hm Hw Hq|w sb Hm Hw Hq|w t r world' order sb Hm Hw Hrr HP|sb Hm Hrel].
      + destruct (frame_loop w sb) as (_ & _ & _ & l & Hl & Hf & Hra). now apply (Hsame l).
      + destruct (frame_release w sb) as (_ & _ & _ & l & Hl & Hf & Hra). now apply (Hsame l).
      + destruct (after_task_frame w t r order (set_world world' sb)) as (_ & _ & _ & l & Hl & Hf & Hra).
        simpl in Hl. rewrite Hl, !ended_app, (ended_finished l Hf Hra), app_nil_r.
        assert (Ht : In (EStart t) (s_log sb)).
        { apply started_In. pose proof (reach_Inv run so ts th sv Hso Hsv sb Hr) as I.
          apply (Permutation_in t (Permutation_sym (c_perm _ _ _ _ _ _ _ _ (v_core _ _ _ I)))).
          apply in_app_iff. left. apply running_In. eauto. }
        assert (Hd : forall j, depends_on ts t j -> In (j, RNotFalse) (ended (s_log sb))).
        { intros j Hj. apply in_split in Ht. destruct Ht as (p1 & p2 & E).
          apply ended_In. left. rewrite E. apply in_app_iff. left.
          eapply (deps_first run so ts th sv Hso Hsv sb); eauto. }
        assert (Er : ended [match r with RExn => ERaise t | _ => EFinish t r end] = [(t, r)]) by (destruct r; reflexivity).
        rewrite Er. intros l1 u r' l2 E j Hj.
        apply split_snoc in E. destruct E as [(b' & -> & E)|(-> & Ex & El)].
        * eapply IH; eauto.
        * injection Ex as -> ->. subst l1. now apply Hd.
      + now apply (Hsame []); [simpl; rewrite app_nil_r| |].
  Qed.

  (** Summary of an execution, finished or not. *)
  Lemma started_bound s k : reach run sv s -> In (EStart k) (s_log s) -> k < List.length ts.
  Proof.
    intros Hr Hk. pose proof (reach_Inv run so ts th sv Hso Hsv s Hr) as I.
    apply (proj1 (c_enq _ _ _ _ _ _ _ _ (v_core _ _ _ I) k)).
    apply in_app_iff. right. apply in_app_iff. left. now apply started_In.
  Qed.
  Lemma exec_path w0 s : exec_reaches sv run w0 s ->
    task_path run (ended (s_log s)) w0 (s_world s) /\
    NoDup (map fst (ended (s_log s))) /\
    (forall t r, In (t, r) (ended (s_log s)) -> t < List.length ts /\ In (EStart t) (s_log s)) /\
    deps_ended_first (ended (s_log s)).
  Proof.
    intros H. assert (Hr : reach run sv s) by (exists w0; exact H).
    pose proof (reach_Inv run so ts th sv Hso Hsv s Hr) as I.
    destruct (inv_nodup_parts run ts sv s I) as (N1 & N2 & N3 & N4).
    split; [|split; [|split]].
    - apply world_task_path. eapply reach_world; eauto.
    - eapply Permutation_NoDup; [apply Permutation_sym, ended_perm|].
      apply NoDup_app_iff. auto.
    - intros t r Ht. assert (Hin : In t (finished (s_log s) ++ raised (s_log s))).
      { apply (Permutation_in t (ended_perm (s_log s))). apply in_map_iff. now exists (t, r). }
      assert (Hst : In t (started (s_log s))).
      { apply (Permutation_in t (Permutation_sym (c_perm _ _ _ _ _ _ _ _ (v_core _ _ _ I)))).
        apply in_app_iff. now right. }
      split; [|now apply started_In].
      apply (proj1 (c_enq _ _ _ _ _ _ _ _ (v_core _ _ _ I) t)).
      apply in_app_iff. right. apply in_app_iff. now left.
    - eapply ended_order; eauto.
  Qed.
End Path.
