(** A scheduler for concrete builds: used only for examples and witnesses. *)
From Coq Require Import Permutation.
From Verif Require Import PyBase PyPath SolverModel SpecGraph InvokerModel SpecTrace InvokerExec CoreModel SpecCore
  CoreProofs NeedProofs MakeModel MakeEval SpecMake MakeProofs MakeFacts.

Section OExec.
  Context {W : Type}.
  Variable inv : nat -> list nat.
  Variable f : nat -> W -> option (tres * W).
  Definition orun (t : nat) (w : W) (r : tres) (w' : W) : Prop := f t w = Some (r, w').
  Implicit Types s : state W.

  Definition osched1 (c : choice) s : option (state W) :=
    match s_main s with
    | MReturned => None
    | MJoin =>
        match c with
        | CGet w => match nth_error (s_workers s) w, s_queue s with
                    | Some WGet, _ :: _ => Some (loop_head w s) | _, _ => None end
        | CDrain w => match nth_error (s_workers s) w, s_queue s with
                      | Some WDrain, _ :: _ => Some (release_queue w s) | _, _ => None end
        | CFin w => match nth_error (s_workers s) w with
                    | Some (WRun t) =>
                        match f t (s_world s) with
                        | Some (r, w') => Some (after_task w t r (inv t) (set_world w' s))
                        | None => None
                        end
                    | _ => None end
        | CJoin => if s_released s then
                     Some (ST (s_depcount s) (s_isdone s) (s_queue s) (s_unfinished s) (s_released s)
                              (s_workers s) (s_on_base s) (s_error s) MReturned (s_log s) (s_world s))
                   else None
        end
    end.
  Fixpoint osched (cs : list choice) s : option (state W) :=
    match cs with
    | [] => Some s
    | c :: cs' => match osched1 c s with Some s' => osched cs' s' | None => None end
    end.

  Variable run : nat -> W -> tres -> W -> Prop.
  Hypothesis sound : forall t w r w', f t w = Some (r, w') -> run t w r w'.

  Lemma osched1_step c s s' : osched1 c s = Some s' -> step inv run s s'.
  Proof.
    unfold osched1. destruct (s_main s) eqn:Em; [|discriminate]. destruct c.
    - destruct (nth_error (s_workers s) w) as [[]|] eqn:Ew; try discriminate.
      destruct (s_queue s) eqn:Eq; [discriminate|]. intros [= <-]. apply step_get; auto. congruence.
    - destruct (nth_error (s_workers s) w) as [[]|] eqn:Ew; try discriminate.
      destruct (s_queue s) eqn:Eq; [discriminate|]. intros [= <-]. apply step_drain; auto. congruence.
    - destruct (nth_error (s_workers s) w) as [[]|] eqn:Ew; try discriminate.
      destruct (f t (s_world s)) as [[r w']|] eqn:Ef; [|discriminate]. intros [= <-]. eapply step_finish; eauto.
    - destruct (s_released s) eqn:Er; [|discriminate]. intros [= <-]. rewrite <- Er at 1. now apply step_join.
  Qed.
  Lemma osched_steps cs s0 s s' : steps inv run s0 s -> osched cs s = Some s' -> steps inv run s0 s'.
  Proof.
    revert s; induction cs as [|c cs IH]; simpl; intros s H.
    - intros [= <-]. exact H.
    - destruct (osched1 c s) as [s1|] eqn:E; [|discriminate]. apply IH.
      eapply steps_snoc; [exact H|now apply osched1_step with c].
  Qed.
End OExec.

(** A deterministic choice of the behaviour of a rule.  The new file gets the next time stamp;
    [on_fail p]: what a failing rule leaves behind and whether it raises. *)
Inductive leftover := LKeep | LRemove | LPartial (v : string).
Section MExec.
  Variable canon : string -> string.
  Variable kind : nat -> mkind.
  Variable partial : bool.
  Variable on_fail : string -> leftover * bool.
  Variable c : core.

  Definition date_le (fs : fsys) (m : nat) (o : tobj) : bool :=
    match fs (t_name o) with Some (mo, _) => Nat.leb mo m | None => true end.

  Definition fupdate (i : nat) (w : world) : option (tres * world) :=
    let p := t_name (obj c i) in
    let m := S (Nat.max (w_base w) (w_now w)) in
    match kind i with
    | MFile _ b =>
        match b (contents (w_fs w)) with
        | Some v =>
            if forallb (date_le (w_fs w) m) (dummy_obj :: c_heap c) then
              let fs' := fs_set (w_fs w) p (Some (m, Reg v)) in
              Some (RNotFalse, WD fs' (update_info fs' (w_cache w) p) (w_base w) (Nat.max (w_now w) m) (w_ran w ++ [(p, true)]))
            else None
        | None =>
            let go fs' now' :=
              if snd (on_fail p) then Some (RExn, WD fs' (w_cache w) (w_base w) now' (w_ran w ++ [(p, false)]))
              else Some (RFalse, WD fs' (update_info fs' (w_cache w) p) (w_base w) now' (w_ran w ++ [(p, false)])) in
            match fst (on_fail p) with
            | LKeep => go (w_fs w) (w_now w)
            | LRemove => go (fs_set (w_fs w) p None) (w_now w)
            | LPartial v => if partial then go (fs_set (w_fs w) p (Some (m, Reg v))) (Nat.max (w_now w) m) else None
            end
        end
    | MSource => Some (RNotFalse, WD (w_fs w) (update_info (w_fs w) (snd (get_info (w_fs w) (w_cache w) p)) p)
                                    (w_base w) (w_now w) (w_ran w ++ [(p, true)]))
    | MSet => Some (RNotFalse, w)
    | _ => None
    end.
  Definition fdir (i : nat) (w : world) : option (tres * world) :=
    let p := t_name (obj c i) in
    let m := S (Nat.max (w_base w) (w_now w)) in
    let '(x, ca') := get_info (w_fs w) (w_cache w) p in
    if fi_exist x then Some (RNotFalse, WD (w_fs w) ca' (w_base w) (w_now w) (w_ran w))
    else
      match w_fs w p, existsb (is_reg (w_fs w)) (ancestors p) with
      | None, false =>
          let fs' := makedirs (w_fs w) p m in
          Some (RNotFalse, WD fs' (update_info fs' ca' p) (w_base w) (Nat.max (w_now w) m) (w_ran w ++ [(p, true)]))
      | _, _ => Some (RExn, WD (w_fs w) ca' (w_base w) (w_now w) (w_ran w ++ [(p, false)]))
      end.
  Definition fmake (objs : list nat) (k : nat) (w : world) : option (tres * world) :=
    match nth_error objs k with
    | None => None
    | Some j =>
        match kind j with
        | MDir => fdir j w
        | _ => match t_class (obj c j), t_need (obj c j) with
               | Updatable, Some true => fupdate j w
               | Updatable, Some false => Some (RNotFalse, w)
               | _, _ => Some (RExn, w)
               end
        end
    end.

  Lemma date_le_obj fs m j mj nj : forallb (date_le fs m) (dummy_obj :: c_heap c) = true ->
    fs (t_name (obj c j)) = Some (mj, nj) -> mj <= m.
  Proof.
    intros H E. rewrite forallb_forall in H. unfold obj in E.
    assert (In (nth j (c_heap c) dummy_obj) (dummy_obj :: c_heap c)).
    { destruct (nth_in_or_default j (c_heap c) dummy_obj) as [A|A]; [now right|]. rewrite A. now left. }
    specialize (H _ H0). unfold date_le in H. rewrite E in H. now apply Nat.leb_le in H.
  Qed.

  Lemma fmake_sound objs k w r w' : fmake objs k w = Some (r, w') -> mk_task canon kind partial c objs k w r w'.
  Proof.
    unfold fmake, mk_task, task_behaviour. destruct (nth_error objs k) as [j|] eqn:Ej; [|discriminate].
    rewrite (nth_error_nth _ _ (List.length (c_heap c)) Ej).
    assert (D : fdir j w = Some (r, w') -> mk_dir c j w r w').
    { unfold fdir. destruct (get_info (w_fs w) (w_cache w) (t_name (obj c j))) as [x ca'] eqn:Eg.
      destruct (fi_exist x) eqn:Ex.
      - intros [= <- <-]. now apply (dir_exists c j w x ca').
      - destruct (w_fs w (t_name (obj c j))) as [e|] eqn:Ef.
        + intros [= <- <-]. eapply dir_raises; eauto. left. congruence.
        + destruct (existsb (is_reg (w_fs w)) (ancestors (t_name (obj c j)))) eqn:Ea.
          * intros [= <- <-]. eapply dir_raises; eauto.
          * intros [= <- <-]. apply (dir_created c j w x ca' (S (Nat.max (w_base w) (w_now w)))); auto. lia. }
    assert (U : fupdate j w = Some (r, w') -> mk_update canon kind partial c j w r w').
    { unfold fupdate. destruct (kind j) as [f b| | | |] eqn:Ek; try discriminate.
      - destruct (b (contents (w_fs w))) as [v|] eqn:Eb.
        + destruct (forallb _ (dummy_obj :: c_heap c)) eqn:Ed; [|discriminate]. intros [= <- <-].
          apply (up_rule _ _ _ _ _ _ f b v (S (Nat.max (w_base w) (w_now w)))); auto; [lia|].
          intros x mx nx _ E. eapply date_le_obj; eauto.
        + destruct (on_fail (t_name (obj c j))) as [lo raises]. simpl.
          assert (R : forall fs' now', (fs' = w_fs w /\ now' = w_now w \/
               fs' = fs_set (w_fs w) (t_name (obj c j)) None /\ now' = w_now w \/
               partial = true /\ (exists m v, (w_base w < m)%nat /\
                 fs' = fs_set (w_fs w) (t_name (obj c j)) (Some (m, Reg v)) /\ now' = Nat.max (w_now w) m)) ->
             (if raises then Some (RExn, WD fs' (w_cache w) (w_base w) now' (w_ran w ++ [(t_name (obj c j), false)]))
              else Some (RFalse, WD fs' (update_info fs' (w_cache w) (t_name (obj c j))) (w_base w) now' (w_ran w ++ [(t_name (obj c j), false)])))
             = Some (r, w') -> mk_update canon kind partial c j w r w').
          { intros fs' now' Hf H. destruct raises; injection H as <- <-; eapply up_rule_fails; eauto. }
          destruct lo as [| |v].
          * apply R. now left.
          * apply R. right. now left.
          * destruct partial; [|discriminate]. apply R. right. right. split; [reflexivity|].
            exists (S (Nat.max (w_base w) (w_now w))), v. split; [lia|]. auto.
      - intros [= <- <-]. now apply up_source.
      - intros [= <- <-]. now apply up_set. }
    destruct (kind j) eqn:Ek; auto;
      (destruct (t_class (obj c j)); [|destruct (t_need (obj c j)) as [[|]|]]); auto; intros [= <- <-]; auto.
  Qed.

  Lemma fmake_reaches sv objs cs w0 s :
    osched (inv_of (sv_inv sv)) (fmake objs) cs (init_state sv w0) = Some s ->
    exec_reaches sv (mk_task canon kind partial c objs) w0 s.
  Proof.
    intros H. eapply osched_steps; [|constructor|exact H]. intros t w r w'. apply fmake_sound.
  Qed.
End MExec.

(** A whole build, computed. *)
Section Whole.
  Variable canon : string -> string.
  Variable kind : nat -> mkind.
  Variable partial : bool.
  Variable on_fail : string -> leftover * bool.
  Definition no_other (_ : nat) : res bool := Ok false.

  Record built := BU { bu_core : core; bu_objs : list nat; bu_state : state world }.
  Definition do_build (c : core) (i : nat) (fs : fsys) (now : nat) (ca : cache) (threads : Z) (cs : list choice)
    : option built :=
    match mevaluate canon kind no_other fs 20 (c, ca) with
    | Ok (c1, ca1) =>
        match recurse_update canon c1 (fun l => l) id_order i (Some threads) with
        | RuExec objs sv =>
            match osched (inv_of (sv_inv sv)) (fmake kind partial on_fail c1 objs) cs (init_state sv (WD fs ca1 now now [])) with
            | Some s => Some (BU c1 objs s)
            | None => None
            end
        | _ => None
        end
    | _ => None
    end.
  Lemma do_build_of c i fs now ca threads cs c1 objs s : process_core canon kind c -> coherent canon c ->
    (exists nm, In (nm, i) (c_targets c)) -> cache_current canon kind c i fs ca ->
    do_build c i fs now ca threads cs = Some (BU c1 objs s) ->
    build_of canon kind no_other partial c i fs now ca c1 objs s.
  Proof.
    intros Hp Hco Hi Hca H. unfold do_build in H.
    destruct (mevaluate canon kind no_other fs 20 (c, ca)) as [[c2 ca2]| |] eqn:E; try discriminate.
    destruct (recurse_update canon c2 (fun l => l) id_order i (Some threads)) as [| |objs2 sv|] eqn:Er; try discriminate.
    all: try (destruct (osched _ _ _ _) as [s2|] eqn:Es; [|discriminate]; injection H as -> -> ->).
    split; [exact Hp|]. split; [exact Hco|]. split; [exact Hi|]. split; [exact Hca|].
    exists 20, ca2, (fun l => l), id_order, (Some threads), (match c_threads c1 with Some t => t | None => threads end), sv.
    split; [exact E|]. split; [intros l; apply Permutation_refl|]. split; [split; intros; apply Permutation_refl|].
    split; [unfold ru_threads; now destruct (c_threads c1)|]. split; [exact Er|]. eapply fmake_reaches; eauto.
  Qed.
End Whole.

Lemma cone_bound canon c i j : wf_core c -> (exists nm, In (nm, i) (c_targets c)) -> in_cone canon c i j ->
  j < List.length (c_heap c).
Proof.
  intros Hw [nm Hi] H. apply Operators_Properties.clos_rt_rtn1 in H. destruct H as [|y z (d & _ & Hd) _].
  - eapply (proj2 Hw); eauto.
  - eapply resolves_lt; eauto.
Qed.
