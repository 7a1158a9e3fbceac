(** Lemmas about do_execute: when it ends, and with what. *)
From Verif Require Import PyBase InvokerModel NeedProofs ProcessModel SpecProcess.
From Coq Require Import Permutation.
Local Open Scope list_scope.

Lemma lupd_split (l : list (option script)) i x (v : option script) : nth_error l i = Some x ->
  exists l1 l2, l = l1 ++ x :: l2 /\ lupd l i v = l1 ++ v :: l2 /\ List.length l1 = i.
Proof.
  revert i. induction l as [|y l IH]; intros [|i]; cbn; try discriminate.
  - intros [= ->]. exists [], l. auto.
  - intros H. destruct (IH i H) as (l1 & l2 & -> & E & L). exists (y :: l1), l2. cbn. rewrite E. auto.
Qed.

(** What is still to be written. *)
Definition todo (o : option script) : script := match o with Some l => l | None => [] end.
Definition left (st : bool) (l : list (option script)) : list ascii := flat_map (fun o => writes st (todo o)) l.
Lemma left_app st l1 l2 : left st (l1 ++ l2) = left st l1 ++ left st l2.
Proof. unfold left. apply flat_map_app. Qed.

Lemma left_gone st l : all_gone l = true -> left st l = [].
Proof. induction l as [|[p|] l IH]; [reflexivity|discriminate|]. exact IH. Qed.

Definition weight (o : option script) : nat := match o with Some l => 2 * List.length l + 1 | None => 0 end.
Definition total (l : list (option script)) : nat := list_sum (map weight l).
Lemma total_app l1 l2 : total (l1 ++ l2) = total l1 + total l2.
Proof. unfold total. now rewrite map_app, list_sum_app. Qed.
Definition pcw (p : ppc) : nat := match p with PWait => 3 | PReadOut _ => 2 | PReadErr _ _ => 1 | _ => 0 end.
Definition measure (s : pstate) : nat :=
  total (p_procs s) + List.length (p_out s) + List.length (p_err s) + pcw (p_pc s).

Lemma step_measure cap s s' : pstep cap s s' -> measure s' < measure s.
Proof.
  intros H. unfold measure. destruct H as [s i b r Hi Hc|s i b r Hi Hc|s i Hi|s Hp Hi|s o b l Hp Ho|s o Hp Ho Hg|s o e b l Hp Ho|s o e Hp Ho Hg];
    cbn [p_procs p_out p_err p_pc].
  - destruct (lupd_split _ _ _ (Some r) Hi) as (l1 & l2 & El & Eu & _). rewrite Eu, El. rewrite !total_app, app_length. cbn. unfold total. cbn. lia.
  - destruct (lupd_split _ _ _ (Some r) Hi) as (l1 & l2 & El & Eu & _). rewrite Eu, El. rewrite !total_app, app_length. cbn. unfold total. cbn. lia.
  - destruct (lupd_split _ _ _ None Hi) as (l1 & l2 & El & Eu & _). rewrite Eu, El. rewrite !total_app. cbn. unfold total. cbn. lia.
  - rewrite Hp. cbn. lia.
  - rewrite Hp, Ho. cbn. lia.
  - rewrite Hp, Ho. destruct (utf8_ok o); cbn; lia.
  - rewrite Hp, Ho. cbn. lia.
  - rewrite Hp, Ho. destruct (utf8_ok e); cbn; lia.
Qed.
Lemma steps_measure cap n s s' : psteps cap n s s' -> n + measure s' <= measure s.
Proof. induction 1 as [|n s s' s'' _ IH H]; [lia|]. apply step_measure in H. lia. Qed.
Lemma steps_bounded cap n cmd s : psteps cap n (pstart cmd) s ->
  n <= list_sum (map (fun p => 2 * List.length p + 1) cmd) + 3.
Proof.
  intros H. apply steps_measure in H.
  assert (E : measure (pstart cmd) = list_sum (map (fun p => 2 * List.length p + 1) cmd) + 3).
  { unfold measure, total. cbn [pstart p_procs p_out p_err p_pc List.length pcw]. rewrite map_map. cbn [weight]. now rewrite !Nat.add_0_r. }
  lia.
Qed.

(** ** Invariant *)
Definition got_out (p : ppc) : list ascii :=
  match p with PWait => [] | PReadOut o => o | PReadErr o _ | PDone o _ | PRaised o _ => o end.
Definition got_err (p : ppc) : list ascii :=
  match p with PWait | PReadOut _ => [] | PReadErr _ e | PDone _ e | PRaised _ e => e end.

Section Inv.
  Variables (cap : nat) (shell : script) (bg : list script).
  Let cmd := shell :: bg.

  Record inv (s : pstate) : Prop := {
    i_len : List.length (p_procs s) = List.length cmd;
    i_out : Permutation (got_out (p_pc s) ++ p_out s ++ left true (p_procs s)) (flat_map (writes true) cmd);
    i_err : Permutation (got_err (p_pc s) ++ p_err s ++ left false (p_procs s)) (flat_map (writes false) cmd);
    i_caps : List.length (p_out s) <= cap /\ List.length (p_err s) <= cap;
    i_wait : p_pc s <> PWait -> nth_error (p_procs s) 0 = Some None;
    i_gone : match p_pc s with
             | PWait | PReadOut _ => True
             | PReadErr o _ => all_gone (p_procs s) = true /\ p_out s = [] /\ utf8_ok o = true
             | PDone o e => all_gone (p_procs s) = true /\ p_out s = [] /\ p_err s = [] /\ utf8_ok o = true /\ utf8_ok e = true
             | PRaised o e => all_gone (p_procs s) = true /\ p_out s = [] /\
                              (utf8_ok o = false /\ e = [] \/ utf8_ok o = true /\ p_err s = [] /\ utf8_ok e = false)
             end
  }.
  Lemma inv_start : inv (pstart cmd).
  Proof.
    split; cbn [pstart p_procs p_out p_err p_pc got_out got_err].
    - apply map_length.
    - cbn [app]. unfold left. rewrite flat_map_concat_map, map_map, <- flat_map_concat_map. apply Permutation_refl.
    - cbn [app]. unfold left. rewrite flat_map_concat_map, map_map, <- flat_map_concat_map. apply Permutation_refl.
    - cbn. lia.
    - intros H. now destruct H.
    - exact Logic.I.
  Qed.
  Lemma not_gone l1 o l2 : all_gone (l1 ++ Some o :: l2) = true -> False.
  Proof. unfold all_gone. rewrite forallb_app. cbn. rewrite Bool.andb_false_r. discriminate. Qed.
  Lemma keep0 (l : list (option script)) i p v : nth_error l i = Some (Some p) -> nth_error l 0 = Some None ->
    nth_error (lupd l i v) 0 = Some None.
  Proof. destruct l as [|y l]; [now destruct i|]. destruct i; cbn; [congruence|auto]. Qed.

  Lemma inv_step s s' : inv s -> pstep cap s s' -> inv s'.
  Proof.
    intros [A B C D E F] H.
    destruct H as [s i b r Hi Hc|s i b r Hi Hc|s i Hi|s Hp Hi|s o b l Hp Ho|s o Hp Ho Hg|s o e b l Hp Ho|s o e Hp Ho Hg].
    - pose proof Hi as Hi'. destruct (lupd_split _ _ _ (Some r) Hi) as (l1 & l2 & El & Eu & _).
      split; cbn [p_procs p_out p_err p_pc].
      + now rewrite lupd_length.
      + rewrite Eu. rewrite El in B. rewrite !left_app in *. cbn [left flat_map todo writes filter fst Bool.eqb map snd] in *.
        etransitivity; [|exact B]. apply Permutation_app_head. rewrite <- !app_assoc. apply Permutation_app_head. cbn.
        change (writes true ((true, b) :: r)) with (b :: writes true r). cbn. apply Permutation_middle.
      + rewrite Eu. rewrite El in C. rewrite !left_app in *. exact C.
      + rewrite app_length. cbn. lia.
      + intros Hn. eapply keep0; eauto.
      + rewrite El in F. destruct (p_pc s); try exact F; destruct F as [F _]; destruct (not_gone _ _ _ F).
    - pose proof Hi as Hi'. destruct (lupd_split _ _ _ (Some r) Hi) as (l1 & l2 & El & Eu & _).
      split; cbn [p_procs p_out p_err p_pc].
      + now rewrite lupd_length.
      + rewrite Eu. rewrite El in B. rewrite !left_app in *. exact B.
      + rewrite Eu. rewrite El in C. rewrite !left_app in *.
        etransitivity; [|exact C]. apply Permutation_app_head. rewrite <- !app_assoc. apply Permutation_app_head. cbn.
        change (writes false ((false, b) :: r)) with (b :: writes false r). cbn. apply Permutation_middle.
      + rewrite app_length. cbn. lia.
      + intros Hn. eapply keep0; eauto.
      + rewrite El in F. destruct (p_pc s); try exact F; destruct F as [F _]; destruct (not_gone _ _ _ F).
    - pose proof Hi as Hi'. destruct (lupd_split _ _ _ None Hi) as (l1 & l2 & El & Eu & _).
      split; cbn [p_procs p_out p_err p_pc].
      + now rewrite lupd_length.
      + rewrite Eu. rewrite El in B. rewrite !left_app in *. exact B.
      + rewrite Eu. rewrite El in C. rewrite !left_app in *. exact C.
      + exact D.
      + intros Hn. eapply keep0; eauto.
      + rewrite El in F. destruct (p_pc s); try exact F; destruct F as [F _]; destruct (not_gone _ _ _ F).
    - rewrite Hp in *. split; cbn [p_procs p_out p_err p_pc got_out got_err]; auto.
    - rewrite Hp, Ho in *. split; cbn [p_procs p_out p_err p_pc got_out got_err] in *; auto.
      + rewrite <- app_assoc. exact B.
      + cbn in D. lia.
      + intros _. apply E. discriminate.
    - rewrite Hp, Ho in *. destruct (utf8_ok o) eqn:U; split; cbn [p_procs p_out p_err p_pc got_out got_err] in *; auto;
        try (intros _; apply E; discriminate); auto 8.
    - rewrite Hp, Ho in *. split; cbn [p_procs p_out p_err p_pc got_out got_err] in *; auto.
      + rewrite <- app_assoc. exact C.
      + cbn in D. lia.
      + intros _. apply E. discriminate.
    - rewrite Hp, Ho in *. destruct F as (F1 & F2 & F3).
      destruct (utf8_ok e) eqn:U; split; cbn [p_procs p_out p_err p_pc got_out got_err] in *; auto;
        try (intros _; apply E; discriminate); auto 8.
  Qed.
  Lemma inv_steps n s : psteps cap n (pstart cmd) s -> inv s.
  Proof.
    intros H. remember (pstart cmd) as s0 eqn:E. induction H as [s|n s s' s'' _ IH H]; [subst; apply inv_start|].
    eapply inv_step; eauto.
  Qed.
  Lemma inv_reachable s : reachable cap shell bg s -> inv s.
  Proof. intros [n H]. now apply inv_steps in H. Qed.

  (** ** Progress *)
  Lemma gone_dec (l : list (option script)) : all_gone l = true \/ exists i p, nth_error l i = Some (Some p).
  Proof.
    induction l as [|[p|] l IH]; [now left|right; now exists 0, p|].
    destruct IH as [IH|(i & p & IH)]; [left; exact IH|right; exists (S i), p; exact IH].
  Qed.
  Lemma write_step s i p : nth_error (p_procs s) i = Some (Some p) ->
    (match p with (true, _) :: _ => List.length (p_out s) < cap | (false, _) :: _ => List.length (p_err s) < cap | [] => True end) ->
    exists s', pstep cap s s'.
  Proof.
    intros Hi Hc. destruct p as [|[[] b] r]; eexists; [eapply ps_exit|eapply ps_out|eapply ps_err]; eauto.
  Qed.
  Lemma left_ge st l i b r : nth_error l i = Some (Some ((st, b) :: r)) -> 1 <= List.length (left st l).
  Proof.
    intros H. destruct (lupd_split _ _ _ None H) as (l1 & l2 & -> & _). rewrite left_app, app_length.
    cbn [left flat_map todo]. unfold writes. cbn [filter fst]. rewrite Bool.eqb_reflx. cbn. rewrite app_length. lia.
  Qed.
  Lemma err_room s i b r : inv s -> amount false cmd <= cap -> nth_error (p_procs s) i = Some (Some ((false, b) :: r)) ->
    List.length (p_err s) < cap.
  Proof.
    intros [_ _ C _ _ _] Ha Hi. apply Permutation_length in C. rewrite !app_length in C. apply left_ge in Hi. unfold amount in Ha. lia.
  Qed.
  Lemma out_room s i b r : inv s -> amount true cmd <= cap -> nth_error (p_procs s) i = Some (Some ((true, b) :: r)) ->
    List.length (p_out s) < cap.
  Proof.
    intros [_ B _ _ _ _] Ha Hi. apply Permutation_length in B. rewrite !app_length in B. apply left_ge in Hi. unfold amount in Ha. lia.
  Qed.
  Lemma read_progress s : inv s -> 0 < cap -> amount false cmd <= cap -> p_pc s <> PWait -> ~ finished s -> exists s', pstep cap s s'.
  Proof.
    intros I Hc Ha Hp Hf. pose proof I as [A B C D E F].
    assert (W : p_out s = [] -> exists s', pstep cap s s' \/ all_gone (p_procs s) = true).
    { intros Ho. destruct (gone_dec (p_procs s)) as [H|(i & p & H)]; [exists s; now right|].
      destruct (write_step s i p H) as [s' Hs']; [|exists s'; now left].
      destruct p as [|[[] b] r]; [exact Logic.I|rewrite Ho; exact Hc|]. eapply err_room; eauto. }
    destruct (p_pc s) as [|o|o e|o e|o e] eqn:Ep.
    - congruence.
    - destruct (p_out s) as [|b l] eqn:Eo.
      + destruct (W eq_refl) as [s' [H|H]]; [eauto|]. eexists. eapply ps_eof_out; eauto.
      + eexists. eapply ps_read_out; eauto.
    - destruct F as (F1 & _). destruct (p_err s) as [|b l] eqn:Eo; eexists; [eapply ps_eof_err|eapply ps_read_err]; eauto.
    - destruct Hf. exists o, e. now left.
    - destruct Hf. exists o, e. now right.
  Qed.
  Lemma progress s : inv s -> 0 < cap -> amount true cmd <= cap -> amount false cmd <= cap -> ~ finished s -> exists s', pstep cap s s'.
  Proof.
    intros I Hc Ho He Hf. destruct (p_pc s) eqn:Ep; try (apply read_progress; auto; congruence).
    pose proof I as [A _ _ _ _ _]. destruct (nth_error (p_procs s) 0) as [[p|]|] eqn:E0.
    - apply (write_step s 0 p E0). destruct p as [|[[] b] r]; [exact Logic.I|eapply out_room; eauto|eapply err_room; eauto].
    - eexists. now eapply ps_waited.
    - apply nth_error_None in E0. cbn in A. lia.
  Qed.
  Lemma finished_dec s : finished s \/ ~ finished s.
  Proof.
    unfold finished. destruct (p_pc s) as [|o|o e|o e|o e]; [right; intros (? & ? & [H|H]); discriminate..|left; eauto|left; eauto].
  Qed.
  Lemma steps_cons n s s1 s' : pstep cap s s1 -> psteps cap n s1 s' -> exists m, psteps cap m s s'.
  Proof.
    intros H1 H2. induction H2 as [s1|n s1 s2 s3 _ IH H]; [exists 1; econstructor; [constructor|exact H1]|].
    destruct (IH H1) as [m Hm]. exists (S m). econstructor; eauto.
  Qed.
  Lemma steps_trans n s s1 m s' : psteps cap n s s1 -> psteps cap m s1 s' -> psteps cap (m + n) s s'.
  Proof. intros H1 H2. induction H2; [exact H1|]. cbn. econstructor; eauto. Qed.
  Lemma run_out (P : pstate -> Prop) : (forall s, inv s -> P s -> ~ finished s -> exists s', pstep cap s s') ->
    (forall s s', P s -> pstep cap s s' -> P s') ->
    forall s, inv s -> P s -> exists n s', psteps cap n s s' /\ finished s'.
  Proof.
    intros Hprog Hpres. assert (G : forall k s, measure s <= k -> inv s -> P s -> exists n s', psteps cap n s s' /\ finished s').
    { induction k as [|k IH]; intros s Hk I HP; destruct (finished_dec s) as [Hf|Hf]; try (exists 0, s; split; [constructor|exact Hf]);
        destruct (Hprog s I HP Hf) as [s1 H1]; pose proof (step_measure _ _ _ H1); [lia|].
      destruct (IH s1) as (n & s' & H2 & H3); [lia|eapply inv_step; eauto|eauto|].
      destruct (steps_cons _ _ _ _ H1 H2) as [m Hm]. eauto. }
    intros s I HP. now apply (G (measure s) s).
  Qed.

  (** ** The two theorems about ending *)
  Lemma always_ends : 0 < cap -> amount true cmd <= cap -> amount false cmd <= cap ->
    forall s, reachable cap shell bg s ->
      (~ finished s -> exists s', pstep cap s s') /\ exists n s', psteps cap n s s' /\ finished s'.
  Proof.
    intros Hc Ho He s Hr. apply inv_reachable in Hr. split; [now apply progress|].
    apply (run_out (fun _ => True)); auto. intros s1 I1 _ Hf. now apply progress.
  Qed.

  (** The shell on its own. *)
  Definition alone (s : pstate) (p : script) (rest : list (option script)) : Prop :=
    p_procs s = Some p :: rest /\ p_pc s = PWait.
  Lemma shell_runs : forall p rest o e, (List.length o + List.length (writes true p) <= cap) ->
    (List.length e + List.length (writes false p) <= cap) ->
    exists n o' e', psteps cap n (PS (Some p :: rest) o e PWait) (PS (None :: rest) o' e' PWait).
  Proof.
    induction p as [|[st b] p IH]; intros rest o e Ho He.
    - exists 1, o, e. econstructor; [constructor|]. apply (ps_exit cap (PS (Some [] :: rest) o e PWait) 0). reflexivity.
    - unfold writes in Ho, He. destruct st; cbn [filter fst Bool.eqb map List.length] in Ho, He; fold (writes true p) in Ho; fold (writes false p) in He.
      + destruct (IH rest (o ++ [b]) e) as (n & o' & e' & H); [rewrite app_length; cbn; lia|lia|].
        destruct (steps_cons n (PS (Some ((true, b) :: p) :: rest) o e PWait) _ _
          (ps_out cap (PS (Some ((true, b) :: p) :: rest) o e PWait) 0 b p eq_refl ltac:(cbn; lia)) H) as [m Hm]. eauto.
      + destruct (IH rest o (e ++ [b])) as (n & o' & e' & H); [lia|rewrite app_length; cbn; lia|].
        destruct (steps_cons n (PS (Some ((false, b) :: p) :: rest) o e PWait) _ _
          (ps_err cap (PS (Some ((false, b) :: p) :: rest) o e PWait) 0 b p eq_refl ltac:(cbn; lia)) H) as [m Hm]. eauto.
  Qed.

  Lemma shell_todo n s : psteps cap n (pstart cmd) s -> p_pc s = PWait ->
    exists o, nth_error (p_procs s) 0 = Some o /\ List.length (writes true shell) <= List.length (p_out s) + List.length (writes true (todo o)).
  Proof.
    intros H. remember (pstart cmd) as s0 eqn:E. induction H as [s|n s s' s'' Hs IH H]; intros Hp.
    - subst. exists (Some shell). split; [reflexivity|]. apply le_n.
    - destruct H as [s1 i b r Hi Hc|s1 i b r Hi Hc|s1 i Hi|s1 Hp1 Hi|s1 o b l Hp1 Ho|s1 o Hp1 Ho Hg|s1 o e b l Hp1 Ho|s1 o e Hp1 Ho Hg];
        cbn [p_procs p_out p_err p_pc] in *; try discriminate.
      + destruct (IH E Hp) as (o & H0 & Hl). rewrite app_length. cbn [List.length].
        destruct (p_procs s1) as [|x rest]; [now destruct i|]. destruct i as [|i]; cbn in *.
        * injection H0 as ->. injection Hi as ->. eexists. split; [reflexivity|]. unfold writes in Hl at 2. cbn in Hl. fold (writes true r) in Hl. cbn. unfold writes in *. cbn in *. lia.
        * exists o. split; [exact H0|]. lia.
      + destruct (IH E Hp) as (o & H0 & Hl).
        destruct (p_procs s1) as [|x rest]; [now destruct i|]. destruct i as [|i]; cbn in *.
        * injection H0 as ->. injection Hi as ->. eexists. split; [reflexivity|]. exact Hl.
        * exists o. split; [exact H0|]. lia.
      + destruct (IH E Hp) as (o & H0 & Hl).
        destruct (p_procs s1) as [|x rest]; [now destruct i|]. destruct i as [|i]; cbn in *.
        * injection H0 as ->. injection Hi as ->. eexists. split; [reflexivity|]. exact Hl.
        * exists o. split; [exact H0|]. lia.
      + destruct (utf8_ok o); discriminate.
      + destruct (utf8_ok e); discriminate.
  Qed.
  Lemma blocked_shell s : cap < List.length (writes true shell) -> reachable cap shell bg s -> p_pc s = PWait.
  Proof.
    intros Hc [n H]. remember (pstart (shell :: bg)) as s0 eqn:E. induction H as [s|n s s' s'' Hs IH H]; [now subst|].
    assert (Hp : p_pc s' = PWait) by auto. assert (I : inv s') by (subst; now apply inv_steps in Hs).
    destruct H as [s1 i b r Hi Hc1|s1 i b r Hi Hc1|s1 i Hi|s1 Hp1 Hi|s1 o b l Hp1 Ho|s1 o Hp1 Ho Hg|s1 o e b l Hp1 Ho|s1 o e Hp1 Ho Hg];
      cbn [p_procs p_out p_err p_pc] in *; try congruence.
    subst s. destruct (shell_todo _ _ Hs Hp) as (o & H0 & Hl). rewrite Hi in H0. injection H0 as <-. cbn in Hl.
    destruct I as [_ _ _ [I _] _ _]. lia.
  Qed.
  Lemma blocked_err s : cap < amount false cmd -> reachable cap shell bg s -> ~ finished s.
  Proof.
    intros Hc [n H]. remember (pstart (shell :: bg)) as s0 eqn:E.
    assert (G : (p_pc s = PWait \/ exists o, p_pc s = PReadOut o) /\ True).
    { induction H as [s|n s s' s'' Hs IH H]; [subst; split; [now left|trivial]|]. split; [|trivial].
      destruct (IH E) as [Hp _]. assert (I : inv s') by (subst; now apply inv_steps in Hs).
      destruct H as [s1 i b r Hi Hc1|s1 i b r Hi Hc1|s1 i Hi|s1 Hp1 Hi|s1 o b l Hp1 Ho|s1 o Hp1 Ho Hg|s1 o e b l Hp1 Ho|s1 o e Hp1 Ho Hg];
        cbn [p_procs p_out p_err p_pc] in *; try assumption.
      - right. eauto.
      - right. eauto.
      - exfalso. destruct I as [_ _ C [_ D] _ _]. rewrite Hp1 in C. cbn [got_err app] in C.
        assert (L : left false (p_procs s1) = []).
        { clear - Hg. induction (p_procs s1) as [|[p|] l IHl]; [reflexivity|discriminate|]. apply IHl. exact Hg. }
        rewrite L, app_nil_r in C. apply Permutation_length in C. unfold amount in Hc. lia.
      - destruct Hp as [Hp|[x Hp]]; congruence.
      - destruct Hp as [Hp|[x Hp]]; congruence. }
    destruct G as [[G|[x G]] _]; intros (o & e & [Hd|Hd]); congruence.
  Qed.
  Lemma can_end : 0 < cap -> List.length (writes true shell) <= cap -> amount false cmd <= cap ->
    exists s, reachable cap shell bg s /\ finished s.
  Proof.
    intros Hc Ho He.
    destruct (shell_runs shell (map Some bg) [] []) as (n & o & e & H); [cbn; lia| |].
    { cbn. unfold amount in He. cbn [cmd flat_map] in He. rewrite app_length in He. lia. }
    assert (H2 : psteps cap (S n) (pstart cmd) (PS (None :: map Some bg) o e (PReadOut []))).
    { econstructor; [exact H|]. apply (ps_waited cap (PS (None :: map Some bg) o e PWait)); reflexivity. }
    destruct (run_out (fun s => p_pc s <> PWait)) with (s := PS (None :: map Some bg) o e (PReadOut [])) as (m & s' & H3 & H4).
    - intros s I Hp Hf. now apply read_progress.
    - intros s s' Hp Hs. destruct Hs as [s1 i b r Hi Hc1|s1 i b r Hi Hc1|s1 i Hi|s1 Hp1 Hi|s1 o1 b l Hp1 Ho1|s1 o1 Hp1 Ho1 Hg|s1 o1 e1 b l Hp1 Ho1|s1 o1 e1 Hp1 Ho1 Hg];
        cbn [p_pc]; try assumption; try discriminate; [destruct (utf8_ok o1); discriminate|destruct (utf8_ok e1); discriminate].
    - now apply inv_steps in H2.
    - discriminate.
    - exists s'. split; [|exact H4]. exists (m + S n). eapply steps_trans; eauto.
  Qed.
  Lemma ends_iff : 0 < cap ->
    ((exists s, reachable cap shell bg s /\ finished s) <-> List.length (writes true shell) <= cap /\ amount false cmd <= cap).
  Proof.
    intros Hc. split; [|intros [H1 H2]; now apply can_end]. intros (s & Hr & Hf). split.
    - destruct (Nat.le_gt_cases (List.length (writes true shell)) cap) as [H|H]; [exact H|].
      apply (blocked_shell s) in H; [|exact Hr]. destruct Hf as (o & e & [Q|Q]); congruence.
    - destruct (Nat.le_gt_cases (amount false cmd) cap) as [H|H]; [exact H|]. destruct (blocked_err s H Hr Hf).
  Qed.

  Lemma printed s : reachable cap shell bg s ->
    (forall o e, p_pc s = PDone o e -> utf8_ok o = true /\ utf8_ok e = true /\
       Permutation o (flat_map (writes true) cmd) /\ Permutation e (flat_map (writes false) cmd)) /\
    (forall o e, p_pc s = PRaised o e -> utf8_ok o = false \/ utf8_ok e = false).
  Proof.
    intros Hr. apply inv_reachable in Hr. destruct Hr as [A B C D E F].
    assert (L : forall st, all_gone (p_procs s) = true -> left st (p_procs s) = []) by (intros st; apply left_gone).
    split; intros o e Hp; rewrite Hp in *; cbn [got_out got_err] in *.
    - destruct F as (F1 & F2 & F3 & F4 & F5). rewrite F2, (L _ F1) in B. rewrite F3, (L _ F1) in C. cbn in B, C. rewrite app_nil_r in B, C. auto.
    - destruct F as (_ & _ & [[F _]|(_ & _ & F)]); auto.
  Qed.
End Inv.

(** ** A command without background processes *)
Lemma single cap p s : reachable cap p [] s -> exists o, p_procs s = [o] /\
  got_out (p_pc s) ++ p_out s ++ writes true (todo o) = writes true p /\
  got_err (p_pc s) ++ p_err s ++ writes false (todo o) = writes false p.
Proof.
  intros [n H]. remember (pstart [p]) as s0 eqn:E. induction H as [s|n s s' s'' Hs IH H].
  - subst. exists (Some p). auto.
  - destruct (IH E) as (o & Ho & H1 & H2). clear IH.
    destruct H as [s1 i b r Hi Hc1|s1 i b r Hi Hc1|s1 i Hi|s1 Hp1 Hi|s1 o1 b l Hp1 Ho1|s1 o1 Hp1 Ho1 Hg|s1 o1 e1 b l Hp1 Ho1|s1 o1 e1 Hp1 Ho1 Hg];
      cbn [p_procs p_out p_err p_pc] in *; rewrite ?Ho in *.
    + destruct i as [|[|i]]; try discriminate. cbn in Hi. injection Hi as ->. exists (Some r). cbn [lupd]. split; [reflexivity|]. split; [|exact H2].
      rewrite <- H1. cbn [todo]. unfold writes. cbn [filter fst Bool.eqb map snd]. now rewrite <- app_assoc.
    + destruct i as [|[|i]]; try discriminate. cbn in Hi. injection Hi as ->. exists (Some r). cbn [lupd]. split; [reflexivity|]. split; [exact H1|].
      rewrite <- H2. cbn [todo]. unfold writes. cbn [filter fst Bool.eqb map snd]. now rewrite <- app_assoc.
    + destruct i as [|[|i]]; try discriminate. cbn in Hi. injection Hi as ->. exists None. cbn [lupd]. auto.
    + exists o. rewrite Hp1 in *. auto.
    + exists o. rewrite Hp1, Ho1 in *. cbn [got_out got_err] in *. rewrite <- app_assoc. auto.
    + exists o. rewrite Hp1, Ho1 in *. destruct (utf8_ok o1); auto.
    + exists o. rewrite Hp1, Ho1 in *. cbn [got_out got_err] in *. rewrite <- app_assoc. auto.
    + exists o. rewrite Hp1, Ho1 in *. destruct (utf8_ok e1); auto.
Qed.
Lemma single_result cap p s : reachable cap p [] s -> finished s ->
  (utf8_ok (writes true p) = true /\ utf8_ok (writes false p) = true /\ p_pc s = PDone (writes true p) (writes false p)) \/
  ((utf8_ok (writes true p) = false \/ utf8_ok (writes false p) = false) /\ exists o e, p_pc s = PRaised o e).
Proof.
  intros Hr (o & e & Hf). destruct (single cap p s Hr) as (x & Hx & H1 & H2).
  apply inv_reachable in Hr. destruct Hr as [_ _ _ _ _ F].
  destruct Hf as [Hf|Hf]; rewrite Hf in *; cbn [got_out got_err] in *.
  - destruct F as (F1 & F2 & F3 & F4 & F5). rewrite Hx in F1. rewrite F2 in H1. rewrite F3 in H2.
    destruct x; [discriminate|]. cbn in H1, H2. rewrite app_nil_r in H1, H2. subst. auto.
  - right. split; [|eauto]. destruct F as (F1 & F2 & F). rewrite Hx in F1. rewrite F2 in H1. destruct x; [discriminate|].
    cbn in H1, H2. rewrite app_nil_r in H1. subst o. destruct F as [[F _]|(_ & F3 & F)]; [now left|right].
    rewrite F3 in H2. cbn in H2. rewrite app_nil_r in H2. now subst e.
Qed.
Lemma single_ends cap p : 0 < cap ->
  ((forall s, reachable cap p [] s -> ~ finished s -> exists s', pstep cap s s') <->
   List.length (writes true p) <= cap /\ List.length (writes false p) <= cap) /\
  ((exists s, reachable cap p [] s /\ finished s) <-> List.length (writes true p) <= cap /\ List.length (writes false p) <= cap).
Proof.
  intros Hc. assert (A : forall st, amount st [p] = List.length (writes st p)) by (intros st; unfold amount; cbn; now rewrite app_nil_r).
  assert (I : (exists s, reachable cap p [] s /\ finished s) <-> List.length (writes true p) <= cap /\ List.length (writes false p) <= cap).
  { rewrite <- (A false). apply (ends_iff cap p []). exact Hc. }
  split; [|exact I]. split.
  - intros H. apply I.
    assert (G : forall k s, measure s <= k -> reachable cap p [] s -> exists s', reachable cap p [] s' /\ finished s').
    { induction k as [|k IH]; intros s Hk Hr; destruct (finished_dec s) as [Hf|Hf]; try (exists s; split; assumption);
        destruct (H s Hr Hf) as [s1 H1]; pose proof (step_measure _ _ _ H1); [lia|].
      apply (IH s1); [lia|]. destruct Hr as [n Hn]. exists (S n). econstructor; eauto. }
    apply (G (measure (pstart [p])) (pstart [p])); [lia|]. exists 0. constructor.
  - intros [H1 H2] s Hr Hf. destruct (always_ends cap p [] Hc) with (s := s) as [Q _]; rewrite ?A; auto.
Qed.

(** ** Witnesses *)
Fixpoint spam (st : bool) (n : nat) : script := match n with 0 => [] | S n' => (st, "x"%char) :: spam st n' end.
Lemma spam_writes st n : List.length (writes st (spam st n)) = n.
Proof. induction n as [|n IH]; [reflexivity|]. unfold writes in *. cbn [spam filter fst]. rewrite Bool.eqb_reflx. cbn. now rewrite IH. Qed.
Lemma spam_other st n : writes (negb st) (spam st n) = [].
Proof. induction n as [|n IH]; [reflexivity|]. unfold writes in *. cbn [spam filter fst]. now destruct st. Qed.
Lemma too_much cap st : 0 < cap -> exists p, writes (negb st) p = [] /\ forall s, reachable cap p [] s -> ~ finished s.
Proof.
  intros Hc. exists (spam st (S cap)). split; [apply spam_other|]. intros s Hr Hf.
  destruct (single_ends cap (spam st (S cap)) Hc) as [_ [I _]]. destruct I as [I1 I2]; [eauto|].
  pose proof (spam_writes st (S cap)). destruct st; lia.
Qed.
(** A background process keeps do_execute waiting although the command has exited. *)
Lemma background cap : 0 < cap -> exists bg s, reachable cap [] [bg] s /\ nth_error (p_procs s) 0 = Some None /\
  forall s', reachable cap [] [bg] s' -> ~ finished s'.
Proof.
  intros Hc. exists (spam false (S cap)). eexists. split; [|split].
  - exists 1. econstructor; [constructor|]. apply (ps_exit cap (pstart [[]; spam false (S cap)]) 0). reflexivity.
  - reflexivity.
  - intros s' Hr. apply (blocked_err cap [] [spam false (S cap)]); [|exact Hr].
    unfold amount. cbn [flat_map]. rewrite app_nil_r, app_length, spam_writes. cbn. lia.
Qed.
Lemma undecodable cap : 0 < cap -> exists p, List.length (writes true p) <= cap /\ List.length (writes false p) <= cap /\
  forall s, reachable cap p [] s -> finished s -> do_execute_result 0 (p_pc s) = Some (Raise (ValueError "utf-8")).
Proof.
  intros Hc. exists [(true, "255"%char)]. cbn. split; [lia|]. split; [lia|]. intros s Hr Hf.
  destruct (single_result _ _ _ Hr Hf) as [(H & _)|(_ & o & e & ->)]; [discriminate|reflexivity].
Qed.
Lemma result_status status pc o e : pc = PDone o e ->
  (do_execute_result status pc = Some (Ok true) <-> status = 0%Z) /\
  (do_execute_result status pc = Some (Ok false) <-> status <> 0%Z).
Proof.
  intros ->. cbn. destruct (Z.eqb_spec status 0) as [->|H]; split; split; intros Q; try congruence; try reflexivity.
Qed.
