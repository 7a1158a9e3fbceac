(** Proofs about scripts (C57, C58). *)
From Coq Require Import Sorting.Permutation.
From Verif Require Import PyBase PyPath ScriptModel SpecScript.

Section S.
  Context {G : Type}.
  Variable files : G -> string -> option (prog G).
  Variable find : G -> string -> string -> option string -> list string.
  Variable registry : list (string * string).
  Variable tunnel_there : G -> string -> bool.
  Variable link : string -> string -> G -> G.

  (** ** Stack and lexical directories agree. *)
  Definition agrees (e : string -> sstate G -> sout G) (l : string -> lstate G -> lout G) : Prop :=
    forall path s, forget_out (e path s) = l path (forget s) /\ returns_to (q_stack s) (e path s).

  Lemma forget_note : forall e (s : sstate G), forget (note e s) = lnote e (forget s).
  Proof. reflexivity. Qed.

  Lemma agrees_all : forall e l, agrees e l -> forall ps s,
    forget_out (enter_all e ps s) = scripts l ps (forget s) /\ returns_to (q_stack s) (enter_all e ps s).
  Proof.
    intros e l A ps; induction ps as [|p ps IH]; intros s; simpl; [easy|].
    destruct (A p s) as [E R]. rewrite <- E. destruct (e p s) as [s'|x s'|]; simpl in *; auto.
    rewrite <- R. apply IH.
  Qed.

  (** Local programs never touch the stack. *)
  Lemma local_run : forall e l, forall p s, local p ->
    forget_out (run find registry tunnel_there link e p s) =
      lrun find registry tunnel_there link l (curdir s) p (forget s) /\
    (forall s', state_of (run find registry tunnel_there link e p s) = Some s' -> q_stack s' = q_stack s).
  Proof.
    intros e l p; induction p as [|x|k IH|g k IH|k IH|q k IH|r q hi k IH|lib h k IH|b IHb h IHh k IHk];
      intros s T; simpl in T; simpl; try contradiction.
    - split; [reflexivity|]. now intros s' [= <-].
    - split; [reflexivity|]. now intros s' [= <-].
    - now apply IH.
    - apply (IH (put_g g s)), T.
    - now apply IH.
    - destruct T as (Tb & Th & Tk). destruct (IHb s Tb) as [E R].
      rewrite <- E. destruct (run _ _ _ _ e b s) as [s1|x s1|] eqn:Hb; simpl in E, R |- *.
      + specialize (R s1 eq_refl). destruct (IHk s1 Tk) as [E2 R2].
        unfold curdir in *. rewrite R in E2. split; [exact E2|]. intros s' H. rewrite (R2 _ H). exact R.
      + specialize (R s1 eq_refl). destruct (IHh x s1 (Th x)) as [E2 R2].
        unfold curdir in *. rewrite R in E2. rewrite <- E2.
        destruct (run _ _ _ _ e (h x) s1) as [s2|y s2|]; simpl in *.
        * specialize (R2 s2 eq_refl). destruct (IHk s2 Tk) as [E3 R3]. rewrite R2, R in E3.
          split; [exact E3|]. intros s' H. rewrite (R3 _ H). congruence.
        * split; [reflexivity|]. intros s' H. rewrite (R2 _ H). exact R.
        * easy.
      + easy.
  Qed.

  Lemma lexical_run : forall e l, agrees e l -> forall p s, lets_pass p ->
    forget_out (run find registry tunnel_there link e p s) =
      lrun find registry tunnel_there link l (curdir s) p (forget s) /\
    returns_to (q_stack s) (run find registry tunnel_there link e p s).
  Proof.
    intros e l A p; induction p as [|x|k IH|g k IH|k IH|q k IH|r q hi k IH|lib h k IH|b IHb h IHh k IHk];
      intros s T; simpl in T; simpl; auto.
    - apply (IH (put_g g s)), T.
    - unfold execute. destruct (A (path_join (curdir s) q) s) as [E R]. rewrite <- E.
      destruct (e (path_join (curdir s) q) s) as [s1|y s1|]; simpl in *; auto.
      destruct (IH s1 T) as [E2 R2]. unfold curdir in *. rewrite R in E2, R2. auto.
    - unfold execute_recursive.
      destruct (agrees_all e l A (find (q_g s) (path_join (curdir s) r) q hi) s) as [E R].
      change (l_g (forget s)) with (q_g s). rewrite <- E.
      destruct (enter_all e _ s) as [s1|y s1|]; simpl in *; auto.
      destruct (IH s1 T) as [E2 R2]. unfold curdir in *. rewrite R in E2, R2. auto.
    - unfold include, lib_found. cbv zeta. simpl q_included.
      change (q_g (note (EvAsk lib h) s)) with (q_g s).
      destruct (shas (q_included s) lib).
      + simpl. destruct (IH (note (EvAsk lib h) s) T) as [E2 R2]. split; [exact E2|exact R2].
      + assert (X : forall g p0,
          let s1 := note (EvLib lib p0) (add_lib lib p0 (put_g g (note (EvAsk lib h) s))) in
          forget_out (sbind (execute e p0 s1) (run find registry tunnel_there link e k)) =
          match l (path_join (curdir s) p0) (forget s1) with
          | LDone s' => lrun find registry tunnel_there link l (curdir s) k s'
          | o => o end /\
          returns_to (q_stack s) (sbind (execute e p0 s1) (run find registry tunnel_there link e k))).
        { intros g p0 s1. unfold execute. change (curdir s1) with (curdir s).
          destruct (A (path_join (curdir s) p0) s1) as [E R]. rewrite <- E.
          destruct (e (path_join (curdir s) p0) s1) as [s2|y s2|]; simpl in *; auto.
          destruct (IH s2 T) as [E2 R2]. unfold curdir in *. rewrite R in E2, R2. auto. }
        destruct h as [p0|d n|]; simpl.
        * apply (X (q_g s)).
        * unfold tunnel. destruct (tunnel_there (q_g s) d); [apply (X (q_g s))|].
          destruct (String.eqb (dirname d) ""); [easy|].
          destruct (sget registry lib) as [f|]; [|easy]. apply (X (link (dirname f) d (q_g s))).
        * destruct (sget registry lib) as [f|]; [|easy]. apply (X (q_g s)).
    - destruct T as (Tb & Th & Tk). destruct (local_run e l b s Tb) as [E R].
      rewrite <- E. destruct (run _ _ _ _ e b s) as [s1|x s1|] eqn:Hb; simpl in E, R |- *.
      + specialize (R s1 eq_refl). destruct (IHk s1 Tk) as [E2 R2].
        unfold curdir in *. rewrite R in E2, R2. auto.
      + specialize (R s1 eq_refl). destruct (IHh x s1 (Th x)) as [E2 R2].
        unfold curdir in *. rewrite R in E2, R2. rewrite <- E2.
        destruct (run _ _ _ _ e (h x) s1) as [s2|y s2|]; simpl in *; auto.
        destruct (IHk s2 Tk) as [E3 R3]. rewrite R2 in E3, R3. auto.
      + easy.
  Qed.

  Lemma lexical_enter : (forall g path p, files g path = Some p -> lets_pass p) ->
    forall fuel, agrees (enter files find registry tunnel_there link fuel)
                        (lscript files find registry tunnel_there link fuel).
  Proof.
    intros Hf fuel; induction fuel as [|fuel IH]; intros path s; simpl; [easy|].
    destruct (files (q_g s) path) as [p|] eqn:Ep; [|easy].
    destruct (lexical_run _ _ IH p (note (EvStart path) (push path s)) (Hf _ _ _ Ep)) as [E R].
    change (curdir (note (EvStart path) (push path s))) with (dirname path) in E.
    change (forget (note (EvStart path) (push path s))) with (lnote (EvStart path) (forget s)) in E.
    rewrite <- E. destruct (run _ _ _ _ _ p _) as [s2|x s2|]; simpl in *; auto.
    split; [reflexivity|]. now rewrite R.
  Qed.

  Lemma lexical_main : (forall g path p, files g path = Some p -> lets_pass p) ->
    forall fuel argv0 p g, lets_pass p ->
    forget_out (main files find registry tunnel_there link fuel argv0 p g) =
      lrun find registry tunnel_there link (lscript files find registry tunnel_there link fuel)
           (dirname argv0) p (LS [] g []) /\
    returns_to [argv0] (main files find registry tunnel_there link fuel argv0 p g).
  Proof.
    intros Hf fuel argv0 p g T. unfold main.
    apply (lexical_run _ _ (lexical_enter Hf fuel) p (start argv0 g) T).
  Qed.

  (** ** Invariants. *)
  Section Inv.
    Variable R : sstate G -> sstate G -> Prop.
    Hypothesis R_refl : forall s, R s s.
    Hypothesis R_trans : forall a b c, R a b -> R b c -> R a c.
    Hypothesis R_put : forall g s, R s (put_g g s).
    Hypothesis R_pop : forall s, R s (pop s).
    Variable direct : Prop.
    Variable libs : list string.
    Hypothesis R_start : forall path s, direct -> R s (note (EvStart path) (push path s)).
    Hypothesis R_known : forall lib h s, shas (q_included s) lib = true -> R s (note (EvAsk lib h) s).
    Hypothesis R_error : forall lib h s, shas (q_included s) lib = false -> (forall p, h <> ByPath p) ->
      R s (note (EvAsk lib h) s).
    Hypothesis R_new : forall lib h s g p d, shas (q_included s) lib = false ->
      (forall q, h = ByPath q -> p = q) -> (forall a b, h = ByTunnel a b -> p = path_join a b) ->
      R s (note (EvStart (path_join d p)) (push (path_join d p)
            (note (EvLib lib p) (add_lib lib p (put_g g (note (EvAsk lib h) s)))))).

    Definition entered (e : string -> sstate G -> sout G) : Prop :=
      forall path s s', state_of (e path s) = Some s' -> R (note (EvStart path) (push path s)) s'.

    Lemma inv_all : forall e, entered e -> direct -> forall l s s',
      state_of (enter_all e l s) = Some s' -> R s s'.
    Proof.
      intros e A D l; induction l as [|p l IH]; intros s s' H; simpl in H; [now injection H as <-|].
      destruct (e p s) as [s1|x s1|] eqn:E; simpl in H.
      - eapply R_trans; [apply (R_start p s D)|]. eapply R_trans; [apply A; rewrite E; reflexivity|].
        now apply IH.
      - injection H as <-. eapply R_trans; [apply (R_start p s D)|]. apply A; rewrite E; reflexivity.
      - discriminate.
    Qed.

    Lemma inv_run : forall e, entered e -> forall p s s', direct \/ only_includes libs p ->
      state_of (run find registry tunnel_there link e p s) = Some s' -> R s s'.
    Proof.
      intros e A p; induction p as [|x|k IH|g k IH|k IH|q k IH|r q hi k IH|lib h k IH|b IHb h IHh k IHk];
        intros s s' T H; simpl in T, H.
      - injection H as <-; apply R_refl.
      - injection H as <-; apply R_refl.
      - eapply IH; [|exact H]. destruct T; auto.
      - eapply R_trans; [apply (R_put g)|]. now apply IH.
      - eapply IH; [|exact H]. destruct T; auto.
      - destruct T as [D|[]]. unfold execute in H.
        pose proof (R_start (path_join (curdir s) q) s D) as R1.
        destruct (e _ s) as [s1|y s1|] eqn:E; simpl in H.
        + eapply R_trans; [exact R1|]. eapply R_trans; [apply A; rewrite E; reflexivity|]. apply IH; auto.
        + injection H as <-. eapply R_trans; [exact R1|]. apply A; rewrite E; reflexivity.
        + discriminate.
      - destruct T as [D|[]]. unfold execute_recursive in H.
        destruct (enter_all e _ s) as [s1|y s1|] eqn:E; simpl in H.
        + eapply R_trans; [eapply inv_all; [exact A|exact D|]; rewrite E; reflexivity|]. apply IH; auto.
        + injection H as <-. eapply inv_all; [exact A|exact D|]. rewrite E; reflexivity.
        + discriminate.
      - assert (Tk : direct \/ only_includes libs k) by (destruct T as [D|[_ T]]; auto).
        unfold include in H. cbv zeta in H.
        change (q_included (note (EvAsk lib h) s)) with (q_included s) in H.
        change (q_g (note (EvAsk lib h) s)) with (q_g s) in H.
        destruct (shas (q_included s) lib) eqn:K.
        { simpl in H. eapply R_trans; [apply (R_known lib h s K)|]. now apply IH. }
        assert (X : forall g p0, (forall q, h = ByPath q -> p0 = q) ->
                     (forall a b, h = ByTunnel a b -> p0 = path_join a b) ->
            state_of (sbind (execute e p0 (note (EvLib lib p0) (add_lib lib p0 (put_g g (note (EvAsk lib h) s)))))
                       (run find registry tunnel_there link e k)) = Some s' -> R s s').
        { intros g p0 H1 H2 H3. unfold execute in H3.
          pose proof (R_new lib h s g p0 (curdir s) K H1 H2) as R1. cbv beta in H3.
          match type of H3 with context[e ?a ?b] => destruct (e a b) as [s1|y s1|] eqn:E end; simpl in H3.
          - eapply R_trans; [exact R1|]. eapply R_trans; [eapply A; exact (f_equal state_of E)|].
            apply IH; auto.
          - injection H3 as <-. eapply R_trans; [exact R1|]. eapply A; exact (f_equal state_of E).
          - discriminate. }
        destruct h as [p0|d n|].
        + apply (X (q_g s) p0); [congruence|discriminate|exact H].
        + destruct (tunnel registry tunnel_there link lib d (q_g s)) as [x|g] eqn:Et.
          * simpl in H. injection H as <-. apply R_error; [exact K|discriminate].
          * apply (X g (path_join d n)); [discriminate|congruence|exact H].
        + destruct (sget registry lib) as [f|].
          * apply (X (q_g s) f); [discriminate|discriminate|exact H].
          * simpl in H. injection H as <-. apply R_error; [exact K|discriminate].
      - assert (Tb : direct \/ only_includes libs b) by (destruct T as [D|(T & _)]; auto).
        assert (Th : forall x, direct \/ only_includes libs (h x)) by (destruct T as [D|(_ & T & _)]; auto).
        assert (Tk : direct \/ only_includes libs k) by (destruct T as [D|(_ & _ & T)]; auto).
        destruct (run _ _ _ _ e b s) as [s1|x s1|] eqn:Hb; simpl in H.
        + eapply R_trans; [apply IHb; [exact Tb|rewrite Hb; reflexivity]|]. now apply IHk.
        + eapply R_trans; [apply IHb; [exact Tb|rewrite Hb; reflexivity]|].
          destruct (run _ _ _ _ e (h x) s1) as [s2|y s2|] eqn:Hh; simpl in H.
          * eapply R_trans; [eapply IHh; [apply Th|rewrite Hh; reflexivity]|]. now apply IHk.
          * injection H as <-. eapply IHh; [apply Th|rewrite Hh; reflexivity].
          * discriminate.
        + discriminate.
    Qed.

    Lemma inv_enter : (direct \/ forall g path p, files g path = Some p -> only_includes libs p) ->
      forall fuel, entered (enter files find registry tunnel_there link fuel).
    Proof.
      intros Hf fuel; induction fuel as [|fuel IH]; intros path s s' H; simpl in H; [discriminate|].
      change (q_g (push path s)) with (q_g s) in H.
      destruct (files (q_g s) path) as [p|] eqn:Ep.
      - assert (T : direct \/ only_includes libs p) by (destruct Hf; eauto).
        destruct (run _ _ _ _ _ p _) as [s2|x s2|] eqn:E; simpl in H; try discriminate; injection H as <-.
        + eapply R_trans; [eapply inv_run; [exact IH|exact T|rewrite E; reflexivity]|]. apply R_pop.
        + eapply inv_run; [exact IH|exact T|rewrite E; reflexivity].
      - injection H as <-. apply R_refl.
    Qed.
  End Inv.

  (** ** Libraries. *)
  Lemma accepted_app : forall a b, accepted (a ++ b) = accepted a ++ accepted b.
  Proof. intros; apply flat_map_app. Qed.

  Definition known (direct : Prop) (s : sstate G) : Prop :=
    q_included s = accepted (q_trace s) /\ NoDup (map fst (q_included s)) /\ trace_of direct (q_trace s).

  Lemma shas_accepted : forall direct s lib, known direct s ->
    (shas (q_included s) lib = true <-> In lib (map fst (accepted (q_trace s)))).
  Proof.
    intros direct s lib (E & _). rewrite <- E. apply (dhas_In _ string_eqb_spec').
  Qed.

  Lemma known_run : forall (direct : Prop) libs,
    (direct \/ forall g path p, files g path = Some p -> only_includes libs p) ->
    forall fuel p s s', direct \/ only_includes libs p ->
    state_of (run find registry tunnel_there link (enter files find registry tunnel_there link fuel) p s) = Some s' ->
    known direct s -> known direct s'.
  Proof.
    intros direct libs Hf fuel p s s' T.
    set (R := fun a b : sstate G => known direct a -> known direct b).
    assert (R1 : forall lib a, shas (q_included a) lib = false -> known direct a -> ~ In lib (map fst (accepted (q_trace a)))).
    { intros lib a H K I. rewrite <- (shas_accepted _ _ lib K) in I. congruence. }
    change (state_of (run find registry tunnel_there link (enter files find registry tunnel_there link fuel) p s) = Some s' -> R s s').
    assert (C2 : forall a b c, R a b -> R b c -> R a c) by (unfold R; auto).
    assert (C3 : forall path a, direct -> R a (note (EvStart path) (push path a))).
    { intros path a D (E & N & T'). split; [|split]; simpl; [|exact N|].
      - rewrite accepted_app, app_nil_r. exact E.
      - now constructor. }
    assert (C4 : forall lib h a, shas (q_included a) lib = true -> R a (note (EvAsk lib h) a)).
    { intros lib h a H K. pose proof K as (E & N & T'). split; [|split]; simpl; [|exact N|].
      - rewrite accepted_app, app_nil_r. exact E.
      - apply tr_known; [exact T'|]. now apply (shas_accepted _ _ lib K). }
    assert (C5 : forall lib h a, shas (q_included a) lib = false -> (forall q, h <> ByPath q) -> R a (note (EvAsk lib h) a)).
    { intros lib h a H Q K. pose proof K as (E & N & T'). split; [|split]; simpl; [|exact N|].
      - rewrite accepted_app, app_nil_r. exact E.
      - apply tr_error; [exact T'| |exact Q]. eapply R1; eauto. }
    assert (C6 : forall lib h a g q d, shas (q_included a) lib = false ->
      (forall x, h = ByPath x -> q = x) -> (forall x b, h = ByTunnel x b -> q = path_join x b) ->
      R a (note (EvStart (path_join d q)) (push (path_join d q)
            (note (EvLib lib q) (add_lib lib q (put_g g (note (EvAsk lib h) a))))))).
    { intros lib h a g q d H Q1 Q2 K. pose proof (R1 lib a H K) as X. destruct K as (E & N & T').
      assert (Y : sset (q_included a) lib q = q_included a ++ [(lib, q)]).
      { apply (dset_notin _ string_eqb_spec'). unfold dkeys. rewrite E. exact X. }
      split; [|split]; simpl.
      - rewrite Y, E, !accepted_app. simpl. now rewrite !app_nil_r.
      - rewrite Y, map_app. simpl.
        rewrite E in N |- *. clear -N X. induction (map fst (accepted (q_trace a))) as [|y l IH]; simpl.
        + constructor; [easy|constructor].
        + inversion N; subst. constructor.
          * rewrite in_app_iff. intros [I|[->|[]]]; [contradiction|]. apply X; now left.
          * apply IH; [assumption|]. intros I; apply X; now right.
      - rewrite <- !app_assoc. simpl. now apply tr_new. }
    apply (inv_run R (fun _ K => K) C2 (fun _ _ K => K) direct libs C3 C4 C5 C6); [|exact T].
    apply (inv_enter R (fun _ K => K) C2 (fun _ _ K => K) (fun _ K => K) direct libs C3 C4 C5 C6 Hf).
  Qed.

  Lemma known_main : forall (direct : Prop) libs,
    (direct \/ forall g path p, files g path = Some p -> only_includes libs p) ->
    forall fuel argv0 p g s, direct \/ only_includes libs p ->
    state_of (main files find registry tunnel_there link fuel argv0 p g) = Some s -> known direct s.
  Proof.
    intros direct libs Hf fuel argv0 p g s T H. eapply known_run; [exact Hf|exact T|exact H|].
    split; [reflexivity|split; constructor].
  Qed.

  (** ** Included libraries are never forgotten; includes end. *)
  Definition more (a b : sstate G) : Prop :=
    forall lib, shas (q_included a) lib = true -> shas (q_included b) lib = true.
  Lemma more_run : forall fuel p s s',
    state_of (run find registry tunnel_there link (enter files find registry tunnel_there link fuel) p s) = Some s' ->
    more s s'.
  Proof.
    intros fuel p s s'.
    assert (C1 : forall a, more a a) by (unfold more; auto).
    assert (C2 : forall a b c, more a b -> more b c -> more a c) by (unfold more; auto).
    assert (C6 : forall lib (h : how) a g q d, shas (q_included a) lib = false ->
      (forall x, h = ByPath x -> q = x) -> (forall x b, h = ByTunnel x b -> q = path_join x b) ->
      more a (note (EvStart (path_join d q)) (push (path_join d q)
            (note (EvLib lib q) (add_lib lib q (put_g g (note (EvAsk lib h) a))))))).
    { intros lib h a g q d _ _ _ x Hx. simpl. apply (dhas_In _ string_eqb_spec').
      apply (dkeys_dset _ string_eqb_spec'). left. now apply (dhas_In _ string_eqb_spec'). }
    apply (inv_run more C1 C2 (fun _ a => C1 a) True [] (fun _ a _ => C1 a) (fun _ _ a _ => C1 a)
             (fun _ _ a _ _ => C1 a) C6); [|auto].
    apply (inv_enter more C1 C2 (fun _ a => C1 a) (fun a => C1 a) True [] (fun _ a _ => C1 a) (fun _ _ a _ => C1 a)
             (fun _ _ a _ _ => C1 a) C6); auto.
  Qed.

  Lemma filter_length_le' : forall (f : string -> bool) l, List.length (filter f l) <= List.length l.
  Proof. intros f l; induction l as [|a l IH]; simpl; [lia|]. destruct (f a); simpl; lia. Qed.
  Definition missing (libs : list string) (s : sstate G) : nat :=
    List.length (filter (fun l => negb (shas (q_included s) l)) libs).

  Lemma missing_le : forall libs a b, more a b -> missing libs b <= missing libs a.
  Proof.
    intros libs a b M. unfold missing. induction libs as [|l libs IH]; simpl; [lia|].
    destruct (shas (q_included a) l) eqn:E; simpl.
    - rewrite (M l E). simpl. exact IH.
    - destruct (shas (q_included b) l); simpl; lia.
  Qed.
  Lemma missing_lt : forall libs a b lib, more a b -> In lib libs ->
    shas (q_included a) lib = false -> shas (q_included b) lib = true -> missing libs b < missing libs a.
  Proof.
    intros libs a b lib M I Ha Hb. induction libs as [|l libs IH]; [easy|].
    unfold missing in *. simpl. pose proof (missing_le libs a b M) as L. unfold missing in L.
    destruct I as [->|I].
    - rewrite Ha, Hb. simpl. lia.
    - specialize (IH I). destruct (shas (q_included a) l) eqn:E; simpl.
      + rewrite (M l E). simpl. exact IH.
      + destruct (shas (q_included b) l); simpl; lia.
  Qed.

  Lemma includes_run : forall libs fuel,
    (forall path s, missing libs s < fuel -> enter files find registry tunnel_there link fuel path s <> SNoFuel) ->
    forall p s, only_includes libs p -> missing libs s <= fuel ->
    run find registry tunnel_there link (enter files find registry tunnel_there link fuel) p s <> SNoFuel.
  Proof.
    intros libs fuel He p; induction p as [|x|k IH|g k IH|k IH|q k IH|r q hi k IH|lib h k IH|b IHb h IHh k IHk];
      intros s T L; simpl in T; try contradiction; simpl; try discriminate.
    - apply IH; [apply T|exact L].
    - apply (IH (put_g g s)); [exact T|exact L].
    - apply IH; [apply T|exact L].
    - destruct T as [I T].
      assert (Next : forall o s1, o <> SNoFuel -> missing libs s1 <= fuel ->
                (forall s2, state_of o = Some s2 -> more s1 s2) ->
                sbind o (run find registry tunnel_there link (enter files find registry tunnel_there link fuel) k) <> SNoFuel).
      { intros o s1 N L1 M. destruct o as [s2|y s2|]; simpl; [|discriminate|congruence].
        apply IH; [exact T|]. eapply Nat.le_trans; [apply missing_le, M; reflexivity|exact L1]. }
      unfold include. cbv zeta. change (q_included (note (EvAsk lib h) s)) with (q_included s).
      destruct (shas (q_included s) lib) eqn:K.
      { simpl. apply IH; [exact T|exact L]. }
      assert (X : forall g p0,
        let s1 := note (EvLib lib p0) (add_lib lib p0 (put_g g (note (EvAsk lib h) s))) in
        sbind (execute (enter files find registry tunnel_there link fuel) p0 s1)
          (run find registry tunnel_there link (enter files find registry tunnel_there link fuel) k) <> SNoFuel).
      { intros g p0 s1. 
        assert (M : more s s1).
        { intros y Hy. apply (dhas_In _ string_eqb_spec'), (dkeys_dset _ string_eqb_spec'). left.
          now apply (dhas_In _ string_eqb_spec'). }
        assert (L1 : missing libs s1 < missing libs s).
        { apply (missing_lt libs s s1 lib M I K). apply (dhas_In _ string_eqb_spec'), (dkeys_dset _ string_eqb_spec').
          now right. }
        apply (Next _ s1); [|lia|].
        - unfold execute. apply He. lia.
        - intros s2 H2. refine (more_run fuel (PExecute p0 PEnd) s1 s2 _). simpl.
          destruct (execute _ p0 s1); exact H2. }
      destruct h as [p0|d n|].
      + apply (X (q_g s)).
      + destruct (tunnel registry tunnel_there link lib d (q_g (note (EvAsk lib (ByTunnel d n)) s))) as [y|g]; [discriminate|].
        apply X.
      + destruct (sget registry lib); [apply (X (q_g s))|discriminate].
    - destruct T as (Tb & Th & Tk).
      pose proof (IHb s Tb L) as Nb. pose proof (more_run fuel b s) as Mb.
      destruct (run _ _ _ _ _ b s) as [s1|x s1|]; simpl; [|simpl|congruence].
      + apply IHk; [exact Tk|]. eapply Nat.le_trans; [apply missing_le, (Mb s1); reflexivity|exact L].
      + assert (L1 : missing libs s1 <= fuel)
          by (eapply Nat.le_trans; [apply missing_le, (Mb s1); reflexivity|exact L]).
        pose proof (IHh x s1 (Th x) L1) as Nh. pose proof (more_run fuel (h x) s1) as Mh.
        destruct (run _ _ _ _ _ (h x) s1) as [s2|y s2|]; simpl; [|discriminate|congruence].
        apply IHk; [exact Tk|]. eapply Nat.le_trans; [apply missing_le, (Mh s2); reflexivity|exact L1].
  Qed.

  Lemma includes_enter : forall libs, (forall g path p, files g path = Some p -> only_includes libs p) ->
    forall fuel path s, missing libs s < fuel -> enter files find registry tunnel_there link fuel path s <> SNoFuel.
  Proof.
    intros libs Hf fuel; induction fuel as [|fuel IH]; intros path s L; [lia|]. simpl.
    destruct (files (q_g s) path) as [p|] eqn:Ep; [|discriminate].
    pose proof (includes_run libs fuel IH p (note (EvStart path) (push path s)) (Hf _ _ _ Ep)) as H.
    destruct (run _ _ _ _ _ p _); try discriminate. exfalso. apply H; [|reflexivity].
    change (missing libs s <= fuel). lia.
  Qed.

  Lemma includes_end : forall libs, (forall g path p, files g path = Some p -> only_includes libs p) ->
    forall fuel argv0 p g, only_includes libs p -> List.length libs <= fuel ->
    main files find registry tunnel_there link fuel argv0 p g <> SNoFuel.
  Proof.
    intros libs Hf fuel argv0 p g T L. unfold main.
    apply (includes_run libs fuel (includes_enter libs Hf fuel) p (start argv0 g) T).
    unfold missing. eapply Nat.le_trans; [apply filter_length_le'|exact L].
  Qed.
End S.

(** ** Reading traces. *)
Lemma trace_nodup direct tr : trace_of direct tr -> NoDup (map fst (accepted tr)).
Proof.
  induction 1 as [|tr p H IH|tr lib h H IH|tr lib h H IH|tr lib h p d H IH N].
  1: constructor.
  1-3: rewrite accepted_app; simpl; now rewrite app_nil_r.
  rewrite accepted_app, map_app. simpl.
  refine (Permutation_NoDup (Permutation_cons_append _ _) _). now constructor.
Qed.

Lemma split_last {A} (l1 l2 tr : list A) x y : l1 ++ x :: l2 = tr ++ [y] ->
  (exists l3, l2 = l3 ++ [y] /\ tr = l1 ++ x :: l3) \/ (l2 = [] /\ x = y /\ tr = l1).
Proof.
  intros H. destruct (exists_last (l := x :: l2)) as (l & z & E); [easy|].
  rewrite E, app_assoc in H. apply app_inj_tail in H as [H ->].
  destruct l as [|a l]; simpl in E.
  - injection E as -> ->. right. rewrite app_nil_r in H. auto.
  - injection E as -> ->. left. exists l. auto.
Qed.

(** A library asked for by path when it is not yet there is taken from this path. *)
Lemma trace_first direct tr : trace_of direct tr -> forall t1 lib p t2,
  tr = t1 ++ EvAsk lib (ByPath p) :: t2 -> ~ In lib (map fst (accepted t1)) ->
  exists d t3, t2 = EvLib lib p :: EvStart (path_join d p) :: t3.
Proof.
  induction 1 as [|tr q H IH D|tr lib h H IH K|tr lib h H IH K Ex|tr lib h q d H IH N E1 E2]; intros t1 l p t2 E N1.
  - now destruct t1.
  - symmetry in E. apply split_last in E as [(l3 & -> & ->)|(-> & [=] & _)].
    destruct (IH _ _ _ _ eq_refl N1) as (d & t3 & ->). now exists d, (t3 ++ [EvStart q]).
  - symmetry in E. apply split_last in E as [(l3 & -> & ->)|(-> & [= -> <-] & ->)]; [|contradiction].
    destruct (IH _ _ _ _ eq_refl N1) as (d & t3 & ->). now exists d, (t3 ++ [EvAsk lib h]).
  - symmetry in E. apply split_last in E as [(l3 & -> & ->)|(-> & [= -> <-] & ->)].
    + destruct (IH _ _ _ _ eq_refl N1) as (d & t3 & ->). now exists d, (t3 ++ [EvAsk lib h]).
    + now destruct (Ex p).
  - symmetry in E.
    replace (tr ++ [EvAsk lib h; EvLib lib q; EvStart (path_join d q)])
      with (((tr ++ [EvAsk lib h]) ++ [EvLib lib q]) ++ [EvStart (path_join d q)]) in E
      by (now rewrite <- !app_assoc).
    apply split_last in E as [(l3 & -> & E)|(-> & [=] & _)]. symmetry in E.
    apply split_last in E as [(l4 & -> & E)|(-> & [=] & _)]. symmetry in E.
    apply split_last in E as [(l5 & -> & ->)|(-> & [= -> <-] & ->)].
    + destruct (IH _ _ _ _ eq_refl N1) as (d' & t3 & ->).
      exists d', (t3 ++ [EvAsk lib h; EvLib lib q; EvStart (path_join d q)]). now rewrite <- !app_assoc.
    + rewrite (E1 p eq_refl). now exists d, [].
Qed.

(** Scripts that only include: exactly one script per accepted library. *)
Lemma trace_starts direct tr : trace_of direct tr -> ~ direct ->
  exists ds, List.length ds = List.length (accepted tr) /\
    starts tr = map (fun x => path_join (fst x) (snd (snd x))) (combine ds (accepted tr)).
Proof.
  intros H D. induction H as [|tr p H IH|tr lib h H IH|tr lib h H IH|tr lib h p d H IH N].
  - now exists [].
  - contradiction.
  - destruct IH as (ds & L & E). exists ds. unfold starts. rewrite accepted_app, flat_map_app. simpl.
    now rewrite !app_nil_r.
  - destruct IH as (ds & L & E). exists ds. unfold starts. rewrite accepted_app, flat_map_app. simpl.
    now rewrite !app_nil_r.
  - destruct IH as (ds & L & E). exists (ds ++ [d]). unfold starts in *. rewrite accepted_app, flat_map_app. simpl.
    rewrite !app_length, L. split; [reflexivity|]. rewrite E.
    assert (C : forall (a : list string) (b : list (string * string)) x y, List.length a = List.length b ->
              combine (a ++ [x]) (b ++ [y]) = combine a b ++ [(x, y)]).
    { clear. induction a as [|u a IH]; intros [|v b] x y H; simpl in *; try discriminate; [reflexivity|].
      f_equal. apply IH. lia. }
    rewrite (C _ _ _ _ L), map_app. reflexivity.
Qed.

(** The statements of C57 in one piece. *)
Lemma libs_once : forall G files find registry tunnel_there link fuel argv0 (p : prog G) g s,
  state_of (main files find registry tunnel_there link fuel argv0 p g) = Some s ->
  NoDup (map fst (accepted (q_trace s))) /\
  forall lib q, sget (q_included s) lib = Some q <-> In (lib, q) (accepted (q_trace s)).
Proof.
  intros G files find registry tt link fuel argv0 p g s H.
  pose proof (known_main files find registry tt link True [] (or_introl I) fuel argv0 p g s (or_introl I) H)
    as (E & N & _).
  split; [now rewrite <- E|]. intros lib q. rewrite <- E. split; [apply (dget_In _ string_eqb_spec')|].
  intros Hi. now apply (dget_of_In _ string_eqb_spec').
Qed.
Lemma libs_first : forall G files find registry tunnel_there link fuel argv0 (p : prog G) g s,
  state_of (main files find registry tunnel_there link fuel argv0 p g) = Some s ->
  forall t1 lib q t2, q_trace s = t1 ++ EvAsk lib (ByPath q) :: t2 -> ~ In lib (map fst (accepted t1)) ->
  exists d t3, t2 = EvLib lib q :: EvStart (path_join d q) :: t3.
Proof.
  intros G files find registry tt link fuel argv0 p g s H.
  pose proof (known_main files find registry tt link True [] (or_introl I) fuel argv0 p g s (or_introl I) H)
    as (_ & _ & T). exact (trace_first _ _ T).
Qed.
Lemma libs_one_script_each : forall G files find registry tunnel_there link libs,
  (forall g path p, files g path = Some p -> only_includes libs p) ->
  forall fuel argv0 (p : prog G) g s, only_includes libs p ->
  state_of (main files find registry tunnel_there link fuel argv0 p g) = Some s ->
  exists ds, List.length ds = List.length (accepted (q_trace s)) /\
    starts (q_trace s) = map (fun x => path_join (fst x) (snd (snd x))) (combine ds (accepted (q_trace s))).
Proof.
  intros G files find registry tt link libs Hf fuel argv0 p g s T H.
  pose proof (known_main files find registry tt link False libs (or_intror Hf) fuel argv0 p g s (or_intror T) H)
    as (_ & _ & K). apply (trace_starts _ _ K). tauto.
Qed.

Lemma script_exceptions G files find registry tunnel_there link fuel path (s : sstate G) p e s' :
  files (q_g s) path = Some p ->
  run find registry tunnel_there link (enter files find registry tunnel_there link fuel) p (note (EvStart path) (push path s)) = SRaise e s' ->
  exists e', enter files find registry tunnel_there link (S fuel) path s = SRaise e' s' /\
    ((exists m, e = SystemExit m) \/ e = PlainException "KeyboardInterrupt" -> e' = e) /\
    ((forall m, e <> SystemExit m) -> e <> PlainException "KeyboardInterrupt" -> e' = SystemExit "Exception in file").
Proof.
  intros Hf Hr. cbn [enter]. change (q_g (note (EvStart path) (push path s))) with (q_g s). rewrite Hf, Hr.
  eexists. split; [reflexivity|]. split.
  - intros [[m ->]| ->]; reflexivity.
  - intros H1 H2. destruct e; try reflexivity; [|exfalso; eapply H1; reflexivity].
    cbn. destruct (String.eqb_spec msg "KeyboardInterrupt") as [->|]; [congruence|reflexivity].
Qed.
