(** Depth-first search of solver.py: correctness of [dfs] and [connectivity_check]. *)
From Coq Require Import Permutation Relations.Relation_Operators Relations.Operators_Properties.
From Verif Require Import PyBase SolverModel.

Lemma NoDup_snoc {A} (l : list A) x : NoDup l -> ~ In x l -> NoDup (l ++ [x]).
Proof.
  intros H1 H2. apply NoDup_rev in H1. rewrite <- (rev_involutive (l ++ [x])).
  apply NoDup_rev. rewrite rev_app_distr. simpl. constructor; [now rewrite <- in_rev|exact H1].
Qed.

Lemma bounded_nodup_length (l : list nat) n :
  NoDup l -> (forall x, In x l -> x < n) -> List.length l <= n.
Proof.
  intros Hnd Hb. rewrite <- (seq_length n 0). apply NoDup_incl_length; [exact Hnd|].
  intros x Hx. apply in_seq. split; [lia|]. simpl. now apply Hb.
Qed.

Lemma clos_t_rt {A} (R : A -> A -> Prop) x y : clos_trans A R x y -> clos_refl_trans A R x y.
Proof. induction 1; [now apply rt_step|eapply rt_trans; eauto]. Qed.

Section DfsProofs.
  Variable succ : nat -> list nat.
  Variable n : nat.
  Hypothesis Hsucc : forall t s, t < n -> In s (succ t) -> s < n.

  Notation Succ := (fun a b => In b (succ a)).

  (** A list of finished nodes, last finished first: successors finished earlier. *)
  Inductive topo : list nat -> Prop :=
  | topo_nil : topo []
  | topo_cons x F : topo F -> ~ In x F -> (forall s, In s (succ x) -> In s F) -> topo (x :: F).

  Fixpoint chain (l : list nat) : Prop :=
    match l with
    | a :: ((b :: _) as l') => In b (succ a) /\ chain l'
    | _ => True
    end.

  Lemma chain_snoc l a b : chain (l ++ [a]) -> In b (succ a) -> chain ((l ++ [a]) ++ [b]).
  Proof.
    induction l as [|x l IH]; simpl; [tauto|].
    destruct (l ++ [a]) as [|y m] eqn:E.
    - destruct l; discriminate.
    - simpl. intros [H1 H2] Hb. split; [exact H1|]. now apply IH.
  Qed.

  Definition post (t : nat) (visited path F : list nat) (r : dfs_res) : Prop :=
    match r with
    | DfsOk v' => NoDup v' /\ exists F', topo F' /\ incl F F' /\ In t F' /\
          (forall x, In x v' <-> In x F' \/ In x path) /\
          (forall x, In x F' -> ~ In x path) /\
          (forall x, In x v' -> x < n) /\
          List.length visited <= List.length v' /\
          (forall x, In x F' -> In x F \/ clos_refl_trans nat Succ t x)
    | DfsCirc l => exists l0 d, l = l0 ++ [d] /\ In d l0 /\ chain l
    | DfsFuel => False
    end.

  Definition loop (rec : nat -> list nat -> list nat -> dfs_res) (path' : list nat) :=
    fix loop (deps : list nat) (visited : list nat) : dfs_res :=
      match deps with
      | [] => DfsOk visited
      | dep :: deps' =>
          if smem Nat.eqb dep path' then DfsCirc (path' ++ [dep])
          else if smem Nat.eqb dep visited then loop deps' visited
          else match rec dep visited path' with
               | DfsOk visited' => loop deps' visited'
               | r => r
               end
      end.

  Lemma dfs_S f t v p :
    dfs succ (S f) t v p = loop (dfs succ f) (p ++ [t]) (succ t) (sadd Nat.eqb v t).
  Proof. reflexivity. Qed.

  Lemma loop_spec (rec : nat -> list nat -> list nat -> dfs_res) (t : nat) (path : list nat) m :
    let path' := path ++ [t] in
    t < n -> chain path' ->
    (forall dep visited F,
        topo F -> NoDup visited ->
        (forall x, In x visited <-> In x F \/ In x path') ->
        (forall x, In x F -> ~ In x path') ->
        (forall x, In x visited -> x < n) ->
        In dep (succ t) -> ~ In dep visited ->
        m <= List.length visited ->
        post dep visited path' F (rec dep visited path')) ->
    forall deps visited F,
      topo F -> NoDup visited ->
      (forall x, In x visited <-> In x F \/ In x path') ->
      (forall x, In x F -> ~ In x path') ->
      (forall x, In x visited -> x < n) ->
      incl deps (succ t) ->
      m <= List.length visited ->
      match loop rec path' deps visited with
      | DfsOk v' => NoDup v' /\ exists F', topo F' /\ incl F F' /\ incl deps F' /\
          (forall x, In x v' <-> In x F' \/ In x path') /\
          (forall x, In x F' -> ~ In x path') /\
          (forall x, In x v' -> x < n) /\
          List.length visited <= List.length v' /\
          (forall x, In x F' -> In x F \/ clos_refl_trans nat Succ t x)
      | DfsCirc l => exists l0 d, l = l0 ++ [d] /\ In d l0 /\ chain l
      | DfsFuel => False
      end.
  Proof.
    intros path' Ht Hch Hrec.
    induction deps as [|dep deps IH]; intros visited F HF Hnd Hv Hd Hb Hincl Hm; simpl.
    - split; [exact Hnd|]. exists F. repeat split; auto; try (now apply Hv); try lia.
      + intros x Hx; exact Hx.
      + intros x [].
    - destruct (smem Nat.eqb dep path') eqn:E1.
      { apply (smem_In Nat.eqb nat_eqb_spec') in E1.
        exists path', dep. split; [reflexivity|]. split; [exact E1|].
        unfold path' in *. apply chain_snoc; [exact Hch|]. apply Hincl; now left. }
      apply (smem_false Nat.eqb nat_eqb_spec') in E1.
      destruct (smem Nat.eqb dep visited) eqn:E2.
      + apply (smem_In Nat.eqb nat_eqb_spec') in E2.
        assert (HdF : In dep F) by (apply Hv in E2; tauto).
        specialize (IH visited F HF Hnd Hv Hd Hb).
        assert (Hi : incl deps (succ t)) by (intros x Hx; apply Hincl; now right).
        specialize (IH Hi Hm).
        destruct (loop rec path' deps visited) as [v'|l|]; try exact IH.
        destruct IH as (H0 & F' & H1 & H2 & H3 & H4 & H5 & H6 & H7 & H8).
        split; [exact H0|]. exists F'. repeat split; auto; try (now apply H4).
        intros x [<-|Hx]; auto.
      + apply (smem_false Nat.eqb nat_eqb_spec') in E2.
        assert (Hds : In dep (succ t)) by (apply Hincl; now left).
        pose proof (Hrec dep visited F HF Hnd Hv Hd Hb Hds E2 Hm) as Hp.
        destruct (rec dep visited path') as [v1|l|]; simpl in Hp; try exact Hp.
        destruct Hp as (P0 & F1 & P1 & P2 & P3 & P4 & P5 & P6 & P7 & P8).
        assert (Hi : incl deps (succ t)) by (intros x Hx; apply Hincl; now right).
        specialize (IH v1 F1 P1 P0 P4 P5 P6 Hi). assert (Hm1 : m <= List.length v1) by lia.
        specialize (IH Hm1).
        destruct (loop rec path' deps v1) as [v'|l|]; try exact IH.
        destruct IH as (H0 & F' & H1 & H2 & H3 & H4 & H5 & H6 & H7 & H8).
        split; [exact H0|]. exists F'. repeat split; auto; try (now apply H4); try lia.
        * intros x Hx; auto.
        * intros x [<-|Hx]; auto.
        * intros x Hx. destruct (H8 x Hx) as [Hy|Hy]; [|now right].
          destruct (P8 x Hy) as [Hz|Hz]; [now left|]. right.
          eapply rt_trans; [apply rt_step; exact Hds|exact Hz].
  Qed.

  Lemma dfs_spec : forall fuel t visited path F,
    topo F -> NoDup visited ->
    (forall x, In x visited <-> In x F \/ In x path) ->
    (forall x, In x F -> ~ In x path) ->
    (forall x, In x visited -> x < n) ->
    chain (path ++ [t]) -> ~ In t visited -> t < n ->
    n < fuel + List.length visited ->
    post t visited path F (dfs succ fuel t visited path).
  Proof.
    induction fuel as [|f IH]; intros t visited path F HF Hnd Hv Hd Hb Hch Ht Htn Hfuel.
    - exfalso. simpl in Hfuel. pose proof (bounded_nodup_length visited n Hnd Hb). lia.
    - rewrite dfs_S.
      set (v1 := sadd Nat.eqb visited t).
      assert (Ev : v1 = visited ++ [t]).
      { unfold v1, sadd. destruct (smem Nat.eqb t visited) eqn:E; [|reflexivity].
        apply (smem_In Nat.eqb nat_eqb_spec') in E. contradiction. }
      assert (Hnd1 : NoDup v1) by (rewrite Ev; now apply NoDup_snoc).
      assert (Hlen : List.length v1 = S (List.length visited))
        by (rewrite Ev, app_length; simpl; lia).
      assert (HtF : ~ In t F) by (intros HtF; apply Ht, Hv; now left).
      assert (Htp : ~ In t path) by (intros Htp; apply Ht, Hv; now right).
      assert (Hv1 : forall x, In x v1 <-> In x F \/ In x (path ++ [t])).
      { intros x. rewrite Ev, !in_app_iff, Hv. simpl. tauto. }
      assert (Hd1 : forall x, In x F -> ~ In x (path ++ [t])).
      { intros x Hx. rewrite in_app_iff. simpl. intros [H|[<-|[]]]; [now apply (Hd x)|auto]. }
      assert (Hb1 : forall x, In x v1 -> x < n).
      { intros x. rewrite Ev, in_app_iff. simpl. intros [H|[<-|[]]]; auto. }
      pose proof (loop_spec (dfs succ f) t path (List.length v1) Htn Hch) as L.
      cbv zeta in L.
      assert (Hrec : forall dep visited0 F0,
        topo F0 -> NoDup visited0 ->
        (forall x, In x visited0 <-> In x F0 \/ In x (path ++ [t])) ->
        (forall x, In x F0 -> ~ In x (path ++ [t])) ->
        (forall x, In x visited0 -> x < n) ->
        In dep (succ t) -> ~ In dep visited0 ->
        List.length v1 <= List.length visited0 ->
        post dep visited0 (path ++ [t]) F0 (dfs succ f dep visited0 (path ++ [t]))).
      { intros dep v0 F0 G1 G2 G3 G4 G5 G6 G7 G8. apply IH; auto.
        - now apply chain_snoc.
        - now apply (Hsucc t).
        - lia. }
      specialize (L Hrec (succ t) v1 F HF Hnd1 Hv1 Hd1 Hb1 (incl_refl _) (le_n _)).
      destruct (loop (dfs succ f) (path ++ [t]) (succ t) v1) as [v'|l|]; simpl; try exact L.
      destruct L as (H0 & F' & H1 & H2 & H3 & H4 & H5 & H6 & H7 & H8).
      assert (HtF' : ~ In t F').
      { intros H. apply (H5 t H). apply in_or_app. right; now left. }
      split; [exact H0|]. exists (t :: F'). repeat split.
      + constructor; auto.
      + intros x Hx. right; auto.
      + now left.
      + intros Hx. apply H4 in Hx. rewrite in_app_iff in Hx. simpl in *. tauto.
      + intros Hx. apply H4. rewrite in_app_iff. simpl in *. tauto.
      + intros x [<-|Hx]; [exact Htp|]. intros Hp. apply (H5 x Hx). apply in_or_app; now left.
      + exact H6.
      + lia.
      + intros x [<-|Hx]; [right; apply rt_refl|]. now apply H8.
  Qed.

  (** Loop over the roots; roots have no predecessors, so they are not visited yet. *)
  Lemma dfs_roots_spec fuel : n < fuel ->
    forall roots visited F,
      topo F -> NoDup visited -> (forall x, In x visited <-> In x F) ->
      (forall x, In x visited -> x < n) ->
      NoDup roots -> (forall r, In r roots -> r < n) ->
      (forall r x, In r roots -> ~ In r (succ x)) ->
      (forall r, In r roots -> ~ In r visited) ->
      match dfs_roots succ fuel roots visited with
      | DfsOk v' => NoDup v' /\ (exists F', topo F' /\ forall x, In x v' <-> In x F') /\
          (forall x, In x v' -> x < n) /\ incl visited v' /\ incl roots v' /\
          (forall x, In x v' -> In x visited \/ exists r, In r roots /\ clos_refl_trans nat Succ r x)
      | DfsCirc l => exists l0 d, l = l0 ++ [d] /\ In d l0 /\ chain l
      | DfsFuel => False
      end.
  Proof.
    intros Hf. induction roots as [|r roots IH]; intros visited F HF Hnd Hv Hb Hndr Hrn Hrs Hrv; simpl.
    - split; [exact Hnd|]. split; [now exists F|]. split; [exact Hb|].
      split; [intros x Hx; exact Hx|]. split; [intros x []|]. intros x Hx; now left.
    - inversion Hndr as [|? ? Hr Hndr']; subst.
      assert (P : post r visited [] F (dfs succ fuel r visited [])).
      { apply dfs_spec; auto; simpl; auto.
        - intros x. rewrite Hv. tauto.
        - apply Hrv; now left.
        - apply Hrn; now left.
        - lia. }
      destruct (dfs succ fuel r visited []) as [v1|l|]; simpl in P; try exact P.
      destruct P as (P0 & F1 & P1 & P2 & P3 & P4 & P5 & P6 & P7 & P8).
      assert (Hv1 : forall x, In x v1 <-> In x F1) by (intros x; rewrite P4; simpl; tauto).
      specialize (IH v1 F1 P1 P0 Hv1 P6 Hndr').
      assert (A1 : forall r0, In r0 roots -> r0 < n) by (intros; apply Hrn; now right).
      assert (A2 : forall r0 x, In r0 roots -> ~ In r0 (succ x)) by (intros; apply Hrs; now right).
      assert (A3 : forall r0, In r0 roots -> ~ In r0 v1).
      { intros r0 Hr0 Hi. apply Hv1 in Hi. destruct (P8 r0 Hi) as [Hx|Hx].
        - apply (Hrv r0); [now right|]. now apply Hv.
        - apply Operators_Properties.clos_rt_rtn1 in Hx. inversion Hx as [|y z Hy Hz]; subst.
          + contradiction.
          + exact (A2 r0 y Hr0 Hy). }
      specialize (IH A1 A2 A3).
      destruct (dfs_roots succ fuel roots v1) as [v'|l|]; try exact IH.
      destruct IH as (H0 & H1 & H2 & H3 & H4 & H5).
      split; [exact H0|]. split; [exact H1|]. split; [exact H2|].
      assert (Hvv : incl visited v').
      { intros x Hx. apply H3, Hv1, P2, Hv, Hx. }
      split; [exact Hvv|]. split.
      + intros x [<-|Hx]; [|auto]. apply H3, Hv1, P3.
      + intros x Hx. destruct (H5 x Hx) as [Hy|(r0 & Hy & Hz)].
        * apply Hv1 in Hy. destruct (P8 x Hy) as [Hw|Hw]; [left; now apply Hv|].
          right. exists r. split; [now left|exact Hw].
        * right. exists r0. split; [now right|exact Hz].
  Qed.

  (** Nodes of a topological list cannot lie on a cycle. *)
  Lemma topo_closed F : topo F -> forall x s, In x F -> In s (succ x) -> In s F.
  Proof.
    induction 1 as [|x F HF IH Hx Hs]; intros y s Hy Hi; [destruct Hy|].
    destruct Hy as [<-|Hy]; right; [now apply Hs|now apply (IH y)].
  Qed.

  Lemma topo_closed_rt F x y : topo F -> In x F -> clos_refl_trans nat Succ x y -> In y F.
  Proof.
    intros HF Hx H. apply Operators_Properties.clos_rt_rt1n in H. induction H as [|x z y Hz _ IH]; [exact Hx|].
    apply IH. eapply topo_closed; eauto.
  Qed.

  Lemma topo_acyclic F : topo F -> forall x, In x F -> ~ clos_trans nat Succ x x.
  Proof.
    induction 1 as [|x F HF IH Hx Hs]; intros y Hy Hc; [destruct Hy|].
    destruct Hy as [<-|Hy].
    - apply Operators_Properties.clos_trans_t1n in Hc. inversion Hc as [z Hz|z w Hz Hw]; subst.
      + apply Hx, Hs, Hz.
      + apply Hx. eapply topo_closed_rt; [exact HF|apply Hs, Hz|].
        apply Operators_Properties.clos_t1n_trans in Hw. now apply clos_t_rt.
    - exact (IH y Hy Hc).
  Qed.

  Lemma connectivity_check_spec roots :
    NoDup roots -> (forall r, In r roots -> r < n) ->
    (forall r x, In r roots -> ~ In r (succ x)) ->
    match connectivity_check succ n roots with
    | None => (forall x, x < n -> exists r, In r roots /\ clos_refl_trans nat Succ r x) /\
              (forall x, x < n -> ~ clos_trans nat Succ x x)
    | Some (CircularDependencyError l) => exists l0 d, l = l0 ++ [d] /\ In d l0 /\ chain l
    | Some (ConnectivityError l) =>
        l <> [] /\
        forall x, In x l <-> x < n /\ ~ (exists r, In r roots /\ clos_refl_trans nat Succ r x)
    | Some _ => False
    end.
  Proof.
    intros H1 H2 H3. unfold connectivity_check.
    assert (Hf : n < S n) by lia.
    pose proof (dfs_roots_spec (S n) Hf roots [] []) as D.
    specialize (D topo_nil (NoDup_nil _) (fun x => iff_refl _) (fun x (H : In x []) => match H with end)
                 H1 H2 H3 (fun r _ H => H)).
    destruct (dfs_roots succ (S n) roots []) as [v|l|].
    2:{ exact D. }
    2:{ destruct D. }
    destruct D as (D0 & (F & D1 & D2) & D3 & _ & D4 & D5).
    assert (Hreach : forall x, In x v <-> exists r, In r roots /\ clos_refl_trans nat Succ r x).
    { intros x. split.
      - intros Hx. destruct (D5 x Hx) as [[]|Hy]; exact Hy.
      - intros (r & Hr & Hc). apply D2. eapply topo_closed_rt; eauto. apply D2. now apply D4. }
    destruct (List.length v =? n) eqn:E.
    - apply Nat.eqb_eq in E.
      assert (Hall : forall x, x < n -> In x v).
      { intros x Hx. apply (NoDup_length_incl D0 (l' := seq 0 n)).
        - rewrite seq_length. lia.
        - intros y Hy. apply in_seq. specialize (D3 y Hy). lia.
        - apply in_seq. lia. }
      split.
      + intros x Hx. now apply Hreach, Hall.
      + intros x Hx. eapply topo_acyclic; [exact D1|]. now apply D2, Hall.
    - apply Nat.eqb_neq in E. split.
      + intros Hnil. apply E. pose proof (bounded_nodup_length v n D0 D3) as Hle.
        assert (n <= List.length v); [|lia].
        rewrite <- (seq_length n 0) at 1. apply NoDup_incl_length; [apply seq_NoDup|].
        intros x Hx. destruct (smem Nat.eqb x v) eqn:Em.
        * now apply (smem_In Nat.eqb nat_eqb_spec').
        * exfalso. assert (In x (filter (fun i => negb (smem Nat.eqb i v)) (seq 0 n))).
          { apply filter_In. split; [exact Hx|]. now rewrite Em. }
          rewrite Hnil in H. destruct H.
      + intros x. rewrite filter_In, in_seq, <- Hreach.
        destruct (smem Nat.eqb x v) eqn:Em; simpl.
        * apply (smem_In Nat.eqb nat_eqb_spec') in Em. split; [intros [_ H]; discriminate|tauto].
        * apply (smem_false Nat.eqb nat_eqb_spec') in Em. intuition lia.
  Qed.
End DfsProofs.
