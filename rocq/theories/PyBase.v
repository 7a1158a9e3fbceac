(** Python data used by the model: results with exceptions, insertion-ordered
    dictionaries, sets as duplicate-free lists.  Nothing here models a licant
    function; it models the Python builtins those functions call. *)
From Coq Require Export List String Ascii Bool Arith ZArith Lia.
Export ListNotations.
Open Scope list_scope.

(** Exceptions that the modelled code raises (or lets through). *)
Inductive exn : Type :=
| KeyError (k : string)
| TypeError (what : string)
| AttributeError (attr : string)
| ValueError (what : string)
| AssertionError
| UnboundLocalError (v : string)
| PlainException (msg : string)     (* raise Exception(msg) *)
| SystemExit (msg : string).        (* exit(-1), licant.util.error *)

(** Result of running a piece of Python: a value, an exception, or (only for
    functions whose Python recursion/loop is not structurally bounded) no answer
    within the given fuel. *)
Inductive res (A : Type) : Type :=
| Ok (a : A)
| Raise (e : exn)
| OutOfFuel.
Arguments Ok {A} _.
Arguments Raise {A} _.
Arguments OutOfFuel {A}.

Definition bind {A B} (r : res A) (f : A -> res B) : res B :=
  match r with Ok a => f a | Raise e => Raise e | OutOfFuel => OutOfFuel end.
Notation "'do!' x <- r ; k" := (bind r (fun x => k))
  (at level 200, x pattern, r at level 100, k at level 200).

(** ** Dictionaries: association lists in insertion order, keys unique by construction. *)
Section Dict.
  Context {K V : Type} (eqb : K -> K -> bool).
  Definition dict := list (K * V).

  Fixpoint dget (d : list (K * V)) (k : K) : option V :=
    match d with
    | [] => None
    | (k', v) :: d' => if eqb k k' then Some v else dget d' k
    end.

  (** d[k] = v : replaces in place, or appends at the end. *)
  Fixpoint dset (d : list (K * V)) (k : K) (v : V) : list (K * V) :=
    match d with
    | [] => [(k, v)]
    | (k', v') :: d' => if eqb k k' then (k', v) :: d' else (k', v') :: dset d' k v
    end.

  (** del d[k] *)
  Fixpoint ddel (d : list (K * V)) (k : K) : list (K * V) :=
    match d with
    | [] => []
    | (k', v') :: d' => if eqb k k' then d' else (k', v') :: ddel d' k
    end.

  Definition dhas (d : list (K * V)) (k : K) : bool :=
    match dget d k with Some _ => true | None => false end.

  Definition dkeys (d : list (K * V)) : list K := map fst d.
  Definition dvalues (d : list (K * V)) : list V := map snd d.
End Dict.

Notation sget := (dget String.eqb).
Notation sset := (dset String.eqb).
Notation shas := (dhas String.eqb).
Notation nget := (dget Nat.eqb).
Notation nset := (dset Nat.eqb).

Section DictLemmas.
  Context {K V : Type} (eqb : K -> K -> bool).
  Hypothesis eqb_spec : forall a b, reflect (a = b) (eqb a b).

  Lemma eqb_refl' a : eqb a a = true.
  Proof. destruct (eqb_spec a a); congruence. Qed.

  Lemma dget_dset_eq (d : list (K * V)) k v : dget eqb (dset eqb d k v) k = Some v.
  Proof.
    induction d as [|[k' v'] d IH]; simpl.
    - now rewrite eqb_refl'.
    - destruct (eqb_spec k k') as [->|n]; simpl.
      + now rewrite eqb_refl'.
      + destruct (eqb_spec k k'); [contradiction|exact IH].
  Qed.

  Lemma dget_dset_neq (d : list (K * V)) k k' v :
    k <> k' -> dget eqb (dset eqb d k v) k' = dget eqb d k'.
  Proof.
    intros Hn; induction d as [|[k1 v1] d IH]; simpl.
    - destruct (eqb_spec k' k); [subst; contradiction|reflexivity].
    - destruct (eqb_spec k k1) as [->|n]; simpl.
      + destruct (eqb_spec k' k1); [subst; contradiction|reflexivity].
      + destruct (eqb_spec k' k1); [reflexivity|exact IH].
  Qed.

  Lemma dget_In (d : list (K * V)) k v : dget eqb d k = Some v -> In (k, v) d.
  Proof.
    induction d as [|[k1 v1] d IH]; simpl; [discriminate|].
    destruct (eqb_spec k k1) as [->|n]; [intros [= ->]; now left|right; auto].
  Qed.

  Lemma dget_In_keys (d : list (K * V)) k v : dget eqb d k = Some v -> In k (dkeys d).
  Proof. intros H%dget_In. apply in_map_iff. now exists (k, v). Qed.

  Lemma dget_None (d : list (K * V)) k : dget eqb d k = None <-> ~ In k (dkeys d).
  Proof.
    induction d as [|[k1 v1] d IH]; simpl; [tauto|].
    destruct (eqb_spec k k1) as [->|n]; [split; [discriminate|intros H; exfalso; auto]|].
    rewrite IH. split; [intros H [->|H']; auto|tauto].
  Qed.

  Lemma dhas_In (d : list (K * V)) k : dhas eqb d k = true <-> In k (dkeys d).
  Proof.
    unfold dhas. destruct (dget eqb d k) eqn:E.
    - split; [intros _; eapply dget_In_keys; eauto|reflexivity].
    - apply dget_None in E. split; [discriminate|contradiction].
  Qed.

  Lemma dkeys_dset (d : list (K * V)) k v x :
    In x (dkeys (dset eqb d k v)) <-> In x (dkeys d) \/ x = k.
  Proof.
    induction d as [|[k1 v1] d IH]; simpl; [intuition|].
    destruct (eqb_spec k k1) as [->|n]; simpl; [intuition|rewrite IH; intuition].
  Qed.

  Lemma dset_nodup (d : list (K * V)) k v :
    NoDup (dkeys d) -> NoDup (dkeys (dset eqb d k v)).
  Proof.
    induction d as [|[k1 v1] d IH]; simpl; intros H.
    - repeat constructor. simpl. tauto.
    - inversion H as [|x l Hx Hl]; subst. destruct (eqb_spec k k1) as [->|n]; simpl.
      + now constructor.
      + constructor; [|now apply IH]. rewrite dkeys_dset. intros [Hi|Hi]; [auto|congruence].
  Qed.

  Lemma dget_of_In (d : list (K * V)) k v :
    NoDup (dkeys d) -> In (k, v) d -> dget eqb d k = Some v.
  Proof.
    induction d as [|[k1 v1] d IH]; simpl; intros Hnd Hin; [contradiction|].
    inversion Hnd as [|x l Hx Hl]; subst.
    destruct Hin as [[= -> ->]|Hin]; [now rewrite eqb_refl'|].
    destruct (eqb_spec k k1) as [->|n]; [|auto].
    exfalso; apply Hx. apply in_map_iff. now exists (k1, v).
  Qed.

  Lemma dset_notin (d : list (K * V)) k v : ~ In k (dkeys d) -> dset eqb d k v = d ++ [(k, v)].
  Proof.
    induction d as [|[k1 v1] d IH]; simpl; intros H; [reflexivity|].
    destruct (eqb_spec k k1) as [->|n]; [exfalso; auto|]. now rewrite IH by auto.
  Qed.

  Lemma dget_ddel_neq (d : list (K * V)) k k' :
    k <> k' -> dget eqb (ddel eqb d k) k' = dget eqb d k'.
  Proof.
    intros Hn; induction d as [|[k1 v1] d IH]; simpl; [reflexivity|].
    destruct (eqb_spec k k1) as [->|n]; simpl.
    - destruct (eqb_spec k' k1); [subst; contradiction|reflexivity].
    - destruct (eqb_spec k' k1); [reflexivity|exact IH].
  Qed.

  Lemma dget_ddel_eq (d : list (K * V)) k :
    NoDup (dkeys d) -> dget eqb (ddel eqb d k) k = None.
  Proof.
    induction d as [|[k1 v1] d IH]; simpl; intros H; [reflexivity|].
    inversion H as [|x l Hx Hl]; subst.
    destruct (eqb_spec k k1) as [->|n]; simpl; [now apply dget_None|].
    destruct (eqb_spec k k1); [contradiction|auto].
  Qed.
End DictLemmas.

(** ** Sets: duplicate-free lists. *)
Section PySet.
  Context {A : Type} (eqb : A -> A -> bool).
  Definition smem (x : A) (s : list A) : bool := existsb (eqb x) s.
  Definition sadd (s : list A) (x : A) : list A := if smem x s then s else s ++ [x].

  Hypothesis eqb_spec : forall a b, reflect (a = b) (eqb a b).

  Lemma smem_In x s : smem x s = true <-> In x s.
  Proof.
    unfold smem. rewrite existsb_exists. split.
    - intros [y [Hy E]]. destruct (eqb_spec x y); [now subst|discriminate].
    - intros H. exists x. split; [exact H|]. destruct (eqb_spec x x); congruence.
  Qed.

  Lemma smem_false x s : smem x s = false <-> ~ In x s.
  Proof. rewrite <- smem_In. destruct (smem x s); intuition congruence. Qed.

  Lemma sadd_In s x y : In y (sadd s x) <-> In y s \/ y = x.
  Proof.
    unfold sadd. destruct (smem x s) eqn:E.
    - apply smem_In in E. intuition (subst; auto).
    - rewrite in_app_iff. simpl. intuition.
  Qed.

  Lemma sadd_NoDup s x : NoDup s -> NoDup (sadd s x).
  Proof.
    unfold sadd. destruct (smem x s) eqn:E; [auto|]. intros H.
    apply smem_false in E. apply NoDup_rev in H. rewrite <- (rev_involutive (s ++ [x])).
    apply NoDup_rev. rewrite rev_app_distr. simpl. constructor; [|exact H].
    now rewrite <- in_rev.
  Qed.
End PySet.

Lemma string_eqb_spec' : forall a b : string, reflect (a = b) (String.eqb a b).
Proof. exact String.eqb_spec. Qed.
Lemma nat_eqb_spec' : forall a b : nat, reflect (a = b) (Nat.eqb a b).
Proof. exact Nat.eqb_spec. Qed.
