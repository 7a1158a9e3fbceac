(** C103: what the package itself provides. *)
From Verif Require Import PyBase PackageModel.
From Coq Require Import ZArith Lia.
Local Open Scope string_scope.
Local Open Scope list_scope.

Lemma mem_in n l : smem String.eqb n l = true <-> In n l.
Proof.
  unfold smem. rewrite existsb_exists. split.
  - intros (x & H & E). apply String.eqb_eq in E. now subst.
  - intros H. exists n. split; [exact H|apply String.eqb_refl].
Qed.
Lemma star_ok attrs modules all : (forall n, In n all -> In n attrs \/ In n modules) -> import_star attrs modules all = Ok all.
Proof.
  induction all as [|n all IH]; intros H; [reflexivity|]. cbn [import_star].
  destruct (H n (or_introl eq_refl)) as [A|A]; apply mem_in in A; rewrite A, ?Bool.orb_true_r; cbn [orb];
    rewrite IH by (intros m Hm; apply H; now right); reflexivity.
Qed.
Lemma star_raises attrs modules l1 n l2 : (forall m, In m l1 -> In m attrs \/ In m modules) -> ~ In n attrs -> ~ In n modules ->
  import_star attrs modules (l1 ++ n :: l2) = Raise (AttributeError n).
Proof.
  induction l1 as [|m l1 IH]; intros H A B; cbn [import_star app].
  - rewrite <- mem_in in A, B. apply Bool.not_true_is_false in A, B. now rewrite A, B.
  - destruct (H m (or_introl eq_refl)) as [X|X]; apply mem_in in X; rewrite X, ?Bool.orb_true_r; cbn [orb];
      rewrite IH; auto; intros k Hk; apply H; now right.
Qed.

(** [import *] works exactly if every name of __all__ is there, and then binds them all. *)
Theorem C103_import_star :
  forall attrs modules all,
  (forall n, In n all -> In n attrs \/ In n modules) <-> import_star attrs modules all = Ok all.
Proof.
  intros attrs modules all. split; [apply star_ok|]. induction all as [|n all IH]; intros E m Hm; [destruct Hm|].
  cbn [import_star] in E. destruct (smem String.eqb n attrs || smem String.eqb n modules) eqn:X; [|discriminate E].
  destruct (import_star attrs modules all) as [l| |] eqn:El; cbn [bind] in E; try discriminate E. injection E as ->.
  destruct Hm as [<-|Hm]; [|now apply IH]. apply Bool.orb_true_iff in X. rewrite !mem_in in X. exact X.
Qed.
Print Assumptions C103_import_star.

(** "[from licant import *] works" is false: four of the names do not exist, and the first of
    them is what the exception names. *)
Theorem C103_licant_star_refuted :
  exists n, In n licant_all /\ ~ In n licant_names /\ ~ In n licant_modules /\
  import_star licant_names licant_modules licant_all = Raise (AttributeError n).
Proof.
  exists "shared_library". split; [cbn; tauto|]. split; [|split; [|reflexivity]]; rewrite <- mem_in; discriminate.
Qed.
Print Assumptions C103_licant_star_refuted.
(** Exactly these four are missing. *)
Theorem C103_missing_names :
  forall n, In n licant_all -> (In n licant_names \/ In n licant_modules <->
    ~ In n ["shared_library"; "static_library"; "static_and_shared"; "routine_decorator"]).
Proof.
  assert (H : forallb (fun n => Bool.eqb (smem String.eqb n licant_names || smem String.eqb n licant_modules)
    (negb (smem String.eqb n ["shared_library"; "static_library"; "static_and_shared"; "routine_decorator"]))) licant_all = true) by reflexivity.
  rewrite forallb_forall in H. intros n Hn. specialize (H n Hn). apply Bool.eqb_prop in H. rewrite <- !mem_in, <- Bool.orb_true_iff, H.
  destruct (smem String.eqb n ["shared_library"; "static_library"; "static_and_shared"; "routine_decorator"]); cbn; split; congruence.
Qed.
Print Assumptions C103_missing_names.

(** An attribute is what was last stored under its name; before that it raises. *)
Theorem C103_attributes :
  forall (V : Type) (l : list (string * V)) name,
  let st := fold_left (fun st e => import_attribute st (fst e) (snd e)) l [] in
  (forall l1 v l2, l = l1 ++ (name, v) :: l2 -> ~ In name (map fst l2) -> attribute st name = Ok v) /\
  (~ In name (map fst l) -> attribute st name = Raise (AttributeError name)).
Proof.
  intros V l name.
  assert (K : forall l2 (st : list (string * V)), ~ In name (map fst l2) ->
    attribute (fold_left (fun st e => import_attribute st (fst e) (snd e)) l2 st) name = attribute st name).
  { induction l2 as [|[n w] l2 IH]; intros st N; [reflexivity|]. cbn [fold_left]. rewrite IH by (intros X; apply N; now right).
    unfold attribute, import_attribute. cbn [fst snd]. rewrite (dget_dset_neq _ string_eqb_spec'); [reflexivity|]. intros X. apply N. left. now cbn. }
  split.
  - intros l1 v l2 -> N. rewrite fold_left_app. cbn [fold_left fst snd]. rewrite K by exact N.
    unfold attribute, import_attribute. now rewrite (dget_dset_eq _ string_eqb_spec').
  - intros N. now rewrite K.
Qed.
Print Assumptions C103_attributes.

(** [system] comes back exactly if the command ended with 0, and its own exception is never
    raised. *)
Theorem C103_system :
  forall status, (system status = Returned <-> status = 0%Z) /\ system status <> SystemErrorRaised /\
  (status <> 0%Z -> system status = CalledProcessError status).
Proof.
  intros status. unfold system, check_call. destruct (Z.eqb_spec status 0) as [->|N]; cbn.
  - split; [tauto|]. split; [discriminate|]. tauto.
  - split; [split; [discriminate|tauto]|]. split; [discriminate|auto].
Qed.
Print Assumptions C103_system.

Example C103_case :
  import_star ["a"; "b"] ["m"] ["m"; "b"] = Ok ["m"; "b"] /\
  attribute (import_attribute (import_attribute (import_attribute [] "x" 1) "y" 2) "x" 3) "x" = Ok 3 /\
  system 0 = Returned /\ system (-2) = CalledProcessError (-2).
Proof. repeat split. Qed.
