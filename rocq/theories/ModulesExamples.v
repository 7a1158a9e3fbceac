(** Witnesses and non-trivial cases for C41-C44 and C66. *)
From Verif Require Import PyBase PyPath ModulesModel SpecModules ModulesProofs CollectProofs CollectTerm.
Local Open Scope string_scope.
Local Open Scope list_scope.

Definition lib_of (h : list libop) : mlib := match lib_run mlib0 h with Ok l => l | _ => mlib0 end.
Definition dep_module (n : string) (l : list elem) : libop :=
  OModule n None false [] "lib/main.py" [("mdepends", VList l)].
Definition dep_impl (n i : string) (l : list elem) : libop :=
  OModule n (Some i) false ["main.py"] ("lib/" ++ i ++ ".py") [("mdepends", VList l)].

(** An application that asks for [a] plainly and for one implementation of [b]; [a] and [c] ask
    for each other. *)
Definition h_app : list libop :=
  [dep_module "app" [EStr "a"; EPair "b" "fast"];
   dep_module "a" [EStr "c"; EStr "b"];
   dep_impl "b" "fast" []; dep_impl "b" "slow" [EStr "zz"];
   ODefimpl "b" "slow";
   dep_module "c" [EStr "a"; EPair "d" "__none__"];
   dep_impl "d" "real" []].
Definition lib_app : mlib := lib_of h_app.

Example h_app_runs : lib_run mlib0 h_app = Ok lib_app.
Proof. vm_compute. reflexivity. Qed.
Example lib_app_collect :
  exists lib' inc, collect_modules 10 lib_app 0 = Ok ([2; 1; 4; 6], lib', inc).
Proof. eexists _, _. vm_compute. reflexivity. Qed.

(** Two implementations of [b] demanded. *)
Definition h_conflict : list libop :=
  [dep_module "app" [EStr "a"; EPair "b" "fast"]; dep_module "a" [EPair "b" "slow"];
   dep_impl "b" "fast" []; dep_impl "b" "slow" []].
Definition lib_conflict : mlib := lib_of h_conflict.
Example h_conflict_runs : lib_run mlib0 h_conflict = Ok lib_conflict.
Proof. vm_compute. reflexivity. Qed.
Example lib_conflict_ends :
  collect_modules 10 lib_conflict 0 = Raise (SystemExit "This module added early and it's different").
Proof. vm_compute. reflexivity. Qed.

(** A cycle of explicit requests. *)
Definition h_cycle : list libop :=
  [dep_module "x" [EPair "y" "__default__"]; dep_module "y" [EPair "x" "__default__"]].
Definition lib_cycle : mlib := lib_of h_cycle.
Example h_cycle_runs : lib_run mlib0 h_cycle = Ok lib_cycle.
Proof. vm_compute. reflexivity. Qed.

Lemma cycle_visit f : forall st m,
  c_lib st = lib_cycle -> (sget (c_dep st) "x" = None \/ sget (c_dep st) "x" = Some 0) ->
  (sget (c_dep st) "y" = None \/ sget (c_dep st) "y" = Some 1) -> m = 0 \/ m = 1 ->
  visit f st m = OutOfFuel.
Proof.
  induction f as [|f IH]; intros st m Hl Hx Hy Hm; [reflexivity|].
  cbn [visit]. rewrite Hl.
  assert (E0 : sget (mod_opts lib_cycle 0) "mdepends" = Some (VList [EPair "y" "__default__"]))
    by (vm_compute; reflexivity).
  assert (E1 : sget (mod_opts lib_cycle 1) "mdepends" = Some (VList [EPair "x" "__default__"]))
    by (vm_compute; reflexivity).
  assert (G0 : get lib_cycle "y" (Some "__default__") = Ok (1, lib_cycle)) by (vm_compute; reflexivity).
  assert (G1 : get lib_cycle "x" (Some "__default__") = Ok (0, lib_cycle)) by (vm_compute; reflexivity).
  assert (S0 : shas (mod_opts lib_cycle 0) "mdepends" = true) by (vm_compute; reflexivity).
  assert (S1 : shas (mod_opts lib_cycle 1) "mdepends" = true) by (vm_compute; reflexivity).
  destruct Hm as [->| ->].
  - rewrite E0. cbn [iter_oval bind fold_res collect_item]. rewrite Hl, G0. cbn [bind].
    assert (K : (match sget (c_dep st) "y" with Some o => negb (Nat.eqb o 1) | None => false end) = false)
      by (destruct Hy as [-> | ->]; reflexivity).
    rewrite K, S1. rewrite IH; [reflexivity|reflexivity| |right; apply sget_eq|auto].
    cbn [specify c_dep]. rewrite sget_neq by discriminate. exact Hx.
  - rewrite E1. cbn [iter_oval bind fold_res collect_item]. rewrite Hl, G1. cbn [bind].
    assert (K : (match sget (c_dep st) "x" with Some o => negb (Nat.eqb o 0) | None => false end) = false)
      by (destruct Hx as [-> | ->]; reflexivity).
    rewrite K, S0. rewrite IH; [reflexivity|reflexivity|right; apply sget_eq| |auto].
    cbn [specify c_dep]. rewrite sget_neq by discriminate. exact Hy.
Qed.
Lemma cycle_collect f : collect_modules f lib_cycle 0 = OutOfFuel.
Proof.
  unfold collect_modules.
  assert (S0 : shas (mod_opts lib_cycle 0) "mdepends" = true) by (vm_compute; reflexivity).
  rewrite S0, cycle_visit; [reflexivity|reflexivity|now left|now left|now left].
Qed.

Lemma cycle_refutes : exists h lib root,
  lib_run mlib0 h = Ok lib /\ nth_error (l_heap lib) root <> None /\
  forall fuel, collect_modules fuel lib root = OutOfFuel.
Proof.
  exists h_cycle, lib_cycle, 0. split; [exact h_cycle_runs|]. split; [discriminate|exact cycle_collect].
Qed.

(** included_from: [c] is collected by [a]'s plain request, [app] does not ask for it; [a] asks
    for [b], which is there already. *)
Definition h_inc : list libop :=
  [dep_module "app" [EPair "b" "__default__"; EStr "a"]; dep_module "a" [EStr "c"; EStr "b"];
   dep_module "b" []; dep_module "c" []].
Definition lib_inc : mlib := lib_of h_inc.
Example h_inc_runs : lib_run mlib0 h_inc = Ok lib_inc.
Proof. vm_compute. reflexivity. Qed.
Example lib_inc_collect :
  collect_modules 10 lib_inc 0 =
    Ok ([2; 1; 3], lib_inc, [("b", ["app"]); ("a", ["app"]); ("c", ["a"; "app"])]).
Proof. vm_compute. reflexivity. Qed.

Lemma lib_app_proper : proper_mdepends lib_app.
Proof.
  intros m r v Hr Hv.
  do 6 (destruct m as [|m]; [vm_compute in Hr; inversion Hr; subst r; vm_compute in Hv; inversion Hv; subst v;
         eexists; split; [reflexivity|]; intros e He; simpl in He;
         repeat (destruct He as [<-|He]; [eauto|]); destruct He|]).
  destruct m; discriminate.
Qed.

(** Every registration of [h_app] has a rank above those it asks for explicitly. *)
Lemma lib_app_acyclic : no_explicit_cycle lib_app.
Proof.
  exists (fun m => match m with 0 => 2 | 4 => 2 | _ => 1 end).
  intros m n i m' (r & v & Hr & Hv & Hi) (impls & Hm & Hii).
  do 6 (destruct m as [|m]; [vm_compute in Hr; inversion Hr; subst r; vm_compute in Hv; inversion Hv; subst v;
         inversion Hi as [l e He E1 E2|]; subst; simpl in He;
         repeat (destruct He as [He|He]; [inversion He; subst; vm_compute in Hm; inversion Hm; subst impls;
           vm_compute in Hii; inversion Hii; subst; simpl; auto with arith|]); try destruct He|]).
  destruct m; discriminate.
Qed.
