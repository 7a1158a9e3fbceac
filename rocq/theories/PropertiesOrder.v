(** C105: the order in which collect_modules returns the modules (cxx_modules.py:346-429).  This is
    the order in which prepare_targets merges them into the application (cxx_modules.py:462-464). *)
From Verif Require Import PyBase PyPath ModulesModel SpecModules SpecOrder ModulesProofs CollectProofs CollectTerm
  ModulesExamples OrderProofs.
Local Open Scope string_scope.
Local Open Scope list_scope.

(** A module that names the implementation it wants comes before the module it gets, also when
    that one was collected earlier on behalf of another.  This holds for requests that name an
    implementation; what is missing are the requests by name alone ([C105_by_name_refuted]). *)
Theorem C105_explicit_requests_partial :
  forall h lib root fuel l lib' inc,
  lib_run mlib0 h = Ok lib -> nth_error (l_heap lib) root <> None ->
  collect_modules fuel lib root = Ok (l, lib', inc) ->
  forall m n i m', In m l -> In m' l -> wants lib' m (EPair n i) -> named lib' m' n -> before l m m'.
Proof.
  intros h lib root fuel l lib' inc R Hr H m n i m' Im Im' Hw Hn.
  exact (collect_order fuel lib root l lib' inc (hi_wf _ _ (history_ok h lib R)) Hr H m n i m' Im Im' Hw Hn).
Qed.
Print Assumptions C105_explicit_requests_partial.
(** Where all requests are by name, each module comes after one that asks for it, unless the
    application does. *)
Theorem C105_requests_by_name :
  forall h lib root fuel l lib' inc,
  lib_run mlib0 h = Ok lib -> nth_error (l_heap lib) root <> None ->
  (forall m e, wants lib m e -> exists n, e = EStr n) ->
  collect_modules fuel lib root = Ok (l, lib', inc) ->
  forall m, In m l -> exists q n, named lib' m n /\ wants lib' q (EStr n) /\ (q = root \/ before l q m).
Proof.
  intros h lib root fuel l lib' inc R Hr P H m Im.
  exact (collect_plain fuel lib root l lib' inc (hi_wf _ _ (history_ok h lib R)) Hr P H m Im).
Qed.
Print Assumptions C105_requests_by_name.

(** The application asks for [a] and [b], and [b] asks for [a]: [a] comes first. *)
Definition h_names : list libop :=
  [dep_module "app" [EStr "a"; EStr "b"]; dep_module "a" [EStr "c"]; dep_module "b" [EStr "a"]; dep_module "c" []].
Definition lib_names : mlib := lib_of h_names.
Example h_names_runs : lib_run mlib0 h_names = Ok lib_names.
Proof. vm_compute. reflexivity. Qed.
Theorem C105_by_name_refuted :
  exists h lib fuel l lib' inc m n m',
    lib_run mlib0 h = Ok lib /\ collect_modules fuel lib 0 = Ok (l, lib', inc) /\ In m l /\ In m' l /\
    wants lib' m (EStr n) /\ named lib' m' n /\ ~ before l m m'.
Proof.
  exists h_names, lib_names, 10, [1; 2; 3], (c_lib (CS lib_names [] [] 0 [] [])).
  eexists. exists 2, "a", 1. split; [exact h_names_runs|]. split; [vm_compute; reflexivity|].
  split; [right; now left|]. split; [now left|]. split; [|split].
  - eexists _, _. split; [vm_compute; reflexivity|]. split; [vm_compute; reflexivity|]. apply item_list. now left.
  - eexists. split; vm_compute; reflexivity.
  - intros (l1 & l2 & l3 & E). destruct l1 as [|x [|y [|z l1]]]; try discriminate E; injection E; intros.
    + destruct l2 as [|? [|? l2]]; discriminate.
    + destruct l1; discriminate.
Qed.
Print Assumptions C105_by_name_refuted.
Example C105_names_case :
  (exists inc, collect_modules 10 lib_names 0 = Ok ([1; 2; 3], lib_names, inc)) /\
  (forall m e, wants lib_names m e -> exists n, e = EStr n) /\ wants lib_names 1 (EStr "c") /\ ~ wants lib_names 0 (EStr "c").
Proof.
  assert (N : forall m e, wants lib_names m e ->
    (m = 0 /\ (e = EStr "a" \/ e = EStr "b")) \/ (m = 1 /\ e = EStr "c") \/ (m = 2 /\ e = EStr "a")).
  { intros m e (r & v & Hr & Hv & Hi). destruct m as [|[|[|[|m]]]]; vm_compute in Hr; try (destruct m; discriminate Hr);
      injection Hr as <-; vm_compute in Hv; injection Hv as <-; inversion Hi as [l x Hx|]; subst; cbn in Hx.
    - destruct Hx as [<-|[<-|[]]]; auto.
    - destruct Hx as [<-|[]]; auto.
    - destruct Hx as [<-|[]]; auto.
    - destruct Hx. }
  split; [eexists; vm_compute; reflexivity|]. split; [|split].
  - intros m e H. destruct (N m e H) as [[_ [-> | ->]]|[[_ ->]|[_ ->]]]; eauto.
  - eexists _, _. split; [vm_compute; reflexivity|]. split; [vm_compute; reflexivity|]. apply item_list. now left.
  - intros H. destruct (N _ _ H) as [[_ [E|E]]|[[E _]|[E _]]]; discriminate E.
Qed.

(** A diamond: [b] and [c] both ask for the same implementation of [d], which is collected on behalf of
    [b] and moves behind [c]. *)
Definition h_diamond : list libop :=
  [dep_module "app" [EPair "b" "__default__"; EPair "c" "__default__"];
   dep_module "b" [EPair "d" "fast"]; dep_module "c" [EPair "d" "fast"]; dep_impl "d" "fast" []].
Definition lib_diamond : mlib := lib_of h_diamond.
Example h_diamond_runs : lib_run mlib0 h_diamond = Ok lib_diamond.
Proof. vm_compute. reflexivity. Qed.
Example C105_diamond_case :
  exists inc, collect_modules 10 lib_diamond 0 = Ok ([1; 2; 3], lib_diamond, inc) /\
    wants lib_diamond 2 (EPair "d" "fast") /\ named lib_diamond 3 "d".
Proof.
  eexists. split; [vm_compute; reflexivity|]. split.
  - eexists _, _. split; [vm_compute; reflexivity|]. split; [vm_compute; reflexivity|]. apply item_list. now left.
  - eexists. split; vm_compute; reflexivity.
Qed.
