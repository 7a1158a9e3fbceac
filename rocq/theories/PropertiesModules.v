(** C41-C44, C66: the library of modules and collect_modules.  A library is the result of a
    history of registrations, default declarations and lookups ([lib_run mlib0 h]). *)
From Verif Require Import PyBase PyPath ModulesModel SpecModules ModulesProofs CollectProofs CollectTerm
  ModulesExamples.
Local Open Scope string_scope.
Local Open Scope list_scope.

(** C41.  The last registration under (n, i) is what get returns; the lookup changes nothing. *)
Theorem C41_last_registration_is_found :
  forall h lib n i c, lib_run mlib0 h = Ok lib -> last_registered h n i c ->
  exists m r, get lib n (Some i) = Ok (m, lib) /\ nth_error (l_heap lib) m = Some r /\ module_for r n i c.
Proof. exact lookup_registered. Qed.
Print Assumptions C41_last_registration_is_found.
(** Anything else: "__none__" of a known name is an empty module, all other lookups end the
    program. *)
Theorem C41_other_lookups :
  forall h lib n i, lib_run mlib0 h = Ok lib -> never_registered h n i ->
  (known_name h n -> i = "__none__" ->
     exists m lib' r, get lib n (Some i) = Ok (m, lib') /\ nth_error (l_heap lib') m = Some r /\
       empty_module r n i) /\
  ((~ known_name h n \/ i <> "__none__") -> ends (get lib n (Some i))).
Proof. exact lookup_unregistered. Qed.
Print Assumptions C41_other_lookups.
(** These two theorems leave no case out. *)
Theorem C41_registered_or_not :
  forall h n i, (exists c, last_registered h n i c) \/ never_registered h n i.
Proof. exact last_or_never. Qed.
Print Assumptions C41_registered_or_not.
(** Without an implementation, get follows the last default declaration. *)
Theorem C41_default :
  forall h lib n, lib_run mlib0 h = Ok lib ->
  (forall i, last_declared h n i -> get lib n None = get lib n (Some i)) /\
  (never_declared h n -> ends (get lib n None)).
Proof. exact lookup_default. Qed.
Print Assumptions C41_default.
(** The same object each time, also for "__none__", until (n, i) is registered again. *)
Theorem C41_same_object_each_time :
  forall h1 lib n i m lib1 h2 lib2,
  lib_run mlib0 h1 = Ok lib -> get lib n (Some i) = Ok (m, lib1) ->
  lib_run lib1 h2 = Ok lib2 -> never_registered h2 n i -> get lib2 n (Some i) = Ok (m, lib2).
Proof. exact lookup_same. Qed.
Print Assumptions C41_same_object_each_time.
(** Different names or implementations are different objects. *)
Theorem C41_different_objects :
  forall h lib n i m lib1 n' i' m' lib2,
  lib_run mlib0 h = Ok lib -> get lib n (Some i) = Ok (m, lib1) -> get lib1 n' (Some i') = Ok (m', lib2) ->
  (m = m' <-> n = n' /\ i = i').
Proof. exact lookup_distinct. Qed.
Print Assumptions C41_different_objects.
(** A registration always succeeds. *)
Theorem C41_registering_succeeds :
  forall h lib o c, lib_run mlib0 h = Ok lib -> registers o = Some c -> exists lib', lib_op lib o = Ok lib'.
Proof. exact registering_succeeds. Qed.
Print Assumptions C41_registering_succeeds.

(** A history with a module registered twice, a default declared twice and lookups. *)
Definition h_twice : list libop :=
  [OModule "net" (Some "tcp") true [] "a/x.py" [("sources", VList [EStr "old.c"])];
   OModule "net" (Some "udp") false [] "b/x.py" [];
   OGet "net" (Some "__none__");
   OModule "net" (Some "tcp") false ["main.py"] "c/x.py" [("sources", VList [EStr "new.c"])];
   ODefimpl "net" "udp"; OGet "net" None].
Example C41_case :
  exists lib, lib_run mlib0 h_twice = Ok lib /\
    last_registered h_twice "net" "tcp" (["main.py"], "c/x.py", [("sources", VList [EStr "new.c"])]) /\
    last_declared h_twice "net" "udp" /\ never_registered h_twice "net" "__none__" /\
    get lib "net" (Some "tcp") = Ok (3, lib) /\ get lib "net" None = Ok (1, lib) /\
    get lib "net" (Some "__none__") = Ok (2, lib) /\ ends (get lib "net" (Some "sctp")).
Proof.
  exists (lib_of h_twice). split; [vm_compute; reflexivity|]. split.
  { exists (firstn 3 h_twice). eexists. exists (skipn 4 h_twice). split; [reflexivity|]. split; [reflexivity|].
    intros o c Ho. simpl in Ho. repeat (destruct Ho as [<-|Ho]; [discriminate|]). destruct Ho. }
  split. { exists (firstn 4 h_twice). eexists. exists (skipn 5 h_twice). split; [reflexivity|]. split; [reflexivity|].
    intros o c Ho. simpl in Ho. repeat (destruct Ho as [<-|Ho]; [discriminate|]). destruct Ho. }
  split. { intros o c Ho. simpl in Ho. repeat (destruct Ho as [<-|Ho]; [discriminate|]). destruct Ho. }
  split; [vm_compute; reflexivity|]. split; [vm_compute; reflexivity|]. split; [vm_compute; reflexivity|].
  eexists. vm_compute. reflexivity.
Qed.

(** C42.  Everything asked for by the root or a collected module is collected. *)
Theorem C42_all_needed_modules :
  forall fuel h lib root l lib' inc, lib_run mlib0 h = Ok lib -> nth_error (l_heap lib) root <> None ->
  collect_modules fuel lib root = Ok (l, lib', inc) ->
  forall m e, m = root \/ In m l -> wants lib' m e ->
  match e with
  | EStr n => exists m', In m' l /\ named lib' m' n
  | EPair n i => exists m', In m' l /\ named lib' m' n /\ impl_of lib' n i m'
  | _ => False
  end.
Proof.
  exact (fun fuel h lib root l lib' inc R => final_complete fuel lib root l lib' inc (hi_wf _ _ (history_ok h lib R))).
Qed.
Print Assumptions C42_all_needed_modules.
(** Only needed modules are collected, each with an implementation that the root or a collected
    module asked for, or, when asked for by name only, with the default. *)
Theorem C42_only_needed_modules :
  forall fuel h lib root l lib' inc, lib_run mlib0 h = Ok lib -> nth_error (l_heap lib) root <> None ->
  collect_modules fuel lib root = Ok (l, lib', inc) ->
  forall m, In m l -> needed lib' root m /\
  exists q n, (q = root \/ In q l) /\ named lib' m n /\
    ((exists i, wants lib' q (EPair n i) /\ impl_of lib' n i m) \/
     (wants lib' q (EStr n) /\ default_of lib' n m)).
Proof.
  exact (fun fuel h lib root l lib' inc R => final_sound fuel lib root l lib' inc (hi_wf _ _ (history_ok h lib R))).
Qed.
Print Assumptions C42_only_needed_modules.
(** No module is collected twice, nor two implementations of one. *)
Theorem C42_each_name_once :
  forall fuel h lib root l lib' inc, lib_run mlib0 h = Ok lib -> nth_error (l_heap lib) root <> None ->
  collect_modules fuel lib root = Ok (l, lib', inc) ->
  NoDup l /\ forall m m' n, In m l -> In m' l -> named lib' m n -> named lib' m' n -> m = m'.
Proof.
  exact (fun fuel h lib root l lib' inc R Hr H =>
    conj (final_nodup fuel lib root l lib' inc (hi_wf _ _ (history_ok h lib R)) Hr H)
         (final_once fuel lib root l lib' inc (hi_wf _ _ (history_ok h lib R)) Hr H)).
Qed.
Print Assumptions C42_each_name_once.
(** Collecting changes nothing in the library except for adding empty "__none__" modules. *)
Theorem C42_library_unchanged :
  forall fuel h lib root l lib' inc, lib_run mlib0 h = Ok lib -> nth_error (l_heap lib) root <> None ->
  collect_modules fuel lib root = Ok (l, lib', inc) ->
  l_def lib' = l_def lib /\
  (forall n i m, impl_of lib n i m -> impl_of lib' n i m) /\
  (forall m r, nth_error (l_heap lib) m = Some r -> nth_error (l_heap lib') m = Some r) /\
  (forall m e, wants lib' m e -> wants lib m e).
Proof.
  exact (fun fuel h lib root l lib' inc R Hr H =>
    let L := final_ext fuel lib root l lib' inc (hi_wf _ _ (history_ok h lib R)) Hr H in
    conj (le_def _ _ L) (conj (le_impl _ _ L) (conj (le_heap _ _ L) (fun m e => wants_back _ _ m e L)))).
Qed.
Print Assumptions C42_library_unchanged.

(** [app] wants [a] and the fast [b]; [a] wants [c] and any [b]; [c] wants [a] and nothing of
    [d].  The default of [b] is the slow one, the fast one is taken. *)
Example C42_case :
  lib_run mlib0 h_app = Ok lib_app /\ nth_error (l_heap lib_app) 0 <> None /\
  exists lib' inc, collect_modules 10 lib_app 0 = Ok ([2; 1; 4; 6], lib', inc) /\
    named lib' 2 "b" /\ impl_of lib' "b" "fast" 2 /\ ~ default_of lib' "b" 2 /\ wants lib' 1 (EStr "b").
Proof.
  split; [exact h_app_runs|]. split; [vm_compute; discriminate|]. eexists _, _. split; [vm_compute; reflexivity|].
  split; [eexists; vm_compute; split; reflexivity|].
  split; [eexists; split; vm_compute; reflexivity|].
  split; [intros (i & Hd & impls & Hm & Hi); vm_compute in Hd; inversion Hd; subst i; vm_compute in Hm;
          inversion Hm; subst impls; vm_compute in Hi; discriminate|].
  eexists _, _. split; [vm_compute; reflexivity|]. split; [vm_compute; reflexivity|].
  constructor. simpl. auto.
Qed.

(** C43.  If collect_modules returns, no two demands of the root and the collected modules
    contradict each other, and none contradicts what was collected. *)
Theorem C43_no_conflict_in_a_result :
  forall fuel h lib root l lib' inc, lib_run mlib0 h = Ok lib -> nth_error (l_heap lib) root <> None ->
  collect_modules fuel lib root = Ok (l, lib', inc) ->
  forall m n i, m = root \/ In m l -> wants lib' m (EPair n i) ->
  (forall m' j, m' = root \/ In m' l -> wants lib' m' (EPair n j) -> i = j) /\
  (forall x, In x l -> named lib' x n -> impl_of lib' n i x).
Proof.
  exact (fun fuel h lib root l lib' inc R => final_consistent fuel lib root l lib' inc (hi_wf _ _ (history_ok h lib R))).
Qed.
Print Assumptions C43_no_conflict_in_a_result.
(** And if it does not return, it ends the program (given that the mdepends options are lists of
    strings and pairs) or runs on (C44). *)
Theorem C43_failing_ends_the_program :
  forall fuel h lib root e, lib_run mlib0 h = Ok lib -> nth_error (l_heap lib) root <> None ->
  proper_mdepends lib -> collect_modules fuel lib root = Raise e -> exists msg, e = SystemExit msg.
Proof.
  exact (fun fuel h lib root e R Hr P => collect_raise lib root (hi_wf _ _ (history_ok h lib R)) Hr P fuel e).
Qed.
Print Assumptions C43_failing_ends_the_program.
Example C43_case :
  lib_run mlib0 h_conflict = Ok lib_conflict /\ wants lib_conflict 0 (EPair "b" "fast") /\
  wants lib_conflict 1 (EPair "b" "slow") /\ leads_to lib_conflict 0 1 /\
  collect_modules 10 lib_conflict 0 = Raise (SystemExit "This module added early and it's different").
Proof.
  split; [exact h_conflict_runs|].
  split; [eexists _, _; split; [vm_compute; reflexivity|]; split; [vm_compute; reflexivity|]; constructor; simpl; auto|].
  split; [eexists _, _; split; [vm_compute; reflexivity|]; split; [vm_compute; reflexivity|]; constructor; simpl; auto|].
  split; [|exact lib_conflict_ends].
  right. exists "a". split.
  - eexists _, _; split; [vm_compute; reflexivity|]; split; [vm_compute; reflexivity|]; constructor; simpl; auto.
  - exists "__default__". split; [vm_compute; reflexivity|]. eexists. split; vm_compute; reflexivity.
Qed.
Example C43_case_proper : lib_run mlib0 h_app = Ok lib_app /\ proper_mdepends lib_app.
Proof. exact (conj h_app_runs lib_app_proper). Qed.

(** C44.  Not on every module graph: modules that explicitly request each other's implementation
    are visited again and again.  (CPython gives up with a RecursionError.) *)
Theorem C44_refuted :
  exists h lib root, lib_run mlib0 h = Ok lib /\ nth_error (l_heap lib) root <> None /\
  forall fuel, collect_modules fuel lib root = OutOfFuel.
Proof.
  exact cycle_refutes.
Qed.
Print Assumptions C44_refuted.
(** It does come to an end if there is no cycle of explicit requests; cycles of requests by
    name are no obstacle. *)
Theorem C44_terminates_partial :
  forall h lib root, lib_run mlib0 h = Ok lib -> nth_error (l_heap lib) root <> None ->
  no_explicit_cycle lib ->
  exists fuel0 r, r <> OutOfFuel /\ forall fuel, fuel0 <= fuel -> collect_modules fuel lib root = r.
Proof.
  exact (fun h lib root R Hr A =>
    match collect_terminates lib root (hi_wf _ _ (history_ok h lib R)) A Hr with
    | ex_intro _ f Hf => ex_intro _ f (ex_intro _ (collect_modules f lib root)
        (conj Hf (fun fuel Hle => collect_mono f fuel lib root Hle Hf)))
    end).
Qed.
Print Assumptions C44_terminates_partial.
(** The condition is needed: with a cycle of explicit requests among the modules concerned
    there is never a result. *)
Theorem C44_explicit_cycles_never_succeed :
  forall fuel h lib root l lib' inc m, lib_run mlib0 h = Ok lib -> nth_error (l_heap lib) root <> None ->
  collect_modules fuel lib root = Ok (l, lib', inc) -> m = root \/ In m l -> ~ explicit_path lib' m m.
Proof.
  exact (fun fuel h lib root l lib' inc m R => collect_no_cycle fuel lib root l lib' inc m (hi_wf _ _ (history_ok h lib R))).
Qed.
Print Assumptions C44_explicit_cycles_never_succeed.
(** [lib_app] has a cycle of requests by name ([a], [c]) and explicit requests. *)
Example C44_case :
  lib_run mlib0 h_app = Ok lib_app /\ no_explicit_cycle lib_app /\ leads_to lib_app 1 4 /\ leads_to lib_app 4 1.
Proof.
  split; [exact h_app_runs|]. split; [exact lib_app_acyclic|]. split; right.
  - exists "c". split.
    + eexists _, _; split; [vm_compute; reflexivity|]; split; [vm_compute; reflexivity|]; constructor; simpl; auto.
    + exists "__default__". split; [vm_compute; reflexivity|]. eexists. split; vm_compute; reflexivity.
  - exists "a". split.
    + eexists _, _; split; [vm_compute; reflexivity|]; split; [vm_compute; reflexivity|]; constructor; simpl; auto.
    + exists "__default__". split; [vm_compute; reflexivity|]. eexists. split; vm_compute; reflexivity.
Qed.

(** C66.  included_from should be the modules that ask for the module.  It names the root as
    well, and leaves out requests that come late. *)
Theorem C66_refuted :
  exists h lib root l lib' inc s1 s2 q,
  lib_run mlib0 h = Ok lib /\ collect_modules 10 lib root = Ok (l, lib', inc) /\ named lib' root "app" /\
  (sget inc "c" = Some s1 /\ In "app" s1 /\ forall i, ~ wants lib' root (EStr "c") /\ ~ wants lib' root (EPair "c" i)) /\
  (In q l /\ named lib' q "a" /\ wants lib' q (EStr "b") /\ sget inc "b" = Some s2 /\ ~ In "a" s2).
Proof.
  exists h_inc, lib_inc, 0, [2; 1; 3], lib_inc, [("b", ["app"]); ("a", ["app"]); ("c", ["a"; "app"])],
    ["a"; "app"], ["app"], 1.
  split; [exact h_inc_runs|]. split; [exact lib_inc_collect|].
  split; [eexists; vm_compute; split; reflexivity|]. split.
  - split; [reflexivity|]. split; [simpl; auto|]. intros i.
    split; intros (r & v & Hr & Hv & Hi); vm_compute in Hr; inversion Hr; subst r; vm_compute in Hv; inversion Hv; subst v;
      inversion Hi; subst; simpl in *; intuition discriminate.
  - split; [simpl; auto|]. split; [eexists; vm_compute; split; reflexivity|].
    split; [eexists _, _; split; [vm_compute; reflexivity|]; split; [vm_compute; reflexivity|]; constructor; simpl; auto|].
    split; [reflexivity|]. simpl. intuition discriminate.
Qed.
Print Assumptions C66_refuted.
(** Apart from the root, every module named asks for it; and all explicit requests are named. *)
Theorem C66_included_from_partial :
  forall fuel h lib root l lib' inc, lib_run mlib0 h = Ok lib -> nth_error (l_heap lib) root <> None ->
  collect_modules fuel lib root = Ok (l, lib', inc) ->
  (forall n s x, sget inc n = Some s -> In x s ->
     named lib' root x \/
     exists q, (q = root \/ In q l) /\ named lib' q x /\
       (wants lib' q (EStr n) \/ exists i, wants lib' q (EPair n i))) /\
  (forall q n i x, q = root \/ In q l -> named lib' q x -> wants lib' q (EPair n i) ->
     exists s, sget inc n = Some s /\ In x s).
Proof.
  exact (fun fuel h lib root l lib' inc R Hr H =>
    conj (final_inc_sound fuel lib root l lib' inc (hi_wf _ _ (history_ok h lib R)) Hr H)
         (final_inc_explicit fuel lib root l lib' inc (hi_wf _ _ (history_ok h lib R)) Hr H)).
Qed.
Print Assumptions C66_included_from_partial.
