(** C107: how often collect_modules goes through a module (cxx_modules.py:346-429). *)
From Verif Require Import PyBase PyPath ModulesModel SpecModules ModulesProofs CollectProofs CollectTerm ModulesExamples
  CollectTraceModel SpecCollectTrace CollectTraceProofs.
Local Open Scope string_scope.
Local Open Scope list_scope.

(** The output changes nothing: without it the result is the one of ModulesModel. *)
Theorem C107_output_only :
  forall fuel lib root,
  collect_modules fuel lib root =
    match collect_modules_t fuel lib root with Ok (r, _) => Ok r | Raise e => Raise e | OutOfFuel => OutOfFuel end.
Proof.
  intros fuel lib root. rewrite collect_erase. unfold erase. destruct (collect_modules_t fuel lib root) as [[r t]| |]; reflexivity.
Qed.
Print Assumptions C107_output_only.

(** Printed are the root and all that is reached from it by requests for implementations, once for
    each way to reach it, then the same for collected modules of pairwise different names. *)
Theorem C107_what_is_gone_through :
  forall h lib root fuel l lib' inc tr,
  lib_run mlib0 h = Ok lib -> nth_error (l_heap lib) root <> None ->
  collect_modules_t fuel lib root = Ok ((l, lib', inc), tr) ->
  exists t0 ns ds ts, tr = t0 ++ List.concat ts /\
    ((sget (mod_opts lib root) "mdepends" = None /\ t0 = []) \/ walked lib' root t0) /\
    Forall2 (walked lib') ds ts /\ NoDup ns /\ Forall2 (fun n d => In d l /\ exists i, impl_of lib' n i d) ns ds.
Proof.
  intros h lib root fuel l lib' inc tr R Hr H. exact (collect_walked fuel lib root l lib' inc tr (hi_wf _ _ (history_ok h lib R)) Hr H).
Qed.
Print Assumptions C107_what_is_gone_through.

(** Where all requests are by name, each collected module is gone through at most once, after the
    root (which is gone through again when it is asked for).  What is missing are requests for
    implementations ([C107_each_once_refuted]). *)
Theorem C107_by_name_partial :
  forall h lib root fuel l lib' inc tr,
  lib_run mlib0 h = Ok lib -> nth_error (l_heap lib) root <> None ->
  (forall m e, wants lib m e -> exists n, e = EStr n) ->
  collect_modules_t fuel lib root = Ok ((l, lib', inc), tr) ->
  exists t0 ns, tr = t0 ++ ns /\ (t0 = [] \/ t0 = [mod_name lib root]) /\ NoDup ns /\
    forall n, In n ns -> exists d i, In d l /\ impl_of lib' n i d.
Proof.
  intros h lib root fuel l lib' inc tr R Hr P H. pose proof (hi_wf _ _ (history_ok h lib R)) as W.
  assert (L : lext lib lib').
  { assert (E : collect_modules fuel lib root = Ok (l, lib', inc)) by (rewrite collect_erase, H; reflexivity).
    destruct (collect_final fuel lib root l lib' inc W Hr E) as (st & G & _ & _ & -> & _). apply G. }
  destruct (collect_walked fuel lib root l lib' inc tr W Hr H) as (t0 & ns & ds & ts & -> & H0 & Hw & Hn & Hd).
  assert (N : forall m n i, ~ wants lib' m (EPair n i)).
  { intros m n i (r & v & Er & Ev & Hi). destruct (le_new _ _ L _ _ Er) as [E|[_ E]]; [|congruence].
    destruct (P m (EPair n i)) as [x Hx]; [exists r, v; auto|discriminate Hx]. }
  exists t0, (List.concat ts). split; [reflexivity|]. split.
  - destruct H0 as [[_ ->]|H0]; [now left|right]. unfold mod_name. destruct (nth_error (l_heap lib) root) as [r|] eqn:Er; [|congruence].
    exact (walked_once lib' root t0 r N (le_heap _ _ L _ _ Er) H0).
  - assert (List.concat ts = ns) as ->.
    { clear - N Hw Hd L. revert ts Hw. induction Hd as [|n d ns ds [_ [i Hi]] Hd IH]; intros ts Hw; inversion Hw; subst; [reflexivity|].
      cbn [List.concat]. rewrite IH by assumption. destruct (wf_obj _ (le_wf _ _ L) _ _ _ Hi) as (r & Er & <- & _).
      match goal with Hx : walked lib' d _ |- _ => rewrite (walked_once lib' d _ r N Er Hx) end. reflexivity. }
    split; [exact Hn|]. intros n Hi. clear - Hd Hi. induction Hd as [|n0 d ns ds [Hl [i Hd0]] Hd IH]; [destruct Hi|]. destruct Hi as [<-|Hi]; eauto.
Qed.
Print Assumptions C107_by_name_partial.

(** With requests for implementations a module is gone through once for each way that leads to it:
    for every [n] there are 2(n+1) modules, all collected without error, for which the mdepends are
    gone through 2^(n+1) - 1 times. *)
Theorem C107_each_once_refuted :
  forall n, exists h lib root, List.length h = 2 * S n /\ lib_run mlib0 h = Ok lib /\ nth_error (l_heap lib) root <> None /\
    forall fuel, n < fuel -> exists l lib' inc tr,
      collect_modules_t fuel lib root = Ok ((l, lib', inc), tr) /\ List.length tr = 2 ^ S n - 1 /\ (2 <= n -> ~ NoDup tr).
Proof.
  intros n. destruct (ladder_exists n) as (lib & root & E & Eg & Hl). exists (rungs n 0), lib, root.
  split; [apply rungs_length|]. split; [exact E|].
  pose proof (hi_wf _ _ (history_ok _ _ E)) as W.
  rewrite get_some in Eg. destruct (get_impl_lext _ _ _ _ _ W Eg) as [_ Hi].
  assert (Hr : nth_error (l_heap lib) root <> None) by (destruct (wf_obj _ W _ _ _ Hi) as (r & Er & _); congruence).
  split; [exact Hr|]. intros fuel Hf. destruct fuel as [|f]; [lia|].
  destruct (Hl f ltac:(lia)) as (l & lib' & inc & tr & Ec & Ht). exists l, lib', inc, tr. split; [exact Ec|]. split; [lia|].
  intros H2 Nd. assert (Hex : exists n i, impl_of lib n i root) by eauto.
  pose proof (trace_names (rungs n 0) lib root (S f) l lib' inc tr E Hex Ec) as Hin.
  assert (Hle : List.length tr <= List.length (rungs n 0)).
  { rewrite <- (map_length (fun o => match registers o with Some (n, _, _) => n | None => "" end)).
    apply NoDup_incl_length; [exact Nd|]. intros x Hx. destruct (Hin x Hx) as (o & i0 & c & Ho & R).
    apply in_map_iff. exists o. now rewrite R. }
  rewrite rungs_length in Hle. assert (2 * S n + 2 <= 2 ^ S n /\ 2 ^ S n >= 8).
  { clear - H2. induction H2 as [|n H IH]; [cbn; lia|]. change (2 ^ S (S n)) with (2 * 2 ^ S n). lia. }
  lia.
Qed.
Print Assumptions C107_each_once_refuted.

(** The hypotheses are met: for two levels below the root the whole output, and the output where
    two modules and the root ask for each other by name. *)
Example C107_case :
  (exists l lib' inc, collect_modules_t 5 (lib_of (rungs 2 0)) 0 =
     Ok ((l, lib', inc), ["l"; "lx"; "lxx"; "rxx"; "rx"; "lxx"; "rxx"]) /\ l = [2; 3; 4; 5]) /\
  (let h := [dep_module "app" [EStr "a"; EStr "b"]; dep_module "a" [EStr "b"; EStr "app"]; dep_module "b" [EStr "a"]] in
   lib_run mlib0 h = Ok (lib_of h) /\
   exists l lib' inc, collect_modules_t 9 (lib_of h) 0 = Ok ((l, lib', inc), ["app"; "a"; "b"; "app"])).
Proof. split; [eexists _, _, _; split; vm_compute; reflexivity|]. split; [vm_compute; reflexivity|]. eexists _, _, _. vm_compute. reflexivity. Qed.
