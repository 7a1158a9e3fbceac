(** C33, C39, C65: scripts that register targets.  A script is a list of calls ([mop]) made
    with core number [k], starting from empty registries; [mrun] is the result. *)
From Verif Require Import PyBase PyPath SolverModel SpecGraph InvokerModel SpecTrace CoreModel SpecCore CoreExamples CoreProofs MakeModel MakeEval SpecMake
  MakeExec MakeExamples RegModel SpecUtil SpecReg RegScript RegBuild RegTotal RegCopy RegExamples.
Local Open Scope string_scope.
Local Open Scope list_scope.

(** C33.  The recursion over directories of directories always ends. *)
Theorem C33_registration_ends :
  forall cwd home ex exists_ glob_, disk_ok cwd ex exists_ ->
  forall k ops, (forall o p, In o ops -> In p (outs home o) -> file_name (basename p)) ->
  exists f0, forall fuel st, f0 <= fuel -> exists st', mrun (realpath cwd) exists_ glob_ home fuel k ops st = Ok st'.
Proof. exact mrun_total. Qed.
Print Assumptions C33_registration_ends.
(** Every output is registered, in the core it was declared for. *)
Theorem C33_outputs_are_registered :
  forall cwd home ex exists_ glob_ ops fuel k n st, disk_ok cwd ex exists_ -> script_ok cwd home ex ops -> k < n ->
  mrun (realpath cwd) exists_ glob_ home fuel k ops (repeat empty_reg n) = Ok st ->
  forall o p, In o ops -> In p (outs home o) -> registered (realpath cwd) (fst (reg st (target_core k o))) p.
Proof. exact (fun cwd home ex exists_ glob_ ops fuel k n st D S K R => proj2 (claim_good cwd home ex exists_ glob_ ops fuel k n st D S K R)). Qed.
Print Assumptions C33_outputs_are_registered.
(** Below every output there is a directory target for each missing directory above it.
    The statement also covers the directory targets themselves, so each depends on the
    target of its missing parent. *)
Theorem C33_every_missing_directory_has_a_target :
  forall cwd home ex exists_ glob_ ops fuel k n st, disk_ok cwd ex exists_ -> script_ok cwd home ex ops -> k < n ->
  mrun (realpath cwd) exists_ glob_ home fuel k ops (repeat empty_reg n) = Ok st ->
  forall j nm i a, In (nm, i) (c_targets (fst (reg st j))) -> makes_file (kind_of (reg st j) i) ->
  above a (t_name (obj (fst (reg st j)) i)) -> ex a = false ->
  exists d, clos_trans nat (obj_dep (realpath cwd) (fst (reg st j))) i d /\ kind_of (reg st j) d = MDir /\
    t_name (obj (fst (reg st j)) d) = a.
Proof. exact claim_dirs. Qed.
Print Assumptions C33_every_missing_directory_has_a_target.
(** In every execution of a build, when an update method has started, all directories above
    its target exist. *)
Theorem C33_directories_exist_when_a_rule_starts :
  forall cwd home fs exists_ glob_ ops fuel k n st m other_if partial P i now ca c1 objs s,
  disk_ok cwd (present fs) exists_ -> script_ok cwd home (present fs) ops -> k < n ->
  mrun (realpath cwd) exists_ glob_ home fuel k ops (repeat empty_reg n) = Ok st ->
  implements (realpath cwd) (kind_of (reg st m)) P (fst (reg st m)) i ->
  build_of (realpath cwd) (kind_of (reg st m)) other_if partial (fst (reg st m)) i fs now ca c1 objs s ->
  forall t j, In (EStart t) (s_log s) -> nth_error objs t = Some j -> makes_file (kind_of (reg st m) j) ->
  forall a, above a (t_name (obj (fst (reg st m)) j)) -> ~ is_file P a -> w_fs (s_world s) a <> None.
Proof. exact claim_start. Qed.
Print Assumptions C33_directories_exist_when_a_rule_starts.
(** Without the hypothesis that no other target has the name of a missing directory. *)
Theorem C33_name_clash_refuted :
  exists ops st i a,
  mrun (realpath "/w") (on_path disk1) (fun _ => []) "/h" 10 0 ops (repeat empty_reg 1) = Ok st /\
  In (a ++ "/x", i)%string (c_targets (fst (reg st 0))) /\ makes_file (kind_of (reg st 0) i) /\
  above a (t_name (obj (fst (reg st 0)) i)) /\ on disk1 a = false /\
  (forall d, clos_trans nat (obj_dep (realpath "/w") (fst (reg st 0))) i d -> kind_of (reg st 0) d <> MDir) /\
  clos_trans nat (obj_dep (realpath "/w") (fst (reg st 0))) i i.
Proof. exact clash. Qed.
Print Assumptions C33_name_clash_refuted.
(** Without the hypothesis that outputs end in a file name: the output depends on itself. *)
Theorem C33_trailing_slash_refuted :
  exists st i,
  mrun (realpath "/w") (on_path disk1) (fun _ => []) "/h" 10 0 [OFtarget "out/" put_hello ["s"]] (repeat empty_reg 1) = Ok st /\
  In ("/w/out", i) (c_targets (fst (reg st 0))) /\ obj_dep (realpath "/w") (fst (reg st 0)) i i.
Proof. exact trailing_slash. Qed.
Print Assumptions C33_trailing_slash_refuted.
Example C33_case :
  disk_ok "/w" (present fs1) (on_path disk1) /\ script_ok "/w" "/h" (present fs1) script1 /\ state1 = Ok (the_regs state1) /\
  fst reg1 = core1 /\ (forall i, kind_of reg1 i = kinds1 i) /\ implements (realpath "/w") kinds1 proj1_ core1 3 /\
  build_of (realpath "/w") kinds1 no_other false core1 3 fs1 1 [] (bu_core built1) (bu_objs built1) (bu_state built1) /\
  nth_error (bu_objs built1) 0 = Some 3 /\ In (EStart 0) (s_log (bu_state built1)) /\
  fs1 "/w/out/a" = None /\ bfs built1 "/w/out/a/x" = Some (4, Reg "hello").
Proof.
  split; [exact fs1_ok|]. split; [exact script1_ok'|]. split; [exact state1_ok|]. split; [now rewrite reg1_eq|].
  split; [exact kind1_eq|]. split; [exact core1_implements|]. split; [exact build1_of|].
  destruct build1_started as [A B]. split; [exact A|]. split; [exact B|]. split; [reflexivity|].
  vm_compute. reflexivity.
Qed.

(** C39.  In the default core: whatever licant.copy was called with, everything the copies
    need is registered. *)
Theorem C39_usable_in_the_default_core_partial :
  forall cwd home ex exists_ glob_ l fuel k n st, disk_ok cwd ex exists_ -> has_star cwd = false ->
  (forall t s b, In (t, s, b) l -> has_star (expanduser home t) = false /\ has_star (expanduser home s) = false) ->
  0 < n -> mrun (realpath cwd) exists_ glob_ home fuel k (copies l) (repeat empty_reg n) = Ok st ->
  forall t s b, In (t, s, b) l ->
  exists i, resolves (realpath cwd) (fst (reg st 0)) (realpath cwd (expanduser home t)) i /\
    cone_registered (realpath cwd) (fst (reg st 0)) i.
Proof. exact copies_usable. Qed.
Print Assumptions C39_usable_in_the_default_core_partial.
(** In any other core the source is missing, unless it was registered there before. *)
Theorem C39_source_is_missing_in_other_cores :
  forall cwd home exists_ glob_ fuel st k tgt src adddeps b st',
  copy (realpath cwd) exists_ glob_ home fuel st k tgt src adddeps b = Ok st' -> k <> 0 -> k < List.length st ->
  has_star (expanduser home src) = false -> ~ registered (realpath cwd) (fst (reg st k)) (expanduser home src) ->
  realpath cwd (expanduser home src) <> realpath cwd (expanduser home tgt) ->
  exists i, In (realpath cwd (expanduser home tgt), i) (c_targets (fst (reg st' k))) /\
    ~ cone_registered (realpath cwd) (fst (reg st' k)) i.
Proof. exact copy_elsewhere. Qed.
Print Assumptions C39_source_is_missing_in_other_cores.
Theorem C39_refuted :
  exists st i, copy (realpath "/w") (on_path disk1) (fun _ => []) "/h" 10 (repeat empty_reg 2) 1 "d/t" "s" [] put_hello = Ok st /\
  In ("/w/d/t", i) (c_targets (fst (reg st 1))) /\ ~ cone_registered (realpath "/w") (fst (reg st 1)) i.
Proof. exact elsewhere_unusable. Qed.
Print Assumptions C39_refuted.
Example C39_case :
  disk_ok "/w" (on disk1) (on_path disk1) /\
  mrun (realpath "/w") (on_path disk1) (fun _ => []) "/h" 10 0
    (copies [("d/t", "s", put_hello); ("d/e/u", "d/t", put_hello)]) (repeat empty_reg 1) = Ok (the_regs copied) /\
  map (fun o => (t_name o, t_deps o)) (c_heap (fst (reg (the_regs copied) 0))) =
  [("/w/s", []); ("/w/d", []); ("/w/d/t", ["s"; "/w/d"]); ("/w/d", []); ("/w/d/e", ["/w/d"]); ("/w/d/e/u", ["d/t"; "/w/d/e"])].
Proof. split; [exact disk1_ok|]. split; [exact copied_ok|]. vm_compute. reflexivity. Qed.

(** C65: false, the meaning of a script depends on what a former build left on the disk. *)
Theorem C65_refuted :
  exists ops st1 st2 i1 i2,
  mrun (realpath "/w") (on_path disk1) (fun _ => []) "/h" 10 0 ops (repeat empty_reg 1) = Ok st1 /\
  mrun (realpath "/w") (on_path disk2) (fun _ => []) "/h" 10 0 ops (repeat empty_reg 1) = Ok st2 /\
  (forall p, p <> "/w/o" -> on disk1 p = on disk2 p) /\
  resolves (realpath "/w") (fst (reg st1 0)) "o" i1 /\ kind_of (reg st1 0) i1 = MFile false put_hello /\
  resolves (realpath "/w") (fst (reg st2 0)) "o" i2 /\ kind_of (reg st2 0) i2 = MSource /\
  (exists i, In ("/w/o", i) (c_targets (fst (reg st2 0))) /\ kind_of (reg st2 0) i = MFile false put_hello).
Proof. exact leftovers. Qed.
Print Assumptions C65_refuted.
(** ... but true of a file nobody mentioned before its target was registered. *)
Theorem C65_rule_declared_first_partial :
  forall canon c cls p deps ops, canon p = p -> unheard canon c p -> Forall (fun o => ~ adds_file canon p o) ops ->
  forall nm, canon nm = p -> core_get canon (crun canon ops (core_new c cls p deps)) nm = Ok (List.length (c_heap c)).
Proof. exact first_rule_stays. Qed.
Print Assumptions C65_rule_declared_first_partial.
Example C65_case :
  disk_ok "/w" (on disk1) (on_path disk1) /\ disk_ok "/w" (on disk2) (on_path disk2) /\
  realpath "/w" "/w/o" = "/w/o" /\ unheard (realpath "/w") (new_core None) "/w/o" /\
  core_get (realpath "/w") (crun (realpath "/w") [OpHas "o"; OpNew Updatable "/w/t" ["o"]; OpHas "./o"]
    (core_new (new_core None) Updatable "/w/o" ["s"])) "x/../o" = Ok 0.
Proof.
  split; [exact disk1_ok|]. split; [exact disk2_ok|]. split; [reflexivity|]. split; [intros nm i []|]. vm_compute. reflexivity.
Qed.
