(** C102: the decorator [routine].  [drun fuel l d]: the script [l] of decorated functions
    runs from the state [d] of the registries and of the script's names; the decorator is that
    of core [k] (0: the default core). *)
From Verif Require Import PyBase PyPath SolverModel InvokerModel CoreModel MakeModel RegModel SpecUtil SpecReg RegExamples ProjectExamples DecorModel SpecDecor DecorProofs.
Local Open Scope string_scope.
Local Open Scope list_scope.

(** A script of decorated functions registers what the same calls of [updtarget] register, so
    what is proved about scripts with such calls (C96) holds for decorated functions. *)
Theorem C102_same_as_updtarget :
  forall cwd home exists_ glob_ k fuel l d, Forall proper l ->
  (do! d' <- drun (realpath cwd) exists_ glob_ k fuel l d; Ok (fst (d_reg d'))) =
  mrun (realpath cwd) exists_ glob_ home fuel k (flat_map plain_op l) (fst (d_reg d)).
Proof. intros. now apply same_as_updtarget. Qed.
Print Assumptions C102_same_as_updtarget.

(** Of the statements about one name the last one counts: the routine found under the name
    has its dependencies and calls its function. *)
Theorem C102_last_one_is_found :
  forall cwd exists_ glob_ k fuel l1 s l2 x d d', Forall proper (l1 ++ s :: l2) -> says s = Some x ->
  (forall s' y, In s' l2 -> says s' = Some y -> sd_name y <> sd_name x) -> starts_slash (sd_name x) = false ->
  drun (realpath cwd) exists_ glob_ k fuel (l1 ++ s :: l2) d = Ok d' -> k < List.length (fst (d_reg d)) ->
  let c := fst (reg (fst (d_reg d')) k) in
  exists i, core_get (realpath cwd) c (sd_name x) = Ok i /\ t_class (obj c i) = Updatable /\
    t_name (obj c i) = sd_name x /\ t_deps (obj c i) = expand_names glob_ (sd_deps x) /\ func_of (d_reg d') i = Some (sd_func x).
Proof.
  intros. destruct (declared_found cwd exists_ glob_ k fuel l1 s l2 x d d') as (i & A & B & C); try assumption.
  exists i. unfold c. rewrite B. repeat split; assumption.
Qed.
Print Assumptions C102_last_one_is_found.

(** A decorated function is still the function: other functions may call it. *)
Theorem C102_names_keep_functions :
  forall cwd exists_ glob_ k fuel l1 s l2 n f d d', Forall proper (l1 ++ s :: l2) -> defines s n f ->
  (forall s' g, In s' l2 -> ~ defines s' n g) -> drun (realpath cwd) exists_ glob_ k fuel (l1 ++ s :: l2) d = Ok d' ->
  sget (d_env d') n = Some (VObj f).
Proof. intros. now apply (defined_stays cwd exists_ glob_ k fuel l1 s l2 n f d d'). Qed.
Print Assumptions C102_names_keep_functions.

(** Nothing is raised. *)
Theorem C102_scripts_run :
  forall cwd ex exists_ glob_ k fuel l d, disk_ok cwd ex exists_ -> Forall proper l ->
  exists d', drun (realpath cwd) exists_ glob_ k (S fuel) l d = Ok d'.
Proof. intros. now apply (drun_total cwd exists_ glob_ k ex). Qed.
Print Assumptions C102_scripts_run.

(** Only functions: any other object given to [routine] is dropped without a word, whatever
    the keywords (a decorator is returned that nobody applies). *)
Theorem C102_other_objects_are_dropped :
  forall cwd exists_ glob_ k fuel d f kw, (forall n id, f <> PyFunction n id) ->
  dstep (realpath cwd) exists_ glob_ k fuel d (DCall f kw) = Ok d.
Proof. intros. now apply callable_ignored. Qed.
Print Assumptions C102_other_objects_are_dropped.

(** So "[routine(f)] registers a routine for every f that can be called" is false. *)
Theorem C102_callables_refuted :
  exists f x d d', says (DCall f no_kw) = Some x /\ 0 < List.length (fst (d_reg d)) /\ starts_slash (sd_name x) = false /\
  drun (realpath "/w") (fun _ => false) (fun _ => []) 0 3 [DCall f no_kw] d = Ok d' /\
  forall i, core_get (realpath "/w") (fst (reg (fst (d_reg d')) 0)) (sd_name x) <> Ok i.
Proof.
  exists (PyCallable (Some "print") 0). eexists. exists (DS ([empty_reg], []) []). eexists.
  split; [reflexivity|]. split; [apply le_n|]. split; [reflexivity|]. split; [reflexivity|]. intros i. discriminate.
Qed.
Print Assumptions C102_callables_refuted.

(** "Every keyword that the comment of [routine] names is accepted" is false. *)
Theorem C102_documented_refuted :
  exists w, In w documented /\ forall cwd exists_ glob_ k fuel d n id,
  dstep (realpath cwd) exists_ glob_ k fuel d (with_keyword w n id) = Raise (TypeError w).
Proof. exists "core". split; [cbn; tauto|]. intros. reflexivity. Qed.
Print Assumptions C102_documented_refuted.

(** A script with four statements: one routine depends on a file that is there, another one
    is declared twice, a third has a name of its own. *)
Definition dscript : list dstmt :=
  [DBare "test" 0;
   DArgs (KW (Some ["main.c"; "test"]) None []) "check" 1;
   DCall (PyFunction "helper" 2) (KW None (Some "extra") []);
   DArgs (KW (Some ["check"]) None []) "test" 3].
Definition dstart : dstate := DS ([empty_reg], []) [].
Definition summary (r : res dstate) : option (list (string * list string * option pyobj) * list (string * value)) :=
  match r with
  | Ok d => let c := fst (reg (fst (d_reg d)) 0) in
            Some (map (fun e => (fst e, t_deps (obj c (snd e)), func_of (d_reg d) (snd e))) (c_targets c), d_env d)
  | _ => None
  end.
Example C102_case :
  disk_ok "/w" (present pfs) (on_path pdisk) /\ Forall proper dscript /\
  summary (drun (realpath "/w") (on_path pdisk) (fun _ => []) 0 3 dscript dstart) =
    Some ([("test", ["check"], Some (PyFunction "test" 3));
           ("/w/main.c", [], None);
           ("check", ["main.c"; "test"], Some (PyFunction "check" 1));
           ("extra", [], Some (PyFunction "helper" 2))],
          [("test", VObj (PyFunction "test" 3)); ("check", VObj (PyFunction "check" 1))]).
Proof. split; [exact pfs_ok|]. split; [repeat constructor|]. reflexivity. Qed.
