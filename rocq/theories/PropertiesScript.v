(** Theorems about scripts and libraries: C57, C58. *)
From Verif Require Import PyBase PyPath ScriptModel SpecScript ScriptProofs.
Local Open Scope string_scope.
Local Open Scope list_scope.

(** ** Witnesses. *)
(** Two libraries that include each other; [b] also asks for [a] by another path. *)
Definition two_files (g : list string) (path : string) : option (prog (list string)) :=
  if String.eqb path "/p/make.py" then Some PEnd
  else if String.eqb path "/p/a/a.g.py" then
    Some (PInclude "b" (ByPath "../b/b.g.py") (PDirectory (fun d => PGet (fun g => PPut (g ++ [d]) PEnd))))
  else if String.eqb path "/p/a/../b/b.g.py" then
    Some (PInclude "a" (ByPath "other/a.g.py") (PDirectory (fun d => PGet (fun g => PPut (g ++ [d]) PEnd))))
  else None.
Definition two_main : prog (list string) :=
  PInclude "a" (ByPath "a/a.g.py") (PInclude "b" ByName (PDirectory (fun d => PGet (fun g => PPut (g ++ [d]) PEnd)))).
Definition two := main two_files (fun _ _ _ _ => []) [] (fun _ _ => false) (fun _ _ g => g).

(** C57: a library is accepted at most once, whatever the scripts do; [included] holds exactly
    the accepted ones. *)
Theorem C57_each_library_once :
  forall G files find registry tunnel_there link fuel argv0 (p : prog G) g s,
  state_of (main files find registry tunnel_there link fuel argv0 p g) = Some s ->
  NoDup (map fst (accepted (q_trace s))) /\
  forall lib q, sget (q_included s) lib = Some q <-> In (lib, q) (accepted (q_trace s)).
Proof. exact libs_once. Qed.
Print Assumptions C57_each_library_once.
(** The first path wins: if the library is not there yet it is taken from the path given, and
    its script starts at once. *)
Theorem C57_first_path_wins :
  forall G files find registry tunnel_there link fuel argv0 (p : prog G) g s,
  state_of (main files find registry tunnel_there link fuel argv0 p g) = Some s ->
  forall t1 lib q t2, q_trace s = t1 ++ EvAsk lib (ByPath q) :: t2 -> ~ In lib (map fst (accepted t1)) ->
  exists d t3, t2 = EvLib lib q :: EvStart (path_join d q) :: t3.
Proof. exact libs_first. Qed.
Print Assumptions C57_first_path_wins.
(** If scripts only include libraries, one script is run per accepted library, in this order. *)
Theorem C57_one_script_each :
  forall G files find registry tunnel_there link libs,
  (forall g path p, files g path = Some p -> only_includes libs p) ->
  forall fuel argv0 (p : prog G) g s, only_includes libs p ->
  state_of (main files find registry tunnel_there link fuel argv0 p g) = Some s ->
  exists ds, List.length ds = List.length (accepted (q_trace s)) /\
    starts (q_trace s) = map (fun x => path_join (fst x) (snd (snd x))) (combine ds (accepted (q_trace s))).
Proof. exact libs_one_script_each. Qed.
Print Assumptions C57_one_script_each.
(** And then they end: nesting is bounded by the number of libraries. *)
Theorem C57_recursive_includes_end :
  forall G files find registry tunnel_there link libs,
  (forall g path p, files g path = Some p -> only_includes libs p) ->
  forall fuel argv0 (p : prog G) g, only_includes libs p -> List.length libs <= fuel ->
  main files find registry tunnel_there link fuel argv0 p g <> SNoFuel.
Proof. exact (@includes_end). Qed.
Print Assumptions C57_recursive_includes_end.
Example C57_case :
  only_includes ["a"; "b"] two_main /\
  (forall g path p, two_files g path = Some p -> only_includes ["a"; "b"] p) /\
  match two 2 "/p/make.py" two_main [] with
  | SDone s => q_included s = [("a", "a/a.g.py"); ("b", "../b/b.g.py")] /\
      starts (q_trace s) = ["/p/a/a.g.py"; "/p/a/../b/b.g.py"] /\
      q_g s = ["/p/a/../b"; "/p/a"; "/p"] /\ q_stack s = ["/p/make.py"]
  | _ => False
  end.
Proof.
  split; [cbn; tauto|]. split.
  - intros g path p. unfold two_files.
    destruct (String.eqb path "/p/make.py"); [intros [= <-]; exact I|].
    destruct (String.eqb path "/p/a/a.g.py"); [intros [= <-]; cbn; tauto|].
    destruct (String.eqb path "/p/a/../b/b.g.py"); [intros [= <-]; cbn; tauto|discriminate].
  - vm_compute. repeat split.
Qed.

(** A script ends the process by SystemExit or Ctrl-C unchanged; any other exception of a script
    becomes SystemExit. *)
Theorem C58_exceptions_of_scripts :
  forall G files find registry tunnel_there link fuel path (s : sstate G) p e s',
  files (q_g s) path = Some p ->
  run find registry tunnel_there link (enter files find registry tunnel_there link fuel) p (note (EvStart path) (push path s)) = SRaise e s' ->
  exists e', enter files find registry tunnel_there link (S fuel) path s = SRaise e' s' /\
    ((exists m, e = SystemExit m) \/ e = PlainException "KeyboardInterrupt" -> e' = e) /\
    ((forall m, e <> SystemExit m) -> e <> PlainException "KeyboardInterrupt" -> e' = SystemExit "Exception in file").
Proof. exact (@script_exceptions). Qed.
Print Assumptions C58_exceptions_of_scripts.
(** C58: directory() and nested paths are those of the lexical semantics, and the stack is as
    before when a script returns; for scripts that let exceptions of other scripts pass. *)
Theorem C58_lexical_directories_partial :
  forall G files find registry tunnel_there link,
  (forall g path p, files g path = Some p -> lets_pass p) ->
  forall fuel argv0 (p : prog G) g, lets_pass p ->
  forget_out (main files find registry tunnel_there link fuel argv0 p g) =
    lrun find registry tunnel_there link (lscript files find registry tunnel_there link fuel)
         (dirname argv0) p (LS [] g []) /\
  returns_to [argv0] (main files find registry tunnel_there link fuel argv0 p g).
Proof. exact (@lexical_main). Qed.
Print Assumptions C58_lexical_directories_partial.
Example C58_case :
  (forall g path p, two_files g path = Some p -> lets_pass p) /\ lets_pass two_main.
Proof.
  split; [|cbn; tauto].
  intros g path p. unfold two_files.
  destruct (String.eqb path "/p/make.py"); [intros [= <-]; exact I|].
  destruct (String.eqb path "/p/a/a.g.py"); [intros [= <-]; cbn; tauto|].
  destruct (String.eqb path "/p/a/../b/b.g.py"); [intros [= <-]; cbn; tauto|discriminate].
Qed.

(** False in general: after [try: execute("sub/bad.py") except SystemExit: pass] directory() is
    the directory of sub/bad.py. *)
Definition bad_files (g : string) (path : string) : option (prog string) :=
  if String.eqb path "/p/sub/bad.py" then Some (PThrow (ValueError "bad")) else None.
Definition bad_main : prog string :=
  PTry (PExecute "sub/bad.py" PEnd) (fun _ => PEnd) (PDirectory (fun d => PPut d PEnd)).
Theorem C58_refuted :
  exists files fuel argv0 (p : prog string) g s,
  main files (fun _ _ _ _ => []) [] (fun _ _ => false) (fun _ _ g => g) fuel argv0 p g = SDone s /\
  dirname argv0 = "/p" /\ q_g s = "/p/sub" /\
  lrun (fun _ _ _ _ => []) [] (fun _ _ => false) (fun _ _ g => g)
       (lscript files (fun _ _ _ _ => []) [] (fun _ _ => false) (fun _ _ g => g) fuel)
       (dirname argv0) p (LS [] g []) = LDone (LS (q_included s) "/p" (q_trace s)).
Proof.
  exists bad_files, 1, "/p/make.py", bad_main, "". vm_compute. eexists. repeat split.
Qed.
Print Assumptions C58_refuted.
