(** Theorems about the registries of libraries: C59, C60. *)
From Verif Require Import PyBase PyPath PathProofs LibsModel SpecLibs LibsProofs ScriptModel SpecScript ScriptProofs.
Local Open Scope string_scope.
Local Open Scope list_scope.

(** C59: [licant-libs name path] (with -u for the user's registry). *)
Theorem C59_add :
  forall cwd home exists_ glob_ fs u name path, let o := LO u false false [name; path] in
  let f := paths_file home o in let fs' := after cwd home exists_ glob_ fs o in
  readable fs f -> ascii_entries fs f -> ascii_only cwd -> ascii_only name -> ascii_only path ->
  exists_ (abspath cwd path) = true ->
  readable fs' f /\ entry fs' f name = Some (abspath cwd path) /\
  (forall n, n <> name -> entry fs' f n = entry fs f n) /\ other_files_same fs fs' f.
Proof. exact add_two. Qed.
Print Assumptions C59_add.
(** [licant-libs directory] adds the scripts of the directory under their first names. *)
Theorem C59_add_directory :
  forall cwd home exists_ glob_ fs u dir, let o := LO u false false [dir] in
  let f := paths_file home o in let fs' := after cwd home exists_ glob_ fs o in
  let l := glob_ (path_join dir "*.g.py") in
  readable fs f -> ascii_entries fs f -> ascii_only cwd -> Forall ascii_only l ->
  Forall (fun g => exists_ (abspath cwd g) = true) l ->
  readable fs' f /\
  (forall n, entry fs' f n = match last_named n l with Some g => Some (abspath cwd g) | None => entry fs f n end) /\
  other_files_same fs fs' f.
Proof. exact add_directory. Qed.
Print Assumptions C59_add_directory.
(** A path that does not exist changes nothing. *)
Theorem C59_missing_path :
  forall cwd home exists_ glob_ fs u name path, exists_ (abspath cwd path) = false ->
  after cwd home exists_ glob_ fs (LO u false false [name; path]) = fs.
Proof. exact missing_path. Qed.
Print Assumptions C59_missing_path.
(** [licant-libs -r name] removes nothing, whatever the registry. *)
Theorem C59_remove_never_removes :
  forall cwd home exists_ glob_ fs u name, let o := LO u true false [name] in
  let f := paths_file home o in let fs' := after cwd home exists_ glob_ fs o in
  readable fs f -> ascii_entries fs f ->
  readable fs' f /\ (forall n, entry fs' f n = entry fs f n) /\ other_files_same fs fs' f.
Proof. exact remove_keeps. Qed.
Print Assumptions C59_remove_never_removes.
Definition one_lib : disk := set_file (fun _ => None) gpath (dumps [("gx", "/l/gx.g.py"); ("nos", "/l/nos.g.py")]).
Theorem C59_remove_refuted :
  exists cwd home exists_ glob_ fs name v, let o := LO false true false [name] in
  entry fs gpath name = Some v /\ utility cwd home exists_ glob_ fs o = Ok (Some (dumps [("gx", "/l/gx.g.py"); (name, v)])) /\
  entry (after cwd home exists_ glob_ fs o) gpath name = Some v.
Proof.
  exists "/w", "/h", (fun _ => true), (fun _ => []), one_lib, "nos", "/l/nos.g.py". vm_compute. repeat split.
Qed.
Print Assumptions C59_remove_refuted.
(** The user's entries take precedence over those of the system. *)
Theorem C59_user_entries_win :
  forall home fs d, init home fs = Ok d -> forall n,
  sget d n = match entry fs (lpath home) n with Some v => Some v | None => entry fs gpath n end.
Proof. exact init_get. Qed.
Print Assumptions C59_user_entries_win.
(** The registry of the user is in the home directory, the other one is for all users. *)
Theorem C59_files : forall home o, ends_slash home = false ->
  paths_file home o = (if lo_user o then home ++ "/.licant" else "/var/lib/licant")%string.
Proof. intros home o Hs. unfold paths_file, lpath, gpath. destruct (lo_user o); [|reflexivity].
  assert (E : rstrip_slash home = home); [|cbn; rewrite E; reflexivity].
  clear o. induction home as [|c [|d h] IH]; [reflexivity| |].
  - cbn in *. now rewrite Hs.
  - cbn [rstrip_slash] in *. rewrite IH by exact Hs. reflexivity.
Qed.
Print Assumptions C59_files.
Example C59_case_files : paths_file "/home/u" (LO true false false []) = "/home/u/.licant" /\
  paths_file "/home/u" (LO false false false []) = "/var/lib/licant".
Proof. split; reflexivity. Qed.
(** A script that includes an added library runs the script that was registered. *)
Theorem C59_added_library_is_included :
  forall cwd home exists_ glob_ fs name path, let o := LO true false false [name; path] in
  let f := paths_file home o in let fs' := after cwd home exists_ glob_ fs o in
  readable fs f -> ascii_entries fs f -> readable fs gpath -> f <> gpath ->
  ascii_only cwd -> ascii_only name -> ascii_only path ->
  starts_slash cwd = true -> exists_ (abspath cwd path) = true ->
  exists registry, init home fs' = Ok registry /\
  forall G files find tunnel_there link fuel argv0 (k : prog G) g s,
  state_of (main files find registry tunnel_there link fuel argv0 (PInclude name ByName k) g) = Some s ->
  exists tr, q_trace s = EvAsk name ByName :: EvLib name (abspath cwd path) :: EvStart (abspath cwd path) :: tr.
Proof. exact added_is_included. Qed.
Print Assumptions C59_added_library_is_included.
Example C59_case :
  let fs' := after "/w" "/h" (fun _ => true) (fun _ => []) one_lib (LO false false false ["crow"; "lib/crow.g.py"]) in
  readable one_lib gpath /\ ascii_entries one_lib gpath /\
  fs' gpath = Some "{""gx"": ""/l/gx.g.py"", ""nos"": ""/l/nos.g.py"", ""crow"": ""/w/lib/crow.g.py""}" /\
  init "/h" fs' = Ok [("gx", "/l/gx.g.py"); ("nos", "/l/nos.g.py"); ("crow", "/w/lib/crow.g.py")] /\
  utility "/w" "/h" (fun _ => true) (fun _ => []) one_lib (LO true false false []) = Raise (AttributeError "help").
Proof.
  split; [eexists; reflexivity|]. split.
  - intros n v. unfold entry. change (load_or_empty one_lib gpath) with (Ok [("gx", "/l/gx.g.py"); ("nos", "/l/nos.g.py")]).
    cbn [dget]. destruct (String.eqb_spec n "gx") as [->|_]; [|destruct (String.eqb_spec n "nos") as [->|_]; [|discriminate]];
      intros [= <-]; cbn; lia.
  - vm_compute. repeat split.
Qed.

(** C60: killed while writing, the registry is lost: the file cannot be read, licant-libs
    refuses to work on it and every script that includes a library fails. *)
Theorem C60_interrupted_registry_is_lost :
  forall cwd home exists_ glob_ fs o t p,
  utility cwd home exists_ glob_ fs o = Ok (Some t) -> ascii_entries fs (paths_file home o) ->
  (forall a, In a (lo_args o) -> ascii_only a) -> ascii_only cwd ->
  (forall a f, ascii_only a -> In f (glob_ (path_join a "*.g.py")) -> ascii_only f) ->
  prefix_of p t -> p <> t -> let fs' := set_file fs (paths_file home o) p in
  ~ readable fs' (paths_file home o) /\
  (forall o', lo_user o' = lo_user o -> utility cwd home exists_ glob_ fs' o' = Raise (SystemExit "Wrong format")) /\
  init home fs' = Raise (ValueError "JSONDecodeError").
Proof. exact torn_lost. Qed.
Print Assumptions C60_interrupted_registry_is_lost.
Theorem C60_refuted :
  exists cwd home exists_ glob_ fs o fs' name v, left_behind cwd home exists_ glob_ fs o fs' /\
  entry fs gpath name = Some v /\ entry (after cwd home exists_ glob_ fs o) gpath name = Some v /\ fs' gpath = Some "".
Proof.
  exists "/w", "/h", (fun _ => true), (fun _ => []), one_lib, (LO false false false ["crow"; "lib/crow.g.py"]),
    (set_file one_lib gpath ""), "nos", "/l/nos.g.py".
  split.
  - eapply (lb_writing _ _ _ _ _ (LO false false false ["crow"; "lib/crow.g.py"])); [reflexivity|]. now eexists.
  - vm_compute. repeat split.
Qed.
Print Assumptions C60_refuted.
(** Whatever else happens: a file that can be read is the old one or the new one. *)
Theorem C60_old_or_new_or_unreadable_partial :
  forall cwd home exists_ glob_ fs o fs', left_behind cwd home exists_ glob_ fs o fs' ->
  ascii_entries fs (paths_file home o) ->
  (forall a, In a (lo_args o) -> ascii_only a) -> ascii_only cwd ->
  (forall a f, ascii_only a -> In f (glob_ (path_join a "*.g.py")) -> ascii_only f) ->
  readable fs' (paths_file home o) -> fs' = fs \/ fs' = after cwd home exists_ glob_ fs o.
Proof. exact left_cases. Qed.
Print Assumptions C60_old_or_new_or_unreadable_partial.
Example C60_case :
  let o := LO false false false ["crow"; "lib/crow.g.py"] in
  utility "/w" "/h" (fun _ => true) (fun _ => []) one_lib o =
    Ok (Some "{""gx"": ""/l/gx.g.py"", ""nos"": ""/l/nos.g.py"", ""crow"": ""/w/lib/crow.g.py""}") /\
  loads "{""gx"": ""/l/gx.g.py"", ""nos"": ""/l/nos.g.py""" = None.
Proof. vm_compute. split; reflexivity. Qed.
