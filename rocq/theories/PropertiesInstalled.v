(** Theorems about commands that install: C94. *)
From Verif Require Import PyBase PyPath SolverModel SpecGraph InvokerModel CoreModel MakeModel SpecMake RegModel CliModel SpecUtil SpecReg SpecProject RegExamples
  ProjectExamples CommandModel SpecCommand CommandProofs CommandExamples SpecEdit EditProofs InstallModel SpecInstall WalkModel SpecWalk SpecInstalled InstalledProofs InstalledExamples InstalledEdits.
Local Open Scope string_scope.
Local Open Scope list_scope.

(** C94.  A script [l] that contains the calls of install_library, among others.  After any
    history of edits and commands, a command for its target that succeeds leaves every header
    below the directory that matches a pattern, and every library, in its place, with the
    content that the original has then. *)
Theorem C94_library_is_installed :
  forall cwd home exists_ glob_ l fs now, disk_ok cwd (present fs) exists_ -> in_order cwd home glob_ exists_ l ->
  reads_only (project_of cwd home glob_ l) -> command_history cwd home glob_ l fs now ->
  forall other default ws tgt th kind c1 objs sv s, calls_for cwd home glob_ l default ws tgt "makefile" ->
  commanded cwd home exists_ glob_ false other l default ws th fs now kind c1 objs sv s -> succeeded objs s ->
  forall pl disk fnmatch hroot headers pats u libs e ops t a b,
  install_library cwd home pl (walk disk) fnmatch tgt hroot headers pats u libs = Some (ops, t) ->
  starts_slash cwd = true -> starts_slash (pl_include pl) = true -> starts_slash (pl_lib pl) = true ->
  disk (abspath cwd headers) = Some e -> proper_tree e -> map op_of l = a ++ ops ++ b ->
  (forall ds f pat, file_at e (ds ++ [f]) -> In pat pats -> fnmatch pat f = true ->
     installed cwd home (w_fs (s_world s)) (path_joins (abspath cwd headers) (ds ++ [f])) (path_joins (pl_include pl) (hroot :: ds ++ [f]))) /\
  (forall lib, In lib (lib_list libs) -> lib <> "" -> is_name l (expanduser home lib) = false ->
     installed cwd home (w_fs (s_world s)) lib (path_join (pl_lib pl) (basename lib))).
Proof.
  intros cwd home exists_ glob_ l fs now D ok R H other default ws tgt th kind c1 objs sv s C B Su pl disk fnmatch hroot headers pats u libs e ops t a b HI Hc Ai Al Hd P E.
  destruct (library_set _ _ _ _ _ _ _ _ _ _ _ _ _ _ _ _ HI E) as [ds Hs].
  assert (X : In (meaning cwd l tgt) (flat_map (makes cwd home glob_) l)) by (rewrite (set_means cwd glob_ l tgt ds Hs); exact (set_made cwd home glob_ l tgt ds Hs)).
  exact (library_installed cwd home exists_ glob_ l ok R (w_fs (s_world s)) tgt
    (commands_right cwd home fs exists_ glob_ l D ok other default ws tgt th now kind c1 objs sv s C X B Su R H)
    pl disk fnmatch tgt hroot headers pats u libs e ops t a b HI Hc Ai Al Hd P E eq_refl).
Qed.
Print Assumptions C94_library_is_installed.
(** The same for install_application with a name for its target (without one: C75). *)
Theorem C94_application_is_installed :
  forall cwd home exists_ glob_ l fs now, disk_ok cwd (present fs) exists_ -> in_order cwd home glob_ exists_ l ->
  reads_only (project_of cwd home glob_ l) -> command_history cwd home glob_ l fs now ->
  forall other default ws tgt th kind c1 objs sv s, calls_for cwd home glob_ l default ws tgt "makefile" ->
  commanded cwd home exists_ glob_ false other l default ws th fs now kind c1 objs sv s -> succeeded objs s ->
  forall pl src dst ops t a b,
  install_application cwd home pl src dst (Some tgt) = Some (ops, t) -> starts_slash (pl_bin pl) = true ->
  map op_of l = a ++ ops ++ b -> is_name l (expanduser home src) = false ->
  installed cwd home (w_fs (s_world s)) src (path_join (pl_bin pl) dst).
Proof.
  intros cwd home exists_ glob_ l fs now D ok R H other default ws tgt th kind c1 objs sv s C B Su pl src dst ops t a b HI Ab E Hn.
  destruct (application_set _ _ _ _ _ _ _ _ _ _ _ HI E) as [ds Hs].
  assert (X : In (meaning cwd l tgt) (flat_map (makes cwd home glob_) l)) by (rewrite (set_means cwd glob_ l tgt ds Hs); exact (set_made cwd home glob_ l tgt ds Hs)).
  exact (application_installed cwd home exists_ glob_ l ok R (w_fs (s_world s)) tgt
    (commands_right cwd home fs exists_ glob_ l D ok other default ws tgt th now kind c1 objs sv s C X B Su R H)
    pl src dst tgt ops t a b HI Ab E eq_refl Hn).
Qed.
Print Assumptions C94_application_is_installed.
(** Headers come and go: the script means other statements then.  [edit_history] (C85): what
    the versions before have left, if the changes take care. *)
Theorem C94_changed_headers_are_installed :
  forall cwd home exists_ glob_ l fs now, disk_ok cwd (present fs) exists_ -> in_order cwd home glob_ exists_ l ->
  reads_only (project_of cwd home glob_ l) -> edit_history cwd home (glob_, l) fs now ->
  forall tgt th kind c1 objs sv s,
  building cwd home exists_ glob_ false l tgt th fs now kind c1 objs sv s -> succeeded objs s ->
  forall pl disk fnmatch hroot headers pats u libs e ops t a b,
  install_library cwd home pl (walk disk) fnmatch tgt hroot headers pats u libs = Some (ops, t) ->
  starts_slash cwd = true -> starts_slash (pl_include pl) = true -> starts_slash (pl_lib pl) = true ->
  disk (abspath cwd headers) = Some e -> proper_tree e -> map op_of l = a ++ ops ++ b ->
  (forall ds f pat, file_at e (ds ++ [f]) -> In pat pats -> fnmatch pat f = true ->
     installed cwd home (w_fs (s_world s)) (path_joins (abspath cwd headers) (ds ++ [f])) (path_joins (pl_include pl) (hroot :: ds ++ [f]))) /\
  (forall lib, In lib (lib_list libs) -> lib <> "" -> is_name l (expanduser home lib) = false ->
     installed cwd home (w_fs (s_world s)) lib (path_join (pl_lib pl) (basename lib))).
Proof.
  intros cwd home exists_ glob_ l fs now D ok R H tgt th kind c1 objs sv s B Su pl disk fnmatch hroot headers pats u libs e ops t a b HI Hc Ai Al Hd P E.
  destruct (library_set _ _ _ _ _ _ _ _ _ _ _ _ _ _ _ _ HI E) as [ds Hs]. pose proof (set_made cwd home glob_ l tgt ds Hs) as X.
  pose proof (edited_right cwd home fs exists_ (glob_, l) D ok tgt th now kind c1 objs sv s X B Su H) as Q.
  pose proof (set_means cwd glob_ l tgt ds Hs) as Em.
  refine (library_installed cwd home exists_ glob_ l ok R (w_fs (s_world s)) tgt _ pl disk fnmatch tgt hroot headers pats u libs e ops t a b HI Hc Ai Al Hd P E eq_refl).
  rewrite Em. exact Q.
Qed.
Print Assumptions C94_changed_headers_are_installed.

(** The project of InstalledExamples. *)
Example C94_case :
  disk_ok "/w" (present ifs) (on_path on_disk) /\ in_order "/w" "/h" no_glob (on_path on_disk) iscript /\
  reads_only (project_of "/w" "/h" no_glob iscript) /\ command_history "/w" "/h" no_glob iscript ifs 1 /\
  (exists ops t a b, lib_ops = Some (ops, t) /\ map op_of iscript = a ++ ops ++ b) /\
  (exists ops t a b, app_ops = Some (ops, t) /\ map op_of iscript = a ++ ops ++ b) /\
  idisk (abspath "/w" "inc") = Some itree /\ proper_tree itree /\ file_at itree ["d"; "b.h"] /\ glob_match "*.h" "b.h" = true /\
  is_name iscript (expanduser "/h" "lib.so") = false /\
  calls_for "/w" "/h" no_glob iscript (Some "install") [] "install" "makefile" /\
  (exists kind c1 objs sv s,
    commanded "/w" "/h" (on_path on_disk) no_glob false no_info iscript (Some "install") [] 1 ifs 1 kind c1 objs sv s /\ succeeded objs s /\
    contents (w_fs (s_world s)) "/u/include/p/d/b.h" = Some "at /w/inc/d/b.h" /\ contents (w_fs (s_world s)) "/u/lib/lib.so" = Some "lib:at /w/a.c") /\
  (exists kind c1 objs sv s,
    commanded "/w" "/h" (on_path on_disk) no_glob false no_info iscript (Some "tools") [] 1 ifs 1 kind c1 objs sv s /\ succeeded objs s /\
    contents (w_fs (s_world s)) "/u/bin/app" = Some "at /w/app.py").
Proof.
  split; [exact ifs_ok|]. split; [exact iscript_ok|]. split; [exact ireads|]. split; [exact icommands|].
  split; [eexists _, _, [_], [_; _]; split; [reflexivity|reflexivity]|].
  split; [eexists _, _, [_; _; _; _; _; _; _; _], []; split; [reflexivity|reflexivity]|].
  split; [reflexivity|]. split; [exact itree_proper|]. split; [eapply fa_below; [right; right; now left|]; apply fa_here; now left|].
  split; [reflexivity|]. split; [reflexivity|]. split; [now apply cf_default|]. split; [exact install_run|exact tools_run].
Qed.
(** The header [inc/d/b.h] is new, and older than what was made before. *)
Example C94_changed_headers_case :
  disk_ok "/w" (present hfs) (on_path hdisk) /\ in_order "/w" "/h" no_glob (on_path hdisk) iscript /\ reads_only (project_of "/w" "/h" no_glob iscript) /\
  edit_history "/w" "/h" (no_glob, iscript) hfs jnow1 /\ hfs "/u/include/p/a.h" <> None /\ hfs "/u/include/p/d/b.h" = None /\
  exists kind c1 objs sv s, building "/w" "/h" (on_path hdisk) no_glob false iscript "install" 1 hfs jnow1 kind c1 objs sv s /\ succeeded objs s /\
    contents (w_fs (s_world s)) "/u/include/p/d/b.h" = Some "new".
Proof.
  split; [exact hfs_ok|]. split; [apply in_orderb_ok; vm_compute; reflexivity|]. split; [exact ireads|]. split; [exact hhistory|].
  split; [vm_compute; discriminate|]. split; [vm_compute; reflexivity|]. exact hrun.
Qed.

(** What was installed for a header that does not exist any more is not removed: two processes
    that succeed, and between them the header is deleted. *)
Theorem C94_removed_header_stays_refuted :
  exists cwd home pl fnmatch tgt hroot headers pats libs glob_ disk1 disk2 e1 e2 l1 l2 ops1 ops2 ds f,
  install_library cwd home pl (walk disk1) fnmatch tgt hroot headers pats None libs = Some (ops1, tgt) /\
  install_library cwd home pl (walk disk2) fnmatch tgt hroot headers pats None libs = Some (ops2, tgt) /\
  disk1 (abspath cwd headers) = Some e1 /\ disk2 (abspath cwd headers) = Some e2 /\ proper_tree e1 /\ proper_tree e2 /\
  (exists a b, map op_of l1 = a ++ ops1 ++ b) /\ (exists a b, map op_of l2 = a ++ ops2 ++ b) /\
  file_at e1 (ds ++ [f]) /\ ~ file_at e2 (ds ++ [f]) /\
  exists ex1 ex2 fs kind1 c1 objs1 sv1 s1 kind2 c2 objs2 sv2 s2,
  edit_history cwd home (glob_, l1) fs 1 /\ fs (path_joins (pl_include pl) (hroot :: ds ++ [f])) = None /\
  building cwd home ex1 glob_ false l1 tgt 1 fs 1 kind1 c1 objs1 sv1 s1 /\ succeeded objs1 s1 /\
  let fs' := fs_set (w_fs (s_world s1)) (path_joins (abspath cwd headers) (ds ++ [f])) None in
  disk_ok cwd (present fs') ex2 /\ edit_history cwd home (glob_, l2) fs' (w_now (s_world s1)) /\
  building cwd home ex2 glob_ false l2 tgt 1 fs' (w_now (s_world s1)) kind2 c2 objs2 sv2 s2 /\ succeeded objs2 s2 /\
  contents (w_fs (s_world s2)) (path_joins (pl_include pl) (hroot :: ds ++ [f])) <> None.
Proof.
  destruct lib_ops as [[ops1 t1]|] eqn:E1; [|discriminate E1]. destruct jlib_ops as [[ops2 t2]|] eqn:E2; [|discriminate E2].
  exists "/w", "/h", ipl, glob_match, "install", "p", "inc", ["*.h"], (OneLib "lib.so"), no_glob, idisk, jdisk, itree, jtree, iscript, jscript, ops1, ops2, ["d"], "b.h".
  assert (X1 : t1 = "install") by (vm_compute in E1; congruence). assert (X2 : t2 = "install") by (vm_compute in E2; congruence). subst t1 t2.
  split; [exact E1|]. split; [exact E2|]. split; [reflexivity|]. split; [reflexivity|]. split; [exact itree_proper|]. split; [exact jtree_proper|].
  split; [exists [hd (op_of (SSource "")) (map op_of iscript)]; eexists [_; _]; vm_compute in E1; injection E1 as <-; reflexivity|].
  split; [exists [hd (op_of (SSource "")) (map op_of jscript)]; eexists [_; _]; vm_compute in E2; injection E2 as <-; reflexivity|].
  split; [eapply fa_below; [right; right; now left|]; apply fa_here; now left|].
  split.
  { intros H. inversion H as [? ? Hi|? ? ? ? Hi Hf]; subst. destruct Hi as [Hi|[Hi|[Hi|[]]]]; try discriminate Hi. injection Hi as <-. inversion Hf as [? ? Hx|? ? ? ? Hx]; now destruct Hx. }
  destruct ibuilt as ((kind1 & c1 & objs1 & sv1 & s1 & B1 & Su1 & F1 & N1) & _ & _). destruct rrun as (kind2 & c2 & objs2 & sv2 & s2 & B2 & Su2 & C2).
  exists (on_path on_disk), (on_path rdisk), ifs, kind1, c1, objs1, sv1, s1, kind2, c2, objs2, sv2, s2.
  split; [exact istart|]. split; [vm_compute; reflexivity|]. split; [exact B1|]. split; [exact Su1|].
  change (path_joins (abspath "/w" "inc") (["d"] ++ ["b.h"])) with "/w/inc/d/b.h". change (path_joins (pl_include ipl) ("p" :: ["d"] ++ ["b.h"])) with "/u/include/p/d/b.h".
  cbv zeta. rewrite F1, N1. split; [exact rfs_ok|]. split; [exact rhistory|]. split; [exact B2|]. split; [exact Su2|]. rewrite C2. discriminate.
Qed.
Print Assumptions C94_removed_header_stays_refuted.
