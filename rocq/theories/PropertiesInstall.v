(** Theorems about licant.install: C61, C62, C75, C76. *)
From Verif Require Import PyBase PyPath SolverModel SpecGraph InvokerModel CoreModel SpecCore MakeModel SpecMake RegModel SpecUtil SpecReg
  RegTotal InstallModel SpecInstall InstallProofs.
Local Open Scope string_scope.
Local Open Scope list_scope.

(** C61.  PREFIX decides; then an entry /usr/local/bin of PATH. *)
Theorem C61_prefix :
  forall path p, find_application_path (ENV (Some path) (Some p)) = Ok (path_join p "bin", false).
Proof. exact prefix_wins. Qed.
Print Assumptions C61_prefix.
Theorem C61_prefix_places :
  forall path p, import_install (ENV (Some path) (Some p)) =
    Ok (PL (path_join p "bin") (path_join p "include") (path_join p "lib") false).
Proof. reflexivity. Qed.
Print Assumptions C61_prefix_places.
(** Without PATH the module cannot be imported, PREFIX or not. *)
Theorem C61_no_path : forall prefix, import_install (ENV None prefix) = Raise (KeyError "PATH").
Proof. reflexivity. Qed.
Print Assumptions C61_no_path.
Theorem C61_usr_local_bin :
  forall path l, entries path l -> In "/usr/local/bin" l ->
  find_application_path (ENV (Some path) None) = Ok ("/usr/local/bin", false).
Proof. exact local_bin_wins. Qed.
Print Assumptions C61_usr_local_bin.
(** Without these, a directory may be found, but installing is disabled; or the import fails. *)
Theorem C61_otherwise_disabled_partial :
  forall path l, entries path l -> ~ In "/usr/local/bin" l -> (forall e, In e l -> ~ occurs back_usr_local_bin e) ->
  match find_application_path (ENV (Some path) None) with
  | Ok (p, err) => err = true /\ In p l /\
      (occurs "/usr/local/bin" p \/ ((forall e, In e l -> ~ occurs "/usr/local/bin" e) /\ occurs "/usr/bin" p))
  | Raise e => e = UnboundLocalError "path" /\ forall e, In e l -> ~ occurs "/usr/local/bin" e /\ ~ occurs "/usr/bin" e
  | OutOfFuel => False
  end.
Proof. exact no_local_bin. Qed.
Print Assumptions C61_otherwise_disabled_partial.
Theorem C61_backslashes :
  forall path l, entries path l -> ~ In "/usr/local/bin" l -> (exists e, In e l /\ occurs back_usr_local_bin e) ->
  exists p, find_application_path (ENV (Some path) None) = Ok (p, false) /\ In p l /\ occurs back_usr_local_bin p.
Proof. exact backslash_bin. Qed.
Print Assumptions C61_backslashes.
Theorem C61_disabled_calls_do_nothing :
  forall cwd home pl walk fnmatch, pl_error pl = true ->
  (forall src dst tgt, install_application cwd home pl src dst tgt = None) /\
  (forall src n, install_shared_library cwd home pl src n = None) /\
  (forall tgt hroot headers pats u l, install_library cwd home pl walk fnmatch tgt hroot headers pats u l = None).
Proof. exact disabled_calls. Qed.
Print Assumptions C61_disabled_calls_do_nothing.
Theorem C61_refuted :
  exists path l e, entries path l /\ In e l /\ occurs "/usr/bin" e /\
  import_install (ENV (Some path) None) = Ok (PL e "/usr/local/include" "/usr/lib" true).
Proof.
  exists "/usr/bin:/bin", ["/usr/bin"; "/bin"], "/usr/bin". split.
  - split; [discriminate|]. split; [reflexivity|]. intros e [<-|[<-|[]]] H; cbn in H; repeat destruct H as [H|H]; try discriminate; exact H.
  - split; [now left|]. split; [now exists "", ""|reflexivity].
Qed.
Print Assumptions C61_refuted.
Example C61_case :
  entries "/bin:/usr/local/bin" ["/bin"; "/usr/local/bin"] /\
  import_install (ENV (Some "/bin:/usr/local/bin") None) = Ok (PL "/usr/local/bin" "/usr/local/include" "/usr/lib" false) /\
  import_install (ENV (Some "/bin:/opt/usr/local/bin") None) = Ok (PL "/opt/usr/local/bin" "/usr/local/include" "/usr/lib" true) /\
  import_install (ENV (Some "/bin:C:\usr\local\bin") None) = Ok (PL "\usr\local\bin" "/usr/local/include" "/usr/lib" false) /\
  import_install (ENV (Some "/bin") None) = Raise (UnboundLocalError "path") /\
  import_install (ENV None (Some "/opt")) = Raise (KeyError "PATH") /\
  import_install (ENV (Some "") (Some "/opt")) = Ok (PL "/opt/bin" "/opt/include" "/opt/lib" false).
Proof.
  split; [|vm_compute; repeat split]. split; [discriminate|]. split; [reflexivity|].
  intros e [<-|[<-|[]]] H; cbn in H; repeat destruct H as [H|H]; try discriminate; exact H.
Qed.

(** ** A project with a library in /w/lib.so and headers in /w/inc. *)
Definition pl0 : places := PL "/usr/local/bin" "/usr/local/include" "/usr/lib" false.
Definition walk0 (d : string) : list (string * list string) :=
  if String.eqb d "/w/inc" then [("/w/inc", ["a.h"; "readme"]); ("/w/inc/sub", ["b.h"])] else [].
Definition fnmatch0 (pat f : string) : bool :=
  String.eqb pat "*.h" && (String.eqb f "a.h" || String.eqb f "b.h").
Definition disk0 (p : string) : bool :=
  existsb (String.eqb (realpath "/w" p))
    ["/"; "/w"; "/w/lib.so"; "/w/app"; "/w/inc"; "/w/inc/a.h"; "/w/inc/readme"; "/w/inc/sub"; "/w/inc/sub/b.h"; "/usr"; "/usr/lib"; "/usr/local"; "/usr/local/bin";
     "/usr/local/include"].
Definition ops_of (x : option (list mop * string)) : list mop := match x with Some (l, _) => l | None => [] end.
Definition mrun0 := mrun (realpath "/w") disk0 (fun _ => []) "/h" 10 0.
Definition regs_of (x : res regs) : regs := match x with Ok st => st | _ => [] end.
Definition lib_call (tgt hroot : string) (u : option string) :=
  install_library "/w" "/h" pl0 walk0 fnmatch0 tgt hroot "inc" ["*.h"] u (OneLib "lib.so").
Definition lib_regs : regs := regs_of (mrun0 (ops_of (lib_call "install" "p" (Some "uninstall"))) (repeat empty_reg 1)).

(** C62: the target removes nothing, whatever is on the disk and whatever was registered
    before. *)
Theorem C62_uninstall_removes_nothing :
  forall cwd home exists_ glob_ pl walk fnmatch tgt hroot headers pats u l ops t fuel st st',
  install_library cwd home pl walk fnmatch tgt hroot headers pats (Some u) l = Some (ops, t) ->
  made (realpath cwd) exists_ glob_ home st -> mrun (realpath cwd) exists_ glob_ home fuel 0 ops st = Ok st' ->
  u <> "" -> starts_slash u = false -> u <> tgt ->
  exists i, resolves (realpath cwd) (fst (reg st' 0)) u i /\
    forall fs ca, clean (realpath cwd) (kind_of (reg st' 0)) (fst (reg st' 0)) i (fs, ca) = Ok (fs, ca).
Proof. exact uninstall_nothing. Qed.
Print Assumptions C62_uninstall_removes_nothing.
Theorem C62_refuted :
  exists ops t st i fs p,
  lib_call "install" "p" (Some "uninstall") = Some (ops, t) /\ mrun0 ops (repeat empty_reg 1) = Ok st /\
  resolves (realpath "/w") (fst (reg st 0)) "uninstall" i /\
  In p (map (fun o => t_name o) (c_heap (fst (reg st 0)))) /\ fs p = Some (1, Reg "installed") /\
  clean (realpath "/w") (kind_of (reg st 0)) (fst (reg st 0)) i (fs, []) = Ok (fs, []).
Proof.
  exists (ops_of (lib_call "install" "p" (Some "uninstall"))), "install", lib_regs.
  destruct (uninstall_nothing "/w" "/h" disk0 (fun _ => []) pl0 walk0 fnmatch0 "install" "p" "inc" ["*.h"] "uninstall" (OneLib "lib.so")
    (ops_of (lib_call "install" "p" (Some "uninstall"))) "install" 10 (repeat empty_reg 1) lib_regs) as (i & Hi & Hc).
  - reflexivity.
  - apply made_start. lia.
  - vm_compute. reflexivity.
  - discriminate.
  - reflexivity.
  - discriminate.
  - exists i, (fun p => if String.eqb p "/usr/lib/lib.so" then Some (1, Reg "installed") else None), "/usr/lib/lib.so".
    split; [reflexivity|]. split; [vm_compute; reflexivity|]. split; [exact Hi|]. split; [vm_compute; tauto|]. split; [reflexivity|]. apply Hc.
Qed.
Print Assumptions C62_refuted.
Example C62_case :
  mrun0 (ops_of (lib_call "install" "p" (Some "uninstall"))) (repeat empty_reg 1) = Ok lib_regs /\
  map (fun o => (t_name o, t_deps o)) (c_heap (fst (reg lib_regs 0))) =
  [("/w/lib.so", []); ("/usr/lib/lib.so", ["lib.so"]);
   ("/w/inc/a.h", []); ("/w/inc/sub/b.h", []);
   ("/usr/local/include/p", []); ("/usr/local/include/p/a.h", ["/w/inc/a.h"; "lib.so"; "/usr/local/include/p"]);
   ("/usr/local/include/p", []); ("/usr/local/include/p/sub", ["/usr/local/include/p"]);
   ("/usr/local/include/p/sub/b.h", ["/w/inc/sub/b.h"; "lib.so"; "/usr/local/include/p/sub"]);
   ("headers:///w/inc", ["/usr/local/include/p/a.h"; "/usr/local/include/p/sub/b.h"]);
   ("uninstall", []); ("install", ["headers:///w/inc"; "/usr/lib/lib.so"])].
Proof. vm_compute. split; reflexivity. Qed.

(** C75: without an explicit name for its target, install_application makes a file set that
    depends on itself.  From then on every look at the registry fails, and with it every
    action on every target. *)
Theorem C75_unnamed_application_breaks_everything :
  forall cwd home exists_ glob_ pl src dst ops t fuel st st',
  install_application cwd home pl src dst None = Some (ops, t) -> has_star (path_join (pl_bin pl) dst) = false ->
  made (realpath cwd) exists_ glob_ home st -> mrun (realpath cwd) exists_ glob_ home fuel 0 ops st = Ok st' ->
  nothing_works cwd (reg st' 0).
Proof. exact self_install. Qed.
Print Assumptions C75_unnamed_application_breaks_everything.
Theorem C75_refuted :
  exists ops t st, install_application "/w" "/h" pl0 "app" "app" None = Some (ops, t) /\
  mrun0 ops (repeat empty_reg 1) = Ok st /\ nothing_works "/w" (reg st 0).
Proof.
  exists (ops_of (install_application "/w" "/h" pl0 "app" "app" None)), "/usr/local/bin/app",
    (regs_of (mrun0 (ops_of (install_application "/w" "/h" pl0 "app" "app" None)) (repeat empty_reg 1))).
  split; [reflexivity|]. split; [vm_compute; reflexivity|].
  apply (self_install "/w" "/h" disk0 (fun _ => []) pl0 "app" "app" (ops_of (install_application "/w" "/h" pl0 "app" "app" None))
    "/usr/local/bin/app" 10 (repeat empty_reg 1)); [reflexivity|reflexivity|apply made_start; lia|vm_compute; reflexivity].
Qed.
Print Assumptions C75_refuted.

(** C76: a header keeps its path below the source directory ... *)
Theorem C76_headers_keep_their_relative_path :
  forall cwd pl tgtdir srcdir x l, starts_slash cwd = true -> Forall file_name (x :: l) ->
  header_tgt cwd pl tgtdir srcdir (path_join (abspath cwd srcdir) (String.concat "/" (x :: l))) =
  path_joins (pl_include pl) [tgtdir; String.concat "/" (x :: l)].
Proof.
  exact (fun cwd pl tgtdir srcdir x l Hc Hf =>
    f_equal (fun r => path_joins (pl_include pl) [tgtdir; r]) (relpath_below cwd srcdir x l Hc Hf)).
Qed.
Print Assumptions C76_headers_keep_their_relative_path.
(** ... and in general the path from the source directory to the header. *)
Theorem C76_relative_paths_lead_back :
  forall cwd p start, starts_slash cwd = true ->
  realpath cwd (path_join start (relpath cwd p start)) = realpath cwd p.
Proof. exact relpath_leads. Qed.
Print Assumptions C76_relative_paths_lead_back.
(** A library goes by its file name. *)
Theorem C76_library_keeps_its_file_name :
  forall pl d x, file_name x ->
  library_tgt pl (d ++ "/" ++ x) None = path_join (pl_lib pl) x /\ library_tgt pl x None = path_join (pl_lib pl) x.
Proof. exact library_file_name. Qed.
Print Assumptions C76_library_keeps_its_file_name.
(** A shared library: one copy, under its own name or the given one. *)
Theorem C76_shared_library : forall cwd home pl src n, pl_error pl = false -> ends_slash (pl_lib pl) = false -> pl_lib pl <> "" ->
  let name := match n with Some n => n | None => basename src end in starts_slash name = false ->
  install_shared_library cwd home pl src n = Some ([copy_op cwd home (pl_lib pl ++ "/" ++ name) src []], pl_lib pl ++ "/" ++ name)%string.
Proof.
  intros cwd home pl src n E Hs Hn name N. unfold install_shared_library. rewrite E.
  assert (L : library_tgt pl src n = (pl_lib pl ++ "/" ++ name)%string).
  { change (path_join (pl_lib pl) name = (pl_lib pl ++ "/" ++ name)%string). unfold path_join. rewrite N, Hs. destruct (pl_lib pl); [congruence|reflexivity]. }
  rewrite L. reflexivity.
Qed.
Print Assumptions C76_shared_library.
Example C76_case_shared :
  option_map snd (install_shared_library "/w" "/home/u" (PL "/opt/bin" "/opt/include" "/opt/lib" false) "build/libx.so" (Some "libx.so.1")) = Some "/opt/lib/libx.so.1" /\
  option_map snd (install_shared_library "/w" "/home/u" (PL "/opt/bin" "/opt/include" "/opt/lib" false) "build/libx.so" None) = Some "/opt/lib/libx.so".
Proof. split; reflexivity. Qed.
(** ... but the name of the file set depends on the source directory only: when two libraries
    are installed from the same one, the first installs the headers of the second. *)
Theorem C76_refuted :
  exists st names c', mrun0 (ops_of (lib_call "one" "p" None) ++ ops_of (lib_call "two" "q" None)) (repeat empty_reg 1) = Ok st /\
  depends_as_set (realpath "/w") (fst (reg st 0)) (ByName "one") true = Ok (names, c') /\
  In "/usr/local/include/q/a.h" names /\ ~ In "/usr/local/include/p/a.h" names.
Proof.
  set (st := regs_of (mrun0 (ops_of (lib_call "one" "p" None) ++ ops_of (lib_call "two" "q" None)) (repeat empty_reg 1))).
  destruct (depends_as_set (realpath "/w") (fst (reg st 0)) (ByName "one") true) as [[names c']| |] eqn:E; [|vm_compute in E; discriminate|vm_compute in E; discriminate].
  exists st, names, c'. split; [vm_compute; reflexivity|]. split; [exact E|]. vm_compute in E. injection E as <- _.
  split; [cbn; tauto|]. cbn. intros H. repeat destruct H as [H|H]; try discriminate; exact H.
Qed.
Print Assumptions C76_refuted.
Example C76_case :
  Forall file_name ["sub"; "b.h"] /\
  header_tgt "/w" pl0 "p" "inc" "/w/inc/sub/b.h" = "/usr/local/include/p/sub/b.h" /\
  relpath "/w" "/w/x/y" "inc" = "../x/y" /\ library_tgt pl0 "build/lib.so" None = "/usr/lib/lib.so".
Proof.
  split; [|vm_compute; repeat split].
  constructor; [|constructor; [|constructor]]; (split; [discriminate|]; split; [discriminate|]; split; [discriminate|]);
    cbn; intros H; repeat destruct H as [H|H]; try discriminate; exact H.
Qed.
