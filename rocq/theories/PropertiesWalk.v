(** Theorems about finding files in trees of directories: C93. *)
From Verif Require Import PyBase PyPath SolverModel InvokerModel CoreModel MakeModel RegModel SpecUtil SpecReg InstallModel SpecInstall
  WalkModel SpecWalk WalkProofs ScriptModel SpecScript.
Local Open Scope string_scope.
Local Open Scope list_scope.

(** C93.  find_recursive finds the files below the root whose name contains the pattern and
    whose directory, written with the root, does not contain [hide]; it finds no others. *)
Theorem C93_finds_exactly :
  forall disk root e pattern hide p, root <> "" -> disk root = Some e ->
  (In p (find_recursive disk root pattern hide) <->
   exists ds f, p = path_joins root (ds ++ [f]) /\ file_at e (ds ++ [f]) /\ occurs pattern f /\
     forall h, hide = Some h -> ~ occurs h (path_joins root ds)).
Proof. exact find_exactly. Qed.
Print Assumptions C93_finds_exactly.
(** With a [hide] without slashes: if it occurs in the root, nothing is found; otherwise the
    directories whose name contains it are left out, with everything in them. *)
Theorem C93_hide_by_component :
  forall disk root e pattern h p, root <> "" -> disk root = Some e -> proper_tree e ->
  h <> "" -> ~ In "/"%char (list_ascii_of_string h) ->
  (In p (find_recursive disk root pattern (Some h)) <->
   exists ds f, p = path_joins root (ds ++ [f]) /\ file_at e (ds ++ [f]) /\ occurs pattern f /\
     ~ occurs h root /\ forall d, In d ds -> ~ occurs h d).
Proof. exact find_by_component. Qed.
Print Assumptions C93_hide_by_component.
(** Whatever [hide] is: nothing below a directory that it hides is found. *)
Theorem C93_hidden_below :
  forall disk root e pattern h ds k, root <> "" -> disk root = Some e -> proper_tree e ->
  occurs h (path_joins root ds) -> k <> [] -> file_at e (ds ++ k) ->
  ~ In (path_joins root (ds ++ k)) (find_recursive disk root pattern (Some h)).
Proof.
  intros disk root e pattern h ds k Hr Hd P Ho Hk Fk Hp.
  destruct (find_hidden_below disk root e pattern h ds k _ Hr Hd P Ho Fk Hp) as [H|H]; congruence.
Qed.
Print Assumptions C93_hidden_below.
Theorem C93_each_once :
  forall disk root e pattern hide, root <> "" -> disk root = Some e -> proper_tree e ->
  NoDup (find_recursive disk root pattern hide).
Proof. exact find_once. Qed.
Print Assumptions C93_each_once.
(** What is found in a directory stands before what is found in the directories in it. *)
Theorem C93_top_down :
  forall disk root e pattern hide ds f k g, root <> "" -> disk root = Some e -> proper_tree e ->
  k <> [] -> file_at e (ds ++ [f]) -> file_at e (ds ++ k ++ [g]) ->
  In (path_joins root (ds ++ [f])) (find_recursive disk root pattern hide) ->
  In (path_joins root (ds ++ k ++ [g])) (find_recursive disk root pattern hide) ->
  before (find_recursive disk root pattern hide) (path_joins root (ds ++ [f])) (path_joins root (ds ++ k ++ [g])).
Proof. exact find_top_down. Qed.
Print Assumptions C93_top_down.
(** A root that is empty, missing or not a directory is no error. *)
Theorem C93_no_such_root :
  forall disk root pattern hide, (root = "" \/ forall l, disk root <> Some (EDir l)) -> find_recursive disk root pattern hide = [].
Proof. exact find_none. Qed.
Print Assumptions C93_no_such_root.

(** execute_recursive starts the scripts that are found, each once and in this order.  They
    are looked up before the first one is started. *)
Theorem C93_scripts_started :
  forall G files (disk : G -> string -> option entry) registry tunnel_there link fuel root pattern hide (s : sstate G),
  let l := find_recursive (disk (q_g s)) (path_join (dirname (hd "" (q_stack s))) root) pattern hide in
  let find g := find_recursive (disk g) in
  (forall g path p, In path l -> files g path = Some p -> local p) ->
  all_started l s (execute_recursive find (enter files find registry tunnel_there link (S fuel)) root pattern hide s).
Proof. intros G files disk registry tt link fuel root pattern hide s l find L. apply enter_all_local, L. Qed.
Print Assumptions C93_scripts_started.

(** install_headers copies the files below the directory that match one of the patterns to
    the same place below the target directory, and copies nothing else. *)
Theorem C93_headers_exactly :
  forall cwd home pl disk fnmatch tgtdir srcdir patterns adddeps e ops full targets,
  starts_slash cwd = true -> disk (abspath cwd srcdir) = Some e -> proper_tree e ->
  install_headers cwd home pl (walk disk) fnmatch tgtdir srcdir patterns adddeps = (ops, full, targets) ->
  forall t s a b, In (OCopyFn t s a b) ops <->
    a = adddeps /\ b = cp cwd home s /\
    exists ds f pat, file_at e (ds ++ [f]) /\ In pat patterns /\ fnmatch pat f = true /\
      s = path_joins (abspath cwd srcdir) (ds ++ [f]) /\ t = path_joins (pl_include pl) (tgtdir :: ds ++ [f]).
Proof. intros cwd home pl disk fnmatch tgtdir srcdir patterns adddeps e ops full targets Hc Hd P. now apply headers_copied. Qed.
Print Assumptions C93_headers_exactly.
(** Each header once, if no name matches two patterns. *)
Theorem C93_headers_once :
  forall cwd disk fnmatch srcdir patterns e,
  starts_slash cwd = true -> disk (abspath cwd srcdir) = Some e -> proper_tree e ->
  NoDup patterns -> (forall p q f, In p patterns -> In q patterns -> fnmatch p f = true -> fnmatch q f = true -> p = q) ->
  NoDup (header_list cwd (walk disk) fnmatch srcdir patterns).
Proof. exact headers_once. Qed.
Print Assumptions C93_headers_once.
(** The patterns: a star and an extension stand for the names that end in the extension. *)
Theorem C93_patterns : forall p s, glob_match p s = true <-> stands_for p s.
Proof. exact glob_match_spec. Qed.
Print Assumptions C93_patterns.
Theorem C93_extensions :
  forall ext s, literal ext -> (glob_match (String "*" ext) s = true <-> exists a, s = (a ++ ext)%string).
Proof. exact suffix_stands. Qed.
Print Assumptions C93_extensions.

(** ** A project with generated scripts in two directories *)
Definition project0 : entry :=
  EDir [("a", EDir [("a.g.py", EFile); ("old", EDir [("o.g.py", EFile)])]); ("top.g.py", EFile); ("top.g.py~", EFile);
        ("link", ELink); ("build", EDir [("b.g.py", EFile)]); ("inc", EDir [("x.h", EFile); ("x.cpp", EFile); ("d", EDir [("y.hxx", EFile)])])].
Definition disk1 (p : string) : option entry :=
  if String.eqb p "/p" then Some project0 else if String.eqb p "/build/p" then Some project0
  else if String.eqb p "/p/inc" then Some (EDir [("x.h", EFile); ("x.cpp", EFile); ("d", EDir [("y.hxx", EFile)])]) else None.
Lemma project0_proper : proper_tree project0.
Proof.
  Ltac names := cbn [map fst]; repeat (apply NoDup_cons; [cbn; intuition discriminate|]); apply NoDup_nil.
  Ltac fname := split; [discriminate|split; [discriminate|split; [discriminate|cbn; intuition discriminate]]].
  Ltac tr := first [exact pt_file|exact pt_link|apply pt_dir; [names|let n := fresh "n" in let e := fresh "e" in let H := fresh "H" in
    intros n e H; cbn [In] in H; repeat (destruct H as [H|H]; [injection H as <- <-; split; [fname|tr]|]); destruct H]].
  unfold project0. tr.
Qed.
Example C93_case :
  "/p" <> "" /\ disk1 "/p" = Some project0 /\ proper_tree project0 /\
  find_recursive disk1 "/p" ".g.py" None =
    ["/p/top.g.py"; "/p/top.g.py~"; "/p/a/a.g.py"; "/p/a/old/o.g.py"; "/p/build/b.g.py"] /\
  find_recursive disk1 "/p" ".g.py" (Some "build") =
    ["/p/top.g.py"; "/p/top.g.py~"; "/p/a/a.g.py"; "/p/a/old/o.g.py"] /\
  find_recursive disk1 "/p" ".g.py" (Some "a/o") = ["/p/top.g.py"; "/p/top.g.py~"; "/p/a/a.g.py"; "/p/build/b.g.py"] /\
  find_recursive disk1 "" ".g.py" None = [] /\
  header_list "/p" (walk disk1) glob_match "inc" ["*.h"; "*.hxx"] = ["/p/inc/x.h"; "/p/inc/d/y.hxx"].
Proof. split; [discriminate|]. split; [reflexivity|]. split; [exact project0_proper|]. vm_compute. repeat split. Qed.
(** Two found scripts, the second of which raises. *)
Example C93_scripts_case :
  let files (g : nat) (path : string) := if String.eqb path "/p/a/a.g.py" then Some (PPut 7 PEnd)
    else if String.eqb path "/p/a/old/o.g.py" then Some (PThrow (ValueError "no")) else None in
  let find (g : nat) := find_recursive disk1 in
  (forall g path p, In path (find 0 "/p" ".g.py" (Some "build")) -> files g path = Some p -> local p) /\
  execute_recursive find (enter files find [] (fun _ _ => false) (fun _ _ g => g) 1) "/p" ".g.py" (Some "build") (start "/p/make.py" 0) =
    SRaise (SystemExit "Exception in file") (SS ["/p/top.g.py"; "/p/make.py"] [] 0 [EvStart "/p/top.g.py"]) /\
  execute_recursive find (enter files find [] (fun _ _ => false) (fun _ _ g => g) 1) "/p" "a.g" None (start "/p/make.py" 0) =
    SDone (SS ["/p/make.py"] [] 7 [EvStart "/p/a/a.g.py"]).
Proof.
  cbv zeta. split; [|vm_compute; split; reflexivity]. intros g path p _.
  destruct (String.eqb path "/p/a/a.g.py"); [intros [= <-]; exact I|].
  destruct (String.eqb path "/p/a/old/o.g.py"); [intros [= <-]; exact I|discriminate].
Qed.

(** What is found depends on where the project lies: [hide] is compared with the whole path. *)
Theorem C93_anywhere_refuted :
  exists disk e pattern h r1 r2, disk r1 = Some e /\ disk r2 = Some e /\ proper_tree e /\
  In (path_joins r1 ["a"; "a.g.py"]) (find_recursive disk r1 pattern (Some h)) /\ find_recursive disk r2 pattern (Some h) = [].
Proof.
  exists disk1, project0, ".g.py", "build", "/p", "/build/p". split; [reflexivity|]. split; [reflexivity|].
  split; [exact project0_proper|]. vm_compute. tauto.
Qed.
Print Assumptions C93_anywhere_refuted.
(** The pattern is not an extension: backups and compiled files are found as well. *)
Theorem C93_extension_refuted :
  exists disk root p, In p (find_recursive disk root ".g.py" None) /\ forall a, p <> (a ++ ".g.py")%string.
Proof.
  exists disk1, "/p", "/p/top.g.py~". split; [vm_compute; tauto|]. intros a H.
  repeat (destruct a as [|? a]; [discriminate H|injection H as _ H]). now destruct a.
Qed.
Print Assumptions C93_extension_refuted.
