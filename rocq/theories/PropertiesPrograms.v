(** C89: several C++ programs in one script.  [ccalls_stmts … lib calls]: the statements that the
    calls (module, application, shared_library, static_library, objects, static_and_shared, and
    plain statements) amount to; [compiled ev]: the sources that a call compiles, with their
    objects; [rule_for canon r nm f ds b]: in the registry [r], [nm] means a file with that rule. *)
From Coq Require Import Permutation Relations.
From Verif Require Import PyBase PyPath PathProofs SolverModel SpecGraph InvokerModel SpecTrace CoreModel SpecCore MakeModel UtilModel SpecMake FormatModel
  RegModel CliModel SpecUtil SpecReg SpecProject ProjectProofs ProjectBuild RegExamples ProjectExamples SpecTrack SpecCxxTrack IdleExamples SpecEdit ModulesModel CxxModel SpecCxx SpecCxxScript
  ProgramsModel SpecPrograms TwiceProofs ProgramsProofs ProgramsExamples.
Local Open Scope string_scope.
Local Open Scope list_scope.

(** Scripts of such calls are scripts of the kind of C82 to C84: only the lists of headers of
    the sources are read while the script is run, and nothing else in it depends on the disk. *)
Theorem C89_calls_are_items : forall sh cwd home tool glob_ fuel dfile0 l lib lib' st,
  ccalls_stmts sh cwd home tool glob_ dfile0 fuel lib l = Ok (lib', st) ->
  exists its, Forall (compiled_item sh cwd) its /\
    forall s : ctx, ccalls_stmts sh cwd home tool glob_ (fun d => s (realpath cwd d)) fuel lib l = Ok (lib', script_at cwd its s).
Proof. intros. eapply calls_items. eassumption. Qed.
Print Assumptions C89_calls_are_items.
Definition targets_of (x : res (mlib * list stmt)) : list string :=
  match x with Ok (_, l) => flat_map (makes "/w" "/h" no_glob) l | _ => [] end.
(** Calls see the modules of earlier calls: a script in two parts is the first one, and the
    second one with the library that the first one has left. *)
Theorem C89_calls_in_sequence : forall sh cwd home tool glob_ fuel dfile l1 l2 lib lib1 st1,
  ccalls_stmts sh cwd home tool glob_ dfile fuel lib l1 = Ok (lib1, st1) ->
  forall lib2 st, ccalls_stmts sh cwd home tool glob_ dfile fuel lib (l1 ++ l2) = Ok (lib2, st) <->
    exists st2, ccalls_stmts sh cwd home tool glob_ dfile fuel lib1 l2 = Ok (lib2, st2) /\ st = st1 ++ st2.
Proof. exact calls_in_sequence. Qed.
Print Assumptions C89_calls_in_sequence.
Definition mod_then_app : list (list string * string * ccall) :=
  [([], "/w/x.py", CModule "util" None false [("sources", VList [EStr "util.cpp"])]);
   ([], "/w/x.py", CTask "application" "app" None None false [("sources", VList [EStr "main.cpp"]); ("mdepends", VList [EStr "util"]); ("builddir", VStr "build")])].
Example C89_calls_in_sequence_case :
  targets_of (ccalls_stmts psh "/w" "/h" standart_toolchain no_glob (fun _ => None) 20 mlib0 mod_then_app) =
  ["app__module__local_headers__"; "/w/build/w/main.d"; "/w/build/w/main.o"; "/w/build/w/util.d"; "/w/build/w/util.o"; "/w/app"].
Proof. vm_compute. reflexivity. Qed.
(** static_and_shared ends with the file set of the canonical paths of the two libraries, which
    its link rules make. *)
Theorem C89_static_and_shared : forall sh cwd home tool glob_ fuel dfile lib below top name a b target impl default kw lib' st,
  ccall_stmts sh cwd home tool glob_ dfile fuel lib below top (CBoth name a b target impl default kw) = Ok (lib', st) ->
  impl = None \/ default = true ->
  exists st0 ta tb, st = st0 ++ [SSet name [realpath cwd ta; realpath cwd tb]] /\
    In (realpath cwd ta) (flat_map (makes cwd home glob_) st0) /\ In (realpath cwd tb) (flat_map (makes cwd home glob_) st0).
Proof. exact static_and_shared_set. Qed.
Print Assumptions C89_static_and_shared.
(** static_and_shared makes two libraries of one list of sources. *)
Definition both : list (list string * string * ccall) :=
  [([], "/w/x.py", CBoth "libs" "libx.a" "libx.so" None None false [("sources", VList [EStr "util.cpp"]); ("builddir", VStr "build")])].
Example C89_calls_are_items_case :
  targets_of (ccalls_stmts psh "/w" "/h" standart_toolchain no_glob (fun _ => None) 20 mlib0 both) =
  ["libx.a__module__local_headers__"; "/w/build/w/util.d"; "/w/build/w/util.o"; "/w/libx.a";
   "libx.so__module__local_headers__"; "/w/build/w/util.d"; "/w/build/w/util.o"; "/w/libx.so"; "libs"] /\
  targets_of (pcalls_at (contents pfs)) =
  ["one__module__local_headers__"; "/w/build/w/util.d"; "/w/build/w/util.o"; "/w/one";
   "two__module__local_headers__"; "/w/build/w/util.d"; "/w/build/w/util.o"; "/w/two"].
Proof. vm_compute. split; reflexivity. Qed.

(** A source has one object per builddir, whatever the options of the program. *)
Theorem C89_same_object : forall home tool glob_ fuel dfile lib below top name target impl type default kw r o lib' ev
    dfile2 lib2 below2 top2 name2 target2 impl2 type2 default2 kw2 r2 o2 lib2' ev2 src ob ob2 b,
  task home tool glob_ dfile fuel lib below top name target impl type default kw = Ok (r, o, lib', ev) ->
  task home tool glob_ dfile2 fuel lib2 below2 top2 name2 target2 impl2 type2 default2 kw2 = Ok (r2, o2, lib2', ev2) ->
  impl = None \/ default = true -> impl2 = None \/ default2 = true -> type <> "objects" -> type2 <> "objects" ->
  texts o "qt_moc" [] -> texts o2 "qt_moc" [] -> text o "builddir" b -> text o2 "builddir" b ->
  In (src, ob) (compiled ev) -> In (src, ob2) (compiled ev2) -> ob = ob2.
Proof. exact same_object. Qed.
Print Assumptions C89_same_object.

(** So a script with two programs that share a source is not in order, and the theorems about
    scripts in order say nothing of it. *)
Theorem C89_shared_source_not_in_order : forall sh cwd home tool glob_ fuel dfile lib below top name target impl type default kw r o lib' ev
    dfile2 lib2 below2 top2 name2 target2 impl2 type2 default2 kw2 r2 o2 lib2' ev2 src b exists_ l0 l1,
  task home tool glob_ dfile fuel lib below top name target impl type default kw = Ok (r, o, lib', ev) ->
  task home tool glob_ dfile2 fuel lib2 below2 top2 name2 target2 impl2 type2 default2 kw2 = Ok (r2, o2, lib2', ev2) ->
  impl = None \/ default = true -> impl2 = None \/ default2 = true -> type <> "objects" -> type2 <> "objects" ->
  texts o "qt_moc" [] -> texts o2 "qt_moc" [] -> text o "builddir" b -> text o2 "builddir" b ->
  In src (map fst (compiled ev)) -> In src (map fst (compiled ev2)) ->
  incl (map (event_stmt sh cwd home) ev) l0 -> incl (map (event_stmt sh cwd home) ev2) l1 ->
  ~ in_order cwd home glob_ exists_ (l0 ++ l1).
Proof. exact shared_not_in_order. Qed.
Print Assumptions C89_shared_source_not_in_order.
Example C89_shared_source_case :
  exists r o lib1 ev r2 o2 lib2 ev2,
    task "/h" standart_toolchain no_glob (fun _ => None) 20 mlib0 [] "/w/x.py" "one" None None "application" false (pkw "ONE") = Ok (r, o, lib1, ev) /\
    task "/h" standart_toolchain no_glob (fun _ => None) 20 lib1 [] "/w/x.py" "two" None None "application" false (pkw "TWO") = Ok (r2, o2, lib2, ev2) /\
    texts o "qt_moc" [] /\ texts o2 "qt_moc" [] /\ text o "builddir" "build" /\ text o2 "builddir" "build" /\
    texts o "defines" ["ONE"] /\ texts o2 "defines" ["TWO"] /\
    compiled ev = [("/w/util.cpp", "build/w/util.o")] /\ compiled ev2 = [("/w/util.cpp", "build/w/util.o")].
Proof. do 8 eexists. split; [vm_compute; reflexivity|]. split; [vm_compute; reflexivity|]. vm_compute. repeat split; eauto; repeat econstructor; reflexivity. Qed.

(** The last rule of a file counts for its canonical path, and also for a relative path [t] of it,
    if there was no such file when the script was read and no statement has it as source … *)
Theorem C89_last_rule_counts : forall cwd home ex exists_ glob_, disk_ok cwd ex exists_ ->
  forall fuel l1 f t ds b l2 st,
  mrun (realpath cwd) exists_ glob_ home fuel 0 (map op_of (l1 ++ SRule f t ds b :: l2)) [empty_reg] = Ok st ->
  (forall s, In s l2 -> ~ In (realpath cwd t) (declares cwd home glob_ s)) ->
  (forall s p, In s l2 -> In p (places_of home s) -> ~ above (realpath cwd t) (realpath cwd p)) ->
  rule_for (realpath cwd) (reg st 0) (realpath cwd t) f (expand_names glob_ ds) b /\
  (realpath cwd t <> t -> exists_ t = false -> globs_absolute cwd glob_ t ->
   (forall nm, is_name (l1 ++ SRule f t ds b :: l2) nm = true -> nm <> t) ->
   (forall s, In s (l1 ++ l2) -> ~ In t (sources_of home s)) ->
   rule_for (realpath cwd) (reg st 0) t f (expand_names glob_ ds) b).
Proof. exact last_rule. Qed.
Print Assumptions C89_last_rule_counts.

(** … and otherwise the rule counts that was the last one when the relative path was first
    mentioned, whatever follows. *)
Theorem C89_first_rule_if_existing : forall cwd home ex exists_ glob_, disk_ok cwd ex exists_ ->
  forall fuel l0 f t ds b l1 s l2 st,
  mrun (realpath cwd) exists_ glob_ home fuel 0 (map op_of (l0 ++ SRule f t ds b :: l1 ++ s :: l2)) [empty_reg] = Ok st ->
  realpath cwd t <> t -> exists_ t = true -> globs_absolute cwd glob_ t ->
  (forall nm, is_name (l0 ++ SRule f t ds b :: l1 ++ s :: l2) nm = true -> nm <> t) ->
  (forall s', In s' (l0 ++ SRule f t ds b :: l1) -> ~ In t (mentions home glob_ s')) -> In t (deps_of home glob_ s) ->
  (forall s', In s' (l1 ++ [s]) -> ~ In (realpath cwd t) (declares cwd home glob_ s')) ->
  (forall s' p, In s' (l1 ++ [s]) -> In p (places_of home s') -> ~ above (realpath cwd t) (realpath cwd p)) ->
  rule_for (realpath cwd) (reg st 0) t f (expand_names glob_ ds) b.
Proof. exact first_rule. Qed.
Print Assumptions C89_first_rule_if_existing.

(** Two rules for build/a.o, on a disk without it and on a disk with it. *)
Definition r1 : buildfun := fun _ => Some "1".
Definition r2 : buildfun := fun _ => Some "2".
Definition lk : buildfun := fun s => s "/w/build/a.o".
Definition rule1 := SRule false "build/a.o" ["/w/a.c"] r1.
Definition rule2 := SRule false "build/a.o" ["/w/a.c"] r2.
Definition two_rules : list stmt := [SSource "/w/a.c"; rule1; SRule false "one" ["build/a.o"] lk; rule2; SRule false "two" ["build/a.o"] lk].
Definition afiles := [("/w/a.c", "a")].
Definition afiles' := [("/w/a.c", "a"); ("/w/build/a.o", "1")].
Definition adisk := simple_disk afiles.
Definition adisk' := "/w/build" :: simple_disk afiles'.
Definition areg (disk : list string) : regs :=
  match mrun (realpath "/w") (on_path disk) no_glob "/h" 20 0 (map op_of two_rules) [empty_reg] with Ok st => st | _ => [] end.
Lemma areg_ok disk : disk = adisk \/ disk = adisk' ->
  mrun (realpath "/w") (on_path disk) no_glob "/h" 20 0 (map op_of two_rules) [empty_reg] = Ok (areg disk).
Proof.
  unfold areg. intros [->| ->]; match goal with |- ?x = _ => assert (E : exists y, x = Ok y) by (vm_compute; eauto); destruct E as [y ->]; reflexivity end.
Qed.
Definition afs' : fsys := fun p => if String.eqb p "/w/build" then Some (1, Dir) else simple_fs afiles' p.
Lemma adisk_ok : disk_ok "/w" (present (simple_fs afiles)) (on_path adisk).
Proof. apply present_ok; [apply simple_present|vm_compute; reflexivity..]. Qed.
Lemma adisk'_ok : disk_ok "/w" (present afs') (on_path adisk').
Proof.
  apply present_ok; [|vm_compute; reflexivity..]. intros p. change (on adisk' p) with (String.eqb p "/w/build" || on (simple_disk afiles') p).
  rewrite <- simple_present. unfold present, afs'. now destruct (String.eqb p "/w/build").
Qed.
Lemma no_globs t : globs_absolute "/w" no_glob t.
Proof. intros p _ []. Qed.
Lemma not_above a p : closed p = true -> ProjectExamples.mem a (ups p) = false -> ~ above a p.
Proof. intros C M H. apply ups_ok in H; [|exact C]. apply mem_In in H. now rewrite H in M. Qed.
Ltac each := repeat match goal with H : In _ _ |- _ => cbn in H | H : _ \/ _ |- _ => destruct H | H : False |- _ => destruct H | H : _ = ?x |- _ => is_var x; subst x end.
Example C89_last_rule_case :
  rule_for (realpath "/w") (reg (areg adisk) 0) "/w/build/a.o" false ["/w/a.c"] r2 /\
  rule_for (realpath "/w") (reg (areg adisk) 0) "build/a.o" false ["/w/a.c"] r2 /\
  rule_for (realpath "/w") (reg (areg adisk') 0) "/w/build/a.o" false ["/w/a.c"] r2.
Proof.
  assert (D : forall s, In s [SRule false "two" ["build/a.o"] lk] -> ~ In (realpath "/w" "build/a.o") (declares "/w" "/h" no_glob s)).
  { intros s [<-|[]]. vm_compute. intros [H|[]]. discriminate. }
  assert (A : forall s p, In s [SRule false "two" ["build/a.o"] lk] -> In p (places_of "/h" s) -> ~ above (realpath "/w" "build/a.o") (realpath "/w" p)).
  { intros s p [<-|[]] [<-|[]]. apply not_above; vm_compute; reflexivity. }
  destruct (C89_last_rule_counts _ "/h" _ _ no_glob adisk_ok 20 [SSource "/w/a.c"; rule1; SRule false "one" ["build/a.o"] lk] _ _ _ _ _ _ (areg_ok adisk (or_introl eq_refl)) D A) as [A1 A2].
  destruct (C89_last_rule_counts _ "/h" _ _ no_glob adisk'_ok 20 [SSource "/w/a.c"; rule1; SRule false "one" ["build/a.o"] lk] _ _ _ _ _ _ (areg_ok adisk' (or_intror eq_refl)) D A) as [A3 _].
  split; [exact A1|]. split; [|exact A3]. apply A2.
  - vm_compute. discriminate.
  - vm_compute. reflexivity.
  - apply no_globs.
  - intros nm. cbn. discriminate.
  - intros s H. each; cbn; intros E; repeat destruct E as [E|E]; try discriminate E; destruct E.
Qed.
Example C89_first_rule_case :
  rule_for (realpath "/w") (reg (areg adisk') 0) "build/a.o" false ["/w/a.c"] r1.
Proof.
  apply (C89_first_rule_if_existing _ "/h" _ _ no_glob adisk'_ok 20 [SSource "/w/a.c"] false "build/a.o" ["/w/a.c"] r1 []
           (SRule false "one" ["build/a.o"] lk) [rule2; SRule false "two" ["build/a.o"] lk] _ (areg_ok adisk' (or_intror eq_refl))).
  - vm_compute. discriminate.
  - vm_compute. reflexivity.
  - apply no_globs.
  - intros nm. cbn. discriminate.
  - intros s H. each; cbn; intros E; repeat destruct E as [E|E]; try discriminate E; destruct E.
  - now left.
  - intros s [<-|[]]. vm_compute. intros [H|[]]. discriminate.
  - intros s p [<-|[]] [<-|[]]. apply not_above; vm_compute; reflexivity.
Qed.

(** The two programs above, which share util.cpp, one with -DONE and one with -DTWO: the first
    process that builds "one" compiles the source with the options of "two"; when the source has
    been edited, the next one compiles it with the options of "one". *)
Theorem C89_shared_source_refuted :
  pcalls_at (contents pfs) = Ok (plib (contents pfs), pl) /\ disk_ok "/w" (present pfs) (on_path pdisk) /\
  (exists kind c1 objs sv s, building "/w" "/h" (on_path pdisk) no_glob false pl "/w/one" 1 pfs 1 kind c1 objs sv s /\ succeeded objs s /\
     w_fs (s_world s) = pfs1 /\ contents pfs1 "/w/one" = Some (made_with "TWO" "a")) /\
  pcalls_at (contents pfs2) = Ok (plib (contents pfs2), pl2) /\ disk_ok "/w" (present pfs2) (on_path (pdisk ++ pdisk')) /\
  exists kind c1 objs sv s, building "/w" "/h" (on_path (pdisk ++ pdisk')) no_glob false pl2 "/w/one" 1 pfs2 pnow1 kind c1 objs sv s /\ succeeded objs s /\
    contents (w_fs (s_world s)) "/w/one" = Some (made_with "ONE" "new").
Proof. exact (conj pread (conj pdisk_ok (conj pbuilt (conj pread2 (conj pdisk2_ok pbuilt2))))). Qed.
Print Assumptions C89_shared_source_refuted.
