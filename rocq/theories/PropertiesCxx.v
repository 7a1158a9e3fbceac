(** Claims about C++ modules: C45-C49 and C67-C70. *)
From Verif Require Import PyBase PyPath FormatModel UtilModel SpecUtil RegModel SpecReg ModulesModel SpecModules CxxModel SpecCxx SpecOptions.
From Verif Require Import PathProofs CxxProofs CxxPaths CxxMakeProofs OptionsProofs CxxExamples.
Local Open Scope string_scope.
Local Open Scope list_scope.

(** ** C45: including a module *)
(** [incs]: the options of the modules included one after the other. *)
Theorem C45_no_option_appears_or_vanishes : forall home tool incs o r,
  fold_res (merge home tool Include) incs o = Ok r -> map fst r = map fst o.
Proof. exact included_keys. Qed.
Print Assumptions C45_no_option_appears_or_vanishes.
Theorem C45_fixed_options : forall home tool incs o r,
  fold_res (merge home tool Include) incs o = Ok r -> forall k, In k fixed_options -> sget r k = sget o k.
Proof. exact included_fixed. Qed.
Print Assumptions C45_fixed_options.
Theorem C45_lists_only_grow : forall home tool incs o r,
  fold_res (merge home tool Include) incs o = Ok r ->
  forall k l, In k growing_options -> sget o k = Some (VList l) -> exists l', sget r k = Some (VList (l ++ l')).
Proof. exact included_grows. Qed.
Print Assumptions C45_lists_only_grow.
Theorem C45_libs_and_defines : forall home tool incs o r,
  fold_res (merge home tool Include) incs o = Ok r ->
  forall k l, In k ["libs"; "libdirs"; "defines"; "modules"] -> sget o k = Some (VList l) ->
  sget r k = Some (VList (l ++ lists_given k incs)).
Proof. exact included_raw. Qed.
Print Assumptions C45_libs_and_defines.
Theorem C45_flags : forall home tool incs o r,
  fold_res (merge home tool Include) incs o = Ok r ->
  forall k s, In k flag_options -> sget o k = Some (VStr s) ->
  sget r k = Some (VStr (s ++ String.concat "" (map (fun x => " " ++ x)%string (strings_given k incs)))).
Proof. exact included_flag. Qed.
Print Assumptions C45_flags.
Theorem C45_standards : forall home tool incs o r,
  fold_res (merge home tool Include) incs o = Ok r -> Forall true_classes incs ->
  forall k, In k standard_options -> sget o k <> None ->
  sget r k = last (map (fun s => Some (VStr s)) (strings_given k incs)) (sget o k).
Proof. exact included_standard. Qed.
Print Assumptions C45_standards.
(** The options a module is built with: the fixed ones are those of the module merged into the
    base options, whatever it includes or depends on. *)
Theorem C45_whole_module : forall home tool glob_ dfile fuel lib name impl base r o lib' ev,
  modmake home tool glob_ dfile fuel lib name impl base = Ok (r, o, lib', ev) ->
  exists m lib1 o1, get lib name impl = Ok (m, lib1) /\ merge home tool Merge base (mod_opts lib1 m) = Ok o1 /\
    forall k, In k fixed_options -> sget o k = sget o1 k.
Proof. exact made_fixed. Qed.
Print Assumptions C45_whole_module.
(** The application of CxxExamples.v includes a module with every kind of option. *)
Example C45_case :
  sget app_opts "builddir" = Some (VStr "build") /\ sget app_opts "srcdir" = Some (VStr ".") /\
  sget app_opts "libs" = Some (VList [EStr "z"; EStr "m"]) /\
  sget app_opts "cxx_flags" = Some (VStr " -Wall -fnet") /\ sget app_opts "cxxstd" = Some (VStr "c++20") /\
  sget app_opts "target" = Some (VStr "app") /\ sget (mod_opts app_lib 0) "srcdir" = Some (VStr "src").
Proof. vm_compute. repeat split; reflexivity. Qed.
Definition C45_base : opts := [("cxxstd", VStr "c++17"); ("builddir", VStr "b"); ("libs", VList [EStr "z"]); ("cxx_flags", VStr "-O")].
Definition C45_incs : list opts :=
  [[("cxxstd", VStr "c++20"); ("builddir", VStr "other"); ("libs", VList [EStr "m"]); ("cxx_flags", VStr "-g")];
   [("cxxstd", VStr "c++11"); ("defines", VList [EStr "X"])]].
Example C45_case_sequence :
  fold_res (merge home std Include) C45_incs C45_base =
    Ok [("cxxstd", VStr "c++11"); ("builddir", VStr "b"); ("libs", VList [EStr "z"; EStr "m"]); ("cxx_flags", VStr "-O -g")] /\
  Forall true_classes C45_incs.
Proof.
  split; [vm_compute; reflexivity|].
  repeat constructor; intros k c H; vm_compute in H; intuition discriminate.
Qed.

(** ** C46: sources *)
(** The paths of a module: its own, those of the modules it includes and those of the collected
    modules, each relative to the directory of the module that declares it. *)
Theorem C46_sources : forall home tool glob_ dfile f lib name impl base r o lib' ev k bl,
  modmake home tool glob_ dfile (S f) lib name impl base = Ok (r, o, lib', ev) ->
  In k ["objects"; "sources"; "qt_moc"; "qt_ui"] -> sget base k <> None ->
  sget base "include_modules" = Some (VList bl) ->
  exists m lib1 gl sl os lib2 ms lib3 inc own mids colls,
    get lib name impl = Ok (m, lib1) /\ requested (mod_opts lib1 m) gl /\ Forall2 submodule_of gl sl /\
    walk lib1 (bl ++ sl) os lib2 /\ collect_modules f lib2 m = Ok (ms, lib3, inc) /\
    contributes home (mod_opts lib1 m) k own /\ Forall2 (fun i c => contributes home i k c) os mids /\
    Forall2 (fun i c => contributes home (mod_opts lib3 i) k c) ms colls /\
    texts o k (own ++ List.concat mids ++ List.concat colls).
Proof.
  intros home tool glob_ dfile f lib name impl base r o lib' ev k bl H Hk Hb Hi.
  destruct (make_paths _ _ _ _ _ _ _ _ _ _ _ _ _ _ _ H Hk Hb Hi) as (m & lib1 & gl & os & lib2 & ms & lib3 & inc & own & mids & colls & Hg & Hr & X).
  exists m, lib1, gl, (map to_submodule gl), os, lib2, ms, lib3, inc, own, mids, colls. auto using submodules.
Qed.
Print Assumptions C46_sources.
(** An application (or library) declared without include_modules: its own sources, then those
    of the collected modules in the order of collection; each is compiled, in this order, and
    the objects are what is linked. *)
Theorem C46_application :
  forall home tool glob_ dfile fuel lib below top name target impl type default kw r o lib' ev,
  task home tool glob_ dfile (S fuel) lib below top name target impl type default kw = Ok (r, o, lib', ev) ->
  impl = None \/ default = true -> type <> "objects" -> requested kw [] ->
  exists lib1 m ms inc own colls srcs gen ol,
    module lib (name ++ "__module") impl default below top
      (("type", VStr type) :: ("target", VStr (match target with Some t => t | None => name end)) :: kw) = Ok lib1 /\
    get lib1 (name ++ "__module") None = Ok (m, lib1) /\ collect_modules fuel lib1 m = Ok (ms, lib', inc) /\
    contributes home (("__dir__", VStr (dirname top)) :: kw) "sources" own /\
    Forall2 (fun i c => contributes home (mod_opts lib' i) "sources" c) ms colls /\
    expands glob_ (own ++ List.concat colls) srcs /\
    map fst (compiled ev) = srcs ++ gen /\ (texts o "qt_moc" [] -> gen = []) /\ texts o "objects" ol /\
    linked ev = [(match target with Some t => t | None => name end, map snd (compiled ev) ++ ol)].
Proof. exact task_makes. Qed.
Print Assumptions C46_application.
Example C46_case :
  make_app app_kw None = Ok ([RTarget "app"], app_opts, app_lib, app_events) /\ requested app_kw [] /\
  compiled app_events = [("/p/app/main.cpp", "build/p/app/main.o"); ("/p/net/src/tcp.c", "build/p/net/src/tcp.o");
                         ("/p/net/src/udp.c", "build/p/net/src/udp.o")] /\
  linked app_events = [("app", ["build/p/app/main.o"; "build/p/net/src/tcp.o"; "build/p/net/src/udp.o"])].
Proof. split; [exact app_made|]. split; [right; split; [left; reflexivity|reflexivity]|]. split; [exact app_compiled|exact app_linked]. Qed.
(** Not exactly once: if a collected module requires the root by name, the root is collected as
    well, and its sources are compiled and linked twice. *)
Theorem C46_exactly_once_refuted :
  exists lib top name kw r o lib' ev s,
    task home std no_glob files 20 lib [] top name None None "application" false kw = Ok (r, o, lib', ev) /\
    count_occ string_dec (map fst (compiled ev)) s = 2%nat /\
    sget kw "sources" = Some (VList [EStr (basename s)]).
Proof.
  exists lib_cyc, "/p/app/x.py", "app", app_kw. vm_compute. do 4 eexists. exists "/p/app/main.cpp".
  split; [reflexivity|]. split; reflexivity.
Qed.
Print Assumptions C46_exactly_once_refuted.

(** ** C47: submodules *)
(** The objects of submodules never reach the module: an application or library with submodules
    cannot be made, and the result for objects is not a list of paths. *)
Theorem C47_never_appended : forall home tool glob_ dfile fuel lib name impl base r o lib' ev,
  modmake home tool glob_ dfile fuel lib name impl base = Ok (r, o, lib', ev) -> ~ texts o "modules" [] ->
  text o "type" "objects" /\ exists r0 o0, In (RList r0) r /\ In (ROpts o0) r.
Proof. exact submodules_results. Qed.
Print Assumptions C47_never_appended.
Theorem C47_no_target_with_submodules :
  forall home tool glob_ dfile fuel lib below top name target impl type default kw r o lib' ev,
  task home tool glob_ dfile fuel lib below top name target impl type default kw = Ok (r, o, lib', ev) ->
  impl = None \/ default = true -> texts o "modules" [].
Proof. exact task_without_submodules. Qed.
Print Assumptions C47_no_target_with_submodules.
(** Given by name they cause an AttributeError, given as objects a TypeError. *)
Theorem C47_refuted :
  (exists kw, sget kw "modules" = Some (VList [EStr "net"]) /\ make_app kw None = Raise (AttributeError "name")) /\
  (exists kw, sget kw "modules" = Some (VList [ESub "net" None]) /\ make_app kw None = Raise (TypeError "expected str instance")).
Proof. split; [exists (sub_kw (EStr "net"))|exists (sub_kw (ESub "net" None))]; split; vm_compute; reflexivity. Qed.
Print Assumptions C47_refuted.

(** ** C48: paths of objects *)
Theorem C48_relative_inside_partial : forall cwd b e prefix s,
  starts_slash s = false -> e <> "" -> no_slash e ->
  (forall pre, prefix = Some pre -> starts_slash pre = false) ->
  above (realpath cwd b) (realpath cwd (build_path b e prefix s)).
Proof. exact relative_inside. Qed.
Print Assumptions C48_relative_inside_partial.
Theorem C48_absolute_inside_partial : forall cwd b e s,
  starts_slash s = true -> b <> "" -> object_ext e -> ~ In ".." (split_slash s) ->
  above (realpath cwd b) (realpath cwd (build_path b e None s)).
Proof. exact absolute_inside. Qed.
Print Assumptions C48_absolute_inside_partial.
Theorem C48_extension_partial : forall b e s,
  object_ext e -> (forall r, fst (splitext s) <> (r ++ ".")%string) ->
  exists q, build_path b e None s = (q ++ "." ++ e)%string.
Proof. exact build_keeps_ext. Qed.
Print Assumptions C48_extension_partial.
Theorem C48_relative_collisions_partial : forall b e s1 s2,
  starts_slash s1 = false -> starts_slash s2 = false -> two_dots_free s1 -> two_dots_free s2 ->
  basename s1 <> "." -> basename s2 <> "." -> object_ext e ->
  build_path b e None s1 = build_path b e None s2 ->
  stem s1 = stem s2 /\ forall cwd, realpath cwd (dirname s1) = realpath cwd (dirname s2).
Proof. exact relative_collision. Qed.
Print Assumptions C48_relative_collisions_partial.
Theorem C48_absolute_collisions_partial : forall b e s1 s2,
  starts_slash s1 = true -> starts_slash s2 = true ->
  build_path b e None s1 = build_path b e None s2 -> fst (splitext s1) = fst (splitext s2).
Proof. exact absolute_collision. Qed.
Print Assumptions C48_absolute_collisions_partial.
Example C48_case :
  build_path "build" "o" None "src/../../a.c" = "build/src/__/__/a.o" /\
  build_path "build" "o" None "/p/a.c" = "build/p/a.o" /\
  build_path "build/ui" "h" (Some "ui_") "gui/main.ui" = "build/ui/gui/ui_main.h" /\
  object_ext "o" /\ starts_slash "src/../../a.c" = false /\ two_dots_free "a.c" /\ ~ In ".." (split_slash "/p/a.c").
Proof.
  split; [vm_compute; reflexivity|]. split; [vm_compute; reflexivity|]. split; [vm_compute; reflexivity|].
  split; [|split; [reflexivity|split]].
  - split; [exists "o"%char, ""; split; [reflexivity|discriminate]|]. split; [cbn; intuition discriminate|].
    intros [|x [|y a]] b; discriminate.
  - intros [|x [|y [|z [|w a]]]] b; discriminate.
  - cbn. intuition discriminate.
Qed.
(** Sources that differ in the extension, sources above and in a directory "__", and the same
    source written from the root, collide. *)
Theorem C48_distinct_refuted :
  (build_path "build" "o" None "a.c" = build_path "build" "o" None "a.cpp") /\
  (build_path "build" "o" None "../x.c" = build_path "build" "o" None "__/x.c") /\
  (build_path "build" "o" None "/a.c" = build_path "build" "o" None "a.c").
Proof. repeat split; vm_compute; reflexivity. Qed.
Print Assumptions C48_distinct_refuted.
(** An absolute source with ".." and an empty build directory leave the build directory; two
    dots before the extension destroy it. *)
Theorem C48_inside_refuted :
  realpath "/w" (build_path "build" "o" None "/../x.c") = "/w/x.o" /\
  build_path "" "o" None "/usr/x.c" = "/usr/x.o" /\
  build_path "build" "o" None "x..c" = "build/x__o".
Proof. repeat split; vm_compute; reflexivity. Qed.
Print Assumptions C48_inside_refuted.

(** ** C49: checking *)
Theorem C49_accepted_partial : forall tool o, true_classes o -> (mk_options tool o = Ok o <-> well_formed o).
Proof. exact accepted_iff. Qed.
Print Assumptions C49_accepted_partial.
Theorem C49_refused : forall tool o,
  mk_options tool o = Ok o \/ exists msg, mk_options tool o = Raise (SystemExit msg).
Proof. exact accepted_or_exit. Qed.
Print Assumptions C49_refused.
Theorem C49_merging : forall home tool md o other r,
  merge home tool md o other = Ok r -> mk_options tool r = Ok r.
Proof. exact merge_accepted. Qed.
Print Assumptions C49_merging.
Theorem C49_merging_succeeds : forall home tool md o other,
  well_formed o -> (forall k v, In (k, v) o -> special k = false) ->
  well_formed other -> has_dir other -> plain_paths other ->
  exists r, merge home tool md o other = Ok r /\ well_formed r.
Proof. exact merge_total. Qed.
Print Assumptions C49_merging_succeeds.
Example C49_case :
  mk_options std app_opts = Ok app_opts /\ true_classes app_opts /\
  mk_options std [("sources", VStr "a.c")] = Raise (SystemExit "Option should be object of another type") /\
  mk_options std [("source", VList [])] = Raise (SystemExit "Unresolved option").
Proof.
  split; [vm_compute; reflexivity|]. split; [|split; reflexivity].
  intros k c H. vm_compute in H. intuition discriminate.
Qed.
(** Only the name of the class is compared. *)
Theorem C49_class_names_refuted : exists o, ~ well_formed o /\ mk_options std o = Ok o.
Proof.
  exists [("sources", VOther "list")]. split; [|reflexivity].
  intros W. specialize (W "sources" (VOther "list") (or_introl eq_refl)). assert (H : well_typed "sources" (VOther "list")) by (apply W; discriminate). inversion H.
Qed.
Print Assumptions C49_class_names_refuted.
(** Accepted options can fail to merge: an element of a list is not looked at. *)
Theorem C49_merging_accepted_refuted : exists o other,
  mk_options std o = Ok o /\ mk_options std other = Ok other /\ merge home std Include o other = Raise (TypeError "expected str, bytes or os.PathLike object").
Proof.
  exists [("sources", VList [])], [("__dir__", VStr "/p"); ("sources", VList [EPair "a" "b"])]. repeat split; vm_compute; reflexivity.
Qed.
Print Assumptions C49_merging_accepted_refuted.

(** ** C67: a task builds the module it declares *)
Theorem C67_declared_module_is_built_partial : forall lib n impl default below top kw lib1,
  module lib n impl default below top kw = Ok lib1 -> impl = None \/ default = true ->
  exists m, get lib1 n None = Ok (m, lib1) /\ mod_opts lib1 m = mk_opts (VStr top) (VStr (dirname top)) kw.
Proof. exact module_get. Qed.
Print Assumptions C67_declared_module_is_built_partial.
Example C67_case : exists lib1,
  module lib_net "app__module" None false [] "/p/app/x.py" app_kw = Ok lib1 /\ l_heap lib1 <> l_heap lib_net.
Proof. vm_compute. eexists. split; [reflexivity|discriminate]. Qed.
(** With an implementation name and no default the task ends the program, although the module
    has just been declared; and if there is a default, that is what is built. *)
Theorem C67_refuted :
  (exists i msg, make_app app_kw (Some i) = Raise (SystemExit msg)) /\
  (exists i r o lib' ev,
     task home std no_glob files 20 app_lib [] "/p/other/x.py" "app" None (Some i) "application" false
       [("sources", VList [EStr "other.cpp"])] = Ok (r, o, lib', ev) /\
     map fst (compiled ev) = ["/p/app/main.cpp"; "/p/net/src/tcp.c"; "/p/net/src/udp.c"]).
Proof.
  split.
  - exists "fast". eexists. vm_compute. reflexivity.
  - exists "fast". vm_compute. do 4 eexists. split; reflexivity.
Qed.
Print Assumptions C67_refuted.

(** ** C68: include_modules *)
(** An included module that includes others in turn must give them as objects; given by name
    the module cannot be made. *)
Theorem C68_nested_includes_are_objects : forall home tool glob_ dfile f lib name impl base r o lib' ev bl,
  modmake home tool glob_ dfile (S f) lib name impl base = Ok (r, o, lib', ev) ->
  sget base "include_modules" = Some (VList bl) ->
  exists m lib1 gl sl os lib2, get lib name impl = Ok (m, lib1) /\ requested (mod_opts lib1 m) gl /\
    Forall2 submodule_of gl sl /\ walk lib1 (bl ++ sl) os lib2 /\
    forall i sub e, In i os -> sget i "include_modules" = Some (VList sub) -> In e sub -> exists n j, e = ESub n j.
Proof.
  intros home tool glob_ dfile f lib name impl base r o lib' ev bl H Hi.
  destruct (made_walk _ _ _ _ _ _ _ _ _ _ _ _ _ _ H Hi) as (m & lib1 & gl & os & lib2 & Hg & Hr & X).
  exists m, lib1, gl, (map to_submodule gl), os, lib2. auto using submodules.
Qed.
Print Assumptions C68_nested_includes_are_objects.
Theorem C68_refuted :
  make_inc (EStr "log") = Raise (AttributeError "name") /\
  forall fuel, prepare_targets home std no_glob files fuel lib_self "net" None [] = OutOfFuel.
Proof. split; [vm_compute; reflexivity|exact self_for_ever]. Qed.
Print Assumptions C68_refuted.
Example C68_case :
  match make_inc (ESub "log" None) with
  | Ok (_, _, _, ev) => map fst (compiled ev) = ["/p/app/main.cpp"; "/p/net/tcp.c"; "/p/log/log.c"]
  | _ => False
  end.
Proof. vm_compute. reflexivity. Qed.

(** ** C69: command lines *)
(** In a module without submodules, every command is the one for the options the module is
    returned with. *)
Theorem C69_commands : forall cwd home tool glob_ dfile f lib name impl base r o lib' ev,
  modmake home tool glob_ dfile (S f) lib name impl base = Ok (r, o, lib', ev) -> texts o "modules" [] ->
  forall k t s dp rule co fo, In (VRule k t s dp rule co fo) ev ->
  exists c, command cwd (VRule k t s dp rule co fo) = FOk c /\
  match k with
  | RObject => compile_line o s (realpath cwd t) c
  | RDepend => depend_line o s (realpath cwd t) c
  | RMoc => exists tc, sget o "toolchain" = Some (VTool tc) /\ c = (tc_moc tc ++ " " ++ s ++ " > " ++ realpath cwd t)%string
  | RUic => exists tc, sget o "toolchain" = Some (VTool tc) /\ c = (tc_uic tc ++ " " ++ s ++ " > " ++ realpath cwd t)%string
  | RLink => exists ty, text o "type" ty /\ text o "target" t /\ link_line home o dp (realpath cwd t) ty c
  end.
Proof. intros cwd home tool glob_ dfile. exact (made_commands home tool glob_ dfile cwd). Qed.
Print Assumptions C69_commands.
Definition commands (ev : list event) : list string :=
  flat_map (fun e => match e, command "/w" e with VRule _ _ _ _ _ _ _, FOk c => [c] | _, _ => [] end) ev.
Example C69_case : texts app_opts "modules" [] /\ commands app_events =
  ["c++ -MM /p/app/main.cpp > /w/build/p/app/main.d -I/p/net/include -DNET -std=c++20 -g  -Wall -fnet";
   "c++ -c /p/app/main.cpp -o /w/build/p/app/main.o -I/p/net/include -DNET -std=c++20 -g  -Wall -fnet ";
   "cc -MM /p/net/src/tcp.c > /w/build/p/net/src/tcp.d -I/p/net/include -DNET -std=c11 -g ";
   "cc -c /p/net/src/tcp.c -o /w/build/p/net/src/tcp.o -I/p/net/include -DNET -std=c11 -g  ";
   "cc -MM /p/net/src/udp.c > /w/build/p/net/src/udp.d -I/p/net/include -DNET -std=c11 -g ";
   "cc -c /p/net/src/udp.c -o /w/build/p/net/src/udp.o -I/p/net/include -DNET -std=c11 -g  ";
   "c++  -Wl,--start-group build/p/app/main.o build/p/net/src/tcp.o build/p/net/src/udp.o  -lz -lm -Wl,--end-group -o /w/app "].
Proof. split; [exists (VList []); split; [reflexivity|left; reflexivity]|vm_compute; reflexivity]. Qed.

(** ** C70: headers *)
Theorem C70_objects_depend_on_their_headers : forall home tool glob_ dfile f lib name impl base r o lib' ev,
  modmake home tool glob_ dfile (S f) lib name impl base = Ok (r, o, lib', ev) -> texts o "modules" [] ->
  forall t s dp rule co fo, In (VRule RObject t s dp rule co fo) ev -> wired dfile ev t s dp.
Proof. exact made_wired. Qed.
Print Assumptions C70_objects_depend_on_their_headers.
(** If the dependency file is a rule that lists an object, a source and headers with plain
    names, every one of the headers is a dependency and a known source. *)
Theorem C70_listed_headers : forall dfile ev t s dp, wired dfile ev t s dp ->
  exists d, In d dp /\ forall sep l, separator sep -> separated l -> l <> [] ->
    dfile d = Some (sep ++ lay_out l)%string ->
    forall h, In h (skipn 2 (map fst l)) -> In h dp /\ In (VSource h) ev.
Proof. exact (wired_headers "" no_glob). Qed.
Print Assumptions C70_listed_headers.
Example C70_case :
  exists rule o f, In (VRule RObject "build/p/app/main.o" "/p/app/main.cpp"
    ["/p/app/main.cpp"; "build/p/app/main.d"; "app__module__local_headers__"; "/p/net/tcp.h"] rule o f) app_events /\
  wired files app_events "build/p/app/main.o" "/p/app/main.cpp"
    ["/p/app/main.cpp"; "build/p/app/main.d"; "app__module__local_headers__"; "/p/net/tcp.h"].
Proof.
  vm_compute. do 3 eexists. split; [do 4 right; left; reflexivity|].
  exists "build/p/app/main.d", ["app__module__local_headers__"], ["/p/net/tcp.h"]. do 3 eexists.
  split; [reflexivity|]. split; [do 3 right; left; reflexivity|]. split; [left; split; [vm_compute; reflexivity|reflexivity]|].
  split; [right; left; reflexivity|]. intros h [<-|[]]. do 2 right. left. reflexivity.
Qed.
