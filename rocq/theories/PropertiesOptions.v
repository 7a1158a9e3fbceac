(** C106: the options a module is made with (cxx_modules.py:23-203, 432-504). *)
From Verif Require Import PyBase PyPath FormatModel UtilModel RegModel ModulesModel SpecModules CxxModel SpecCxx SpecOptions.
From Verif Require Import PathProofs CxxProofs CxxMakeProofs OptionsProofs CxxExamples.
Local Open Scope string_scope.
Local Open Scope list_scope.

(** Every option except sources, objects and those for Qt, which C46_sources is about: given by the
    base options, by the module, by the modules it includes, directly or not, and by the collected
    ones, in this order. *)
Theorem C106_options_of_a_module : forall home tool glob_ dfile f lib name impl base r o lib' ev bl,
  modmake home tool glob_ dfile (S f) lib name impl base = Ok (r, o, lib', ev) ->
  sget base "include_modules" = Some (VList bl) ->
  exists m lib1 gl sl os lib2 ms lib3 inc,
    get lib name impl = Ok (m, lib1) /\ requested (mod_opts lib1 m) gl /\ Forall2 submodule_of gl sl /\
    walk lib1 (bl ++ sl) os lib2 /\ collect_modules f lib2 m = Ok (ms, lib3, inc) /\
    made_with home base (mod_opts lib1 m) (os ++ map (mod_opts lib3) ms) o.
Proof. exact options_made. Qed.
Print Assumptions C106_options_of_a_module.
(** prepare_targets starts from the options it is given and the defaults of the others. *)
Theorem C106_starts_with : forall tool o k,
  sget (set_default_if_empty tool o) k = match sget o k with Some v => Some v | None => sget (initial_options tool) k end.
Proof. exact defaults_get. Qed.
Print Assumptions C106_starts_with.
(** An application, library or set of objects: the base options are the defaults. *)
Theorem C106_prepared : forall home tool glob_ dfile fuel lib name impl r o lib' ev,
  prepare_targets home tool glob_ dfile fuel lib name impl [] = Ok (r, o, lib', ev) ->
  exists f m lib1 gl sl os lib2 ms lib3 inc,
    fuel = S f /\ get lib name impl = Ok (m, lib1) /\ requested (mod_opts lib1 m) gl /\ Forall2 submodule_of gl sl /\
    walk lib1 sl os lib2 /\ collect_modules f lib2 m = Ok (ms, lib3, inc) /\
    let all := mod_opts lib1 m :: os ++ map (mod_opts lib3) ms in
    (forall k, In k ["libs"; "libdirs"; "defines"] -> sget o k = Some (VList (lists_given k all))) /\
    (forall k, In k flag_options ->
       sget o k = Some (VStr (String.concat "" (map (fun x => " " ++ x)%string (strings_given k all))))) /\
    (Forall true_classes all ->
       sget o "cxxstd" = Some (VStr (last (strings_given "cxxstd" all) "c++17")) /\
       sget o "ccstd" = Some (VStr (last (strings_given "ccstd" all) "c11"))) /\
    (exists cs, Forall2 (located home "ldscripts") all cs /\ sget o "ldscripts" = Some (VList (map EStr (List.concat cs)))) /\
    (exists cs, Forall2 headers all cs /\ sget o "local_headers" = Some (VList (List.concat cs))) /\
    (exists cs extra b, Forall2 (located home "include_paths") all cs /\ text o "builddir" b /\
       texts o "include_paths" (List.concat cs ++ extra) /\ added_paths o b (List.concat cs) extra) /\
    forall k d, In (k, d) [("builddir", VStr "build"); ("target", VStr "target"); ("optimize", VStr ""); ("debug", VStr "-g");
                           ("toolchain", VTool tool); ("srcdir", VStr "."); ("type", VStr "objects"); ("depends", VList []);
                           ("mdepends", VList [])] ->
      sget o k = match sget (mod_opts lib1 m) k with Some v => Some v | None => Some d end.
Proof.
  intros home tool glob_ dfile fuel lib name impl r o lib' ev H. rewrite prepare_nil in H. destruct fuel as [|f]; [discriminate|].
  destruct (options_made _ _ _ _ _ _ _ _ _ _ _ _ _ [] H) as (m & lib1 & gl & sl & os & lib2 & ms & lib3 & inc & Hg & Hr & Hs & Hw & Hc & M); [reflexivity|].
  exists f, m, lib1, gl, sl, os, lib2, ms, lib3, inc. repeat (split; [first [reflexivity|assumption]|]). intros all.
  assert (B : forall k, sget (set_default_if_empty tool []) k = sget (initial_options tool) k) by (intros k; apply (defaults_get tool [] k)).
  assert (L : forall (s : string) l d, last (map (fun s => Some (VStr s)) l) (Some (VStr d)) = Some (VStr (last l d))).
  { intros _ l d. induction l as [|x [|y l] IH]; try reflexivity. exact IH. }
  destruct M as [Mr Mf Ms Ml Mh Mp Mc Mo _].
  split; [|split; [|split; [|split; [|split; [|split]]]]].
  - intros k Hk. apply (Mr k [] Hk). rewrite B. cbn in Hk. repeat destruct Hk as [<-|Hk]; try destruct Hk; reflexivity.
  - intros k Hk. apply (Mf k "" Hk). rewrite B. cbn in Hk. repeat destruct Hk as [<-|Hk]; try destruct Hk; reflexivity.
  - intros T. split.
    + rewrite (Ms T "cxxstd") by (rewrite ?B; cbn; auto; discriminate). rewrite B. exact (L "" _ "c++17").
    + rewrite (Ms T "ccstd") by (rewrite ?B; cbn; auto; discriminate). rewrite B. exact (L "" _ "c11").
  - apply (Ml []). now rewrite B.
  - apply (Mh []). now rewrite B.
  - destruct (Mp []) as (cs & extra & b & Hcs & Hb & E & A); [now rewrite B|]. exists cs, extra, b. repeat (split; [assumption|]).
    split; [eexists; split; [exact E|now left]|]. apply A. now rewrite B.
  - intros k d Hk. cbn in Hk.
    repeat destruct Hk as [[= <- <-]|Hk]; try destruct Hk;
      try (rewrite Mc by (rewrite ?B; cbn; auto 6; discriminate); rewrite B; reflexivity);
      (erewrite Mo by (rewrite ?B; cbn; auto 6; discriminate); reflexivity).
Qed.
Print Assumptions C106_prepared.

(** An application that depends on [gui], which has include paths, a header and a form, and includes
    [log] by name with an implementation. *)
Definition h_options : list libop :=
  [OModule "gui" None false [] "/p/gui/x.py"
     [("srcdir", VStr "src"); ("include_paths", VList [EStr "include"; EStr "/usr/gui"]); ("cxxstd", VStr "c++20"); ("cxx_flags", VStr "-fgui");
      ("local_headers", VList [EPair "gui/api.h" "api.h"]); ("qt_ui", VList [EStr "main.ui"])];
   OModule "log" (Some "fast") false [] "/p/log/x.py" [("include_paths", VList [EStr "~/log"]); ("ldscripts", VList [EStr "log.ld"]); ("libs", VList [EStr "m"])];
   OModule "log" None false [] "/p/log/y.py" [("libs", VList [EStr "slow"])];
   OModule "app" None false [] "/p/app/x.py"
     [("sources", VList [EStr "main.cpp"]); ("mdepends", VList [EStr "gui"]); ("include_modules", VList [EPair "log" "fast"]);
      ("libs", VList [EStr "z"]); ("cxxstd", VStr "c++14"); ("cxx_flags", VStr "-Wall"); ("include_paths", VList [EStr "."])]].
Definition lib_options : mlib := Eval vm_compute in get_lib (lib_run mlib0 h_options).
Definition options_result := Eval vm_compute in prepare_targets home std no_glob files 20 lib_options "app" None [].
Definition made_options := match options_result with Ok (_, o, _, _) => o | _ => [] end.
Example C106_case :
  prepare_targets home std no_glob files 20 lib_options "app" None [] = options_result /\
  texts made_options "include_paths"
    ["/p/app/."; "/home/u/log"; "/p/gui/include"; "/usr/gui"; "build/__LOCAL_HEADERS__/"; "build/ui"] /\
  sget made_options "libs" = Some (VList [EStr "z"; EStr "m"]) /\ sget made_options "cxxstd" = Some (VStr "c++20") /\
  sget made_options "cxx_flags" = Some (VStr " -Wall -fgui") /\ sget made_options "ldscripts" = Some (VList [EStr "/p/log/log.ld"]) /\
  sget made_options "local_headers" = Some (VList [EPair "gui/api.h" "/p/gui/api.h"]) /\
  Forall true_classes (map m_opts (l_heap lib_options)).
Proof.
  split; [vm_compute; reflexivity|]. split; [eexists; split; [vm_compute; reflexivity|left; vm_compute; reflexivity]|].
  repeat (split; [vm_compute; reflexivity|]). repeat constructor; intros k c H; vm_compute in H; intuition discriminate.
Qed.
