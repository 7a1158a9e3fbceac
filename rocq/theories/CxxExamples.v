(** Concrete C++ modules used as witnesses. *)
From Verif Require Import PyBase PyPath UtilModel RegModel ModulesModel CxxModel SpecCxx CxxProofs CxxMakeProofs.
Local Open Scope string_scope.
Local Open Scope list_scope.

Definition home := "/home/u".
Definition std := standart_toolchain.
Definition no_glob (_ : string) : list string := [].
(** One object was built before and has a dependency file. *)
Definition files (p : string) : option string :=
  if String.eqb p "build/p/app/main.d" then Some "main.o: /p/app/main.cpp /p/net/tcp.h" else None.
Definition get_lib (r : res mlib) : mlib := match r with Ok l => l | _ => mlib0 end.

Definition h_net : list libop :=
  [OModule "net" None false [] "/p/net/x.py"
     [("srcdir", VStr "src"); ("sources", VList [EStr "tcp.c"; EStr "udp.c"]); ("include_paths", VList [EStr "include"]);
      ("defines", VList [EStr "NET"]); ("cxx_flags", VStr "-fnet"); ("cxxstd", VStr "c++20"); ("libs", VList [EStr "m"])]].
Definition lib_net : mlib := Eval vm_compute in get_lib (lib_run mlib0 h_net).
Definition app_kw : opts :=
  [("sources", VList [EStr "main.cpp"]); ("mdepends", VList [EStr "net"]); ("cxx_flags", VStr "-Wall");
   ("libs", VList [EStr "z"]); ("builddir", VStr "build")].
Definition make_app (kw : opts) (impl : option string) :=
  task home std no_glob files 20 lib_net [] "/p/app/x.py" "app" None impl "application" false kw.
Definition app_result := Eval vm_compute in make_app app_kw None.
Definition app_events := match app_result with Ok (_, _, _, ev) => ev | _ => [] end.
Definition app_opts := match app_result with Ok (_, o, _, _) => o | _ => [] end.
Definition app_lib := match app_result with Ok (_, _, l, _) => l | _ => mlib0 end.
Lemma app_made : make_app app_kw None = Ok ([RTarget "app"], app_opts, app_lib, app_events).
Proof. vm_compute. reflexivity. Qed.
Lemma app_compiled : compiled app_events =
  [("/p/app/main.cpp", "build/p/app/main.o"); ("/p/net/src/tcp.c", "build/p/net/src/tcp.o"); ("/p/net/src/udp.c", "build/p/net/src/udp.o")].
Proof. vm_compute. reflexivity. Qed.
Lemma app_linked : linked app_events = [("app", ["build/p/app/main.o"; "build/p/net/src/tcp.o"; "build/p/net/src/udp.o"])].
Proof. vm_compute. reflexivity. Qed.

(** The required module requires the root by name: the root is collected as well. *)
Definition h_cyc : list libop :=
  [OModule "net" None false [] "/p/net/x.py" [("sources", VList [EStr "tcp.c"]); ("mdepends", VList [EStr "app__module"])]].
Definition lib_cyc : mlib := Eval vm_compute in get_lib (lib_run mlib0 h_cyc).
Definition cyc_result := Eval vm_compute in
  task home std no_glob files 20 lib_cyc [] "/p/app/x.py" "app" None None "application" false app_kw.
Definition cyc_events := match cyc_result with Ok (_, _, _, ev) => ev | _ => [] end.

(** Submodules given by name and as objects. *)
Definition sub_kw (e : elem) : opts := [("sources", VList [EStr "main.cpp"]); ("modules", VList [e])].

(** include_modules of an included module *)
Definition h_inc (e : elem) : list libop :=
  [OModule "net" None false [] "/p/net/x.py" [("sources", VList [EStr "tcp.c"]); ("include_modules", VList [e])];
   OModule "log" None false [] "/p/log/x.py" [("sources", VList [EStr "log.c"])]].
Definition inc_kw : opts := [("sources", VList [EStr "main.cpp"]); ("include_modules", VList [EStr "net"])].
Definition make_inc (e : elem) :=
  task home std no_glob files 20 (get_lib (lib_run mlib0 (h_inc e))) [] "/p/app/x.py" "app" None None "application" false inc_kw.

(** A module that includes itself. *)
Definition lib_self : mlib := Eval vm_compute in get_lib (lib_run mlib0 (h_inc (ESub "net" None))).
Lemma self_for_ever fuel : prepare_targets home std no_glob files fuel lib_self "net" None [] = OutOfFuel.
Proof.
  rewrite prepare_nil. destruct fuel as [|fuel]; [reflexivity|]. cbn [CxxModel.modmake]. unfold local_options.
  assert (Hg : get lib_self "net" None = Ok (0, lib_self)) by (vm_compute; reflexivity). rewrite Hg. cbn [bind].
  set (mo := mod_opts lib_self 0). assert (Hm : mk_options std mo = Ok mo) by (vm_compute; reflexivity). rewrite Hm. cbn [bind].
  set (o1 := match merge home std Merge (set_default_if_empty std []) mo with Ok o => o | _ => [] end).
  assert (Ho : merge home std Merge (set_default_if_empty std []) mo = Ok o1) by (vm_compute; reflexivity). rewrite Ho. cbn [bind].
  assert (Hi : olist o1 "include_modules" = Ok [ESub "net" None]) by (vm_compute; reflexivity). rewrite Hi. cbn [bind].
  rewrite (include_self home std lib_self "net" None 0 Hg).
  - reflexivity.
  - apply (accepted_iff std); [|exact Hm]. intros k c H. vm_compute in H. intuition discriminate.
  - exists "/p/net". vm_compute. reflexivity.
  - split.
    + intros k l Hk. cbn in Hk. repeat destruct Hk as [<-|Hk]; try destruct Hk; vm_compute; intros [= <-]; exists ["tcp.c"]; reflexivity.
    + vm_compute. discriminate.
  - vm_compute. reflexivity.
  - apply (accepted_iff std); [|apply (merge_accepted home std Merge _ _ _ Ho)]. intros k c H. vm_compute in H. intuition discriminate.
  - intros k v H. vm_compute in H. repeat (destruct H as [H|H]; [injection H as <- <-; reflexivity|]). destruct H.
Qed.
