(** C108: the tools of a toolchain (cxx_make.py:18-81, 276-283, cxx_modules.py:545-579). *)
From Verif Require Import PyBase PyPath FormatModel UtilModel RegModel ModulesModel SpecModules CxxModel SpecCxx SpecOptions JavaModel CrossModel SpecCross.
From Verif Require Import PathProofs CxxProofs CxxMakeProofs OptionsProofs CxxExamples.
Local Open Scope string_scope.
Local Open Scope list_scope.

Lemma made_tool home tool glob_ dfile f lib name r o lib' ev m lib1 :
  prepare_targets home tool glob_ dfile f lib name None [] = Ok (r, o, lib', ev) -> get lib name None = Ok (m, lib1) ->
  sget o "toolchain" = match sget (mod_opts lib1 m) "toolchain" with Some v => Some v | None => Some (VTool tool) end.
Proof.
  intros H Hg. rewrite prepare_nil in H. destruct f as [|f]; [discriminate|].
  destruct (options_made _ _ _ _ _ _ _ _ _ _ _ _ _ [] H) as (m' & lib1' & gl & sl & os & lib2 & ms & lib3 & inc & Hg' & _ & _ & _ & _ & M); [reflexivity|].
  rewrite Hg in Hg'. injection Hg' as <- <-.
  assert (B : sget (set_default_if_empty tool []) "toolchain" = Some (VTool tool)) by exact (defaults_get tool [] "toolchain").
  pose proof (mw_chosen _ _ _ _ _ M "toolchain") as E. rewrite B in E. apply E; [cbn; tauto|congruence].
Qed.
Lemma task_tool home tool glob_ dfile fuel lib below top name target impl type default kw r o lib' ev :
  task home tool glob_ dfile fuel lib below top name target impl type default kw = Ok (r, o, lib', ev) ->
  impl = None \/ default = true ->
  sget o "toolchain" = (match sget kw "toolchain" with Some v => Some v | None => Some (VTool tool) end) /\
  exists f n lib1 lib2 r' ev', modmake home tool glob_ dfile (S f) lib1 n None (set_default_if_empty tool []) = Ok (r', o, lib2, ev') /\
    forall k t s dp rule co fo, In (VRule k t s dp rule co fo) ev -> In (VRule k t s dp rule co fo) ev'.
Proof.
  unfold task. intros H Hd. destruct (String.eqb type "objects").
  - apply bind_ok in H as (lib1 & Hm & H). apply bind_ok in H as ([[[r' o'] lib2] ev'] & H1 & H).
    apply bind_ok in H as (ss & Hss & H). injection H as -> -> -> <-.
    destruct (module_get _ _ _ _ _ _ _ _ Hm Hd) as (m & Hg & Eo). split.
    + rewrite (made_tool _ _ _ _ _ _ _ _ _ _ _ _ _ H1 Hg), Eo, sget_mk_opts by discriminate. reflexivity.
    + rewrite prepare_nil in H1. destruct fuel as [|f]; [discriminate|]. do 6 eexists. split; [exact H1|].
      intros k t s dp rule co fo Hi. apply in_app_iff in Hi as [Hi|[Hi|[]]]; [exact Hi|discriminate Hi].
  - cbn zeta in H. apply bind_ok in H as (lib1 & Hm & H).
    destruct (module_get _ _ _ _ _ _ _ _ Hm Hd) as (m & Hg & Eo). split.
    + rewrite (made_tool _ _ _ _ _ _ _ _ _ _ _ _ _ H Hg), Eo, sget_mk_opts by discriminate. reflexivity.
    + rewrite prepare_nil in H. destruct fuel as [|f]; [discriminate|]. do 6 eexists. split; [exact H|]. auto.
Qed.

(** Every command of an application, a library or a set of objects, also for the sources of the
    modules it includes or requires, calls a tool of its own toolchain, whatever toolchains these
    modules were given. *)
Theorem C108_tools :
  forall cwd home tool glob_ dfile fuel lib below top name target impl type default kw r o lib' ev,
  task home tool glob_ dfile fuel lib below top name target impl type default kw = Ok (r, o, lib', ev) ->
  impl = None \/ default = true ->
  forall k t s dp rule co fo, In (VRule k t s dp rule co fo) ev ->
  exists tc c w, toolchain_of tool kw tc /\ command cwd (VRule k t s dp rule co fo) = FOk c /\ In w (tools tc k) /\ calls c w.
Proof.
  intros cwd home tool glob_ dfile fuel lib below top name target impl type default kw r o lib' ev H Hd k t s dp rule co fo Hi.
  pose proof (task_without_submodules _ _ _ _ _ _ _ _ _ _ _ _ _ _ _ _ _ _ H Hd) as Hno.
  destruct (task_tool _ _ _ _ _ _ _ _ _ _ _ _ _ _ _ _ _ _ H Hd) as (Ht & f & n & lib1 & lib2 & r' & ev' & Hm & Hev).
  destruct (made_commands home tool glob_ dfile cwd _ _ _ _ _ _ _ _ _ Hm Hno k t s dp rule co fo (Hev _ _ _ _ _ _ _ Hi)) as (c & Hc & L).
  assert (T : forall tc, sget o "toolchain" = Some (VTool tc) -> toolchain_of tool kw tc).
  { intros tc E. rewrite Ht in E. unfold toolchain_of. destruct (sget kw "toolchain") as [v|]; [left; congruence|right]. split; congruence. }
  destruct k.
  - destruct L as [tc inc def std dbg fl _ Et|tc inc def std dbg fl _ Et]; exists tc; eexists; eexists; (split; [now apply T|]);
      (split; [exact Hc|]); (split; [|eexists; cbn [String.append]; reflexivity]); cbn; auto.
  - destruct L as [tc inc def std dbg fl opt _ Et|tc inc def std dbg fl opt _ Et]; exists tc; eexists; eexists; (split; [now apply T|]);
      (split; [exact Hc|]); (split; [|eexists; cbn [String.append]; reflexivity]); cbn; auto.
  - destruct L as (tc & Et & ->). exists tc. eexists. eexists. split; [now apply T|]. split; [exact Hc|]. split; [left; reflexivity|].
    eexists. reflexivity.
  - destruct L as (tc & Et & ->). exists tc. eexists. eexists. split; [now apply T|]. split; [exact Hc|]. split; [left; reflexivity|].
    eexists. reflexivity.
  - destruct L as (ty & _ & _ & L). destruct L as [tc fl dirs libs lds Et|tc fl dirs libs lds Et|tc Et]; exists tc; eexists; eexists; (split; [now apply T|]);
      (split; [exact Hc|]); (split; [|eexists; cbn [String.append]; reflexivity]); cbn; auto.
Qed.
Print Assumptions C108_tools.
(** With the gcc toolchain for a prefix, all compilers, linkers and archivers called have the prefix. *)
Theorem C108_prefix :
  forall cwd home tool glob_ dfile fuel lib below top name target impl type default kw r o lib' ev p,
  task home tool glob_ dfile fuel lib below top name target impl type default kw = Ok (r, o, lib', ev) ->
  impl = None \/ default = true -> In (sget kw "toolchain") [Some (VTool (gcc_toolchain p)); Some (VTool (make_gcc_binutils p))] ->
  forall k t s dp rule co fo, In (VRule k t s dp rule co fo) ev -> k <> RMoc -> k <> RUic ->
  exists c, command cwd (VRule k t s dp rule co fo) = FOk c /\ begins p c.
Proof.
  intros cwd home tool glob_ dfile fuel lib below top name target impl type default kw r o lib' ev p H Hd Hk k t s dp rule co fo Hi N1 N2.
  destruct (C108_tools cwd _ _ _ _ _ _ _ _ _ _ _ _ _ _ _ _ _ _ H Hd k t s dp rule co fo Hi) as (tc & c & w & Htc & Hc & Hw & args & ->).
  exists (w ++ " " ++ args)%string. split; [exact Hc|].
  assert (B : begins p w).
  { assert (E : tc = gcc_toolchain p \/ tc = make_gcc_binutils p).
    { destruct Htc as [E|[E _]]; rewrite E in Hk; destruct Hk as [Hk|[Hk|[]]]; try discriminate Hk; injection Hk as Hk; auto. }
    destruct E as [-> | ->], k; try congruence; cbn in Hw; (destruct Hw as [<-|[<-|[]]]); eexists; reflexivity. }
  destruct B as [x ->]. exists (x ++ " " ++ args)%string. apply app_assoc_s.
Qed.
Print Assumptions C108_prefix.

(** The other tools do not: moc and uic of make_gcc_binutils are missing and None is called
    instead, and objcopy is that of the host. *)
Theorem C108_binutils_refuted :
  (exists kw r o lib' ev t s dp rule co fo, sget kw "toolchain" = Some (VTool (make_gcc_binutils "arm")) /\
     make_app kw None = Ok (r, o, lib', ev) /\ In (VRule RMoc t s dp rule co fo) ev /\
     command "/w" (VRule RMoc t s dp rule co fo) = FOk "None /p/app/w.h > /w/build/p/app/w.h.cxx") /\
  (forall p cwd tgt src fmt sections, exists c,
     jcommand cwd (JObjcopy (make_gcc_binutils p) tgt src fmt sections) = FOk c /\ calls c "objcopy").
Proof.
  split.
  - exists (("toolchain", VTool (make_gcc_binutils "arm")) :: ("qt_moc", VList [EStr "w.h"]) :: app_kw). do 10 eexists.
    split; [reflexivity|]. split; [vm_compute; reflexivity|]. split; [right; right; left; reflexivity|]. vm_compute. reflexivity.
  - intros. eexists. split; [reflexivity|]. eexists. reflexivity.
Qed.
Print Assumptions C108_binutils_refuted.

(** An application with a toolchain of its own and a module that was given another one. *)
Definition h_other : list libop :=
  [OModule "net" None false [] "/p/net/x.py" [("sources", VList [EStr "tcp.c"]); ("toolchain", VTool clang_toolchain)]].
Example C108_case :
  exists r o lib' ev,
    task home std no_glob files 20 (get_lib (lib_run mlib0 h_other)) [] "/p/app/x.py" "app" None None "application" false
      (("toolchain", VTool (gcc_toolchain "arm-")) :: app_kw) = Ok (r, o, lib', ev) /\
    flat_map (fun e => match e, command "/w" e with VRule RObject _ _ _ _ _ _, FOk c => [c] | _, _ => [] end) ev =
      ["arm-g++ -c /p/app/main.cpp -o /w/build/p/app/main.o   -std=c++17 -g  -Wall ";
       "arm-gcc -c /p/net/tcp.c -o /w/build/p/net/tcp.o   -std=c11 -g  "].
Proof. do 4 eexists. split; [vm_compute; reflexivity|]. vm_compute. reflexivity. Qed.
