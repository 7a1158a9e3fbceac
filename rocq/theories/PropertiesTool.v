(** C86: the options --clang_toolchain and --gcc_toolchain.  [pcalls flags_of l = Ok p]: licant was
    imported and then the calls [l] of parse and set_default_toolchain were made; [decided f l n]:
    by these calls and the flags [f] of the process the toolchain [n] is asked for. *)
From Verif Require Import PyBase PyPath PathProofs UtilModel FormatModel RegModel ModulesModel CxxModel SpecCxx CxxProofs CxxMakeProofs CxxExamples
  ToolModel SpecTool ToolProofs.
Local Open Scope string_scope.
Local Open Scope list_scope.

(** options(), called by the script afterwards, has the toolchain asked for; gcc is taken if both
    options are given, a name that is not known raises. *)
Theorem C86_options_obey :
  forall flags_of l p, pcalls flags_of l = Ok p ->
  exists f n, first_flags flags_of l f /\ decided f l n /\
    (forall t, compilers n t -> new_options (pr_name p) None = Ok (CO t "" "" "" "" "" "" "" "")) /\
    ((forall t, ~ compilers n t) -> new_options (pr_name p) None = Raise (PlainException "unknown toolchain")).
Proof.
  intros flags_of l p H. destruct (decided_ok _ _ _ H) as (f & H1 & H2 & _). exists f, (pr_name p).
  split; [exact H1|]. split; [exact H2|]. split.
  - intros t Ht. apply new_options_tool. eauto.
  - intros Hn. unfold new_options, default_toolchain.
    destruct (String.eqb_spec (pr_name p) "clang") as [E|]; [rewrite E in Hn; edestruct Hn; constructor|].
    destruct (String.eqb_spec (pr_name p) "gcc") as [E|]; [rewrite E in Hn; edestruct Hn; constructor|].
    destruct (String.eqb_spec (pr_name p) "std") as [E|]; [rewrite E in Hn; edestruct Hn; constructor|]. reflexivity.
Qed.
Print Assumptions C86_options_obey.
(** An explicit toolchain argument is used whatever the command line says. *)
Theorem C86_given_toolchain : forall name t, new_options name (Some t) = Ok (CO t "" "" "" "" "" "" "" "").
Proof. reflexivity. Qed.
Print Assumptions C86_given_toolchain.
(** C++ modules do not see the choice: whatever was asked for, each of their commands starts a
    program of the toolchain given in the call, or c++, cc, ar, moc or uic if none is given. *)
Theorem C86_modules_keep_the_default :
  forall flags_of l p, pcalls flags_of l = Ok p ->
  forall cwd home glob_ dfile fuel lib below top name target impl type default kw r o lib' ev t,
  task home (pr_table p) glob_ dfile fuel lib below top name target impl type default kw = Ok (r, o, lib', ev) ->
  impl = None \/ default = true ->
  (sget kw "toolchain" = None /\ compilers "std" t) \/ sget kw "toolchain" = Some (VTool t) ->
  forall k tg s dp rule co fo, In (VRule k tg s dp rule co fo) ev ->
  exists c, command cwd (VRule k tg s dp rule co fo) = FOk c /\ starts t c.
Proof.
  intros flags_of l p H. intros. destruct (kept _ _ _ H) as [E _]. rewrite E in *.
  eapply task_commands; eauto. erewrite task_tool by eauto.
  destruct H2 as [[-> Hc]| ->]; [|reflexivity]. inversion Hc. reflexivity.
Qed.
Print Assumptions C86_modules_keep_the_default.
(** The same for the functions of cxx_make that are called without options. *)
Theorem C86_functions_keep_the_default :
  forall flags_of l p, pcalls flags_of l = Ok p -> forall t, compilers "std" t -> forall cwd,
  (forall src tgt e, call_object p src tgt None = Ok e -> exists c, command cwd e = FOk c /\ starts t c) /\
  (forall tgt srcs, exists c, command cwd (call_executable p tgt srcs None) = FOk c /\ starts t c).
Proof.
  intros flags_of l p H t Ht cwd. destruct (kept _ _ _ H) as [_ E]. unfold call_object, call_executable, or_default. rewrite E.
  inversion Ht; subst. split.
  - intros src tgt e He. unfold object in He. apply bind_ok in He as (la & _ & He). injection He as <-.
    destruct la; (eexists; split; [reflexivity|]); [exists "c++"|exists "cc"|exists "cc"]; eexists; (split; [cbn; tauto|cbn; reflexivity]).
  - intros tgt srcs. eexists. split; [reflexivity|]. exists "c++". eexists. split; [cbn; tauto|cbn; reflexivity].
Qed.
Print Assumptions C86_functions_keep_the_default.
(** With options that are given, the functions start its programs. *)
Theorem C86_given_options :
  forall cwd p src tgt o e, call_object p src tgt (Some o) = Ok e -> exists c, command cwd e = FOk c /\ starts (co_tool o) c.
Proof.
  intros cwd p src tgt o e He. unfold call_object, or_default, object in He. apply bind_ok in He as (la & _ & He). injection He as <-.
  destruct la; (eexists; split; [reflexivity|]); [exists (tc_cxx (co_tool o))|exists (tc_cc (co_tool o))|exists (tc_cc (co_tool o))];
    eexists; (split; [cbn; tauto|cbn; reflexivity]).
Qed.
Print Assumptions C86_given_options.
(** The command of [executable]: the linker of the toolchain, the sources, the target. *)
Theorem C86_executable_command :
  forall cwd p tgt srcs o, command cwd (call_executable p tgt srcs (Some o)) =
  FOk (tc_cxx (co_tool o) ++ " " ++ co_ld o ++ " -Wl,--start-group " ++ String.concat " " srcs ++ " " ++ co_srcs o ++
       " -Wl,--end-group -o " ++ realpath cwd tgt ++ " " ++ co_lds o)%string.
Proof. intros. destruct o as [t ? ? ? ? ? ? ? ?]. destruct t. set (b := realpath cwd tgt). set (ss := String.concat " " srcs).
  cbn [co_tool CxxModel.co_ld CxxModel.co_srcs CxxModel.co_lds ModulesModel.tc_cxx].
  transitivity (FOk (tc_cxx ++ " " ++ co_ld ++ " -Wl,--start-group " ++ ss ++ " " ++ co_srcs ++ " -Wl,--end-group -o " ++ b ++ " " ++ co_lds ++ "")%string);
    [|now rewrite app_str_nil]. unfold call_executable, or_default. fold ss. cbn [command]. fold b. clearbody b ss. reflexivity. Qed.
Print Assumptions C86_executable_command.
Example C86_case_executable :
  command "/w" (call_executable (PR "gcc" None std (CO std "" "" "" "" "" "" "" "")) "app" ["a.o"; "b.o"] (Some (CO std "" "" "-T x.ld" "" "" "-lm" "" ""))) =
  FOk "c++ -lm -Wl,--start-group a.o b.o  -Wl,--end-group -o /w/app -T x.ld".
Proof. vm_compute. reflexivity. Qed.

(** The wish: the modules of a process started with --gcc_toolchain are compiled by g++. *)
Definition argparse (argv : list string) : res (bool * bool) :=
  Ok (existsb (String.eqb "--clang_toolchain") argv, existsb (String.eqb "--gcc_toolchain") argv).
Definition gcc_calls : list pcall := [PParse ["--gcc_toolchain"]; PParse []].
Definition gcc_proc : proc := PR "gcc" (Some (false, true)) std (CO std "" "" "" "" "" "" "" "").
Theorem C86_option_ignored_refuted :
  exists cwd flags_of l p f t fuel lib top kw r o lib' ev,
    pcalls flags_of l = Ok p /\ first_flags flags_of l f /\ decided f l "gcc" /\ compilers "gcc" t /\
    task "/home/u" (pr_table p) no_glob files fuel lib [] top "app" None None "application" false kw = Ok (r, o, lib', ev) /\
    sget kw "toolchain" = None /\
    exists k tg s dp rule co fo c, In (VRule k tg s dp rule co fo) ev /\
      command cwd (VRule k tg s dp rule co fo) = FOk c /\ ~ starts t c.
Proof.
  exists "/w", argparse, gcc_calls, gcc_proc, (false, true). do 9 eexists.
  split; [reflexivity|]. split; [left; exists [], ["--gcc_toolchain"], [PParse []]; repeat split; intros a []|].
  split; [apply (dc_asks _ [PParse ["--gcc_toolchain"]] (PParse []) "gcc" "gcc"); [apply (dc_asks _ [] _ "gcc" "std"); [constructor|reflexivity]|reflexivity]|].
  split; [constructor|]. split; [exact app_made|]. split; [reflexivity|].
  exists RLink, "app". do 6 eexists. split; [unfold app_events; vm_compute; repeat ((left; reflexivity) || right)|].
  split; [vm_compute; reflexivity|].
  intros (pr & rest & Hp & E). cbn in Hp. destruct Hp as [<-|[<-|[<-|[<-|[<-|[]]]]]]; discriminate.
Qed.
Print Assumptions C86_option_ignored_refuted.

(** The hypotheses can be met: set_default_toolchain, then a command line with both options. *)
Example C86_case :
  exists p, pcalls argparse [PSet "clang"; PParse ["--clang_toolchain"; "--gcc_toolchain"]; PParse ["--clang_toolchain"]] = Ok p /\
    new_options (pr_name p) None = Ok (CO (gcc_toolchain "") "" "" "" "" "" "" "" "") /\
    (exists e, call_object p "a.cpp" "a.o" None = Ok e /\ command "/w" e = FOk "c++ -c a.cpp -o /w/a.o    ") /\
    (exists e, call_object p "a.cpp" "a.o" (Some (CO (gcc_toolchain "") "" "" "" "" "" "" "" "")) = Ok e /\ command "/w" e = FOk "g++ -c a.cpp -o /w/a.o    ").
Proof. eexists. split; [reflexivity|]. split; [reflexivity|]. split; eexists; split; reflexivity. Qed.
Example C86_unknown_case :
  exists p, pcalls argparse [PSet "tcc"] = Ok p /\ new_options (pr_name p) None = Raise (PlainException "unknown toolchain").
Proof. eexists. split; reflexivity. Qed.
(** A call that gives its own toolchain is obeyed. *)
Example C86_modules_case :
  exists r o lib' ev, task "/home/u" (pr_table gcc_proc) no_glob files 20 lib_net [] "/p/app/x.py" "app" None None "application" false
      (("toolchain", VTool clang_toolchain) :: app_kw) = Ok (r, o, lib', ev) /\
    exists s dp rule co fo, In (VRule RLink "app" s dp rule co fo) ev /\
    exists c, command "/w" (VRule RLink "app" s dp rule co fo) = FOk ("clang++ " ++ c)%string.
Proof.
  do 4 eexists. split; [vm_compute; reflexivity|]. do 5 eexists. split; [repeat ((left; reflexivity) || right)|].
  eexists. vm_compute. reflexivity.
Qed.
