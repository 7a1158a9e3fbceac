(** C98: the argument [core] of application, shared_library, static_library and objects.
    [task_in k st …]: such a call with the core number [k], in a process with the registries [st];
    number 0 is the default core. *)
From Coq Require Import Permutation.
From Verif Require Import PyBase PyPath SolverModel SpecGraph InvokerModel CoreModel SpecCore CoreProofs MakeModel UtilModel RegModel CliModel SpecReg RegExamples SpecProject ProjectExamples
  SpecInstall FormatModel ModulesModel CxxModel SpecCxxScript ProgramsExamples CoreArgModel CoreArgProofs.
Local Open Scope string_scope.
Local Open Scope list_scope.

(** With the default core the call amounts to the statements that C77 to C92 speak of. *)
Theorem C98_default_core :
  forall sh cwd home tool exists_ glob_ dfile fuel rfuel st lib below top name target impl type default kw lib' st',
  task_in sh cwd home tool exists_ glob_ dfile fuel rfuel 0 st lib below top name target impl type default kw = Ok (lib', st') ->
  exists r o ev, task home tool glob_ dfile fuel lib below top name target impl type default kw = Ok (r, o, lib', ev) /\
    mrun (realpath cwd) exists_ glob_ home rfuel 0 (map op_of (map (event_stmt sh cwd home) ev)) st = Ok st'.
Proof. exact task_in_default. Qed.
Print Assumptions C98_default_core.

(** With another core: a program or a library does not get there, nor does anything else. *)
Theorem C98_programs_go_elsewhere :
  forall sh cwd home tool exists_ glob_ dfile fuel rfuel k st lib below top name target impl type default kw lib' st',
  task_in sh cwd home tool exists_ glob_ dfile fuel rfuel k st lib below top name target impl type default kw = Ok (lib', st') -> type <> "objects" ->
  forall j, j <> 0 -> reg st' j = reg st j.
Proof. exact program_elsewhere. Qed.
Print Assumptions C98_programs_go_elsewhere.
(** Of [objects] there is only the file set, … *)
Theorem C98_objects_go_elsewhere :
  forall sh cwd home tool exists_ glob_ dfile fuel rfuel k st lib below top name target impl default kw lib' st',
  task_in sh cwd home tool exists_ glob_ dfile fuel rfuel k st lib below top name target impl "objects" default kw = Ok (lib', st') -> k <> 0 -> k < List.length st ->
  exists r o ev ss, task home tool glob_ dfile fuel lib below top name target impl "objects" default kw = Ok (r, o, lib', ev) /\ r = map RStr ss /\
    reg st' k = reg_add (reg st k) Updatable MSet name (expand_names glob_ ss) /\ forall j, j <> 0 -> j <> k -> reg st' j = reg st j.
Proof. exact objects_elsewhere. Qed.
Print Assumptions C98_objects_go_elsewhere.
(** … and no build of it can start, if one of the objects was unknown to that core before. *)
Theorem C98_objects_cannot_be_made :
  forall sh cwd home tool exists_ glob_ dfile fuel rfuel k st lib below top name target impl default kw lib' st' r o ev ob,
  made (realpath cwd) exists_ glob_ home st ->
  task_in sh cwd home tool exists_ glob_ dfile fuel rfuel k st lib below top name target impl "objects" default kw = Ok (lib', st') -> k <> 0 -> k < List.length st ->
  task home tool glob_ dfile fuel lib below top name target impl "objects" default kw = Ok (r, o, lib', ev) -> In (RStr ob) r ->
  has_star ob = false -> ~ registered (realpath cwd) (fst (reg st k)) ob -> ob <> name -> realpath cwd ob <> name ->
  exists i, core_get (realpath cwd) (fst (reg st' k)) name = Ok i /\
    forall th kind other_if fs f ca c1 ca1, mevaluate (realpath cwd) kind other_if fs f (set_threads (fst (reg st' k)) th, ca) = Ok (c1, ca1) ->
    forall order so threads, (forall l, Permutation l (order l)) ->
    exists x, recurse_update (realpath cwd) c1 order so i threads = RuExn (exit_unregistered x) /\ ~ registered (realpath cwd) (fst (reg st' k)) x.
Proof. exact objects_unusable. Qed.
Print Assumptions C98_objects_cannot_be_made.

Definition one_src : opts := [("sources", VList [EStr "main.cpp"]); ("builddir", VStr "build")].
Definition call_in (k : nat) (type name : string) : res (mlib * regs) :=
  task_in psh "/w" "/h" standart_toolchain (on_path ["/"; "/w"; "/w/main.cpp"]) no_glob (fun _ => None) 20 20 k (repeat empty_reg 2) mlib0 [] "/w/x.py" name None None type false one_src.
Definition known_in (x : res (mlib * regs)) (j : nat) : list string :=
  match x with Ok (_, st) => map fst (c_targets (fst (reg st j))) | _ => [] end.
(** [licant.cxx_application("app", sources=["main.cpp"], core=mycore)] and then
    [mycore.do("app")]: the target is in the default core and mycore has never heard of it. *)
Theorem C98_refuted :
  exists lib st, call_in 1 "application" "app" = Ok (lib, st) /\ registered (realpath "/w") (fst (reg st 0)) "app" /\
    core_get (realpath "/w") (fst (reg st 1)) "app" = Raise (exit_unregistered "app").
Proof.
  destruct (call_in 1 "application" "app") as [[lib st]| |] eqn:E; vm_compute in E; try discriminate.
  exists lib, st. split; [reflexivity|]. injection E as <- <-. split; [|reflexivity].
  eexists. right. vm_compute. split; [|repeat (left; reflexivity) || eauto 12]. intros H. repeat (destruct H as [H|H]; [discriminate H|]). exact H.
Qed.
Print Assumptions C98_refuted.
Example C98_case :
  known_in (call_in 1 "application" "app") 1 = [] /\ In "/w/app" (known_in (call_in 1 "application" "app") 0) /\
  known_in (call_in 1 "objects" "objs") 1 = ["objs"] /\ In "/w/build/w/main.o" (known_in (call_in 1 "objects" "objs") 0) /\
  known_in (call_in 0 "objects" "objs") 0 = known_in (call_in 1 "objects" "objs") 0 ++ ["objs"].
Proof. vm_compute. repeat split; auto 20. Qed.
(** The hypotheses of the last theorem hold for these objects. *)
Example C98_case_objects : exists lib st r o ev,
  made (realpath "/w") (on_path ["/"; "/w"; "/w/main.cpp"]) no_glob "/h" (repeat empty_reg 2) /\ call_in 1 "objects" "objs" = Ok (lib, st) /\
  task "/h" standart_toolchain no_glob (fun _ => None) 20 mlib0 [] "/w/x.py" "objs" None None "objects" false one_src = Ok (r, o, lib, ev) /\
  In (RStr "build/w/main.o") r /\ has_star "build/w/main.o" = false /\ ~ registered (realpath "/w") (fst (reg (repeat empty_reg 2) 1)) "build/w/main.o" /\
  realpath "/w" "build/w/main.o" <> "objs".
Proof.
  destruct (call_in 1 "objects" "objs") as [[lib st]| |] eqn:E; vm_compute in E; try discriminate. injection E as <- <-.
  do 5 eexists. split; [constructor; lia|]. split; [reflexivity|]. split; [vm_compute; reflexivity|]. split; [now left|]. split; [reflexivity|].
  split; [intros (i & [H|[_ H]]); destruct H|discriminate].
Qed.
