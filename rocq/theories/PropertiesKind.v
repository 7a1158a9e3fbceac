(** C109: what a call of application, shared_library, static_library, objects or library makes
    (cxx_modules.py:529-593).  [linked ev]: the links among the registrations, with their inputs;
    [link_line]: the command line for each kind of program. *)
From Verif Require Import PyBase PyPath FormatModel UtilModel RegModel ModulesModel SpecModules CxxModel SpecCxx KindModel SpecCross.
From Verif Require Import PathProofs CxxProofs CxxMakeProofs CxxExamples PropertiesCross.
Local Open Scope string_scope.
Local Open Scope list_scope.

(** A program is linked once, into the file given as target or else named like the program, with
    the command line of its kind, whatever the kinds and targets of the modules that it uses; and
    there are three kinds. *)
Theorem C109_one_link :
  forall cwd home tool glob_ dfile fuel lib below top name target impl type default kw r o lib' ev t,
  task home tool glob_ dfile fuel lib below top name target impl type default kw = Ok (r, o, lib', ev) ->
  impl = None \/ default = true -> type <> "objects" -> t = match target with Some x => x | None => name end ->
  In type ["application"; "shared_library"; "static_library"] /\ r = [RTarget t] /\
  exists objs s rule co c, linked ev = [(t, objs)] /\ In (VRule RLink t s objs rule co false) ev /\
    command cwd (VRule RLink t s objs rule co false) = FOk c /\ link_line home o objs (realpath cwd t) type c.
Proof.
  intros cwd home tool glob_ dfile fuel lib below top name target impl type default kw r o lib' ev t H Hd Hty ->.
  pose proof (task_without_submodules _ _ _ _ _ _ _ _ _ _ _ _ _ _ _ _ _ _ H Hd) as Hno.
  unfold task in H. destruct (String.eqb_spec type "objects") as [?|_]; [congruence|].
  apply bind_ok in H as (lib1 & Hm & H). rewrite prepare_nil in H.
  destruct (module_get _ _ _ _ _ _ _ _ Hm Hd) as (m & Hg & Eo).
  destruct (made_type_target _ _ _ _ _ _ _ _ _ _ _ _ _ _ type (match target with Some t => t | None => name end) H Hg) as [Ht Htg];
    [rewrite Eo, sget_mk_opts by discriminate; reflexivity|rewrite Eo, sget_mk_opts by discriminate; reflexivity|].
  destruct fuel as [|f]; [discriminate|].
  apply modmake_simple in H; [|exact Hno]. destruct H as (m' & o0 & objs & ev1 & ev3 & _ & H2 & H3 & ->).
  apply module_objects_inv in H2 as (_ & b & sl & ml & ol & co & _ & _ & _ & _ & _ & _ & Hl & _).
  apply (finish_inv home glob_ dfile) in H3 as [(Hob & _)|(ty & t & ss & e & d & rl & co2 & Hty2 & Htg2 & _ & -> & -> & -> & Hc)];
    [unfold text in Ht, Hob; congruence|].
  assert (ty = type) as -> by (unfold text in *; congruence).
  assert (t = match target with Some t => t | None => name end) as -> by (unfold text in *; congruence).
  destruct (Hc cwd) as (c & Hc1 & Hc2). split; [destruct Hc2; cbn; tauto|]. split; [reflexivity|].
  exists ss, d, rl, co2, c. split; [|split; [apply in_app_iff; right; now left|auto]].
  unfold linked in *. rewrite flat_map_app, Hl. reflexivity.
Qed.
Print Assumptions C109_one_link.

(** A set of objects is not linked: the call ends with the file set of its objects. *)
Theorem C109_objects :
  forall home tool glob_ dfile fuel lib below top name target impl default kw r o lib' ev,
  task home tool glob_ dfile fuel lib below top name target impl "objects" default kw = Ok (r, o, lib', ev) ->
  impl = None \/ default = true ->
  linked ev = [] /\ exists ev1 ol, texts o "objects" ol /\
    ev = ev1 ++ [VFileset name (map snd (compiled ev1) ++ ol)] /\ r = map RStr (map snd (compiled ev1) ++ ol).
Proof.
  intros home tool glob_ dfile fuel lib below top name target impl default kw r o lib' ev H Hd.
  pose proof (task_without_submodules _ _ _ _ _ _ _ _ _ _ _ _ _ _ _ _ _ _ H Hd) as Hno.
  unfold task in H. cbn [String.eqb Ascii.eqb Bool.eqb] in H.
  apply bind_ok in H as (lib1 & Hm & H). apply bind_ok in H as ([[[r' o'] lib2] ev'] & H1 & H).
  apply bind_ok in H as (ss & Hss & H). injection H as -> -> -> <-. rewrite prepare_nil in H1.
  destruct fuel as [|f]; [discriminate|].
  apply modmake_simple in H1; [|exact Hno]. destruct H1 as (m' & o0 & objs & ev1 & ev3 & _ & H2 & H3 & ->).
  apply module_objects_inv in H2 as (Hk & b & sl & ml & ol & co & _ & _ & _ & Hol & _ & _ & Hl & Ho & _).
  apply (finish_inv home glob_ dfile) in H3 as [(_ & -> & ->)|(ty & t & ss' & e & d & rl & co2 & _ & _ & _ & -> & _)]; [|discriminate Hss].
  rewrite app_nil_r. apply rstrs_ok in Hss. split.
  - unfold linked in *. rewrite flat_map_app, Hl. reflexivity.
  - exists ev1, ol. split; [unfold texts in *; rewrite Hk by discriminate; exact Hol|]. rewrite <- Ho. split; [|reflexivity].
    f_equal. f_equal. f_equal. clear - Hss. revert ss Hss. induction objs as [|x l IH]; intros [|y ss] E; try discriminate; [reflexivity|].
    injection E as -> E. f_equal. now apply IH.
Qed.
Print Assumptions C109_objects.

(** library makes a shared library, or with shared=False an archive. *)
Theorem C109_library :
  forall cwd home tool glob_ dfile fuel lib below top name target impl shared default kw r o lib' ev t,
  library home tool glob_ dfile fuel lib below top name target impl shared default kw = Ok (r, o, lib', ev) ->
  impl = None \/ default = true -> t = match target with Some x => x | None => name end ->
  exists tc objs s rule co c, toolchain_of tool kw tc /\ linked ev = [(t, objs)] /\ In (VRule RLink t s objs rule co false) ev /\
    command cwd (VRule RLink t s objs rule co false) = FOk c /\
    if shared then begins (tc_cxx tc ++ " --shared ") c
    else c = (tc_ar tc ++ " rcs " ++ realpath cwd t ++ " " ++ String.concat " " objs)%string.
Proof.
  intros cwd home tool glob_ dfile fuel lib below top name target impl shared default kw r o lib' ev t H Hd Et.
  assert (Htc : forall tc, sget o "toolchain" = Some (VTool tc) -> toolchain_of tool kw tc).
  { intros tc E. assert (E2 : sget o "toolchain" = (match sget kw "toolchain" with Some v => Some v | None => Some (VTool tool) end))
      by (destruct shared; exact (proj1 (task_tool _ _ _ _ _ _ _ _ _ _ _ _ _ _ _ _ _ _ H Hd))).
    rewrite E2 in E. unfold toolchain_of. destruct (sget kw "toolchain") as [v|]; [left; congruence|right]. split; congruence. }
  destruct shared; cbn [library] in H.
  - destruct (C109_one_link cwd _ _ _ _ _ _ _ _ _ _ _ _ _ _ _ _ _ _ t H Hd) as (_ & _ & objs & s & rule & co & c & Hl & Hi & Hc & L);
      [discriminate|exact Et|]. inversion L as [|tc fl dirs libs lds Htool _ _ _ _ E1 E2|]; subst c.
    exists tc, objs, s, rule, co. eexists. split; [auto|]. split; [exact Hl|]. split; [exact Hi|]. split; [exact Hc|].
    eexists. rewrite app_assoc_s. reflexivity.
  - destruct (C109_one_link cwd _ _ _ _ _ _ _ _ _ _ _ _ _ _ _ _ _ _ t H Hd) as (_ & _ & objs & s & rule & co & c & Hl & Hi & Hc & L);
      [discriminate|exact Et|]. inversion L as [| |tc Htool E1 E2]; subst c.
    exists tc, objs, s, rule, co. eexists. split; [auto|]. split; [exact Hl|]. split; [exact Hi|]. split; [exact Hc|]. reflexivity.
Qed.
Print Assumptions C109_library.

(** static_and_shared (589-593) hands its keyword arguments to both calls, so that with a target
    the archive and the shared library are one file. *)
Theorem C109_two_files_refuted :
  exists kw ra oa lib1 ev1 rb ob lib2 ev2 objs,
    task home std no_glob files 20 lib_net [] "/p/app/x.py" "x.a" (Some "libx") None "static_library" false kw = Ok (ra, oa, lib1, ev1) /\
    task home std no_glob files 20 lib1 [] "/p/app/x.py" "x.so" (Some "libx") None "shared_library" false kw = Ok (rb, ob, lib2, ev2) /\
    linked ev1 = [("libx", objs)] /\ linked ev2 = [("libx", objs)].
Proof. exists app_kw. do 9 eexists. split; [vm_compute; reflexivity|]. split; [vm_compute; reflexivity|]. split; reflexivity. Qed.
Print Assumptions C109_two_files_refuted.

(** The hypotheses can be met: an archive with another target, which requires a module that says
    that it is an application; and a set of objects. *)
Definition h_kinds : list libop :=
  [OModule "net" None false [] "/p/net/x.py" [("sources", VList [EStr "tcp.c"]); ("type", VStr "application"); ("target", VStr "other")]].
Example C109_case :
  exists r o lib' ev,
    library home std no_glob files 20 (get_lib (lib_run mlib0 h_kinds)) [] "/p/app/x.py" "app" (Some "libapp.a") None false false app_kw = Ok (r, o, lib', ev) /\
    flat_map (fun e => match e, command "/w" e with VRule RLink _ _ _ _ _ _, FOk c => [c] | _, _ => [] end) ev =
      ["ar rcs /w/libapp.a build/p/app/main.o build/p/net/tcp.o"].
Proof. do 4 eexists. split; [vm_compute; reflexivity|]. vm_compute. reflexivity. Qed.
Example C109_case_objects :
  exists o lib' ev,
    task home std no_glob files 20 (get_lib (lib_run mlib0 h_kinds)) [] "/p/app/x.py" "app" None None "objects" false app_kw =
      Ok ([RStr "build/p/app/main.o"; RStr "build/p/net/tcp.o"], o, lib', ev) /\
    last ev (VSource "") = VFileset "app" ["build/p/app/main.o"; "build/p/net/tcp.o"].
Proof. do 3 eexists. split; [vm_compute; reflexivity|]. vm_compute. reflexivity. Qed.
