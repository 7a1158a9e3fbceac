(** C88: javac, dex and objcopy.  [jcommand]: the command of the call, or the exception of its
    formatting; [jscript srcs calls]: a script of declared sources and such calls; [looks_at_inputs]:
    the command reads the files that it names as its input only. *)
From Coq Require Import Permutation Relations.
From Verif Require Import PyBase PyPath PathProofs SolverModel SpecGraph InvokerModel SpecTrace CoreModel SpecCore MakeModel UtilModel SpecMake FormatModel
  RegModel CliModel SpecUtil SpecReg SpecProject ProjectProofs ProjectBuild RegExamples ProjectExamples ModulesModel JavaModel SpecJava JavaProofs JavaExamples.
Local Open Scope string_scope.
Local Open Scope list_scope.

(** The commands are the intended ones, if the toolchain has the tool. *)
Theorem C88_commands : forall cwd,
  (forall srcs tgt javac dx flags deps,
     jcommand cwd (JJavac srcs tgt (JO (Some (JT javac dx)) flags) deps) = FOk (String.concat " " [javac; flags; String.concat " " srcs])) /\
  (forall src tgt javac dx flags deps,
     jcommand cwd (JDex src tgt (JO (Some (JT javac (Some dx))) flags) deps) = FOk (String.concat " " [dx; "--dex"; "--output"; realpath cwd tgt; src])) /\
  forall tool tgt src fmt sections,
     jcommand cwd (JObjcopy tool tgt src fmt sections) =
     FOk (String.concat " " [tc_objcopy tool; "-O"; fmt; String.concat " " (map (fun s => "-j " ++ s)%string sections); src; tgt]).
Proof.
  intros cwd. split; [|split].
  - intros srcs tgt javac dx flags deps. transitivity (FOk (javac ++ " " ++ flags ++ " " ++ (String.concat " " srcs ++ ""))%string); [reflexivity|].
    now rewrite app_str_nil.
  - intros src tgt javac dx flags deps. transitivity (FOk (dx ++ " --dex --output " ++ realpath cwd tgt ++ " " ++ (src ++ ""))%string); [reflexivity|].
    now rewrite app_str_nil.
  - intros tool tgt src fmt sections.
    transitivity (FOk (tc_objcopy tool ++ " -O " ++ fmt ++ " " ++ String.concat " " (map (fun s => "-j " ++ s)%string sections) ++ " " ++ src ++ " " ++ (tgt ++ ""))%string);
      [reflexivity|]. now rewrite app_str_nil.
Qed.
Print Assumptions C88_commands.
Example C88_commands_case :
  jcommand "/w" (JJavac ["A.java"; "B.java"] "A.class" droid []) = FOk "javac -g A.java B.java" /\
  jcommand "/w" (JDex "A.jar" "classes.dex" droid []) = FOk "dx --dex --output /w/classes.dex A.jar" /\
  jcommand "/w" (JObjcopy (TC "c" "cc" "ld" "ar" "objdump" "objcopy" "moc" "uic") "a.bin" "a.elf" "binary" [".text"; ".data"]) = FOk "objcopy -O binary -j .text -j .data a.elf a.bin".
Proof. vm_compute. repeat split. Qed.

(** javac is not told which file to make. *)
Theorem C88_javac_ignores_target : forall cwd srcs tgt tgt' o deps deps',
  jcommand cwd (JJavac srcs tgt o deps) = jcommand cwd (JJavac srcs tgt' o deps').
Proof. intros cwd srcs tgt tgt' [[[javac dx]|] flags] deps deps'; reflexivity. Qed.
Print Assumptions C88_javac_ignores_target.

(** Without a toolchain, which is the default, and for dex with a toolchain made by
    java_toolchain, the command is an exception. *)
Theorem C88_default_options : forall cwd flags deps,
  (forall srcs tgt, jcommand cwd (JJavac srcs tgt (JO None flags) deps) = FRaise (FAttr "javac")) /\
  (forall src tgt, jcommand cwd (JDex src tgt (JO None flags) deps) = FRaise (FAttr "dx")) /\
  forall javac src tgt, jcommand cwd (JDex src tgt (JO (Some (JT javac None)) flags) deps) = FRaise (FAttr "dx").
Proof. intros cwd flags deps. repeat split. Qed.
Print Assumptions C88_default_options.

(** javac declares its sources, so that a script with it is read whatever exists on disk. *)
Theorem C88_javac_sources_may_be_missing : forall cwd home glob_ e e' ss srcs tgt o b,
  in_order cwd home glob_ e (jscript ss [(JJavac srcs tgt o [], b)]) -> in_order cwd home glob_ e' (jscript ss [(JJavac srcs tgt o [], b)]).
Proof. exact javac_missing. Qed.
Print Assumptions C88_javac_sources_may_be_missing.
Example C88_javac_sources_may_be_missing_case :
  in_order "/w" "/h" no_glob (fun _ => false) (jscript [] [(JJavac ["A.java"; "B.java"] "A.class" droid [], fun _ => None)]).
Proof. apply in_orderb_ok. vm_compute. reflexivity. Qed.

(** After a successful process all files are right, if dex is told that it depends on its source. *)
Theorem C88_files_are_right :
  forall cwd home fs exists_ glob_ srcs calls, disk_ok cwd (present fs) exists_ -> in_order cwd home glob_ exists_ (jscript srcs calls) ->
  (forall c b, In (c, b) calls -> looks_at_inputs cwd c b) -> (forall c b, In (c, b) calls -> dex_told c) ->
  (forall c b n, In (c, b) calls -> In n (input_names c) -> has_star n = false) ->
  let P := project_of cwd home glob_ (jscript srcs calls) in
  forall x th now kind c1 objs sv s, In x (flat_map (makes cwd home glob_) (jscript srcs calls)) ->
  building cwd home exists_ glob_ false (jscript srcs calls) x th fs now kind c1 objs sv s -> succeeded objs s ->
  script_history cwd home glob_ (jscript srcs calls) fs now ->
  forall p, is_file P p -> p_cone P x p -> right_content P (contents (w_fs (s_world s))) p (contents (w_fs (s_world s)) p).
Proof.
  intros cwd home fs exists_ glob_ srcs calls Hd Ho Hh Ht Hp P x th now kind c1 objs sv s Hx Hb Hs Hi.
  apply (script_right cwd home fs exists_ glob_ (jscript srcs calls) Hd Ho x th now kind c1 objs sv s Hx Hb Hs); [|exact Hi].
  apply jscript_reads; assumption.
Qed.
Print Assumptions C88_files_are_right.
Example C88_files_case : disk_ok "/w" (present jfs) (on_path jdisk) /\ in_order "/w" "/h" no_glob (on_path jdisk) (jscript [] jcalls) /\
  (forall c b, In (c, b) jcalls -> looks_at_inputs "/w" c b) /\ (forall c b, In (c, b) jcalls -> dex_told c) /\
  (forall c b n, In (c, b) jcalls -> In n (input_names c) -> has_star n = false) /\
  script_history "/w" "/h" no_glob (jscript [] jcalls) jfs 1 /\
  exists kind c1 objs sv s, building "/w" "/h" (on_path jdisk) no_glob false (jscript [] jcalls) "/w/app" 1 jfs 1 kind c1 objs sv s /\ succeeded objs s /\
    contents (w_fs (s_world s)) "/w/app" = Some "dex:class:a".
Proof. exact (conj jdisk_ok (conj jorder (conj jhonest (conj jtold (conj jplain (conj jhistory jbuilt)))))). Qed.

(** The default of dex is to depend on nothing: whatever happens to its source, its output is
    not made again while it exists. *)
Theorem C88_dex_runs_once :
  forall cwd home fs exists_ glob_ l, disk_ok cwd (present fs) exists_ -> in_order cwd home glob_ exists_ l ->
  forall src tgt o b, incl (jstmts (JDex src tgt o []) b) l -> fs (realpath cwd tgt) <> None ->
  forall partial x th now kind c1 objs sv s, In x (flat_map (makes cwd home glob_) l) ->
  building cwd home exists_ glob_ partial l x th fs now kind c1 objs sv s ->
  ~ In (realpath cwd tgt) (map fst (w_ran (s_world s))).
Proof.
  intros cwd home fs exists_ glob_ l Hd Ho src tgt o b Hl Hf partial x th now kind c1 objs sv s Hx Hb.
  eapply alone_does_nothing; try eassumption. apply Hl. now left.
Qed.
Print Assumptions C88_dex_runs_once.
(** Then [C88_files_are_right] does not hold: a process succeeds, and the output is not what
    the command would make of the source. *)
Theorem C88_dex_stale_refuted : exists cwd home fs exists_ glob_ srcs src tgt o b,
  let l := jscript srcs [(JDex src tgt o [], b)] in
  disk_ok cwd (present fs) exists_ /\ in_order cwd home glob_ exists_ l /\
  looks_at_inputs cwd (JDex src tgt o []) b /\ has_star src = false /\
  exists now, script_history cwd home glob_ l fs now /\
  exists kind c1 objs sv s, building cwd home exists_ glob_ false l (realpath cwd tgt) 1 fs now kind c1 objs sv s /\ succeeded objs s /\
  exists v v', contents (w_fs (s_world s)) (realpath cwd tgt) = Some v /\ b (contents (w_fs (s_world s))) = Some v' /\ v <> v'.
Proof.
  exists "/w", "/h", xfs2, (on_path xdisk1), no_glob, ["A.jar"], "A.jar", "app", droid, xb. intros l.
  split; [exact xdisk2_ok|]. split; [exact xorder1|]. split.
  { intros s s' H. specialize (H "A.jar" (or_introl eq_refl)). change (realpath "/w" "A.jar") with "/w/A.jar" in H. unfold xb, read1. now rewrite H. }
  split; [reflexivity|]. exists xnow1. split; [exact xhistory|].
  destruct xstale as (kind & c1 & objs & sv & s & B & C & D & E). exists kind, c1, objs, sv, s. split; [exact B|]. split; [exact C|].
  exists "dex:a", "dex:new". split; [exact D|]. split; [exact E|discriminate].
Qed.
Print Assumptions C88_dex_stale_refuted.
