(** A project that builds a library and installs it with its headers (C94):
<<
    makefile("lib.so", ["a.c"], build)
    install_library("install", "p", "inc", ["*.h"], libtgt="lib.so")
    install_application("app.py", "app", "tools")
    licant.ex("install")
>> *)
From Coq Require Import Permutation Relations.
From Verif Require Import PyBase PyPath SolverModel SpecGraph InvokerModel SpecTrace CoreModel SpecCore MakeModel UtilModel SpecMake
  RegModel CliModel SpecUtil SpecReg SpecProject RegExamples MakeExamples ProjectExamples TrackExamples EditExamples IdleExamples InvokerExec
  CommandModel SpecCommand CommandProofs CxxCommandProofs CommandExamples InstallModel WalkModel SpecWalk SpecInstalled.
Local Open Scope string_scope.
Local Open Scope list_scope.

Definition ipl : places := PL "/u/bin" "/u/include" "/u/lib" false.
Definition itree : entry := EDir [("a.h", EFile); ("notes", EFile); ("d", EDir [("b.h", EFile)])].
Definition idisk (p : string) : option entry := if String.eqb p "/w/inc" then Some itree else None.
Definition lib_ops := install_library "/w" "/h" ipl (walk idisk) glob_match "install" "p" "inc" ["*.h"] None (OneLib "lib.so").
Definition app_ops := install_application "/w" "/h" ipl "app.py" "app" (Some "tools").
Definition icopy t s ds : stmt := SCopy t s ds (cp "/w" "/h" s).
Definition iscript : list stmt :=
  [SRule false "lib.so" ["a.c"] (read1 "lib:" "/w/a.c");
   icopy "/u/lib/lib.so" "lib.so" []; SSource "/w/inc/a.h"; SSource "/w/inc/d/b.h";
   icopy "/u/include/p/a.h" "/w/inc/a.h" ["lib.so"]; icopy "/u/include/p/d/b.h" "/w/inc/d/b.h" ["lib.so"];
   SSet "headers:///w/inc" ["/u/include/p/a.h"; "/u/include/p/d/b.h"]; SSet "install" ["headers:///w/inc"; "/u/lib/lib.so"];
   icopy "/u/bin/app" "app.py" []; SSet "tools" ["/u/bin/app"]].
Definition on_disk : list string := ["/"; "/w"; "/w/a.c"; "/w/app.py"; "/w/inc"; "/w/inc/a.h"; "/w/inc/notes"; "/w/inc/d"; "/w/inc/d/b.h"; "/u"].
Definition ifs : fsys := fun p =>
  if mem p ["/"; "/w"; "/w/inc"; "/w/inc/d"; "/u"] then Some (0, Dir) else
  if mem p ["/w/a.c"; "/w/app.py"; "/w/inc/a.h"; "/w/inc/notes"; "/w/inc/d/b.h"] then Some (1, Reg (String.append "at " p)) else None.
Lemma ifs_ok : disk_ok "/w" (present ifs) (on_path on_disk).
Proof.
  apply present_ok; [|reflexivity..]. intros p. unfold present, ifs, on, on_disk, mem. cbn [existsb].
  destruct (String.eqb_spec p "/"), (String.eqb_spec p "/w"), (String.eqb_spec p "/w/a.c"), (String.eqb_spec p "/w/app.py"), (String.eqb_spec p "/w/inc"),
    (String.eqb_spec p "/w/inc/a.h"), (String.eqb_spec p "/w/inc/notes"), (String.eqb_spec p "/w/inc/d"), (String.eqb_spec p "/w/inc/d/b.h"), (String.eqb_spec p "/u"); reflexivity.
Qed.
Lemma iscript_ok : in_order "/w" "/h" no_glob (on_path on_disk) iscript.
Proof. apply in_orderb_ok. vm_compute. reflexivity. Qed.
Lemma ireads : reads_only (ver iscript).
Proof.
  intros p f ds b HP s s' Hs. rules_of iscript HP; pose proof HP as H; vm_compute in HP; try discriminate HP; injection HP as <- <- <-.
  - looks "/w/a.c" H Hs. reflexivity.
  - looks "/w/lib.so" H Hs. reflexivity.
  - looks "/w/inc/a.h" H Hs. reflexivity.
  - looks "/w/inc/d/b.h" H Hs. reflexivity.
  - looks "/w/app.py" H Hs. reflexivity.
Qed.
Lemma icommands : command_history "/w" "/h" no_glob iscript ifs 1.
Proof.
  apply ch_start.
  - intros p m n. unfold ifs. destruct (mem p _); [intros [= <- _]; lia|]. destruct (mem p _); intros [= <- _]; lia.
  - intros p H. apply (drules iscript) in H. vm_compute in H. in_cases H; vm_compute; reflexivity.
  - apply (no_dir iscript). vm_compute. reflexivity.
Qed.
Notation irun x cs := (do_process "/w" "/h" (on_path on_disk) no_glob no_fail iscript x 1 ifs 1 cs).
Definition ichoices (n : nat) : list choice := CGet 0 :: repeat (CFin 0) n ++ [CJoin].
Lemma irun_ok x n test : mem (meaning "/w" iscript x) (flat_map (makes "/w" "/h" no_glob) iscript) = true -> meaning "/w" iscript x = x ->
  on_ran (irun x (ichoices n)) (fun r => fine r && test r) = true ->
  exists kind c1 objs sv s, commanded "/w" "/h" (on_path on_disk) no_glob false no_info iscript (Some x) [] 1 ifs 1 kind c1 objs sv s /\
    succeeded objs s /\ exists r, s = rn_state r /\ test r = true.
Proof.
  intros M Mx T. destruct (on_ran_ok _ _ T) as (r & E & H). clear T. pose proof (do_process_ok _ _ _ _ _ _ _ _ _ _ _ _ E) as B. clear E.
  apply andb_prop in H. destruct H as [H1 H2]. exists (rn_kind r), (rn_core r), (rn_objs r), (rn_solver r), (rn_state r). split.
  - apply (building_default "/w" "/h" ifs (on_path on_disk) no_glob iscript ifs_ok iscript_ok); [now apply mem_In|]. rewrite Mx. exact B.
  - split; [now apply fine_ok|]. exists r. now split.
Qed.
Lemma install_run : exists kind c1 objs sv s,
  commanded "/w" "/h" (on_path on_disk) no_glob false no_info iscript (Some "install") [] 1 ifs 1 kind c1 objs sv s /\ succeeded objs s /\
  contents (w_fs (s_world s)) "/u/include/p/d/b.h" = Some "at /w/inc/d/b.h" /\ contents (w_fs (s_world s)) "/u/lib/lib.so" = Some "lib:at /w/a.c".
Proof.
  destruct (irun_ok "install" 13 (fun r => String.eqb (text r "/u/include/p/d/b.h") "at /w/inc/d/b.h" && String.eqb (text r "/u/lib/lib.so") "lib:at /w/a.c"))
    as (kind & c1 & objs & sv & s & B & Su & r & -> & T); [vm_compute; reflexivity|reflexivity|vm_compute; reflexivity|].
  exists kind, c1, objs, sv, (rn_state r). split; [exact B|]. split; [exact Su|]. apply andb_prop in T. destruct T as [T1 T2].
  split; apply text_eq; (discriminate || assumption).
Qed.
Lemma tools_run : exists kind c1 objs sv s,
  commanded "/w" "/h" (on_path on_disk) no_glob false no_info iscript (Some "tools") [] 1 ifs 1 kind c1 objs sv s /\ succeeded objs s /\
  contents (w_fs (s_world s)) "/u/bin/app" = Some "at /w/app.py".
Proof.
  destruct (irun_ok "tools" 4 (fun r => String.eqb (text r "/u/bin/app") "at /w/app.py"))
    as (kind & c1 & objs & sv & s & B & Su & r & -> & T); [vm_compute; reflexivity|reflexivity|vm_compute; reflexivity|].
  exists kind, c1, objs, sv, (rn_state r). split; [exact B|]. split; [exact Su|]. apply text_eq; (discriminate || assumption).
Qed.
Lemma itree_proper : proper_tree itree.
Proof.
  assert (N : forall s, In s ["a.h"; "notes"; "d"; "b.h"] -> file_name s).
  { intros s Hs. cbn in Hs. unfold file_name. repeat destruct Hs as [<-|Hs]; try destruct Hs; repeat split; try discriminate; cbn; intuition discriminate. }
  unfold itree. apply pt_dir.
  - cbn. repeat (apply NoDup_cons; [cbn; intuition discriminate|]). apply NoDup_nil.
  - intros n e [H|[H|[H|[]]]]; injection H as <- <-; (split; [apply N; cbn; tauto|]); [apply pt_file|apply pt_file|].
    apply pt_dir; [cbn; repeat (apply NoDup_cons; [cbn; intuition discriminate|]); apply NoDup_nil|].
    intros n e [H|[]]. injection H as <- <-. split; [apply N; cbn; tauto|apply pt_file].
Qed.
