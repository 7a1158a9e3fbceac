(** Concrete runs for C88. *)
From Coq Require Import Permutation Relations.
From Verif Require Import PyBase PyPath PathProofs SolverModel SpecGraph InvokerModel SpecTrace CoreModel SpecCore MakeModel UtilModel SpecMake
  MakeFacts MakeBuild MakeClaims MakeClean FormatModel RegModel CliModel SpecUtil UtilProofs SpecReg RegExamples MakeExec MakeExamples SpecProject ProjectProofs ProjectBuild ProjectExamples
  SpecTrack TrackProofs SpecCxxTrack CxxTrack TrackExamples IdleProofs CxxIdle IdleExamples SpecEdit EditProofs EditExamples JavaModel SpecJava JavaProofs.
From Verif Require Import InvokerExec.
Local Open Scope string_scope.
Local Open Scope list_scope.

Definition droid : jopts := JO (Some (JT "javac" (Some "dx"))) "-g".
(** A.class from A.java; classes.dex from A.class; and a jar, whose dex call depends on nothing. *)
Definition jcalls : list (jcall * buildfun) :=
  [(JJavac ["A.java"] "A.class" droid [], read1 "class:" "/w/A.java"); (JDex "A.class" "app" droid ["A.class"], read1 "dex:" "/w/A.class")].
Definition jl := jscript [] jcalls.
Definition jfs : fsys := simple_fs [("/w/A.java", "a")].
Definition jdisk := simple_disk [("/w/A.java", "a")].
Definition jcs : list choice := [CGet 0; CFin 0; CFin 0; CFin 0; CJoin].
Notation jr := (do_process "/w" "/h" (on_path jdisk) no_glob no_fail jl "/w/app" 1 jfs 1 jcs).
Lemma jr_ok : on_ran jr (fun r => fine r && String.eqb (text r "/w/app") "dex:class:a") = true.
Proof. vm_compute. reflexivity. Qed.
Lemma jdisk_ok : disk_ok "/w" (present jfs) (on_path jdisk).
Proof. apply present_ok; [apply simple_present|vm_compute; reflexivity..]. Qed.
Lemma jorder : in_order "/w" "/h" no_glob (on_path jdisk) jl.
Proof. apply in_orderb_ok. vm_compute. reflexivity. Qed.
Lemma japp : In "/w/app" (flat_map (makes "/w" "/h" no_glob) jl).
Proof. apply mem_In. vm_compute. reflexivity. Qed.
Lemma jhonest c b : In (c, b) jcalls -> looks_at_inputs "/w" c b.
Proof.
  intros [E|[E|[]]]; injection E as <- <-; intros s s' H; unfold read1.
  - specialize (H "A.java" (or_introl eq_refl)). change (realpath "/w" "A.java") with "/w/A.java" in H. now rewrite H.
  - specialize (H "A.class" (or_introl eq_refl)). change (realpath "/w" "A.class") with "/w/A.class" in H. now rewrite H.
Qed.
Lemma jtold c b : In (c, b) jcalls -> dex_told c.
Proof. intros [E|[E|[]]]; injection E as <- <-; cbn; auto. Qed.
Lemma jplain c b n : In (c, b) jcalls -> In n (input_names c) -> has_star n = false.
Proof. intros [E|[E|[]]]; injection E as <- <-; intros [<-|[]]; reflexivity. Qed.
Lemma jhistory : script_history "/w" "/h" no_glob jl jfs 1.
Proof.
  apply sh_start.
  - intros p m n. apply simple_dated.
  - intros p H. apply rule_makes in H. vm_compute in H. in_cases H; vm_compute; reflexivity.
  - apply (no_dir jl). vm_compute. reflexivity.
Qed.
Lemma jbuilt : exists kind c1 objs sv s, building "/w" "/h" (on_path jdisk) no_glob false jl "/w/app" 1 jfs 1 kind c1 objs sv s /\ succeeded objs s /\
  contents (w_fs (s_world s)) "/w/app" = Some "dex:class:a".
Proof.
  destruct (on_ran_ok _ _ jr_ok) as (r & Er & T). apply andb_prop in T. destruct T as [T1 T2].
  exists (rn_kind r), (rn_core r), (rn_objs r), (rn_solver r), (rn_state r).
  split; [exact (do_process_ok _ _ _ _ _ _ _ _ _ _ _ _ Er)|]. clear Er. split; [now apply fine_ok|now apply text_eq].
Qed.

(** The default of deps: nothing.  The source is edited after the first process. *)
Definition xcall : jcall := JDex "A.jar" "app" droid [].
Definition xb : buildfun := read1 "dex:" "/w/A.jar".
Definition xl := jscript ["A.jar"] [(xcall, xb)].
Definition xfs : fsys := simple_fs [("/w/A.jar", "a")].
Definition xdisk := simple_disk [("/w/A.jar", "a")].
Definition xcs : list choice := [CGet 0; CFin 0; CJoin].
Notation xr := (do_process "/w" "/h" (on_path xdisk) no_glob no_fail xl "/w/app" 1 xfs 1 xcs).
Definition xfs1 : fsys := out_fs xr xfs.
Definition xnow1 : nat := S (out_now xr).
Definition xfs2 : fsys := fs_set xfs1 "/w/A.jar" (Some (xnow1, Reg "new")).
Definition xdisk1 := xdisk ++ ["/w/app"].
Lemma xr_ok : on_ran xr (fun r => fine r && forallb (fun p => Bool.eqb (present (w_fs (s_world (rn_state r))) p) (on xdisk1 p)) (flat_map (makes "/w" "/h" no_glob) xl)) = true.
Proof. vm_compute. reflexivity. Qed.
Lemma xr2_ok : on_ran (do_process "/w" "/h" (on_path xdisk1) no_glob no_fail xl "/w/app" 1 xfs2 xnow1 xcs)
  (fun r => fine r && String.eqb (text r "/w/app") "dex:a" && match xb (contents (w_fs (s_world (rn_state r)))) with Some v => String.eqb v "dex:new" | None => false end) = true.
Proof. vm_compute. reflexivity. Qed.
Lemma xdisk_ok : disk_ok "/w" (present xfs) (on_path xdisk).
Proof. apply present_ok; [apply simple_present|vm_compute; reflexivity..]. Qed.
Lemma xorder : in_order "/w" "/h" no_glob (on_path xdisk) xl.
Proof. apply in_orderb_ok. vm_compute. reflexivity. Qed.
Lemma xorder1 : in_order "/w" "/h" no_glob (on_path xdisk1) xl.
Proof. apply in_orderb_ok. vm_compute. reflexivity. Qed.
Lemma xapp : In "/w/app" (flat_map (makes "/w" "/h" no_glob) xl).
Proof. apply mem_In. vm_compute. reflexivity. Qed.
Lemma xpresent1 p : present xfs1 p = on xdisk1 p.
Proof.
  destruct (on_ran_ok _ _ xr_ok) as (r & Er & T). apply andb_prop in T. destruct T as [_ T]. unfold xfs1. rewrite Er. cbn [out_fs].
  exact (ran_present _ _ _ ["/w/app"] _ _ _ _ _ _ _ _ _ Er xdisk_ok eq_refl xapp eq_refl (simple_present _) T eq_refl p).
Qed.
Lemma xdisk2_ok : disk_ok "/w" (present xfs2) (on_path xdisk1).
Proof.
  apply present_ok; [|vm_compute; reflexivity..]. intros p. rewrite <- xpresent1. unfold present, xfs2, fs_set.
  destruct (String.eqb_spec p "/w/A.jar") as [->|]; [|reflexivity]. vm_compute. reflexivity.
Qed.
Lemma xhistory : script_history "/w" "/h" no_glob xl xfs2 xnow1.
Proof.
  apply (sh_outside _ _ _ _ xfs1 (out_now xr)).
  - destruct (on_ran_ok _ _ xr_ok) as (r & Er & T). unfold xfs1. rewrite Er. cbn [out_fs out_now].
    apply (sh_process _ _ _ _ xfs 1 (on_path xdisk) "/w/app" 1%Z (rn_kind r) (rn_core r) (rn_objs r) (rn_solver r)).
    + apply sh_start.
      * intros p m n. apply simple_dated.
      * intros p H. apply rule_makes in H. vm_compute in H. in_cases H; vm_compute; reflexivity.
      * apply (no_dir xl). vm_compute. reflexivity.
    + exact xdisk_ok.
    + exact xorder.
    + exact xapp.
    + exact (do_process_ok _ _ _ _ _ _ _ _ _ _ _ _ Er).
  - split; [unfold xnow1; lia|]. intros p. unfold xfs2, fs_set.
    destruct (String.eqb_spec p "/w/A.jar") as [->|]; [|now left]. right. right. left. split; [vm_compute; reflexivity|].
    exists xnow1, "new". split; [reflexivity|]. unfold xnow1. lia.
Qed.
Lemma xstale : exists kind c1 objs sv s, building "/w" "/h" (on_path xdisk1) no_glob false xl "/w/app" 1 xfs2 xnow1 kind c1 objs sv s /\ succeeded objs s /\
  contents (w_fs (s_world s)) "/w/app" = Some "dex:a" /\ xb (contents (w_fs (s_world s))) = Some "dex:new".
Proof.
  destruct (on_ran_ok _ _ xr2_ok) as (r & Er & T). apply andb_prop in T. destruct T as [T T3]. apply andb_prop in T. destruct T as [T1 T2].
  exists (rn_kind r), (rn_core r), (rn_objs r), (rn_solver r), (rn_state r).
  split; [exact (do_process_ok _ _ _ _ _ _ _ _ _ _ _ _ Er)|]. clear Er. split; [now apply fine_ok|]. split; [now apply text_eq|].
  destruct (xb _) as [v|]; [|discriminate]. apply String.eqb_eq in T3. now subst v.
Qed.
