(** Witnesses and non-vacuity examples for C90. *)
From Coq Require Import Permutation.
From Verif Require Import PyBase PyPath PathProofs SolverModel SpecGraph InvokerModel SpecTrace CoreModel SpecCore
  MakeModel MakeEval SpecMake MakeProofs MakeExec MakeExamples RegModel CliModel SpecUtil SpecReg RegExamples SpecProject ProjectExamples ProjectBuild CommandModel SpecCommand CommandProofs InvokerExec.
Local Open Scope string_scope.
Local Open Scope list_scope.

Definition no_info : nat -> tinfo := fun _ => updatable_info.
Definition free_wordb cwd home glob_ l w : bool :=
  negb (is_name l w) && negb (is_fileb (project_of cwd home glob_ l) (realpath cwd w)) &&
  forallb (fun s => forallb (fun p => closed (realpath cwd p) && negb (mem (realpath cwd w) (ups (realpath cwd p)))) (places_of home s)) l.
Lemma free_wordb_ok cwd home glob_ l w : free_wordb cwd home glob_ l w = true -> free_word cwd home glob_ l w.
Proof.
  unfold free_wordb. intros H. apply andb_prop in H. destruct H as [H C]. apply andb_prop in H. destruct H as [A B]. split; [now apply negb_true_iff|]. split.
  - intros F. apply is_fileb_ok in F. now rewrite F in B.
  - intros s p Hs Hp Ha. rewrite forallb_forall in C. specialize (C s Hs). rewrite forallb_forall in C. specialize (C p Hp). apply andb_prop in C. destruct C as [C E].
    apply (ups_ok _ _ C) in Ha. apply mem_In in Ha. now rewrite Ha in E.
Qed.

(** The script of C77-C80, used by [python3 make.py out/app]. *)
Lemma word_made x : mem (meaning "/w" pscript x) (flat_map (makes "/w" "/h" no_glob) pscript) = true -> In (meaning "/w" pscript x) (flat_map (makes "/w" "/h" no_glob) pscript).
Proof. apply mem_In. Qed.
Notation wrun := (do_process "/w" "/h" (on_path pdisk) no_glob no_fail (pscript ++ [SSource "./out/app"]) "/w/out/app" 2 pfs 1).
Lemma word_run : exists kind c1 objs sv s,
  commanded "/w" "/h" (on_path pdisk) no_glob false no_info pscript (Some "libs") ["./out/app"] 2 pfs 1 kind c1 objs sv s /\
  succeeded objs s /\ contents (w_fs (s_world s)) "/w/out/app" = Some "o:src+main" /\ contents (w_fs (s_world s)) "/w/out/a.h" = Some "hdr".
Proof.
  assert (T : on_ran (wrun pchoices) done_test = true) by (vm_compute; reflexivity).
  destruct (on_ran_ok _ _ T) as (r & E & H). clear T. pose proof (do_process_ok _ _ _ _ _ _ _ _ _ _ _ _ E) as B. clear E. unfold done_test in H.
  apply andb_prop in H. destruct H as [H H2]. apply andb_prop in H. destruct H as [H H1]. apply andb_prop in H2. destruct H2 as [H2 H3].
  exists (rn_kind r), (rn_core r), (rn_objs r), (rn_solver r), (rn_state r).
  split; [eapply (building_command "/w" "/h" pfs (on_path pdisk) no_glob pscript pfs_ok pscript_ok); [apply word_made; vm_compute; reflexivity|exact B]|].
  split; [now apply fine_ok|]. split; now apply text_eq.
Qed.
Lemma word_middle : exists kind c1 objs sv s,
  commanded "/w" "/h" (on_path pdisk) no_glob false no_info pscript (Some "libs") ["./out/app"] 2 pfs 1 kind c1 objs sv s /\
  s_main s = MJoin /\ no_rule_failed pproj (s_world s) /\ contents (w_fs (s_world s)) "/w/out/a.h" = Some "hdr".
Proof.
  assert (T : on_ran (wrun (firstn 8 pchoices)) middle_test = true) by (vm_compute; reflexivity).
  destruct (on_ran_ok _ _ T) as (r & E & H). clear T. pose proof (do_process_ok _ _ _ _ _ _ _ _ _ _ _ _ E) as B. clear E. unfold middle_test in H.
  apply andb_prop in H. destruct H as [H H2]. apply andb_prop in H. destruct H as [H H1]. apply andb_prop in H2. destruct H2 as [H2 H3].
  exists (rn_kind r), (rn_core r), (rn_objs r), (rn_solver r), (rn_state r).
  split; [eapply (building_command "/w" "/h" pfs (on_path pdisk) no_glob pscript pfs_ok pscript_ok); [apply word_made; vm_compute; reflexivity|exact B]|].
  split; [unfold returned in H; destruct (s_main (rn_state r)); [reflexivity|discriminate]|]. split; [now apply all_ran_well_ok|]. now apply text_eq.
Qed.
Lemma pcalls : calls_for "/w" "/h" no_glob pscript (Some "libs") ["./out/app"] "./out/app" "makefile" /\
  calls_for "/w" "/h" no_glob pscript (Some "libs") ["clean"] "libs" "clean" /\
  In (meaning "/w" pscript "./out/app") (flat_map (makes "/w" "/h" no_glob) pscript) /\ In (meaning "/w" pscript "libs") (flat_map (makes "/w" "/h" no_glob) pscript).
Proof.
  split; [now apply cf_target|]. split; [apply cf_default_action; [reflexivity|right; now left|apply free_wordb_ok; vm_compute; reflexivity]|].
  split; apply word_made; vm_compute; reflexivity.
Qed.
Lemma pcommands : command_history "/w" "/h" no_glob pscript pfs 1.
Proof.
  apply ch_start.
  - intros p m n. unfold pfs. destruct (mem p _); [intros [= <- <-]; auto|].
    destruct (String.eqb p "/w/src.c"); [intros [= <- <-]; auto|]. destruct (String.eqb p "/w/a.h"); [intros [= <- <-]; auto|].
    destruct (String.eqb p "/w/main.c"); [intros [= <- <-]; auto|]. destruct (String.eqb p "/w/make.py"); [intros [= <- <-]; auto|discriminate].
  - intros p (f & ds & b & H). apply pproj_cases in H.
    destruct H as [[-> E]|[[-> E]|[[-> E]|[[-> E]|[_ E]]]]]; try discriminate; reflexivity.
  - intros p m [H|(f & ds & b & H)]; apply pproj_cases in H; destruct H as [[-> E]|[[-> E]|[[-> E]|[[-> E]|[Hp E]]]]]; try discriminate.
    destruct Hp as [<-|[<-|[<-|[<-|[]]]]]; discriminate.
Qed.

(** [python3 make.py clean] after a build, with the file set as default target: its files go, the program stays. *)
Definition cdisk : list string := pdisk ++ ["/w/out"; "/w/out/lib"; "/w/out/lib/a.o"; "/w/out/a.h"; "/w/out/app"].
Definition cfs : fsys := fun p =>
  if mem p ["/w/out"; "/w/out/lib"] then Some (2, Dir) else
  if String.eqb p "/w/out/lib/a.o" then Some (2, Reg "o:src") else
  if String.eqb p "/w/out/a.h" then Some (2, Reg "hdr") else
  if String.eqb p "/w/out/app" then Some (2, Reg "o:src+main") else pfs p.
Lemma cfs_ok : disk_ok "/w" (present cfs) (on_path cdisk).
Proof.
  apply present_ok; [|reflexivity..]. intros p. unfold present, cfs, pfs, on, cdisk, pdisk, mem. cbn [existsb app].
  destruct (String.eqb_spec p "/w/out"), (String.eqb_spec p "/w/out/lib"), (String.eqb_spec p "/w/out/lib/a.o"), (String.eqb_spec p "/w/out/a.h"), (String.eqb_spec p "/w/out/app");
  subst; try reflexivity; cbn [orb];
  destruct (String.eqb_spec p "/"), (String.eqb_spec p "/w"), (String.eqb_spec p "/w/src.c"), (String.eqb_spec p "/w/a.h"), (String.eqb_spec p "/w/main.c"), (String.eqb_spec p "/w/make.py"); reflexivity.
Qed.
Lemma cscript_ok : in_order "/w" "/h" no_glob (on_path cdisk) pscript.
Proof. apply in_orderb_ok. vm_compute. reflexivity. Qed.
Lemma clean_run : exists fs', cleaned "/w" "/h" (on_path cdisk) no_glob no_info pscript (Some "libs") ["clean"] 2 cfs fs' /\
  fs' "/w/out/lib/a.o" = None /\ fs' "/w/out/a.h" = None /\ fs' "/w/out/app" = cfs "/w/out/app" /\ fs' "/w/src.c" = cfs "/w/src.c" /\ cfs "/w/out/a.h" <> None.
Proof.
  destruct pcalls as (_ & C & _ & M).
  destruct (clean_runs "/w" "/h" cfs (on_path cdisk) no_glob pscript cfs_ok cscript_ok no_info (Some "libs") ["clean"] "libs" 2 no_other) as [f0 H];
    [intros i; eexists; reflexivity|exact C|exact M|].
  destruct (H f0 (le_n _)) as (st & _ & f1 & H1). destruct (H1 f1 (le_n _)) as (i & c1 & ca1 & fs' & ca' & _ & _ & K). exists fs'. split; [exact K|].
  destruct (clean_removes "/w" "/h" cfs (on_path cdisk) no_glob pscript cfs_ok cscript_ok no_info (Some "libs") ["clean"] "libs" 2 fs' C M K) as [A B].
  assert (Cone : forall p, In p ["/w/out/lib/a.o"; "/w/out/a.h"] -> is_rule pproj p /\ p_cone pproj (meaning "/w" pscript "libs") p).
  { change (meaning "/w" pscript "libs") with "libs". intros p Hp. split.
    - unfold is_rule. rewrite pproj_eq. destruct Hp as [<-|[<-|[]]]; cbn; eauto.
    - apply Relation_Operators.rt_step. exists ["/w/out/lib/a.o"; "/w/out/a.h"]. split; [exact Hp|]. left. now rewrite pproj_eq. }
  assert (Keep : forall p, ~ p_cone pproj "libs" p \/ ~ is_rule pproj p -> fs' p = cfs p).
  { intros p Hp. destruct (fs' p) as [[m n]|] eqn:E1; destruct (cfs p) as [[m' n']|] eqn:E2.
    - assert (X : fs' p = cfs p \/ fs' p <> cfs p).
      { rewrite E1, E2. destruct (Nat.eq_dec m m') as [->|N]; [|right; congruence]. destruct n as [v|], n' as [v'|]; try (right; congruence); [|now left].
        destruct (string_dec v v') as [->|N]; [now left|right; congruence]. }
      destruct X as [X|X]; [congruence|]. destruct (B p X) as (_ & _ & Y & Z). destruct Hp; contradiction.
    - assert (X : fs' p <> cfs p) by congruence. destruct (B p X) as (_ & _ & Y & Z). destruct Hp; contradiction.
    - assert (X : fs' p <> cfs p) by congruence. destruct (B p X) as (_ & _ & Y & Z). destruct Hp; contradiction.
    - reflexivity. }
  split; [apply A; [apply Cone; now left|apply Cone; now left|reflexivity]|].
  split; [apply A; [apply Cone; right; now left|apply Cone; right; now left|reflexivity]|].
  assert (Below : forall p, p_cone pproj "libs" p -> In p ["libs"; "/w/out/lib/a.o"; "/w/out/a.h"; "/w/src.c"; "/w/a.h"]).
  { intros p Hp. apply Operators_Properties.clos_rt_rtn1 in Hp. induction Hp as [|y z (ds & Hd & Hy) _ IH]; [now left|].
    rewrite !pproj_eq in Hy. destruct IH as [<-|[<-|[<-|[<-|[<-|[]]]]]]; cbn in Hy; destruct Hy as [Hy|(f & b & Hy)]; try discriminate; injection Hy; intros; subst; cbn in Hd |- *; intuition. }
  split; [apply Keep; left; intros Hp; apply Below in Hp; cbn in Hp; intuition discriminate|].
  split; [apply Keep; right; intros (f & ds & b & Hp); rewrite pproj_eq in Hp; discriminate|]. discriminate.
Qed.

(** [makefile("build/app", [], ...)], [licant.ex("build/app")]: what [python3 make.py build] does depends on the directory. *)
Definition bscript : list stmt := [SRule false "build/app" [] (fun _ => Some "app")].
Definition bfs0 : fsys := fun p => if mem p ["/"; "/w"] then Some (0, Dir) else None.
Definition bfs1 : fsys := fun p => if mem p ["/"; "/w"; "/w/build"] then Some (0, Dir) else None.
Lemma bfs0_ok : disk_ok "/w" (present bfs0) (on_path ["/"; "/w"]).
Proof. apply present_ok; [|reflexivity..]. intros p. unfold present, bfs0, on, mem. now destruct (existsb _ _). Qed.
Lemma bfs1_ok : disk_ok "/w" (present bfs1) (on_path ["/"; "/w"; "/w/build"]).
Proof. apply present_ok; [|reflexivity..]. intros p. unfold present, bfs1, on, mem. now destruct (existsb _ _). Qed.
Lemma bproj p : is_file (project_of "/w" "/h" no_glob bscript) p -> p = "/w/build/app".
Proof.
  unfold is_file, is_rule, project_of. cbn [first_decl bscript]. unfold decl_of. cbn [rule_of].
  change (realpath "/w" "build/app") with "/w/build/app". destruct (String.eqb_spec "/w/build/app" p) as [<-|N]; [reflexivity|].
  cbn [set_of is_name existsb flat_map mentions sources_of deps_of expand_names app]. intros [H|(f & ds & b & H)]; discriminate.
Qed.
Lemma ok_some {A} (r : res A) f : match r with Ok a => f a | _ => False end -> exists a, r = Ok a /\ f a.
Proof. destruct r; [eauto|contradiction..]. Qed.
Lemma word_depends_on_disk :
  exists cwd home glob_ l default w fs fs' exists_ exists_', let canon := realpath cwd in
  disk_ok cwd (present fs) exists_ /\ in_order cwd home glob_ exists_ l /\ disk_ok cwd (present fs') exists_' /\ in_order cwd home glob_ exists_' l /\
  (forall p, is_file (project_of cwd home glob_ l) p -> fs p = fs' p) /\ In (meaning cwd l default) (flat_map (makes cwd home glob_) l) /\
  exists fuel st st' q q',
    mrun canon exists_ glob_ home fuel 0 (map op_of l) [empty_reg] = Ok st /\ mrun canon exists_' glob_ home fuel 0 (map op_of l) [empty_reg] = Ok st' /\
    mcli canon (kind_of (reg st 0)) no_other fs fuel no_info (set_threads (fst (reg st 0)) 2) (Some default) [w] = Ok q /\
    mcli canon (kind_of (reg st' 0)) no_other fs' fuel no_info (set_threads (fst (reg st' 0)) 2) (Some default) [w] = Ok q' /\
    t_name (obj (q_core q) (q_obj q)) = canon w /\ q_act q = "makefile" /\
    t_name (obj (q_core q') (q_obj q')) = canon default /\ q_act q' = w.
Proof.
  exists "/w", "/h", no_glob, bscript, "build/app", "build", bfs0, bfs1, (on_path ["/"; "/w"]), (on_path ["/"; "/w"; "/w/build"]). cbv zeta.
  split; [exact bfs0_ok|]. split; [apply in_orderb_ok; vm_compute; reflexivity|]. split; [exact bfs1_ok|]. split; [apply in_orderb_ok; vm_compute; reflexivity|].
  split; [intros p H; apply bproj in H; now subst|]. split; [apply mem_In; vm_compute; reflexivity|].
  exists 20.
  assert (A : exists st, mrun (realpath "/w") (on_path ["/"; "/w"]) no_glob "/h" 20 0 (map op_of bscript) [empty_reg] = Ok st /\
    exists q, mcli (realpath "/w") (kind_of (reg st 0)) no_other bfs0 20 no_info (set_threads (fst (reg st 0)) 2) (Some "build/app") ["build"] = Ok q /\
    t_name (obj (q_core q) (q_obj q)) = realpath "/w" "build" /\ q_act q = "makefile").
  { apply (ok_some _ (fun st => exists q, mcli (realpath "/w") (kind_of (reg st 0)) no_other bfs0 20 no_info (set_threads (fst (reg st 0)) 2) (Some "build/app") ["build"] = Ok q /\
    t_name (obj (q_core q) (q_obj q)) = realpath "/w" "build" /\ q_act q = "makefile")).
    vm_compute. eexists. split; [reflexivity|]. split; reflexivity. }
  assert (B : exists st, mrun (realpath "/w") (on_path ["/"; "/w"; "/w/build"]) no_glob "/h" 20 0 (map op_of bscript) [empty_reg] = Ok st /\
    exists q, mcli (realpath "/w") (kind_of (reg st 0)) no_other bfs1 20 no_info (set_threads (fst (reg st 0)) 2) (Some "build/app") ["build"] = Ok q /\
    t_name (obj (q_core q) (q_obj q)) = realpath "/w" "build/app" /\ q_act q = "build").
  { apply (ok_some _ (fun st => exists q, mcli (realpath "/w") (kind_of (reg st 0)) no_other bfs1 20 no_info (set_threads (fst (reg st 0)) 2) (Some "build/app") ["build"] = Ok q /\
    t_name (obj (q_core q) (q_obj q)) = realpath "/w" "build/app" /\ q_act q = "build")).
    vm_compute. eexists. split; [reflexivity|]. split; reflexivity. }
  destruct A as (st & A1 & q & A2 & A3 & A4). destruct B as (st' & B1 & q' & B2 & B3 & B4). exists st, st', q, q'. auto 10.
Qed.
