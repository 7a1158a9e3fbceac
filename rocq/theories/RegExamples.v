(** Concrete scripts: witnesses of refutations and non-vacuity examples for C33, C39, C65. *)
From Verif Require Import PyBase PyPath PathProofs SolverModel SpecGraph InvokerModel SpecTrace InvokerExec CoreModel SpecCore CoreProofs NeedProofs
  CoreExamples MakeModel MakeEval SpecMake MakeProofs MakeFacts MakeBuild MakeThms MakeClean MakeExec MakeExamples
  RegModel SpecUtil UtilProofs SpecReg RegProofs RegScript RegBuild RegTotal RegCopy.
Local Open Scope string_scope.
Local Open Scope list_scope.

(** The files and directories of a disk, the current directory being /w. *)
Definition on (l : list string) (p : string) : bool := existsb (String.eqb p) l.
Definition on_path (l : list string) (p : string) : bool := if String.eqb p "" then false else on l (realpath "/w" p).
Lemma on_ok l : forallb (fun p => on l (dirname p)) l = true -> on l "/w" = true -> disk_ok "/w" (on l) (on_path l).
Proof.
  intros H1 H2. split; [|split].
  - intros p Hp. unfold on in Hp. apply existsb_exists in Hp. destruct Hp as (q & Hq & E). apply String.eqb_eq in E. subst q.
    rewrite forallb_forall in H1. now apply H1.
  - exact H2.
  - intros p Hp. unfold on_path. destruct (String.eqb_spec p ""); [contradiction|reflexivity].
Qed.
Definition disk1 := ["/"; "/w"; "/w/s"].
Lemma disk1_ok : disk_ok "/w" (on disk1) (on_path disk1).
Proof. apply on_ok; reflexivity. Qed.
Definition put_hello : buildfun := fun s => match s "/w/s" with Some v => Some v | None => None end.

(** One output, two levels of missing directories. *)
Definition script1 : list mop := [OFtarget "out/a/x" put_hello ["s"]].
Notation state1 := (mrun (realpath "/w") (on_path disk1) (fun _ => []) "/h" 10 0 script1 (repeat empty_reg 1)).
Definition the_regs (r : res regs) : regs := match r with Ok st => st | _ => [] end.
Definition is_ok {A} (r : res A) : bool := match r with Ok _ => true | _ => false end.
Lemma the_regs_eq r : is_ok r = true -> r = Ok (the_regs r).
Proof. destruct r; [reflexivity|discriminate..]. Qed.
Lemma state1_ok : state1 = Ok (the_regs state1).
Proof. apply the_regs_eq. vm_compute. reflexivity. Qed.

Lemma above_base a p : above a p -> p = "/w/out/a/x" ->
  a = "/w/out/a" \/ a = "/w/out" \/ a = "/w" \/ a = "/".
Proof.
  induction 1 as [p Hp|a p Ha IH Hn]; intros E.
  - subst p. vm_compute. tauto.
  - destruct (IH E) as [->|[->|[->| ->]]]; [right; left; reflexivity|right; right; left; reflexivity|right; right; right; reflexivity|].
    exfalso. apply Hn. reflexivity.
Qed.
Lemma fname_x : file_name "x".
Proof.
  split; [discriminate|]. split; [discriminate|]. split; [discriminate|]. vm_compute. intros [H|[]]. discriminate.
Qed.
Lemma script1_ok : script_ok "/w" "/h" (on disk1) script1.
Proof.
  split; [reflexivity|]. split.
  - intros o p [<-|[]] [<-|[]]. split; [exact fname_x|reflexivity].
  - intros o nm [<-|[]] [<-|[]] (_ & o2 & p & [<-|[]] & [<-|[]] & Ha).
    assert (E : realpath "/w" (expanduser "/h" "out/a/x") = "/w/out/a/x") by (vm_compute; reflexivity).
    rewrite E in Ha. destruct (above_base _ _ Ha eq_refl) as [H|[H|[H|H]]]; vm_compute in H; discriminate.
Qed.

(** The build of that output. *)
Definition fs1 : fsys := fun p =>
  if String.eqb p "/w/s" then Some (1, Reg "hello") else if String.eqb p "/w" then Some (0, Dir)
  else if String.eqb p "/" then Some (0, Dir) else None.
Lemma present1 p : present fs1 p = on disk1 p.
Proof.
  unfold present, fs1, on, disk1. cbn [existsb].
  destruct (String.eqb_spec p "/w/s") as [->|]; [reflexivity|]. destruct (String.eqb_spec p "/w") as [->|]; [reflexivity|].
  destruct (String.eqb_spec p "/"); reflexivity.
Qed.
Lemma fs1_ok : disk_ok "/w" (present fs1) (on_path disk1).
Proof.
  destruct disk1_ok as (A & B & C). split; [|split].
  - intros p. rewrite !present1. apply A.
  - rewrite present1. exact B.
  - intros p Hp. rewrite present1. now apply C.
Qed.
Lemma script1_ok' : script_ok "/w" "/h" (present fs1) script1.
Proof.
  destruct script1_ok as (A & B & C). split; [exact A|]. split; [exact B|].
  intros o nm Ho Hn (Hx & Hy). apply (C o nm Ho Hn). split; [now rewrite <- present1|exact Hy].
Qed.
Definition ops1 : list cop :=
  [OpNew Updatable "/w/out" []; OpNew Updatable "/w/out/a" ["out"]; OpNew Updatable "/w/s" [];
   OpNew Updatable "/w/out/a/x" ["s"; "out/a"]].
Definition core1 : core := crun (realpath "/w") ops1 (new_core None).
Definition kinds1 (i : nat) : mkind :=
  match i with 0 => MDir | 1 => MDir | 2 => MSource | 3 => MFile false put_hello | _ => MOther end.
Definition proj1_ : project := fun p =>
  if String.eqb p "/w/s" then Some DSource
  else if String.eqb p "/w/out/a/x" then Some (DRule false ["/w/s"] put_hello) else None.
Notation reg1 := (reg (the_regs state1) 0).
Lemma reg1_eq : reg1 = (core1, [MDir; MDir; MSource; MFile false put_hello]).
Proof. vm_compute. reflexivity. Qed.
Lemma kind1_eq i : kind_of reg1 i = kinds1 i.
Proof.
  rewrite reg1_eq. destruct i as [|[|[|[|i]]]]; try reflexivity. unfold kind_of. cbn [snd nth]. now destruct i.
Qed.
Lemma core1_keys : c_targets core1 = [("/w/out", 0); ("/w/out/a", 1); ("/w/s", 2); ("/w/out/a/x", 3)].
Proof. vm_compute. reflexivity. Qed.
Lemma core1_process kd : process_core (realpath "/w") kd core1.
Proof. apply pc_registered. Qed.
Lemma core1_coherent : coherent (realpath "/w") core1.
Proof.
  intros nm i H. left. rewrite core1_keys in *. destruct H as [[= <- <-]|[[= <- <-]|[[= <- <-]|[[= <- <-]|[]]]]]; vm_compute; tauto.
Qed.
Lemma core1_root : exists nm, In (nm, 3) (c_targets core1).
Proof. exists "/w/out/a/x". rewrite core1_keys. cbn. tauto. Qed.
Lemma core1_res nm j : ~ In nm (map fst (c_targets core1)) -> In (realpath "/w" nm, j) (c_targets core1) -> resolves (realpath "/w") core1 nm j.
Proof. intros A B. now right. Qed.
Lemma res_out : resolves (realpath "/w") core1 "out" 0.
Proof. apply core1_res; rewrite core1_keys; vm_compute; intuition discriminate. Qed.
Lemma res_outa : resolves (realpath "/w") core1 "out/a" 1.
Proof. apply core1_res; rewrite core1_keys; vm_compute; intuition discriminate. Qed.
Lemma res_s : resolves (realpath "/w") core1 "s" 2.
Proof. apply core1_res; rewrite core1_keys; vm_compute; intuition discriminate. Qed.
Lemma proj1_files p : is_file proj1_ p -> p = "/w/s" \/ p = "/w/out/a/x".
Proof.
  unfold is_file, is_rule, proj1_. destruct (String.eqb_spec p "/w/s"); [auto|]. destruct (String.eqb_spec p "/w/out/a/x"); [auto|].
  intros [H|(f & ds & b & H)]; discriminate.
Qed.
Lemma core1_implements : implements (realpath "/w") kinds1 proj1_ core1 3.
Proof.
  intros j Hj. apply (cone_bound _ _ _ _ (proj1 (process_ready _ _ _ (core1_process kinds1))) core1_root) in Hj.
  change (List.length (c_heap core1)) with 4 in Hj.
  destruct j as [|[|[|[|j]]]]; [| | | |lia]; (split; [reflexivity|]); cbn [kinds1].
  - split; [|exists []; split; [constructor|reflexivity]].
    intros p Hp Hf. destruct (proj1_files p Hf) as [->| ->]; (destruct Hp as [Hp|Hp]; [discriminate|]);
      vm_compute in Hp; intuition discriminate.
  - split; [|exists [0]; split; [constructor; [exact res_out|constructor]|reflexivity]].
    intros p Hp Hf. destruct (proj1_files p Hf) as [->| ->]; (destruct Hp as [Hp|Hp]; [discriminate|]);
      vm_compute in Hp; intuition discriminate.
  - split; [reflexivity|]. exists []. split; [constructor|reflexivity].
  - exists ["/w/s"]. split; [reflexivity|]. exists [2; 1]. split; [|reflexivity].
    constructor; [exact res_s|]. constructor; [exact res_outa|constructor].
Qed.
Notation build1 := (do_build (realpath "/w") kinds1 false no_fail core1 3 fs1 1 [] 1 [CGet 0; CFin 0; CFin 0; CFin 0; CFin 0; CJoin]).
Notation built1 := (the_built build1).
Lemma build1_ok : is_some build1 = true.
Proof. vm_compute. reflexivity. Qed.
Lemma build1_facts :
  (bfs built1 "/w/out/a/x", bfs built1 "/w/out/a", bran built1) =
  (Some (4, Reg "hello"), Some (3, Dir), [("/w/out", true); ("/w/out/a", true); ("/w/out/a/x", true)]).
Proof. vm_compute. reflexivity. Qed.
Lemma build1_of : build_of (realpath "/w") kinds1 no_other false core1 3 fs1 1 [] (bu_core built1) (bu_objs built1) (bu_state built1).
Proof.
  eapply do_build_of; [apply core1_process|apply core1_coherent|apply core1_root| |exact (the_built_eq _ build1_ok)].
  intros j x _ _ [=].
Qed.
Lemma build1_started :
  nth_error (bu_objs built1) 0 = Some 3 /\ In (EStart 0) (s_log (bu_state built1)).
Proof. vm_compute. split; [reflexivity|]. tauto. Qed.

(** A file set with the name of a directory that has to be made: the output depends on the
    set, which depends on the output, and on no directory. *)
Definition script2 : list mop := [OFtarget "out/x" put_hello ["s"]; OSet "out" ["out/x"] []].
Lemma clash : exists ops st i a,
  mrun (realpath "/w") (on_path disk1) (fun _ => []) "/h" 10 0 ops (repeat empty_reg 1) = Ok st /\
  In (a ++ "/x", i)%string (c_targets (fst (reg st 0))) /\ makes_file (kind_of (reg st 0) i) /\
  above a (t_name (obj (fst (reg st 0)) i)) /\ on disk1 a = false /\
  (forall d, clos_trans nat (obj_dep (realpath "/w") (fst (reg st 0))) i d -> kind_of (reg st 0) d <> MDir) /\
  clos_trans nat (obj_dep (realpath "/w") (fst (reg st 0))) i i.
Proof.
  exists script2. eexists. exists 2, "/w/out". split; [vm_compute; reflexivity|].
  set (st := [_]). set (c := fst (reg st 0)).
  assert (R : forall nm j, resolves (realpath "/w") c nm j ->
     (nm = "s" -> j = 1) /\ (nm = "out" -> j = 3) /\ (nm = "out/x" -> j = 2)).
  { intros nm j H. split; [intros ->|split; intros ->]; vm_compute in H; intuition congruence. }
  assert (S2 : forall j, obj_dep (realpath "/w") c 2 j -> j = 1 \/ j = 3).
  { intros j (d & Hd & Hr). specialize (R _ _ Hr). vm_compute in Hd. destruct Hd as [<-|[<-|[]]]; intuition. }
  assert (S3 : forall j, obj_dep (realpath "/w") c 3 j -> j = 2).
  { intros j (d & Hd & Hr). specialize (R _ _ Hr). vm_compute in Hd. destruct Hd as [<-|[]]; intuition. }
  assert (S1 : forall j, ~ obj_dep (realpath "/w") c 1 j).
  { intros j (d & Hd & Hr). vm_compute in Hd. exact Hd. }
  split; [vm_compute; tauto|]. split; [exact Logic.I|].
  split; [apply (ab_dir "/w/out/x"); discriminate|]. split; [reflexivity|]. split.
  - assert (K : forall i d, clos_trans nat (obj_dep (realpath "/w") c) i d -> i = 1 \/ i = 2 \/ i = 3 -> d = 1 \/ d = 2 \/ d = 3).
    { induction 1 as [i d H|i m d _ IH1 _ IH2]; [|auto]. intros [->|[->| ->]]; [destruct (S1 _ H)|apply S2 in H|apply S3 in H]; tauto. }
    intros d H. destruct (K 2 d H) as [->|[->| ->]]; [tauto|discriminate..].
  - apply t_trans with 3; apply t_step.
    + exists "out". split; [vm_compute; tauto|]. left. vm_compute. tauto.
    + exists "out/x". split; [vm_compute; tauto|]. right. vm_compute. split; [intuition discriminate|tauto].
Qed.

(** A trailing slash in the name of an output. *)
Lemma trailing_slash : exists st i,
  mrun (realpath "/w") (on_path disk1) (fun _ => []) "/h" 10 0 [OFtarget "out/" put_hello ["s"]] (repeat empty_reg 1) = Ok st /\
  In ("/w/out", i) (c_targets (fst (reg st 0))) /\ obj_dep (realpath "/w") (fst (reg st 0)) i i.
Proof.
  eexists. exists 2. split; [vm_compute; reflexivity|]. split; [vm_compute; tauto|].
  exists "out". split; [vm_compute; tauto|]. right. vm_compute. split; [intuition discriminate|tauto].
Qed.

(** ** C39 *)
Notation copied := (mrun (realpath "/w") (on_path disk1) (fun _ => []) "/h" 10 0
  (copies [("d/t", "s", put_hello); ("d/e/u", "d/t", put_hello)]) (repeat empty_reg 1)).
Lemma copied_ok : copied = Ok (the_regs copied).
Proof. apply the_regs_eq. vm_compute. reflexivity. Qed.

Notation elsewhere := (copy (realpath "/w") (on_path disk1) (fun _ => []) "/h" 10 (repeat empty_reg 2) 1 "d/t" "s" [] put_hello).
Lemma elsewhere_unusable : exists st i, elsewhere = Ok st /\
  In ("/w/d/t", i) (c_targets (fst (reg st 1))) /\ ~ cone_registered (realpath "/w") (fst (reg st 1)) i.
Proof.
  assert (E : elsewhere = Ok (the_regs elsewhere)) by (apply the_regs_eq; vm_compute; reflexivity).
  destruct (copy_elsewhere "/w" "/h" _ _ _ _ _ _ _ _ _ _ E) as (i & H1 & H2).
  - discriminate.
  - cbn. lia.
  - reflexivity.
  - intros [j Hj]. vm_compute in Hj. intuition.
  - vm_compute. discriminate.
  - exists (the_regs elsewhere), i. split; [exact E|]. split; [exact H1|exact H2].
Qed.

(** ** C65 *)
Definition disk2 := ["/"; "/w"; "/w/s"; "/w/o"].
Lemma disk2_ok : disk_ok "/w" (on disk2) (on_path disk2).
Proof. apply on_ok; reflexivity. Qed.
(** The copy of an output is declared before the rule of that output. *)
Definition script3 : list mop := [OCopyFn "t" "o" [] put_hello; OMakefile false "o" ["s"] put_hello].
Lemma leftovers : exists ops st1 st2 i1 i2,
  mrun (realpath "/w") (on_path disk1) (fun _ => []) "/h" 10 0 ops (repeat empty_reg 1) = Ok st1 /\
  mrun (realpath "/w") (on_path disk2) (fun _ => []) "/h" 10 0 ops (repeat empty_reg 1) = Ok st2 /\
  (forall p, p <> "/w/o" -> on disk1 p = on disk2 p) /\
  resolves (realpath "/w") (fst (reg st1 0)) "o" i1 /\ kind_of (reg st1 0) i1 = MFile false put_hello /\
  resolves (realpath "/w") (fst (reg st2 0)) "o" i2 /\ kind_of (reg st2 0) i2 = MSource /\
  (exists i, In ("/w/o", i) (c_targets (fst (reg st2 0))) /\ kind_of (reg st2 0) i = MFile false put_hello).
Proof.
  exists script3. eexists. eexists. exists 3, 0. split; [vm_compute; reflexivity|]. split; [vm_compute; reflexivity|].
  split. { intros p Hp. unfold on, disk1, disk2. cbn [existsb]. apply String.eqb_neq in Hp. now rewrite Hp. }
  split. { right. vm_compute. split; [intuition discriminate|tauto]. }
  split; [vm_compute; reflexivity|].
  split. { left. vm_compute. tauto. }
  split; [vm_compute; reflexivity|].
  exists 3. split; [vm_compute; tauto|vm_compute; reflexivity].
Qed.
