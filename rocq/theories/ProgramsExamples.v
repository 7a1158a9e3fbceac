(** Concrete runs for C89. *)
From Coq Require Import Permutation Relations.
From Verif Require Import PyBase PyPath PathProofs SolverModel SpecGraph InvokerModel SpecTrace CoreModel SpecCore CoreProofs NeedProofs CoreThms MakeModel UtilModel SpecMake
  MakeProofs MakeFacts MakeBuild MakeClaims MakeClean FormatModel RegModel CliModel SpecUtil UtilProofs SpecReg RegTotal RegExamples MakeExec MakeExamples SpecProject ProjectProofs ProjectBuild ProjectExamples
  SpecTrack TrackProofs SpecCxxTrack CxxTrack TrackExamples IdleProofs CxxIdle IdleExamples SpecEdit EditProofs EditExamples ModulesModel CxxModel SpecCxxScript ProgramsModel SpecPrograms.
From Verif Require Import InvokerExec.
Local Open Scope string_scope.
Local Open Scope list_scope.

(** *** What a process changes, for scripts that need not be in order *)
Definition coherentb (canon : string -> string) (c : core) : bool :=
  forallb (fun x => match core_get canon c (t_name (obj c (snd x))) with Ok j => Nat.eqb j (snd x) | _ => false end) (c_targets c).
Definition places (r : ran) : list string :=
  flat_map (fun j => t_name (obj (rn_core r) j) :: match rn_kind r j with MDir => ancestors (t_name (obj (rn_core r) j)) | _ => [] end)
    (seq 0 (List.length (c_heap (rn_core r)))).
Definition no_others (r : ran) : bool :=
  forallb (fun j => match rn_kind r j with MOther => false | _ => true end) (seq 0 (List.length (c_heap (rn_core r)))).
Lemma ran_places cwd home exists_ glob_ on_fail l x th fs now cs r : do_process cwd home exists_ glob_ on_fail l x th fs now cs = Some r ->
  coherentb (realpath cwd) (rn_core r) = true -> no_others r = true ->
  forall p, ~ In p (places r) -> w_fs (s_world (rn_state r)) p = fs p.
Proof.
  intros Hr Hc Hn p Hp. pose proof (do_process_ok _ _ _ _ _ _ _ _ _ _ _ _ Hr) as B. clear Hr.
  destruct B as (fuel & st & i & oi & fuel' & ca1 & order & so & E & Ek & Eg & Ee & Ho & Hso & Hru & Hx).
  destruct (script_process cwd home exists_ glob_ l fuel st E th) as (cops & _ & Pc). rewrite <- Ek in *.
  pose proof (process_ready _ _ _ Pc) as Rd. destruct (mevaluate_right _ _ _ _ _ _ _ _ _ Rd Ee) as (Rd1 & S & _).
  assert (Co1 : coherent (realpath cwd) (rn_core r)).
  { intros nm j Hj. unfold coherentb in Hc. rewrite forallb_forall in Hc. specialize (Hc _ Hj). cbn [snd] in Hc.
    destruct (core_get (realpath cwd) (rn_core r) (t_name (obj (rn_core r) j))) as [k| |] eqn:Eg'; try discriminate. apply Nat.eqb_eq in Hc. subst k.
    apply (get_resolves _ _ _ _ (proj1 Rd1)). exact Eg'. }
  assert (Co : coherent (realpath cwd) (set_threads (fst (reg st 0)) th)) by (eapply coherent_static; [apply static_sym; exact S|exact Co1]).
  apply (get_resolves _ _ _ _ (proj1 Rd)) in Eg.
  assert (Reg : exists nm, In (nm, i) (c_targets (set_threads (fst (reg st 0)) th))) by (destruct Eg as [Eg|[_ Eg]]; eauto).
  assert (Bo : build_of (realpath cwd) (rn_kind r) oi false (set_threads (fst (reg st 0)) th) i fs now [] (rn_core r) (rn_objs r) (rn_state r)).
  { split; [exact Pc|]. split; [exact Co|]. split; [exact Reg|]. split; [intros j y _ _ H; discriminate H|].
    assert (Th : ru_threads (rn_core r) None = Some th).
    { destruct S as (_ & T & _). unfold ru_threads. rewrite <- T. reflexivity. }
    exists fuel', ca1, order, so, None, th, (rn_solver r). auto 10. }
  assert (Lt : forall j, in_cone (realpath cwd) (set_threads (fst (reg st 0)) th) i j -> j < List.length (c_heap (rn_core r))).
  { intros j Hj. destruct (cone_registered_name _ _ i j Reg Hj) as [nm Hj']. destruct S as (ES & _). rewrite ES in Hj'. exact (proj2 (proj1 Rd1) _ _ Hj'). }
  destruct (option_fs_dec (w_fs (s_world (rn_state r)) p) (fs p)) as [Eq|N]; [exact Eq|exfalso].
  destruct (build_frame _ _ _ _ _ _ _ _ _ _ _ _ Bo) with (p := p) as (j & Hj & [(-> & _)|(Kd & _ & Hd)]); [|exact N| |].
  - intros j Hj Kj. unfold no_others in Hn. rewrite forallb_forall in Hn. specialize (Hn j). rewrite Kj in Hn. discriminate Hn. apply in_seq. specialize (Lt j Hj). lia.
  - apply Hp. unfold places. apply in_flat_map. exists j. split; [apply in_seq; specialize (Lt j Hj); lia|]. left. symmetry. exact (static_name _ _ j S).
  - apply Hp. unfold places. apply in_flat_map. exists j. split; [apply in_seq; specialize (Lt j Hj); lia|]. rewrite Kd. rewrite (static_name _ _ j S) in Hd. destruct Hd as [->|Hd]; [now left|now right].
Qed.
Lemma ran_present' cwd home disk disk' glob_ on_fail l x th fs now cs r :
  do_process cwd home (on_path disk) glob_ on_fail l x th fs now cs = Some r ->
  coherentb (realpath cwd) (rn_core r) = true -> no_others r = true -> (forall p, present fs p = on disk p) ->
  forallb (fun p => Bool.eqb (present (w_fs (s_world (rn_state r))) p) (on (disk ++ disk') p)) (places r) = true ->
  forallb (fun p => mem p (places r)) disk' = true ->
  forall p, present (w_fs (s_world (rn_state r))) p = on (disk ++ disk') p.
Proof.
  intros Er Hc Hn Hp Ht Hn' p. destruct (in_dec string_dec p (places r)) as [Hin|Hout].
  - rewrite forallb_forall in Ht. apply Bool.eqb_prop. now apply Ht.
  - pose proof (ran_places _ _ _ _ _ _ _ _ _ _ _ _ Er Hc Hn p Hout) as E. unfold present in *. rewrite E, Hp.
    unfold on. rewrite existsb_app. destruct (existsb (String.eqb p) disk') eqn:E'; [|now rewrite orb_false_r].
    exfalso. apply existsb_exists in E'. destruct E' as (q & Hq & E'). apply String.eqb_eq in E'. subst q.
    rewrite forallb_forall in Hn'. apply Hout, mem_In. now apply Hn'.
Qed.

(** *** Two programs with a common source and different options
<<
    application("one", sources=["util.cpp"], defines=["ONE"], builddir="build")
    application("two", sources=["util.cpp"], defines=["TWO"], builddir="build")
>> *)
Definition pkw (d : string) : opts := [("sources", VList [EStr "util.cpp"]); ("defines", VList [EStr d]); ("builddir", VStr "build")].
(** The compiler: objects contain the command and the source. *)
Definition psh (cmd p : string) : buildfun := fun s =>
  if String.eqb p "/w/build/w/util.d" then Some "util.o: /w/util.cpp"
  else if String.eqb p "/w/build/w/util.o" then match s "/w/util.cpp" with Some v => Some (cmd ++ " # " ++ v)%string | None => None end
  else s "/w/build/w/util.o".
Definition pcall (name def : string) : ccall := CTask "application" name None None false (pkw def).
Definition pcalls : list (list string * string * ccall) := [([], "/w/x.py", pcall "one" "ONE"); ([], "/w/x.py", pcall "two" "TWO")].
Definition pcalls_at (s : ctx) : res (mlib * list stmt) :=
  ccalls_stmts psh "/w" "/h" standart_toolchain no_glob (fun d => s (realpath "/w" d)) 20 mlib0 pcalls.
Definition pscript (s : ctx) : list stmt := match pcalls_at s with Ok (_, l) => l | _ => [] end.
Definition plib (s : ctx) : mlib := match pcalls_at s with Ok (lib, _) => lib | _ => mlib0 end.
Definition pfs : fsys := simple_fs [("/w/util.cpp", "a")].
Definition pdisk := simple_disk [("/w/util.cpp", "a")].
Definition pl := pscript (contents pfs).
Definition pcs : list choice := [CGet 0; CFin 0; CFin 0; CFin 0; CFin 0; CFin 0; CFin 0; CFin 0; CJoin].
Notation pr := (do_process "/w" "/h" (on_path pdisk) no_glob no_fail pl "/w/one" 1 pfs 1 pcs).
Definition pfs1 : fsys := out_fs pr pfs.
Definition pnow1 : nat := S (out_now pr).
Definition pfs2 : fsys := fs_set pfs1 "/w/util.cpp" (Some (pnow1, Reg "new")).
Definition pdisk' := ["/w/one"; "/w/build/w/util.o"; "/w/build/w/util.d"; "/w/build"; "/w/build/w"].
Definition pl2 := pscript (contents pfs2).
Definition pcs2 : list choice := [CGet 0; CFin 0; CFin 0; CFin 0; CFin 0; CFin 0; CJoin].
Notation pr2 := (do_process "/w" "/h" (on_path (pdisk ++ pdisk')) no_glob no_fail pl2 "/w/one" 1 pfs2 pnow1 pcs2).
Definition made_with (def src : string) : string := ("c++ -c /w/util.cpp -o /w/build/w/util.o  -D" ++ def ++ " -std=c++17 -g   # " ++ src)%string.
Lemma pr_ok : on_ran pr (fun r => fine r && String.eqb (text r "/w/one") (made_with "TWO" "a") && coherentb (realpath "/w") (rn_core r) && no_others r
  && forallb (fun p => Bool.eqb (present (w_fs (s_world (rn_state r))) p) (on (pdisk ++ pdisk') p)) (places r) && forallb (fun p => mem p (places r)) pdisk') = true.
Proof. vm_compute. reflexivity. Qed.
Lemma pr2_ok : on_ran pr2 (fun r => fine r && String.eqb (text r "/w/one") (made_with "ONE" "new")) = true.
Proof. vm_compute. reflexivity. Qed.
Lemma pread : pcalls_at (contents pfs) = Ok (plib (contents pfs), pl).
Proof. unfold pl, pscript, plib. assert (E : exists x, pcalls_at (contents pfs) = Ok x) by (vm_compute; eauto). destruct E as [[a b] ->]. reflexivity. Qed.
Lemma pread2 : pcalls_at (contents pfs2) = Ok (plib (contents pfs2), pl2).
Proof. unfold pl2, pscript, plib. assert (E : exists x, pcalls_at (contents pfs2) = Ok x) by (vm_compute; eauto). destruct E as [[a b] ->]. reflexivity. Qed.
Lemma pdisk_ok : disk_ok "/w" (present pfs) (on_path pdisk).
Proof. apply present_ok; [apply simple_present|vm_compute; reflexivity..]. Qed.
Lemma ppresent1 p : present pfs1 p = on (pdisk ++ pdisk') p.
Proof.
  destruct (on_ran_ok _ _ pr_ok) as (r & Er & T). do 5 (apply andb_prop in T; destruct T as [T ?]). unfold pfs1. rewrite Er. cbn [out_fs].
  eapply ran_present'; eauto. apply simple_present.
Qed.
Lemma pdisk2_ok : disk_ok "/w" (present pfs2) (on_path (pdisk ++ pdisk')).
Proof.
  apply present_ok; [|vm_compute; reflexivity..]. intros p. rewrite <- ppresent1. unfold present, pfs2, fs_set.
  destruct (String.eqb_spec p "/w/util.cpp") as [->|]; [|reflexivity]. vm_compute. reflexivity.
Qed.
Lemma pbuilt : exists kind c1 objs sv s, building "/w" "/h" (on_path pdisk) no_glob false pl "/w/one" 1 pfs 1 kind c1 objs sv s /\ succeeded objs s /\
  w_fs (s_world s) = pfs1 /\ contents pfs1 "/w/one" = Some (made_with "TWO" "a").
Proof.
  destruct (on_ran_ok _ _ pr_ok) as (r & Er & T). do 5 (apply andb_prop in T; destruct T as [T ?]).
  exists (rn_kind r), (rn_core r), (rn_objs r), (rn_solver r), (rn_state r).
  split; [exact (do_process_ok _ _ _ _ _ _ _ _ _ _ _ _ Er)|]. unfold pfs1. rewrite Er. clear Er. cbn [out_fs]. split; [now apply fine_ok|]. split; [reflexivity|]. now apply text_eq.
Qed.
Lemma pbuilt2 : exists kind c1 objs sv s, building "/w" "/h" (on_path (pdisk ++ pdisk')) no_glob false pl2 "/w/one" 1 pfs2 pnow1 kind c1 objs sv s /\ succeeded objs s /\
  contents (w_fs (s_world s)) "/w/one" = Some (made_with "ONE" "new").
Proof.
  destruct (on_ran_ok _ _ pr2_ok) as (r & Er & T). apply andb_prop in T. destruct T as [T1 T2].
  exists (rn_kind r), (rn_core r), (rn_objs r), (rn_solver r), (rn_state r).
  split; [exact (do_process_ok _ _ _ _ _ _ _ _ _ _ _ _ Er)|]. clear Er. split; [now apply fine_ok|]. now apply text_eq.
Qed.
