(** A concrete script that uses a MakeCore, and wrong ones: examples for C95. *)
From Coq Require Import Permutation.
From Verif Require Import PyBase PyPath PathProofs SolverModel SpecGraph InvokerModel SpecTrace InvokerExec CoreModel SpecCore CoreProofs NeedProofs
  RuProofs CoreThms MakeModel MakeEval SpecMake MakeProofs MakeExec MakeExamples RegModel CliModel SpecUtil SpecReg RegProofs RegTotal RegExamples SpecProject
  ProjectProofs ProjectExamples SpecMakeCore MakeCoreProofs MakeCoreBuild.
Local Open Scope string_scope.
Local Open Scope list_scope.

Definition file_nameb (s : string) : bool :=
  negb (String.eqb s "") && negb (String.eqb s ".") && negb (String.eqb s "..") && negb (existsb (Ascii.eqb "/") (list_ascii_of_string s)).
Lemma file_nameb_ok s : file_nameb s = true -> file_name s.
Proof.
  unfold file_nameb. intros H. repeat (apply andb_prop in H; destruct H as [H ?]). rewrite !negb_true_iff in *.
  repeat match goal with [H : String.eqb _ _ = false |- _] => apply String.eqb_neq in H end.
  split; [assumption|]. split; [assumption|]. split; [assumption|]. intros Hi.
  assert (E : existsb (Ascii.eqb "/") (list_ascii_of_string s) = true) by (apply existsb_exists; exists "/"%char; split; [exact Hi|reflexivity]).
  congruence.
Qed.
Definition names_of (s : stmt) : list string := match s with SSet nm _ | STarget _ nm _ => [nm] | _ => [] end.
Section Test.
  Variables (cwd home : string) (glob_ : string -> list string) (exists_ : string -> bool) (ops : list mop).
  Notation l := (core_script home ops).
  Notation meaning := (meaning cwd l).
  Definition ownb : bool :=
    forallb (fun s => forallb (fun d => mem (meaning d) (flat_map (declares cwd home glob_) l) || mem (meaning d) (map meaning (flat_map (sources_of home) l)))
                              (deps_of home glob_ s)) l.
  Definition namesb : bool :=
    forallb (fun s => forallb (fun p => closed (realpath cwd p) &&
      forallb (fun nm => negb (mem (realpath cwd nm) (ups (realpath cwd p)))) (flat_map names_of l)) (places_of home s)) l.
  Definition core_in_orderb : bool :=
    in_orderb cwd home glob_ exists_ l && ownb && forallb (fun s => forallb (fun p => file_nameb (basename p)) (out_of home s)) l &&
    forallb (fun s => forallb (fun p => String.eqb (expanduser home p) p) (sources_of home s)) l && namesb.
  Lemma core_in_orderb_ok : core_in_orderb = true -> core_in_order cwd home glob_ exists_ ops.
  Proof.
    unfold core_in_orderb, ownb, namesb. intros H. apply andb_prop in H. destruct H as [H H5]. apply andb_prop in H. destruct H as [H H4].
    apply andb_prop in H. destruct H as [H H3]. apply andb_prop in H. destruct H as [H1 H2]. rewrite forallb_forall in H2, H3, H4, H5. split.
    - now apply in_orderb_ok.
    - intros s d Hs Hd. specialize (H2 s Hs). rewrite forallb_forall in H2. specialize (H2 d Hd). apply orb_prop in H2.
      destruct H2 as [H2|H2]; [left|right]; now apply mem_In.
    - intros s p Hs Hp. specialize (H3 s Hs). rewrite forallb_forall in H3. apply file_nameb_ok. now apply H3.
    - intros s p Hs Hp. specialize (H4 s Hs). rewrite forallb_forall in H4. apply String.eqb_eq. now apply H4.
    - intros s p nm Hs Hp Hn Ha. specialize (H5 s Hs). rewrite forallb_forall in H5. specialize (H5 p Hp). apply andb_prop in H5. destruct H5 as [C F].
      rewrite forallb_forall in F.
      assert (Hi : In nm (flat_map names_of l)).
      { unfold is_name in Hn. apply existsb_exists in Hn. destruct Hn as (s' & Hs' & Hn). apply in_flat_map. exists s'. split; [exact Hs'|].
        destruct s'; try discriminate; apply String.eqb_eq in Hn; subst; now left. }
      specialize (F nm Hi). rewrite (proj2 (mem_In _ _) (ups_ok _ _ C Ha)) in F. discriminate.
  Qed.
End Test.

(** A whole process, computed. *)
Definition do_core cwd home exists_ glob_ (on_fail : string -> leftover * bool) (ops : list mop) (k n : nat) (x : string) (rt th : option Z)
  (fs : fsys) (now : nat) (cs : list choice) : option ran :=
  match mrun (realpath cwd) exists_ glob_ home 20 k ops (repeat empty_reg n) with
  | Ok st =>
      match core_get (realpath cwd) (fst (reg st k)) x with
      | Ok i =>
          match mevaluate (realpath cwd) (kind_of (reg st k)) no_other fs 20 (with_runtime (fst (reg st k)) rt, []) with
          | Ok (c1, ca1) =>
              match recurse_update (realpath cwd) c1 (fun l => l) id_order i th with
              | RuExec objs sv =>
                  match osched (inv_of (sv_inv sv)) (fmake (kind_of (reg st k)) false on_fail c1 objs) cs (init_state sv (WD fs ca1 now now [])) with
                  | Some s => Some (RAN (kind_of (reg st k)) c1 objs sv s)
                  | None => None
                  end
              | _ => None
              end
          | _ => None
          end
      | _ => None
      end
  | _ => None
  end.
Lemma do_core_ok cwd home exists_ glob_ on_fail ops k n x rt th fs now cs r :
  do_core cwd home exists_ glob_ on_fail ops k n x rt th fs now cs = Some r ->
  core_building cwd home exists_ glob_ false ops k n x rt th fs now (rn_kind r) (rn_core r) (rn_objs r) (rn_solver r) (rn_state r).
Proof.
  unfold do_core. intros H.
  destruct (mrun _ _ _ _ _ _ _ _) as [st| |] eqn:Er; try discriminate.
  destruct (core_get _ _ _) as [i| |] eqn:Ei; try discriminate.
  destruct (mevaluate _ _ _ _ _ _) as [[c1 ca1]| |] eqn:Ee; try discriminate.
  destruct (recurse_update _ _ _ _ _ _) as [| |objs sv|] eqn:Eu; try discriminate.
  destruct (osched _ _ _ _) as [s|] eqn:Es; try discriminate. injection H as <-. cbn [rn_kind rn_core rn_objs rn_solver rn_state].
  exists 20, st, i, no_other, 20, ca1, (fun l => l), id_order.
  split; [exact Er|]. split; [reflexivity|]. split; [exact Ei|]. split; [exact Ee|].
  split; [intros; apply Permutation_refl|]. split; [split; intros; apply Permutation_refl|]. split; [exact Eu|].
  eapply fmake_reaches; eauto.
Qed.

(** The script:
<<
    core = licant.MakeCore()
    core.source("src.c"); core.source("main.c")
    core.ftarget("out/lib/a.o", deps=["src.c"], exec=compile)
    core.copy("./a.h", "out/a.h")
    licant.fileset("libs", ["out/lib/a.o", "out/../out/a.h"], core=core)
    core.ftarget("./out/app", deps=["libs", "main.c"], exec=link)
    licant.source("make.py")
    core.updtarget("test", deps=["out/app"])
    core.do("out/app")
>> *)
Definition mops : list mop :=
  [OSource "src.c"; OSource "main.c"; OFtarget "out/lib/a.o" (read1 "o:" "/w/src.c") ["src.c"]; OCopy "./a.h" "out/a.h" (read1 "" "/w/a.h") [];
   OSet "libs" ["out/lib/a.o"; "out/../out/a.h"] []; OFtarget "./out/app" link_app ["libs"; "main.c"]; OSourceFn "make.py"; OTarget true "test" ["out/app"]].
Notation mproj := (project_of "/w" "/h" no_glob (core_script "/h" mops)).
Lemma mops_ok : core_in_order "/w" "/h" no_glob (on_path pdisk) mops.
Proof. apply core_in_orderb_ok. vm_compute. reflexivity. Qed.
Lemma mops_free : dirs_free "/w" "/h" (core_script "/h" mops) pfs.
Proof. apply dirs_freeb_ok. vm_compute. reflexivity. Qed.
Lemma mapp_made : In "/w/out/app" (flat_map (makes "/w" "/h" no_glob) (core_script "/h" mops)).
Proof. apply mem_In. vm_compute. reflexivity. Qed.
Lemma mproj_eq p : mproj p =
  if String.eqb p "/w/out/lib/a.o" then Some (DRule false ["/w/src.c"] (read1 "o:" "/w/src.c")) else
  if String.eqb p "/w/out/a.h" then Some (DRule false ["/w/a.h"] (read1 "" "/w/a.h")) else
  if String.eqb p "libs" then Some (DSet ["/w/out/lib/a.o"; "/w/out/a.h"]) else
  if String.eqb p "/w/out/app" then Some (DRule false ["libs"; "/w/main.c"] link_app) else
  if mem p ["/w/src.c"; "/w/a.h"; "/w/main.c"] then Some DSource else None.
Proof.
  destruct (String.eqb_spec p "/w/out/lib/a.o") as [->|N1]; [vm_compute; reflexivity|].
  destruct (String.eqb_spec p "/w/out/a.h") as [->|N2]; [vm_compute; reflexivity|].
  destruct (String.eqb_spec p "libs") as [->|N3]; [vm_compute; reflexivity|].
  destruct (String.eqb_spec p "/w/out/app") as [->|N4]; [vm_compute; reflexivity|].
  set (ls := core_script "/h" mops). unfold project_of.
  assert (E : first_decl "/w" "/h" no_glob ls ls p = None).
  { unfold ls at 2. cbn [first_decl core_script core_stmt mops flat_map app]. unfold decl_of. cbn [rule_of set_of].
    assert (X : forall a (d : option decl), a <> p -> (if String.eqb a p then d else None) = None).
    { intros a d Hn. now destruct (String.eqb_spec a p). }
    repeat match goal with |- context [if String.eqb ?a p then ?d else None] =>
      let v := eval vm_compute in a in replace a with v by (vm_compute; reflexivity); rewrite (X v d) by congruence end.
    reflexivity. }
  rewrite E.
  assert (Nm : (if is_name ls p then None else if mem p ["/w/src.c"; "/w/a.h"; "/w/main.c"] then Some DSource else None) =
               if mem p ["/w/src.c"; "/w/a.h"; "/w/main.c"] then Some DSource else None).
  { destruct (is_name ls p) eqn:En; [|reflexivity].
    assert (K : In p ["libs"; "test"]).
    { unfold is_name in En. cbn [existsb ls core_script core_stmt mops flat_map app] in En. rewrite ?orb_true_iff in En.
      repeat match type of En with _ \/ _ => destruct En as [En|En] end; try discriminate; apply String.eqb_eq in En; subst; cbn; tauto. }
    repeat (destruct K as [<-|K]; [reflexivity|]). destruct K. }
  rewrite <- Nm. clear Nm. destruct (is_name ls p); [reflexivity|].
  assert (M : existsb (fun d => String.eqb (meaning "/w" ls d) p) (flat_map (mentions "/h" no_glob) ls) =
              mem p (map (meaning "/w" ls) (flat_map (mentions "/h" no_glob) ls))).
  { induction (flat_map (mentions "/h" no_glob) ls) as [|d ds IH]; [reflexivity|]. unfold mem in *. cbn [existsb map]. rewrite <- IH. f_equal. apply String.eqb_sym. }
  rewrite M. replace (map _ _) with ["/w/src.c"; "/w/main.c"; "/w/src.c"; "/w/a.h"; "/w/a.h"; "/w/out/lib/a.o"; "/w/out/a.h"; "libs"; "/w/main.c"; "/w/out/app"]
    by (vm_compute; reflexivity).
  unfold mem. cbn [existsb].
  destruct (String.eqb_spec p "/w/out/lib/a.o"), (String.eqb_spec p "/w/out/a.h"), (String.eqb_spec p "libs"), (String.eqb_spec p "/w/out/app"); try contradiction.
  destruct (String.eqb p "/w/src.c"), (String.eqb p "/w/a.h"), (String.eqb p "/w/main.c"); reflexivity.
Qed.
Lemma mproj_cases p d : mproj p = Some d ->
  (p = "/w/out/lib/a.o" /\ d = DRule false ["/w/src.c"] (read1 "o:" "/w/src.c")) \/
  (p = "/w/out/a.h" /\ d = DRule false ["/w/a.h"] (read1 "" "/w/a.h")) \/
  (p = "libs" /\ d = DSet ["/w/out/lib/a.o"; "/w/out/a.h"]) \/
  (p = "/w/out/app" /\ d = DRule false ["libs"; "/w/main.c"] link_app) \/
  (In p ["/w/src.c"; "/w/a.h"; "/w/main.c"] /\ d = DSource).
Proof.
  rewrite mproj_eq.
  destruct (String.eqb_spec p "/w/out/lib/a.o"); [intros [= <-]; auto|].
  destruct (String.eqb_spec p "/w/out/a.h"); [intros [= <-]; auto|].
  destruct (String.eqb_spec p "libs"); [intros [= <-]; auto|].
  destruct (String.eqb_spec p "/w/out/app"); [intros [= <-]; auto 6|].
  destruct (mem p _) eqn:E; [|discriminate]. intros [= <-]. apply mem_In in E. auto 6.
Qed.
Lemma msource p : In p ["/w/src.c"; "/w/a.h"; "/w/main.c"] -> is_file mproj p.
Proof. intros [<-|[<-|[<-|[]]]]; left; vm_compute; reflexivity. Qed.
Lemma mproj_reads_only : reads_only mproj.
Proof.
  assert (O : mproj "/w/out/lib/a.o" = Some (DRule false ["/w/src.c"] (read1 "o:" "/w/src.c"))) by (rewrite mproj_eq; reflexivity).
  assert (A : mproj "/w/out/app" = Some (DRule false ["libs"; "/w/main.c"] link_app)) by (rewrite mproj_eq; reflexivity).
  assert (H : mproj "/w/out/a.h" = Some (DRule false ["/w/a.h"] (read1 "" "/w/a.h"))) by (rewrite mproj_eq; reflexivity).
  assert (L : mproj "libs" = Some (DSet ["/w/out/lib/a.o"; "/w/out/a.h"])) by (rewrite mproj_eq; reflexivity).
  assert (I1 : p_input mproj "/w/out/lib/a.o" "/w/src.c").
  { apply pi_file; [|apply msource; cbn; tauto]. exists ["/w/src.c"]. split; [now left|]. right. eauto. }
  assert (I2 : p_input mproj "/w/out/a.h" "/w/a.h").
  { apply pi_file; [|apply msource; cbn; tauto]. exists ["/w/a.h"]. split; [now left|]. right. eauto. }
  assert (I3 : p_input mproj "/w/out/app" "/w/main.c").
  { apply pi_file; [|apply msource; cbn; tauto]. exists ["libs"; "/w/main.c"]. split; [cbn; tauto|]. right. eauto. }
  assert (I4 : p_input mproj "/w/out/app" "/w/out/lib/a.o").
  { apply (pi_set _ _ "libs" ["/w/out/lib/a.o"; "/w/out/a.h"]); [|exact L|].
    - exists ["libs"; "/w/main.c"]. split; [cbn; tauto|]. right. eauto.
    - apply pi_file; [|right; exists false, ["/w/src.c"], (read1 "o:" "/w/src.c"); exact O].
      exists ["/w/out/lib/a.o"; "/w/out/a.h"]. split; [now left|]. left. exact L. }
  intros p f ds b HP s s' Hs. apply mproj_cases in HP.
  destruct HP as [[-> E]|[[-> E]|[[-> E]|[[-> E]|[_ E]]]]]; try discriminate; injection E as -> -> ->.
  - unfold read1. now rewrite (Hs _ I1).
  - unfold read1. now rewrite (Hs _ I2).
  - unfold link_app. now rewrite (Hs _ I3), (Hs _ I4).
Qed.

(** A process that makes out/app: "makefile" with one worker, or two set in runtime["threads"]. *)
Notation mrunp rt := (do_core "/w" "/h" (on_path pdisk) no_glob no_fail mops 1 2 "/w/out/app" rt (Some 1%Z) pfs 1).
Definition mchoices : list choice := CGet 0 :: repeat (CFin 0) 9 ++ [CJoin].
Lemma mrun_test rt cs test : on_ran (mrunp rt cs) test = true -> exists r, test r = true /\
  core_building "/w" "/h" (on_path pdisk) no_glob false mops 1 2 "/w/out/app" rt (Some 1%Z) pfs 1 (rn_kind r) (rn_core r) (rn_objs r) (rn_solver r) (rn_state r).
Proof.
  intros H. destruct (on_ran_ok (mrunp rt cs) test H) as (r & E & T). exists r. split; [exact T|exact (do_core_ok _ _ _ _ _ _ _ _ _ _ _ _ _ _ _ E)].
Qed.
Lemma mdone_test_ok : on_ran (mrunp None mchoices) done_test = true.
Proof. vm_compute. reflexivity. Qed.
Lemma mmiddle_test_ok : on_ran (mrunp (Some 2%Z) (firstn 9 mchoices)) middle_test = true.
Proof. vm_compute. reflexivity. Qed.
Lemma mrun_done : exists kind c1 objs sv s,
  core_building "/w" "/h" (on_path pdisk) no_glob false mops 1 2 "/w/out/app" None (Some 1%Z) pfs 1 kind c1 objs sv s /\
  succeeded objs s /\ no_rule_failed mproj (s_world s) /\
  contents (w_fs (s_world s)) "/w/out/app" = Some "o:src+main" /\ contents (w_fs (s_world s)) "/w/out/a.h" = Some "hdr".
Proof.
  destruct (mrun_test _ _ _ mdone_test_ok) as (r & H & B). unfold done_test in H.
  apply andb_prop in H. destruct H as [H H2]. apply andb_prop in H. destruct H as [H H1]. apply andb_prop in H2. destruct H2 as [H2 H3].
  exists (rn_kind r), (rn_core r), (rn_objs r), (rn_solver r), (rn_state r).
  split; [exact B|]. split; [now apply fine_ok|]. split; [now apply all_ran_well_ok|].
  split; now apply text_eq.
Qed.
Lemma mrun_middle : exists kind c1 objs sv s,
  core_building "/w" "/h" (on_path pdisk) no_glob false mops 1 2 "/w/out/app" (Some 2%Z) (Some 1%Z) pfs 1 kind c1 objs sv s /\
  s_main s = MJoin /\ no_rule_failed mproj (s_world s) /\ contents (w_fs (s_world s)) "/w/out/a.h" = Some "hdr" /\
  contents (w_fs (s_world s)) "/w/out/app" = None.
Proof.
  destruct (mrun_test _ _ _ mmiddle_test_ok) as (r & H & B). unfold middle_test in H.
  apply andb_prop in H. destruct H as [H H2]. apply andb_prop in H. destruct H as [H H1]. apply andb_prop in H2. destruct H2 as [H2 H3].
  exists (rn_kind r), (rn_core r), (rn_objs r), (rn_solver r), (rn_state r).
  split; [exact B|].
  split; [unfold returned in H; destruct (s_main (rn_state r)); [reflexivity|discriminate]|]. split; [now apply all_ran_well_ok|].
  split; [now apply text_eq|]. unfold present in H3. unfold contents. now destruct (w_fs (s_world (rn_state r)) "/w/out/app").
Qed.
Lemma mstart : core_history "/w" "/h" no_glob mops 1 2 pfs 1.
Proof.
  apply ch_start.
  - intros p m n. unfold pfs. destruct (mem p _); [intros [= <- <-]; auto|].
    destruct (String.eqb p "/w/src.c"); [intros [= <- <-]; auto|]. destruct (String.eqb p "/w/a.h"); [intros [= <- <-]; auto|].
    destruct (String.eqb p "/w/main.c"); [intros [= <- <-]; auto|]. destruct (String.eqb p "/w/make.py"); [intros [= <- <-]; auto|discriminate].
  - intros p (f & ds & b & H). apply mproj_cases in H.
    destruct H as [[-> E]|[[-> E]|[[-> E]|[[-> E]|[_ E]]]]]; try discriminate; reflexivity.
  - intros p m [H|(f & ds & b & H)]; apply mproj_cases in H; destruct H as [[-> E]|[[-> E]|[[-> E]|[[-> E]|[Hp E]]]]]; try discriminate.
    destruct Hp as [<-|[<-|[<-|[]]]]; discriminate.
Qed.
(** Built once, then a source is edited. *)
Lemma medited : exists fs now, core_history "/w" "/h" no_glob mops 1 2 fs now /\ contents fs "/w/out/app" = Some "o:src+main" /\
  contents fs "/w/src.c" = Some "new".
Proof.
  destruct mrun_done as (kind & c1 & objs & sv & s & B & _ & _ & A & _).
  assert (H : core_history "/w" "/h" no_glob mops 1 2 (w_fs (s_world s)) (w_now (s_world s))).
  { eapply ch_process; [exact mstart|exact pfs_ok|exact mops_ok|exact mapp_made| |exact B]. discriminate. }
  exists (fs_set (w_fs (s_world s)) "/w/src.c" (Some (S (w_now (s_world s)), Reg "new"))), (S (w_now (s_world s))).
  split; [|split; [unfold contents, fs_set; cbn [String.eqb]; exact A|reflexivity]].
  eapply ch_outside; [exact H|]. split; [auto|]. intros p. unfold fs_set. destruct (String.eqb_spec p "/w/src.c") as [->|N]; [|now left].
  right. right. left. split; [rewrite mproj_eq; reflexivity|]. exists (S (w_now (s_world s))), "new". split; [reflexivity|]. auto.
Qed.

(** A dependency that exists but is not declared in the core: [expand_globs] indexes it in the
    default core only (core.py:238-240). *)
Definition lone : list mop := [OFtarget "app" (read1 "a:" "/w/main.c") ["main.c"]].
Lemma lone_order : in_order "/w" "/h" no_glob (on_path pdisk) (core_script "/h" lone).
Proof. apply in_orderb_ok. vm_compute. reflexivity. Qed.
Lemma lone_fails partial rt th t now kind c1 objs sv s : threads_of rt th = Some t ->
  ~ core_building "/w" "/h" (on_path pdisk) no_glob partial lone 1 2 "/w/app" rt th pfs now kind c1 objs sv s.
Proof.
  intros Ht (fuel & st & i & other_if & fuel' & ca1 & order & so & Hr & -> & Hg & He & Ho & Hso & Hru & _).
  assert (R : reg st 1 = reg_add empty_reg Updatable (MFile false (read1 "a:" "/w/main.c")) "/w/app" ["main.c"]).
  { cbn [mrun lone mstep] in Hr. unfold mc_ftarget in Hr. destruct fuel as [|fuel]; [discriminate|].
    assert (E : mc_dirkeep (realpath "/w") (on_path pdisk) no_glob (S fuel) (repeat empty_reg 2) 1 (expanduser "/h" "app") = Ok ([], repeat empty_reg 2)).
    { cbn [mc_dirkeep]. replace (on_path pdisk (normpath (dirname (expanduser "/h" "app")))) with true by (vm_compute; reflexivity). reflexivity. }
    rewrite E in Hr. cbn [bind app] in Hr.
    destruct (fnew _ _ _ _ _ _ _ _ _ _) as [st1| |] eqn:E1; cbn [bind] in Hr; try discriminate. injection Hr as <-.
    destruct (fnew_here "/w" (on_path pdisk) no_glob 1 ltac:(discriminate) _ _ _ _ _ _ E1) as [A _]; [cbn; lia|]. rewrite A. vm_compute. reflexivity. }
  rewrite R in *. assert (i = 0) as -> by (vm_compute in Hg; congruence).
  set (r := reg_add empty_reg Updatable (MFile false (read1 "a:" "/w/main.c")) "/w/app" ["main.c"]) in *.
  assert (Ec : with_runtime (fst r) rt = crun (realpath "/w") [OpNew Updatable "/w/app" ["main.c"]] (new_core rt)) by reflexivity.
  assert (Pc : process_core (realpath "/w") (kind_of r) (with_runtime (fst r) rt)) by (rewrite Ec; constructor).
  destruct (mevaluate_right (realpath "/w") _ other_if pfs fuel' _ [] c1 ca1 (process_ready _ _ _ Pc) He) as ((Hw & _ & _ & _ & Hnp) & Sm & _).
  assert (Hco : coherent (realpath "/w") c1).
  { eapply coherent_static; [exact Sm|]. intros nm j [[= <- <-]|[]]. left. now left. }
  assert (Hi1 : resolves (realpath "/w") c1 (t_name (obj c1 0)) 0).
  { apply (Hco "/w/app"). destruct Sm as (<- & _). now left. }
  assert (Hth : ru_threads c1 th = Some t) by (unfold ru_threads; destruct Sm as (_ & <- & _); exact Ht).
  destruct (ru_cases (realpath "/w") c1 Hw Hco Hnp 0 Hi1 order Ho so Hso th t Hth) as [(x & _ & _ & _ & E)|(Hreg & _)]; [congruence|].
  destruct (Hreg 0 "main.c") as [j Hj].
  - apply rt_refl.
  - destruct Sm as (_ & _ & _ & S4). destruct (S4 0) as (_ & E4 & _). rewrite <- E4. now left.
  - apply (static_resolves (realpath "/w") c1 (with_runtime (fst r) rt)) in Hj; [|now apply static_sym].
    destruct Hj as [[E|[]]|[_ [E|[]]]]; discriminate E.
Qed.

(** A file set with the name of a directory that has to be made: [dirkeep] takes it for the
    directory (make.py:306). *)
Definition clash_ops : list mop := [OSet "out" [] []; OSource "src.c"; OFtarget "out/a.o" (read1 "o:" "/w/src.c") ["src.c"]].
Lemma clash_order : in_order "/w" "/h" no_glob (on_path pdisk) (core_script "/h" clash_ops).
Proof. apply in_orderb_ok. vm_compute. reflexivity. Qed.
Lemma clash_own : ownb "/w" "/h" no_glob clash_ops = true.
Proof. vm_compute. reflexivity. Qed.
Definition clash_regs : regs := the_regs (mrun (realpath "/w") (on_path pdisk) no_glob "/h" 20 1 clash_ops (repeat empty_reg 2)).
Lemma clash_no_dir : mrun (realpath "/w") (on_path pdisk) no_glob "/h" 20 1 clash_ops (repeat empty_reg 2) = Ok clash_regs /\
  core_get (realpath "/w") (fst (reg clash_regs 1)) "out/a.o" = Ok 2 /\ on_path pdisk "/w/out" = false /\
  forall i, kind_of (reg clash_regs 1) i <> MDir.
Proof.
  split; [vm_compute; reflexivity|]. split; [vm_compute; reflexivity|]. split; [vm_compute; reflexivity|].
  intros i. unfold kind_of. destruct i as [|[|[|i]]]; try (vm_compute; discriminate).
  replace (snd (reg clash_regs 1)) with [MSet; MSource; MFile false (read1 "o:" "/w/src.c")] by (vm_compute; reflexivity). cbn. destruct i; discriminate.
Qed.
