(** A test for scripts in order, a scheduler for whole processes, and a concrete script:
    non-vacuity examples for C77-C80. *)
From Coq Require Import Permutation.
From Verif Require Import PyBase PyPath PathProofs SolverModel SpecGraph InvokerModel SpecTrace InvokerExec CoreModel SpecCore CoreProofs NeedProofs
  MakeModel MakeEval SpecMake MakeProofs MakeExec MakeExamples RegModel CliModel SpecUtil SpecReg RegExamples SpecProject.
Local Open Scope string_scope.
Local Open Scope list_scope.

(** The test. *)
Definition mem (x : string) (l : list string) : bool := existsb (String.eqb x) l.
Lemma mem_In x l : mem x l = true <-> In x l.
Proof.
  unfold mem. rewrite existsb_exists. split; [intros (y & H & E); apply String.eqb_eq in E; now subst|].
  intros H. exists x. split; [exact H|apply String.eqb_refl].
Qed.
Fixpoint nodupb (l : list string) : bool := match l with [] => true | x :: l => negb (mem x l) && nodupb l end.
Lemma nodupb_ok l : nodupb l = true -> NoDup l.
Proof.
  induction l as [|x l IH]; cbn [nodupb]; [constructor|]. intros H. apply andb_prop in H. destruct H as [A B].
  constructor; [|now apply IH]. intros H. apply mem_In in H. now rewrite H in A.
Qed.
Definition ups (p : string) : list string := dirname p :: ancestors p.
Definition closed (p : string) : bool := forallb (fun a => mem (dirname a) (ups p)) (ups p).
Lemma ups_ok p a : closed p = true -> above a p -> In a (ups p).
Proof.
  intros C. unfold closed in C. rewrite forallb_forall in C. induction 1 as [p|a p _ IH]; [now left|].
  apply mem_In. now apply C, IH.
Qed.
Definition is_fileb (P : project) (p : string) : bool :=
  match P p with Some DSource | Some (DRule _ _ _) => true | _ => false end.
Lemma is_fileb_ok P p : is_file P p -> is_fileb P p = true.
Proof. unfold is_fileb. intros [H|(f & ds & b & H)]; now rewrite H. Qed.

Section Test.
  Variables (cwd home : string) (glob_ : string -> list string) (exists_ : string -> bool) (l : list stmt).
  Notation declares := (declares cwd home glob_).
  Notation mentions := (mentions home glob_).
  Notation meaning := (meaning cwd l).
  Notation P := (project_of cwd home glob_ l).
  Fixpoint beforeb (seen : list string) (l2 : list stmt) : bool :=
    match l2 with
    | [] => true
    | s :: l2 => forallb (fun d => implb (mem (meaning d) (flat_map declares l)) (mem (meaning d) seen)) (mentions s) &&
                 beforeb (seen ++ declares s) l2
    end.
  Lemma beforeb_ok l2 : forall seen, beforeb seen l2 = true -> forall l1 s l3 d, l2 = l1 ++ s :: l3 -> In d (mentions s) ->
    In (meaning d) (flat_map declares l) -> In (meaning d) (seen ++ flat_map declares l1).
  Proof.
    induction l2 as [|s0 l2 IH]; intros seen H l1 s l3 d E Hd Hl; [destruct l1; discriminate|].
    cbn [beforeb] in H. apply andb_prop in H. destruct H as [A B]. destruct l1 as [|s1 l1]; cbn in E; injection E as -> E.
    - cbn. rewrite app_nil_r. rewrite forallb_forall in A. specialize (A d Hd). apply mem_In in Hl. rewrite Hl in A. now apply mem_In.
    - cbn [flat_map]. rewrite app_assoc. eapply IH; eauto.
  Qed.
  Definition name_fine (s : stmt) : bool := match s with SSet nm _ | STarget _ nm _ => negb (starts_slash nm) | _ => true end.
  Definition other_fine (t : stmt) : bool :=
    match t with
    | STarget u nm _ => forallb (fun s => implb (mem nm (mentions s)) (u && match s with STarget _ _ _ => true | _ => false end)) l
    | _ => true
    end.
  Definition in_orderb : bool :=
    negb (has_star cwd) &&
    forallb (fun s => forallb (fun p => negb (has_star p)) (places_of home s)) l &&
    nodupb (flat_map declares l) &&
    forallb name_fine l &&
    forallb other_fine l &&
    beforeb [] l &&
    forallb (fun s => forallb (fun d => mem (meaning d) (flat_map declares l) ||
                                        mem (meaning d) (map meaning (flat_map (sources_of home) l)) || exists_ d)
                              (deps_of home glob_ s)) l &&
    forallb (fun s => forallb (fun p => closed (realpath cwd p) && forallb (fun a => negb (is_fileb P a)) (ups (realpath cwd p)))
                              (places_of home s)) l.
  Lemma in_orderb_ok : in_orderb = true -> in_order cwd home glob_ exists_ l.
  Proof.
    unfold in_orderb. intros H. repeat (apply andb_prop in H; destruct H as [H ?]).
    rewrite !forallb_forall in *. split.
    - now apply negb_true_iff.
    - intros s p Hs Hp. match goal with [H : forall x, In x l -> forallb (fun p => negb (has_star p)) _ = true |- _] => specialize (H s Hs); rewrite forallb_forall in H; apply negb_true_iff; auto end.
    - now apply nodupb_ok.
    - intros nm Hn. unfold is_name in Hn. apply existsb_exists in Hn. destruct Hn as (s & Hs & Hn).
      match goal with [H : forall x, In x l -> name_fine x = true |- _] => specialize (H s Hs); rename H into Q end.
      destruct s; try discriminate; apply String.eqb_eq in Hn; subst; now apply negb_true_iff.
    - intros s d u ds Hs Hd Ht.
      match goal with [H : forall x, In x l -> other_fine x = true |- _] => specialize (H _ Ht); unfold other_fine in H; rewrite forallb_forall in H; specialize (H s Hs); rename H into Q end.
      apply mem_In in Hd. rewrite Hd in Q. cbn [implb] in Q. apply andb_prop in Q. destruct Q as [-> Q]. split; [reflexivity|]. destruct s; try discriminate.
    - intros l1 s l2 d E Hd Hl. now apply (beforeb_ok l [] ltac:(assumption) l1 s l2 d).
    - intros s d Hs Hd. match goal with [H : forall x, In x l -> forallb (fun d => _ || exists_ d) _ = true |- _] => specialize (H s Hs); rewrite forallb_forall in H; specialize (H d Hd) end.
      match goal with [H : _ || _ || _ = true |- _] => apply orb_prop in H; destruct H as [H|H]; [apply orb_prop in H; destruct H as [H|H]|] end.
      + left. now apply mem_In.
      + right. left. now apply mem_In.
      + now right; right.
    - intros s p a Hs Hp Ha Hf. match goal with [H : forall x, In x l -> forallb (fun p => closed _ && _) _ = true |- _] => specialize (H s Hs); rewrite forallb_forall in H; specialize (H p Hp); apply andb_prop in H; destruct H as [C F] end.
      rewrite forallb_forall in F. specialize (F a (ups_ok _ a C Ha)). apply is_fileb_ok in Hf. now rewrite Hf in F.
  Qed.

  (** No file where a directory is needed. *)
  Definition dirs_freeb (fs : fsys) : bool :=
    forallb (fun s => forallb (fun p => closed (realpath cwd p) && forallb (fun a => negb (is_reg fs a)) (ups (realpath cwd p)))
                              (places_of home s)) l.
  Lemma dirs_freeb_ok fs : dirs_freeb fs = true -> dirs_free cwd home l fs.
  Proof.
    unfold dirs_freeb. rewrite forallb_forall. intros H s p a m v Hs Hp Ha E. specialize (H s Hs). rewrite forallb_forall in H.
    specialize (H p Hp). apply andb_prop in H. destruct H as [C F]. rewrite forallb_forall in F.
    specialize (F a (ups_ok _ a C Ha)). unfold is_reg in F. now rewrite E in F.
  Qed.
End Test.

(** A whole process, computed: the state after some steps of one schedule. *)
Record ran := RAN { rn_kind : nat -> mkind; rn_core : core; rn_objs : list nat; rn_solver : solver; rn_state : state world }.
Definition do_process cwd home exists_ glob_ (on_fail : string -> leftover * bool) (l : list stmt) (x : string) (th : Z) (fs : fsys) (now : nat)
  (cs : list choice) : option ran :=
  match mrun (realpath cwd) exists_ glob_ home 20 0 (map op_of l) [empty_reg] with
  | Ok st =>
      match core_get (realpath cwd) (fst (reg st 0)) x with
      | Ok i =>
          match mevaluate (realpath cwd) (kind_of (reg st 0)) no_other fs 20 (set_threads (fst (reg st 0)) th, []) with
          | Ok (c1, ca1) =>
              match recurse_update (realpath cwd) c1 (fun l => l) id_order i None with
              | RuExec objs sv =>
                  match osched (inv_of (sv_inv sv)) (fmake (kind_of (reg st 0)) false on_fail c1 objs) cs (init_state sv (WD fs ca1 now now [])) with
                  | Some s => Some (RAN (kind_of (reg st 0)) c1 objs sv s)
                  | None => None
                  end
              | _ => None
              end
          | _ => None
          end
      | _ => None
      end
  | _ => None
  end.
Lemma do_process_ok cwd home exists_ glob_ on_fail l x th fs now cs r :
  do_process cwd home exists_ glob_ on_fail l x th fs now cs = Some r ->
  building cwd home exists_ glob_ false l x th fs now (rn_kind r) (rn_core r) (rn_objs r) (rn_solver r) (rn_state r).
Proof.
  unfold do_process. intros H.
  destruct (mrun _ _ _ _ _ _ _ _) as [st| |] eqn:Er; try discriminate.
  destruct (core_get _ _ _) as [i| |] eqn:Ei; try discriminate.
  destruct (mevaluate _ _ _ _ _ _) as [[c1 ca1]| |] eqn:Ee; try discriminate.
  destruct (recurse_update _ _ _ _ _ _) as [| |objs sv|] eqn:Eu; try discriminate.
  destruct (osched _ _ _ _) as [s|] eqn:Es; try discriminate. injection H as <-. cbn [rn_kind rn_core rn_objs rn_solver rn_state].
  exists 20, st, i, no_other, 20, ca1, (fun l => l), id_order.
  split; [exact Er|]. split; [reflexivity|]. split; [exact Ei|]. split; [exact Ee|].
  split; [intros; apply Permutation_refl|]. split; [split; intros; apply Permutation_refl|]. split; [exact Eu|].
  eapply fmake_reaches; eauto.
Qed.

(** The script make.py:
<<
    import licant
    makefile("out/lib/a.o", ["src.c"], compile)
    copy("out/a.h", "a.h")
    fileset("libs", ["out/lib/a.o", "out/a.h"])
    makefile("out/app", ["libs", "main.c"], link)
    @licant.routine(deps=["out/app"])
    def test(): ...
>> *)
Definition read1 (pre p : string) : buildfun := fun s => option_map (fun v => pre ++ v)%string (s p).
Definition link_app : buildfun := fun s =>
  match s "/w/out/lib/a.o", s "/w/main.c" with Some a, Some m => Some (a ++ "+" ++ m)%string | _, _ => None end.
Definition pown : list stmt :=
  [SRule false "out/lib/a.o" ["src.c"] (read1 "o:" "/w/src.c"); SCopy "out/a.h" "a.h" [] (read1 "" "/w/a.h");
   SSet "libs" ["out/lib/a.o"; "out/a.h"]; SRule false "out/app" ["libs"; "main.c"] link_app;
   STarget true "test" ["out/app"]].
Definition pscript : list stmt := importing "make.py" ++ pown.
Definition pdisk : list string := ["/"; "/w"; "/w/src.c"; "/w/a.h"; "/w/main.c"; "/w/make.py"].
Definition pfs : fsys := fun p =>
  if mem p ["/"; "/w"] then Some (0, Dir) else
  if String.eqb p "/w/src.c" then Some (1, Reg "src") else
  if String.eqb p "/w/a.h" then Some (1, Reg "hdr") else
  if String.eqb p "/w/main.c" then Some (1, Reg "main") else
  if String.eqb p "/w/make.py" then Some (1, Reg "script") else None.
Notation no_glob := (fun _ : string => @nil string).
Notation pproj := (project_of "/w" "/h" no_glob pscript).
Lemma present_ok l fs : (forall p, present fs p = on l p) -> forallb (fun p => on l (dirname p)) l = true -> on l "/w" = true ->
  disk_ok "/w" (present fs) (on_path l).
Proof.
  intros E A B. destruct (on_ok l A B) as (C & D & F). split; [|split].
  - intros p. rewrite !E. apply C.
  - rewrite E. exact D.
  - intros p Hp. rewrite E. now apply F.
Qed.
Lemma pfs_ok : disk_ok "/w" (present pfs) (on_path pdisk).
Proof.
  apply present_ok; [|reflexivity..]. intros p. unfold present, pfs, on, pdisk, mem. cbn [existsb].
  destruct (String.eqb_spec p "/"), (String.eqb_spec p "/w"), (String.eqb_spec p "/w/src.c"), (String.eqb_spec p "/w/a.h"), (String.eqb_spec p "/w/main.c"), (String.eqb_spec p "/w/make.py"); reflexivity.
Qed.
Lemma pscript_ok : in_order "/w" "/h" no_glob (on_path pdisk) pscript.
Proof. apply in_orderb_ok. vm_compute. reflexivity. Qed.
Lemma pscript_free : dirs_free "/w" "/h" pscript pfs.
Proof. apply dirs_freeb_ok. vm_compute. reflexivity. Qed.
Lemma papp_made : In "/w/out/app" (flat_map (makes "/w" "/h" no_glob) pscript).
Proof. apply mem_In. vm_compute. reflexivity. Qed.

(** The project that it describes. *)
Lemma pproj_eq p : pproj p =
  if String.eqb p "/w/out/lib/a.o" then Some (DRule false ["/w/src.c"] (read1 "o:" "/w/src.c")) else
  if String.eqb p "/w/out/a.h" then Some (DRule false ["/w/a.h"] (read1 "" "/w/a.h")) else
  if String.eqb p "libs" then Some (DSet ["/w/out/lib/a.o"; "/w/out/a.h"]) else
  if String.eqb p "/w/out/app" then Some (DRule false ["libs"; "/w/main.c"] link_app) else
  if mem p ["/w/src.c"; "/w/a.h"; "/w/main.c"; "/w/make.py"] then Some DSource else None.
Proof.
  destruct (String.eqb_spec p "/w/out/lib/a.o") as [->|N1]; [vm_compute; reflexivity|].
  destruct (String.eqb_spec p "/w/out/a.h") as [->|N2]; [vm_compute; reflexivity|].
  destruct (String.eqb_spec p "libs") as [->|N3]; [vm_compute; reflexivity|].
  destruct (String.eqb_spec p "/w/out/app") as [->|N4]; [vm_compute; reflexivity|].
  unfold project_of.
  assert (E : first_decl "/w" "/h" no_glob pscript pscript p = None).
  { cbn [first_decl pscript pown importing app]. unfold decl_of. cbn [rule_of set_of].
    assert (X : forall a (d : option decl), a <> p -> (if String.eqb a p then d else None) = None).
    { intros a d Hn. now destruct (String.eqb_spec a p). }
    repeat match goal with |- context [if String.eqb ?a p then ?d else None] =>
      let v := eval vm_compute in a in replace a with v by (vm_compute; reflexivity); rewrite (X v d) by congruence end.
    reflexivity. }
  rewrite E.
  assert (Nm : (if is_name pscript p then None else if mem p ["/w/src.c"; "/w/a.h"; "/w/main.c"; "/w/make.py"] then Some DSource else None) =
               if mem p ["/w/src.c"; "/w/a.h"; "/w/main.c"; "/w/make.py"] then Some DSource else None).
  { destruct (is_name pscript p) eqn:En; [|reflexivity].
    assert (K : In p ["binutils"; "m"; "cxxm"; "l"; "libs"; "test"]).
    { unfold is_name in En. cbn [existsb pscript pown importing app] in En. rewrite ?orb_true_iff in En.
      repeat match type of En with _ \/ _ => destruct En as [En|En] end; try discriminate; apply String.eqb_eq in En; subst; cbn; tauto. }
    repeat (destruct K as [<-|K]; [reflexivity|]). destruct K. }
  rewrite <- Nm. clear Nm. destruct (is_name pscript p); [reflexivity|].
  assert (M : existsb (fun d => String.eqb (meaning "/w" pscript d) p) (flat_map (mentions "/h" no_glob) pscript) =
              mem p (map (meaning "/w" pscript) (flat_map (mentions "/h" no_glob) pscript))).
  { induction (flat_map (mentions "/h" no_glob) pscript) as [|d ds IH]; [reflexivity|]. unfold mem in *. cbn [existsb map]. rewrite <- IH. f_equal. apply String.eqb_sym. }
  rewrite M. replace (map _ _) with ["/w/make.py"; "/w/src.c"; "/w/a.h"; "/w/a.h"; "/w/out/lib/a.o"; "/w/out/a.h"; "libs"; "/w/main.c"; "/w/out/app"] by (vm_compute; reflexivity).
  unfold mem. cbn [existsb].
  destruct (String.eqb_spec p "/w/out/lib/a.o"), (String.eqb_spec p "/w/out/a.h"), (String.eqb_spec p "libs"), (String.eqb_spec p "/w/out/app"); try contradiction.
  destruct (String.eqb p "/w/src.c"), (String.eqb p "/w/a.h"), (String.eqb p "/w/main.c"), (String.eqb p "/w/make.py"); reflexivity.
Qed.
Lemma pproj_cases p d : pproj p = Some d ->
  (p = "/w/out/lib/a.o" /\ d = DRule false ["/w/src.c"] (read1 "o:" "/w/src.c")) \/
  (p = "/w/out/a.h" /\ d = DRule false ["/w/a.h"] (read1 "" "/w/a.h")) \/
  (p = "libs" /\ d = DSet ["/w/out/lib/a.o"; "/w/out/a.h"]) \/
  (p = "/w/out/app" /\ d = DRule false ["libs"; "/w/main.c"] link_app) \/
  (In p ["/w/src.c"; "/w/a.h"; "/w/main.c"; "/w/make.py"] /\ d = DSource).
Proof.
  rewrite pproj_eq.
  destruct (String.eqb_spec p "/w/out/lib/a.o"); [intros [= <-]; auto|].
  destruct (String.eqb_spec p "/w/out/a.h"); [intros [= <-]; auto|].
  destruct (String.eqb_spec p "libs"); [intros [= <-]; auto|].
  destruct (String.eqb_spec p "/w/out/app"); [intros [= <-]; auto 6|].
  destruct (mem p _) eqn:E; [|discriminate]. intros [= <-]. apply mem_In in E. auto 6.
Qed.
Lemma psource p : In p ["/w/src.c"; "/w/a.h"; "/w/main.c"; "/w/make.py"] -> is_file pproj p.
Proof. intros [<-|[<-|[<-|[<-|[]]]]]; left; vm_compute; reflexivity. Qed.
Lemma pproj_reads_only : reads_only pproj.
Proof.
  assert (O : pproj "/w/out/lib/a.o" = Some (DRule false ["/w/src.c"] (read1 "o:" "/w/src.c"))) by (rewrite pproj_eq; reflexivity).
  assert (A : pproj "/w/out/app" = Some (DRule false ["libs"; "/w/main.c"] link_app)) by (rewrite pproj_eq; reflexivity).
  assert (H : pproj "/w/out/a.h" = Some (DRule false ["/w/a.h"] (read1 "" "/w/a.h"))) by (rewrite pproj_eq; reflexivity).
  assert (L : pproj "libs" = Some (DSet ["/w/out/lib/a.o"; "/w/out/a.h"])) by (rewrite pproj_eq; reflexivity).
  assert (I1 : p_input pproj "/w/out/lib/a.o" "/w/src.c").
  { apply pi_file; [|apply psource; cbn; tauto]. exists ["/w/src.c"]. split; [now left|]. right. eauto. }
  assert (I2 : p_input pproj "/w/out/a.h" "/w/a.h").
  { apply pi_file; [|apply psource; cbn; tauto]. exists ["/w/a.h"]. split; [now left|]. right. eauto. }
  assert (I3 : p_input pproj "/w/out/app" "/w/main.c").
  { apply pi_file; [|apply psource; cbn; tauto]. exists ["libs"; "/w/main.c"]. split; [cbn; tauto|]. right. eauto. }
  assert (I4 : p_input pproj "/w/out/app" "/w/out/lib/a.o").
  { apply (pi_set _ _ "libs" ["/w/out/lib/a.o"; "/w/out/a.h"]); [|exact L|].
    - exists ["libs"; "/w/main.c"]. split; [cbn; tauto|]. right. eauto.
    - apply pi_file; [|right; exists false, ["/w/src.c"], (read1 "o:" "/w/src.c"); exact O].
      exists ["/w/out/lib/a.o"; "/w/out/a.h"]. split; [now left|]. left. exact L. }
  intros p f ds b HP s s' Hs. apply pproj_cases in HP.
  destruct HP as [[-> E]|[[-> E]|[[-> E]|[[-> E]|[_ E]]]]]; try discriminate; injection E as -> -> ->.
  - unfold read1. now rewrite (Hs _ I1).
  - unfold read1. now rewrite (Hs _ I2).
  - unfold link_app. now rewrite (Hs _ I3), (Hs _ I4).
Qed.

(** A process that makes out/app with two workers. *)
Notation prun := (do_process "/w" "/h" (on_path pdisk) no_glob no_fail pscript "/w/out/app" 2 pfs 1).
Definition pchoices : list choice :=
  [CGet 0; CGet 1; CFin 0; CFin 0; CFin 0; CFin 1; CFin 0; CFin 1; CFin 0; CFin 0; CFin 0; CJoin].
Definition on_ran (o : option ran) (test : ran -> bool) : bool := match o with Some r => test r | None => false end.
Definition run_test (cs : list choice) (test : ran -> bool) : bool := on_ran (prun cs) test.
Lemma on_ran_ok o test : on_ran o test = true -> exists r, o = Some r /\ test r = true.
Proof. destruct o as [r|]; [eauto|discriminate]. Qed.
Definition text (r : ran) (p : string) : string := match w_fs (s_world (rn_state r)) p with Some (_, Reg v) => v | _ => "" end.
Lemma text_eq r p v : v <> "" -> String.eqb (text r p) v = true -> contents (w_fs (s_world (rn_state r))) p = Some v.
Proof.
  unfold text, contents. intros Hv H. apply String.eqb_eq in H. destruct (w_fs (s_world (rn_state r)) p) as [[m [u|]]|]; congruence.
Qed.
Definition returned (r : ran) : bool := match s_main (rn_state r) with MReturned => true | MJoin => false end.
Definition fine (r : ran) : bool :=
  returned r && match exec_result (List.length (rn_objs r)) (rn_state r) with Ok b => b | _ => false end.
Lemma fine_ok r : fine r = true -> succeeded (rn_objs r) (rn_state r).
Proof.
  unfold fine, returned, succeeded. destruct (s_main (rn_state r)); [discriminate|]. cbn [andb].
  destruct (exec_result (List.length (rn_objs r)) (rn_state r)); try discriminate. intros ->. auto.
Qed.
Definition all_ran_well (r : ran) : bool := forallb snd (w_ran (s_world (rn_state r))).
Lemma all_ran_well_ok P r : all_ran_well r = true -> no_rule_failed P (s_world (rn_state r)).
Proof. unfold all_ran_well. rewrite forallb_forall. intros H p _ Hp. specialize (H _ Hp). discriminate. Qed.

Lemma run_test_ok cs test : run_test cs test = true -> exists r, test r = true /\
  building "/w" "/h" (on_path pdisk) no_glob false pscript "/w/out/app" 2 pfs 1 (rn_kind r) (rn_core r) (rn_objs r) (rn_solver r) (rn_state r).
Proof.
  intros H. destruct (on_ran_ok (prun cs) test H) as (r & E & T). exists r. split; [exact T|exact (do_process_ok _ _ _ _ _ _ _ _ _ _ _ _ E)].
Qed.
Definition done_test (r : ran) : bool :=
  fine r && all_ran_well r && (String.eqb (text r "/w/out/app") "o:src+main" && String.eqb (text r "/w/out/a.h") "hdr").
Lemma done_test_ok : run_test pchoices done_test = true.
Proof. vm_compute. reflexivity. Qed.
Definition middle_test (r : ran) : bool :=
  negb (returned r) && all_ran_well r &&
  (String.eqb (text r "/w/out/a.h") "hdr" && negb (present (w_fs (s_world (rn_state r))) "/w/out/app")).
Lemma middle_test_ok : run_test (firstn 8 pchoices) middle_test = true.
Proof. vm_compute. reflexivity. Qed.
Lemma prun_done : exists kind c1 objs sv s,
  building "/w" "/h" (on_path pdisk) no_glob false pscript "/w/out/app" 2 pfs 1 kind c1 objs sv s /\
  succeeded objs s /\ no_rule_failed pproj (s_world s) /\
  contents (w_fs (s_world s)) "/w/out/app" = Some "o:src+main" /\ contents (w_fs (s_world s)) "/w/out/a.h" = Some "hdr".
Proof.
  destruct (run_test_ok _ _ done_test_ok) as (r & H & B). unfold done_test in H.
  apply andb_prop in H. destruct H as [H H2]. apply andb_prop in H. destruct H as [H H1]. apply andb_prop in H2. destruct H2 as [H2 H3].
  exists (rn_kind r), (rn_core r), (rn_objs r), (rn_solver r), (rn_state r).
  split; [exact B|]. split; [now apply fine_ok|]. split; [now apply all_ran_well_ok|].
  split; now apply text_eq.
Qed.
(** The same process, killed in the middle. *)
Lemma prun_middle : exists kind c1 objs sv s,
  building "/w" "/h" (on_path pdisk) no_glob false pscript "/w/out/app" 2 pfs 1 kind c1 objs sv s /\
  s_main s = MJoin /\ no_rule_failed pproj (s_world s) /\ contents (w_fs (s_world s)) "/w/out/a.h" = Some "hdr" /\
  contents (w_fs (s_world s)) "/w/out/app" = None.
Proof.
  destruct (run_test_ok _ _ middle_test_ok) as (r & H & B). unfold middle_test in H.
  apply andb_prop in H. destruct H as [H H2]. apply andb_prop in H. destruct H as [H H1]. apply andb_prop in H2. destruct H2 as [H2 H3].
  exists (rn_kind r), (rn_core r), (rn_objs r), (rn_solver r), (rn_state r).
  split; [exact B|].
  split; [unfold returned in H; destruct (s_main (rn_state r)); [reflexivity|discriminate]|]. split; [now apply all_ran_well_ok|].
  split; [now apply text_eq|]. unfold present in H3. unfold contents. now destruct (w_fs (s_world (rn_state r)) "/w/out/app").
Qed.
Lemma pstart : script_history "/w" "/h" no_glob pscript pfs 1.
Proof.
  apply sh_start.
  - intros p m n. unfold pfs. destruct (mem p _); [intros [= <- <-]; auto|].
    destruct (String.eqb p "/w/src.c"); [intros [= <- <-]; auto|]. destruct (String.eqb p "/w/a.h"); [intros [= <- <-]; auto|].
    destruct (String.eqb p "/w/main.c"); [intros [= <- <-]; auto|]. destruct (String.eqb p "/w/make.py"); [intros [= <- <-]; auto|discriminate].
  - intros p (f & ds & b & H). apply pproj_cases in H.
    destruct H as [[-> E]|[[-> E]|[[-> E]|[[-> E]|[_ E]]]]]; try discriminate; reflexivity.
  - intros p m [H|(f & ds & b & H)]; apply pproj_cases in H; destruct H as [[-> E]|[[-> E]|[[-> E]|[[-> E]|[Hp E]]]]]; try discriminate.
    destruct Hp as [<-|[<-|[<-|[<-|[]]]]]; discriminate.
Qed.
(** Built once, then a source is edited. *)
Lemma pedited : exists fs now, script_history "/w" "/h" no_glob pscript fs now /\ contents fs "/w/out/app" = Some "o:src+main" /\
  contents fs "/w/src.c" = Some "new".
Proof.
  destruct prun_done as (kind & c1 & objs & sv & s & B & _ & _ & A & _).
  assert (H : script_history "/w" "/h" no_glob pscript (w_fs (s_world s)) (w_now (s_world s))).
  { eapply sh_process; [exact pstart|exact pfs_ok|exact pscript_ok|exact papp_made|exact B]. }
  exists (fs_set (w_fs (s_world s)) "/w/src.c" (Some (S (w_now (s_world s)), Reg "new"))), (S (w_now (s_world s))).
  split; [|split; [unfold contents, fs_set; cbn [String.eqb]; exact A|reflexivity]].
  eapply sh_outside; [exact H|]. split; [auto|]. intros p. unfold fs_set. destruct (String.eqb_spec p "/w/src.c") as [->|N]; [|now left].
  right. right. left. split; [rewrite pproj_eq; reflexivity|]. exists (S (w_now (s_world s))), "new". split; [reflexivity|]. auto.
Qed.
