(** A C++ script and others at work in its directory: non-vacuity examples for C104. *)
From Coq Require Import Permutation Relations.
From Verif Require Import PyBase PyPath PathProofs SolverModel SpecGraph InvokerModel SpecTrace InvokerPath InvokerExec CoreModel SpecCore CoreProofs NeedProofs
  MakeModel MakeEval SpecMake MakeProofs MakeExec MakeExamples RegModel CliModel SpecUtil SpecReg RegExamples SpecProject ProjectBuild ProjectExamples
  SpecTrack SpecCxxTrack CxxTrack TrackExamples SpecCxxFine SpecCrowd SpecElsewhere ElsewhereExamples SpecAround AroundProofs.
Local Open Scope string_scope.
Local Open Scope list_scope.

(** The script
<<
    module with source a.c, builddir ".": list a.d, object a.o
    makefile("app", ["a.o"], link)
>>
    a.c includes a.h, which includes b.h if its text is "b"; missing headers are skipped. *)
Definition text (o : option string) : string := match o with Some t => t | None => "-" end.
Definition ylist : buildfun := fun s => if String.eqb (text (s "/w/a.h")) "b" then Some "a.o: a.c a.h b.h" else Some "a.o: a.c a.h".
Definition ycomp : buildfun := fun s =>
  if String.eqb (text (s "/w/a.h")) "b" then Some (text (s "/w/a.c") ++ "," ++ text (s "/w/b.h"))%string
  else Some (text (s "/w/a.c") ++ "," ++ text (s "/w/a.h"))%string.
Definition yapp : buildfun := fun s => Some ("app:" ++ text (s "/w/a.o"))%string.
Definition yunit : cunit := CU "a.c" "a.o" "a.d" [] ylist ycomp.
Definition yits : list item := [IUnit yunit; IStmt (SRule false "app" ["a.o"] yapp)].
Notation yscript := (script_at "/w" yits).
Notation yproj := (project_at "/w" "/h" no_glob yits).

Lemma ylist_headers s v : ylist s = Some v -> v <> "" /\ incl (listed (Some v)) ["a.h"; "b.h"] /\ In "a.h" (listed (Some v)) /\
  (text (s "/w/a.h") = "b" -> In "b.h" (listed (Some v))).
Proof.
  unfold ylist. destruct (String.eqb_spec (text (s "/w/a.h")) "b") as [E|N]; intros [= <-]; (split; [discriminate|]).
  - change (listed (Some "a.o: a.c a.h b.h")) with ["a.h"; "b.h"]. split; [apply incl_refl|]. split; [now left|]. intros _. right. now left.
  - change (listed (Some "a.o: a.c a.h")) with ["a.h"]. split; [intros x [<-|[]]; now left|]. split; [now left|]. intros E. contradiction.
Qed.
Lemma yboth s s' v : ylist s = Some v -> s' "/w/a.c" = s "/w/a.c" -> (forall h, In h (listed (Some v)) -> s' (realpath "/w" h) = s (realpath "/w" h)) ->
  ylist s' = ylist s /\ ycomp s' = ycomp s.
Proof.
  intros H E1 E2. destruct (ylist_headers s v H) as (_ & _ & Ha & Hb). pose proof (E2 _ Ha) as A. rewrite rp_a in A.
  unfold ylist, ycomp. rewrite A, E1. destruct (String.eqb_spec (text (s "/w/a.h")) "b") as [E|N]; [|split; reflexivity].
  pose proof (E2 _ (Hb E)) as B. rewrite rp_b in B. rewrite B. split; reflexivity.
Qed.
Definition ydisk : list string := ["/"; "/w"; "/w/a.c"; "/w/a.h"; "/w/b.h"; "/w/main.c"].
Definition yfs : fsys := fun p =>
  if mem p ["/"; "/w"] then Some (0, Dir) else
  if String.eqb p "/w/a.c" then Some (1, Reg "src") else
  if String.eqb p "/w/a.h" then Some (1, Reg "x") else
  if String.eqb p "/w/b.h" then Some (1, Reg "y") else
  if String.eqb p "/w/main.c" then Some (1, Reg "main") else None.
Lemma yfs_ok : disk_ok "/w" (present yfs) (on_path ydisk).
Proof.
  apply present_ok; [|reflexivity..]. intros p. unfold present, yfs, on, ydisk, mem. cbn [existsb].
  destruct (String.eqb_spec p "/"), (String.eqb_spec p "/w"), (String.eqb_spec p "/w/a.c"), (String.eqb_spec p "/w/a.h"), (String.eqb_spec p "/w/b.h"), (String.eqb_spec p "/w/main.c"); reflexivity.
Qed.
Lemma yorder : in_order "/w" "/h" no_glob (on_path ydisk) (yscript nothing).
Proof. apply in_orderb_ok. vm_compute. reflexivity. Qed.
Lemma yorder0 : in_order "/w" "/h" no_glob (on_path ydisk) (yscript (contents yfs)).
Proof. apply in_orderb_ok. vm_compute. reflexivity. Qed.
Lemma yits_unit u : In (IUnit u) yits -> u = yunit.
Proof. intros [H|[H|[]]]; [now injection H|discriminate H]. Qed.
Lemma yhonest : honest "/w" "/h" no_glob yits.
Proof.
  constructor.
  - exact (io_once _ _ _ _ _ yorder).
  - exact (io_names _ _ _ _ _ yorder).
  - intros u p Hu. apply yits_unit in Hu. subst u. cbn [u_src u_dep yunit]. intros [<-|[<-|[]]]; split; reflexivity.
  - intros u s s' v Hu. apply yits_unit in Hu. subst u. cbn [u_src u_list yunit]. rewrite rp_c. intros H H1 H2.
    destruct (yboth s s' v H H1 H2) as [-> _]. exact H.
  - intros u s s' v o Hu. apply yits_unit in Hu. subst u. cbn [u_src u_list u_comp yunit]. rewrite rp_c. intros H Ho H1 H2.
    destruct (yboth s s' v H H1 H2) as [_ ->]. exact Ho.
  - intros u s v Hu. apply yits_unit in Hu. subst u. cbn [u_list yunit]. intros H. now apply (ylist_headers s).
  - intros u s v h Hu. apply yits_unit in Hu. subst u. cbn [u_list yunit]. intros H Hh. apply (ylist_headers s v H) in Hh.
    destruct Hh as [<-|[<-|[]]]; reflexivity.
  - intros u s v h Hu. apply yits_unit in Hu. subst u. cbn [u_list u_dep u_obj yunit]. intros H Hh Hr. apply (ylist_headers s v H) in Hh.
    destruct Hh as [<-|[<-|[]]]; exfalso; apply Hr; vm_compute; reflexivity.
  - intros st p ds f b Hi Hr s s' Hs.
    destruct Hi as [Hi|[Hi|[]]]; try discriminate; injection Hi as <-.
    assert (E : rule_of "/w" "/h" no_glob (SRule false "app" ["a.o"] yapp) = Some ("/w/app", ["a.o"], (false, yapp))) by (vm_compute; reflexivity).
    rewrite E in Hr. injection Hr as <- _ _ <-. unfold yapp. rewrite (Hs "/w/a.o"); [reflexivity|].
    apply pi_file; [|right; eexists _, _, _; vm_compute; reflexivity]. exists ["/w/a.o"]. split; [now left|]. right. eexists _, _. vm_compute. reflexivity.
Qed.
Lemma ycompiled : compiled_listed yits.
Proof. intros u s o Hu _. apply yits_unit in Hu. subst u. cbn. unfold ylist. destruct (String.eqb _ _); eauto. Qed.
Lemma ytotal s0 p f ds b s : yproj s0 p = Some (DRule f ds b) -> b s <> None.
Proof.
  intros H. assert (Hb : rules_in "/w" "/h" no_glob yits p = Some b) by (apply (rules_at _ _ _ _ yhonest s0); eauto).
  destruct (rules_cases _ _ _ _ yhonest p b Hb) as [(st & ds' & f' & Hi & Er)|[(u & Hu & -> & ->)|(u & Hu & -> & ->)]].
  - destruct Hi as [Hi|[Hi|[]]]; try discriminate; injection Hi as <-. cbn in Er. injection Er as _ _ _ <-. discriminate.
  - apply yits_unit in Hu. subst u. cbn. unfold ylist. destruct (String.eqb _ _); discriminate.
  - apply yits_unit in Hu. subst u. cbn. unfold ycomp. destruct (String.eqb _ _); discriminate.
Qed.
Lemma ymade : In "/w/app" (flat_map (makes "/w" "/h" no_glob) (yscript (contents yfs))).
Proof. apply mem_In. vm_compute. reflexivity. Qed.
Lemma ymakes s : flat_map (makes "/w" "/h" no_glob) (yscript s) = ["/w/a.d"; "/w/a.o"; "/w/app"].
Proof. rewrite makes_same. vm_compute. reflexivity. Qed.
Lemma ystart junk : cxx_history "/w" "/h" no_glob junk yits yfs 1.
Proof.
  apply ch_start.
  - intros p m n. unfold yfs. destruct (mem p _); [intros [= <- <-]; auto|].
    destruct (String.eqb p "/w/a.c"); [intros [= <- <-]; auto|]. destruct (String.eqb p "/w/a.h"); [intros [= <- <-]; auto|].
    destruct (String.eqb p "/w/b.h"); [intros [= <- <-]; auto|]. destruct (String.eqb p "/w/main.c"); [intros [= <- <-]; auto|discriminate].
  - intros p Hp. apply (is_rule_at _ _ _ _ yhonest nothing) in Hp. apply rule_makes in Hp. rewrite ymakes in Hp.
    destruct Hp as [<-|[<-|[<-|[]]]]; reflexivity.
Qed.
(** What the commands look at besides what the script mentions. *)
Definition yreads (q : string) : Prop := q = "/w/a.h".
Lemma yheader partial th kind c1 objs sv a :
  building "/w" "/h" (on_path ydisk) no_glob partial (yscript (contents yfs)) "/w/app" th yfs 1 kind c1 objs sv a ->
  contents (w_fs (s_world a)) "/w/a.h" = Some "x".
Proof.
  intros B. destruct (building_of "/w" "/h" yfs (on_path ydisk) no_glob _ yfs_ok yorder0 partial _ _ _ _ _ _ _ _ ymade B) as (c & i & oi & Him & Hbo & _).
  change (Some "x") with (contents yfs "/w/a.h"). unfold contents.
  destruct (option_fs_dec (w_fs (s_world a) "/w/a.h") (yfs "/w/a.h")) as [->|N]; [reflexivity|exfalso].
  destruct (MakeClean.build_frame _ _ _ _ _ _ _ _ _ _ _ _ Hbo) with (p := "/w/a.h") as (j & Hj & [(E & (f & b & Ek) & _)|(_ & E & _)]); [|exact N| |discriminate E].
  - intros j Hj E. destruct (Him j Hj) as [_ H]. now rewrite E in H.
  - destruct (Him j Hj) as [_ H]. rewrite Ek, <- E in H. destruct H as (ds & H & _).
    assert (Hr : In "/w/a.h" (flat_map (makes "/w" "/h" no_glob) (yscript (contents yfs)))) by (apply rule_makes; now exists f, ds, b).
    rewrite ymakes in Hr. destruct Hr as [Hr|[Hr|[Hr|[]]]]; discriminate Hr.
Qed.
Lemma yincluded partial th kind c1 objs sv a q :
  building "/w" "/h" (on_path ydisk) no_glob partial (yscript (contents yfs)) "/w/app" th yfs 1 kind c1 objs sv a ->
  included "/w" yits (contents (w_fs (s_world a))) q -> yreads q.
Proof.
  intros B (u & v & h & Hu & Hv & Hh & ->). apply yits_unit in Hu. subst u. cbn [u_list yunit] in Hv. unfold ylist in Hv.
  rewrite (yheader _ _ _ _ _ _ _ B) in Hv. cbn in Hv. injection Hv as <-. destruct Hh as [<-|[]]. exact rp_a.
Qed.
Lemma ynever_fails partial th kind c1 objs sv a :
  building "/w" "/h" (on_path ydisk) no_glob partial (yscript (contents yfs)) "/w/app" th yfs 1 kind c1 objs sv a ->
  no_rule_failed (yproj (contents yfs)) (s_world a).
Proof. apply total_never_fails; [exact yfs_ok|exact yorder0|exact ymade|]. intros p f ds b s. apply ytotal. Qed.
Lemma ylooks partial th kind c1 objs sv a p :
  building "/w" "/h" (on_path ydisk) no_glob partial (yscript (contents yfs)) "/w/app" th yfs 1 kind c1 objs sv a -> calls c1 objs a p ->
  looks_at yreads (yproj (contents yfs)) p (contents (w_fs (s_world a))).
Proof.
  apply (headers_look "/w" "/h" no_glob yits yhonest ycompiled yfs (on_path ydisk) yfs_ok yorder0); [exact ymade| |].
  - intros a'. apply ynever_fails.
  - intros a' q. apply yincluded.
Qed.

(** A scheduler: steps of the process and files written by others. *)
Fixpoint around_move (p : proc) (cs : list (choice + string * nat * string)) (s : state world) : option (state world) :=
  match cs with
  | [] => Some s
  | inl c :: cs => match move no_fail c p s with Some s' => around_move p cs s' | None => None end
  | inr (q, m, v) :: cs => around_move p cs (at_now (fs_set (w_fs (s_world s)) q (Some (m, Reg v))) (Nat.max m (w_now (s_world s))) s)
  end.
Definition sparedb (p : proc) (rl : list string) (cs : list (choice + string * nat * string)) : bool :=
  forallb (fun c => match c with inl _ => true | inr (q, _, _) => negb (mem q (ownb p)) && negb (mem q (roadb p)) && negb (mem q rl) end) cs.
Lemma around_move_ok canon (R : string -> Prop) rl p w0 cs : (forall q, R q -> In q rl) -> sparedb p rl cs = true -> forall s s',
  amid_also canon R (pr_kind p) false (pr_solver p) (pr_core p) (pr_objs p) w0 s -> around_move p cs s = Some s' ->
  amid_also canon R (pr_kind p) false (pr_solver p) (pr_core p) (pr_objs p) w0 s'.
Proof.
  intros HR. induction cs as [|[c|[[q m] v]] cs IH]; intros Hb s s' A E; cbn [around_move] in E; cbn [sparedb forallb] in Hb; apply andb_prop in Hb || idtac.
  - injection E as <-. exact A.
  - destruct (move no_fail c p s) as [s1|] eqn:E1; [|discriminate E]. eapply (IH (proj2 Hb)); [|exact E].
    eapply aa_moves; [exact A|]. now apply (move_step canon c).
  - destruct Hb as [H Hb]. eapply (IH Hb); [|exact E]. apply aa_others; [exact A|].
    apply andb_prop in H. destruct H as [H H3]. apply andb_prop in H. destruct H as [H1 H2].
    assert (N : forall l, negb (mem q l) = true -> forall y, In y l -> String.eqb y q = false).
    { intros l Hn y Hy. apply String.eqb_neq. intros ->. apply mem_In in Hy. rewrite Hy in Hn. discriminate Hn. }
    split; [split|]; intros y Hy; unfold contents, is_reg, fs_set.
    + destruct Hy as (j & Hj & Hd & ->). rewrite (N _ H1); [reflexivity|]. apply in_flat_map. exists j. split; [exact Hj|].
      destruct (pr_kind p j); cbn in *; auto; contradiction.
    + destruct Hy as (j & Hj & Hd & Hy). rewrite (N _ H2); [reflexivity|]. apply in_flat_map. exists j. rewrite Hd. auto.
    + rewrite (N _ H3); [reflexivity|now apply HR].
Qed.
Definition yrun (cs : list (choice + string * nat * string)) : option (proc * state world) :=
  match begin_alone "/w" "/h" no_glob (on_path ydisk) (yscript (contents yfs)) "/w/app" 1 yfs 1 with
  | Some p => match around_move p cs (pr_state p) with Some s => Some (p, s) | None => None end
  | None => None
  end.
Definition yruns (R : string -> Prop) (p : proc) (s : state world) : Prop :=
  around_building "/w" "/h" (on_path ydisk) no_glob R false (yscript (contents yfs)) "/w/app" 1 yfs 1
    (pr_kind p) (pr_core p) (pr_objs p) (pr_solver p) s.
Lemma yrun_ok (R : string -> Prop) rl cs p s : (forall q, R q -> In q rl) -> yrun cs = Some (p, s) -> sparedb p rl cs = true -> yruns R p s.
Proof.
  unfold yrun. intros HR H Hb. destruct (begin_alone _ _ _ _ _ _ _ _ _) as [p'|] eqn:E; [|discriminate H].
  destruct (around_move p' cs (pr_state p')) as [s'|] eqn:Em; [|discriminate H]. injection H as -> ->.
  apply begin_alone_ok in E. destruct E as (ca1 & Hp & Ei). exists ca1. split; [exact Hp|].
  eapply (around_move_ok _ R rl); [exact HR|exact Hb| |exact Em]. rewrite Ei. apply aa_start.
Qed.
Lemma also_partial canon R kind sv c objs w0 s : amid_also canon R kind false sv c objs w0 s -> amid_also canon R kind true sv c objs w0 s.
Proof.
  induction 1 as [|s s' _ IH St|s fs' now' _ IH K]; [apply aa_start| |now apply aa_others]. eapply aa_moves; [exact IH|].
  destruct St; [now apply step_get|now apply step_drain|eapply step_finish; eauto; now apply mk_task_partial|now apply step_join].
Qed.
Lemma around_partial cwd home exists_ glob_ R l x th fs now kind c1 objs sv s :
  around_building cwd home exists_ glob_ R false l x th fs now kind c1 objs sv s -> around_building cwd home exists_ glob_ R true l x th fs now kind c1 objs sv s.
Proof. intros (ca1 & Hp & Ha). exists ca1. split; [exact Hp|now apply also_partial]. Qed.

(** Somebody writes b.h, which is not included, after the list has been made. *)
Definition ycs : list (choice + string * nat * string) :=
  [inl (CGet 0); inl (CFin 0); inl (CFin 0); inr ("/w/b.h", 7, "z"); inl (CFin 0); inl (CFin 0); inl CJoin].
(** Somebody writes a.h at that moment, so that it includes b.h. *)
Definition ycs' : list (choice + string * nat * string) :=
  [inl (CGet 0); inl (CFin 0); inl (CFin 0); inr ("/w/a.h", 7, "b"); inl (CFin 0); inl (CFin 0); inl CJoin].
Definition ydone (rl : list string) cs (test : ctx -> bool) : bool :=
  match yrun cs with
  | Some (p, s) => sparedb p rl cs && match s_main s with MReturned => true | _ => false end &&
      match exec_result (List.length (pr_objs p)) s with Ok true => true | _ => false end && test (contents (w_fs (s_world s)))
  | None => false
  end.
Lemma ydone_ok (R : string -> Prop) rl cs test : (forall q, R q -> In q rl) -> ydone rl cs test = true ->
  exists p s, yruns R p s /\ succeeded (pr_objs p) s /\ test (contents (w_fs (s_world s))) = true.
Proof.
  intros HR. unfold ydone. destruct (yrun cs) as [[p s]|] eqn:E; [|discriminate]. intros H. exists p, s.
  apply andb_prop in H. destruct H as [H H4]. apply andb_prop in H. destruct H as [H H3]. apply andb_prop in H. destruct H as [H1 H2].
  split; [now apply (yrun_ok R rl cs)|]. split; [|exact H4]. split.
  - destruct (s_main s); [discriminate H2|reflexivity].
  - destruct (exec_result _ s) as [[|]| |]; (reflexivity || discriminate H3).
Qed.
Definition holds (s : ctx) (p v : string) : bool := match s p with Some t => String.eqb t v | None => false end.
Lemma holds_ok s p v : holds s p v = true -> s p = Some v.
Proof. unfold holds. destruct (s p) as [t|]; [|discriminate]. intros H. apply String.eqb_eq in H. now subst. Qed.
Lemma y_aside : exists p s, yruns yreads p s /\ succeeded (pr_objs p) s /\
  contents (w_fs (s_world s)) "/w/b.h" = Some "z" /\ contents (w_fs (s_world s)) "/w/app" = Some "app:src,x".
Proof.
  destruct (ydone_ok yreads ["/w/a.h"] ycs (fun s => holds s "/w/b.h" "z" && holds s "/w/app" "app:src,x")) as (p & s & Y & Hs & H).
  - intros q ->. now left.
  - vm_compute. reflexivity.
  - apply andb_prop in H. exists p, s. split; [exact Y|]. split; [exact Hs|]. split; apply holds_ok; apply H.
Qed.
Lemma y_between : exists p s, yruns (fun _ => False) p s /\ succeeded (pr_objs p) s /\
  contents (w_fs (s_world s)) "/w/a.d" = Some "a.o: a.c a.h" /\ contents (w_fs (s_world s)) "/w/a.o" = Some "src,y" /\
  contents (w_fs (s_world s)) "/w/a.h" = Some "b" /\ contents (w_fs (s_world s)) "/w/a.c" = Some "src" /\ contents (w_fs (s_world s)) "/w/b.h" = Some "y".
Proof.
  destruct (ydone_ok (fun _ => False) [] ycs' (fun s => holds s "/w/a.d" "a.o: a.c a.h" && (holds s "/w/a.o" "src,y" && (holds s "/w/a.h" "b" && (holds s "/w/a.c" "src" && holds s "/w/b.h" "y"))))) as (p & s & Y & Hs & H).
  - intros q [].
  - vm_compute. reflexivity.
  - apply andb_prop in H. destruct H as [H1 H]. apply andb_prop in H. destruct H as [H2 H]. apply andb_prop in H. destruct H as [H3 H]. apply andb_prop in H. destruct H as [H4 H5].
    exists p, s. split; [exact Y|]. split; [exact Hs|]. repeat split; now apply holds_ok.
Qed.

(** [qscript] of C101 beside it. *)
Lemma yq_order : in_order "/w" "/h" no_glob (on_path ydisk) qscript.
Proof. apply in_orderb_ok. vm_compute. reflexivity. Qed.
Definition ycs2 : list (bool * choice) :=
  [(true, CGet 0); (false, CGet 0); (true, CFin 0); (false, CFin 0); (true, CFin 0); (false, CFin 0); (false, CFin 0); (true, CFin 0); (true, CFin 0); (true, CJoin); (false, CJoin)].
Definition yq : option (proc * proc) :=
  pair_up (begin_alone "/w" "/h" no_glob (on_path ydisk) (yscript (contents yfs)) "/w/app" 1 yfs 1) (begin_alone "/w" "/h" no_glob (on_path ydisk) qscript "/w/gen/x" 1 yfs 1).
Definition yq_test (p q : proc) (s : state world * state world) : bool :=
  state_fine p (fst s) && state_fine q (snd s) && (String.eqb (stext (fst s) "/w/app") "app:src,x" && String.eqb (stext (fst s) "/w/gen/x") "main").
Lemma yq_ok : on_pq yq (fun p q => (apartb p q && apartb q p && negb (mem "/w/a.h" (changeb q))) &&
  on_pair (both_move p q ycs2 (pr_state p, pr_state q)) (yq_test p q)) = true.
Proof. vm_compute. reflexivity. Qed.
Lemma changeb_ok p q : may_change (pr_kind p) (pr_core p) (pr_objs p) q -> In q (changeb p).
Proof.
  intros (j & Hj & C). apply in_flat_map. exists j. split; [exact Hj|].
  destruct C as [[(f & b & E) C]|[E C]]; rewrite E; [left; auto|]. destruct C as [C|C]; [left; auto|right; exact C].
Qed.
Lemma yq_done : exists p q s1 s2,
  begins_alone "/w" "/h" (on_path ydisk) no_glob (yscript (contents yfs)) "/w/app" 1 yfs 1 p /\
  begins_alone "/w" "/h" (on_path ydisk) no_glob qscript "/w/gen/x" 1 yfs 1 q /\
  apart (pr_kind p) (pr_core p) (pr_objs p) (pr_kind q) (pr_core q) (pr_objs q) /\
  apart (pr_kind q) (pr_core q) (pr_objs q) (pr_kind p) (pr_core p) (pr_objs p) /\
  spares (pr_kind q) (pr_core q) (pr_objs q) yreads /\
  beside (realpath "/w") false p q s1 s2 /\ succeeded (pr_objs p) s1 /\ succeeded (pr_objs q) s2 /\
  contents (w_fs (s_world s1)) "/w/app" = Some "app:src,x" /\ contents (w_fs (s_world s1)) "/w/gen/x" = Some "main".
Proof.
  destruct (on_pq_ok _ _ yq_ok) as (p & q & E & H). apply andb_prop in H. destruct H as [A H]. apply andb_prop in A. destruct A as [A A3]. apply andb_prop in A. destruct A as [A1 A2].
  destruct (on_pair_ok _ _ H) as (s & Es & T). unfold yq_test in T. apply andb_prop in T. destruct T as [T T2]. apply andb_prop in T. destruct T as [T T1].
  apply andb_prop in T2. destruct T2 as [T2 T3]. unfold yq in E. apply pair_up_ok in E. destruct E as [Ep Eq]. exists p, q, (fst s), (snd s).
  split; [exact (begin_alone_ok _ _ _ _ _ _ _ _ _ _ Ep)|]. split; [exact (begin_alone_ok _ _ _ _ _ _ _ _ _ _ Eq)|].
  split; [exact (apartb_ok _ _ A1)|]. split; [exact (apartb_ok _ _ A2)|].
  split; [intros y -> C; apply changeb_ok, mem_In in C; rewrite C in A3; discriminate A3|].
  split; [exact (both_move_ok _ p q ycs2 (pr_state p, pr_state q) s (be_start _ _ _ _) Es)|].
  split; [exact (state_fine_ok _ _ T)|]. split; [exact (state_fine_ok _ _ T1)|].
  split; [apply stext_eq; [intros X; discriminate X|exact T2]|apply stext_eq; [intros X; discriminate X|exact T3]].
Qed.
