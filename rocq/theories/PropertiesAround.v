(** C104: builds of C++ scripts, and of other scripts whose rules look at more than they declare,
    while files elsewhere change. *)
From Coq Require Import Permutation.
From Verif Require Import PyBase PyPath SolverModel SpecGraph InvokerModel SpecTrace CoreModel SpecCore MakeModel SpecMake RegModel CliModel SpecUtil SpecReg RegExamples SpecProject ProjectExamples
  SpecTrack SpecCxxTrack TrackExamples SpecCxxFine SpecCrowd SpecElsewhere ElsewhereExamples SpecAround AroundProofs AroundExamples.
Local Open Scope string_scope.
Local Open Scope list_scope.

(** Others keep off the files and directories of the targets that take part, as in C101, and
    keep the contents of the files [R], which are those that the commands of a build that
    nobody disturbs look at besides their declared inputs.  Then the process behaves as if it
    were alone. *)
Theorem C104_as_if_alone :
  forall cwd home fs exists_ glob_ l, disk_ok cwd (present fs) exists_ -> in_order cwd home glob_ exists_ l ->
  forall (R : string -> Prop) partial x th now kind c1 objs sv, In x (flat_map (makes cwd home glob_) l) ->
  (forall a p, building cwd home exists_ glob_ partial l x th fs now kind c1 objs sv a -> calls c1 objs a p ->
     looks_at R (project_of cwd home glob_ l) p (contents (w_fs (s_world a)))) ->
  forall s, around_building cwd home exists_ glob_ R partial l x th fs now kind c1 objs sv s ->
  exists a, building cwd home exists_ glob_ partial l x th fs now kind c1 objs sv a /\ as_if_also R kind c1 objs s a.
Proof. intros cwd home fs exists_ glob_ l D K R partial x th now kind c1 objs sv X L s. now apply script_around. Qed.
Print Assumptions C104_as_if_alone.

(** C++ scripts: it is enough that others keep the headers that the sources include while
    nobody disturbs the build, and that its commands do not fail.  Which headers exist
    otherwise, and what is in them, does not matter. *)
Theorem C104_cxx_as_if_alone :
  forall cwd home glob_ its, honest cwd home glob_ its -> compiled_listed its ->
  forall fs exists_, disk_ok cwd (present fs) exists_ -> in_order cwd home glob_ exists_ (script_at cwd its (contents fs)) ->
  forall (R : string -> Prop) partial x th now kind c1 objs sv, In x (flat_map (makes cwd home glob_) (script_at cwd its (contents fs))) ->
  (forall a, building cwd home exists_ glob_ partial (script_at cwd its (contents fs)) x th fs now kind c1 objs sv a ->
     no_rule_failed (project_at cwd home glob_ its (contents fs)) (s_world a) /\
     forall q, included cwd its (contents (w_fs (s_world a))) q -> R q) ->
  forall s, around_building cwd home exists_ glob_ R partial (script_at cwd its (contents fs)) x th fs now kind c1 objs sv s ->
  exists a, building cwd home exists_ glob_ partial (script_at cwd its (contents fs)) x th fs now kind c1 objs sv a /\ as_if_also R kind c1 objs s a.
Proof.
  intros cwd home glob_ its H C fs exists_ D K R partial x th now kind c1 objs sv X L s. apply C104_as_if_alone; auto.
  apply (headers_look cwd home glob_ its H C fs exists_ D K R partial x th now kind c1 objs sv X); [intros a Ba; exact (proj1 (L a Ba))|intros a q Ba; exact (proj2 (L a Ba) q)].
Qed.
Print Assumptions C104_cxx_as_if_alone.

(** When the process returns True, lists and objects are what the commands make of the files
    that are there then, with the changes of the others. *)
Theorem C104_cxx_files_are_right :
  forall cwd home glob_ its, honest cwd home glob_ its -> compiled_listed its ->
  forall fs exists_, disk_ok cwd (present fs) exists_ -> in_order cwd home glob_ exists_ (script_at cwd its (contents fs)) ->
  forall (R : string -> Prop) x th now kind c1 objs sv s, In x (flat_map (makes cwd home glob_) (script_at cwd its (contents fs))) ->
  (forall a, building cwd home exists_ glob_ true (script_at cwd its (contents fs)) x th fs now kind c1 objs sv a ->
     no_rule_failed (project_at cwd home glob_ its (contents fs)) (s_world a) /\
     forall q, included cwd its (contents (w_fs (s_world a))) q -> R q) ->
  cxx_history cwd home glob_ (empty_list cwd its) its fs now ->
  around_building cwd home exists_ glob_ R true (script_at cwd its (contents fs)) x th fs now kind c1 objs sv s -> succeeded objs s ->
  forall p b, p_cone (project_at cwd home glob_ its (contents fs)) x p -> rules_in cwd home glob_ its p = Some b ->
  exists v, b (contents (w_fs (s_world s))) = Some v /\ contents (w_fs (s_world s)) p = Some v.
Proof.
  intros cwd home glob_ its H C fs exists_ D K R x th now kind c1 objs sv s X L Hh B Su.
  apply (around_cxx_right cwd home glob_ its H C fs exists_ D K R true x th now kind c1 objs sv X s Hh eq_refl); auto.
  - apply (headers_look cwd home glob_ its H C fs exists_ D K R true x th now kind c1 objs sv X); [intros a Ba; exact (proj1 (L a Ba))|intros a q Ba; exact (proj2 (L a Ba) q)].
  - intros a q Ba. exact (proj2 (L a Ba) q).
Qed.
Print Assumptions C104_cxx_files_are_right.
Theorem C104_objects_fit_their_lists :
  forall cwd home glob_ its, honest cwd home glob_ its -> compiled_listed its ->
  forall fs exists_, disk_ok cwd (present fs) exists_ -> in_order cwd home glob_ exists_ (script_at cwd its (contents fs)) ->
  forall (R : string -> Prop) x th now kind c1 objs sv s u, In x (flat_map (makes cwd home glob_) (script_at cwd its (contents fs))) ->
  (forall a, building cwd home exists_ glob_ true (script_at cwd its (contents fs)) x th fs now kind c1 objs sv a ->
     no_rule_failed (project_at cwd home glob_ its (contents fs)) (s_world a) /\
     forall q, included cwd its (contents (w_fs (s_world a))) q -> R q) ->
  cxx_history cwd home glob_ (empty_list cwd its) its fs now ->
  around_building cwd home exists_ glob_ R true (script_at cwd its (contents fs)) x th fs now kind c1 objs sv s -> succeeded objs s ->
  In (IUnit u) its -> p_cone (project_at cwd home glob_ its (contents fs)) x (realpath cwd (u_obj u)) ->
  let s' := contents (w_fs (s_world s)) in
  exists l o, s' (realpath cwd (u_dep u)) = Some l /\ u_list u s' = Some l /\ s' (realpath cwd (u_obj u)) = Some o /\ u_comp u s' = Some o.
Proof.
  intros cwd home glob_ its H C fs exists_ D K R x th now kind c1 objs sv s u X L Hh B Su.
  apply (around_cxx_unit cwd home glob_ its H C fs exists_ D K R true x th now kind c1 objs sv X s Hh eq_refl); auto.
  - apply (headers_look cwd home glob_ its H C fs exists_ D K R true x th now kind c1 objs sv X); [intros a Ba; exact (proj1 (L a Ba))|intros a q Ba; exact (proj2 (L a Ba) q)].
  - intros a q Ba. exact (proj2 (L a Ba) q).
Qed.
Print Assumptions C104_objects_fit_their_lists.
(** b.h is written after the list of headers was made and before the source is compiled. *)
Example C104_case :
  honest "/w" "/h" no_glob yits /\ compiled_listed yits /\ disk_ok "/w" (present yfs) (on_path ydisk) /\
  in_order "/w" "/h" no_glob (on_path ydisk) (yscript (contents yfs)) /\ In "/w/app" (flat_map (makes "/w" "/h" no_glob) (yscript (contents yfs))) /\
  cxx_history "/w" "/h" no_glob (empty_list "/w" yits) yits yfs 1 /\
  (forall partial th kind c1 objs sv a, building "/w" "/h" (on_path ydisk) no_glob partial (yscript (contents yfs)) "/w/app" th yfs 1 kind c1 objs sv a ->
     no_rule_failed (yproj (contents yfs)) (s_world a) /\ forall q, included "/w" yits (contents (w_fs (s_world a))) q -> yreads q) /\
  exists kind c1 objs sv s, around_building "/w" "/h" (on_path ydisk) no_glob yreads true (yscript (contents yfs)) "/w/app" 1 yfs 1 kind c1 objs sv s /\ succeeded objs s /\
  contents (w_fs (s_world s)) "/w/b.h" = Some "z" /\ contents yfs "/w/b.h" = Some "y" /\ contents (w_fs (s_world s)) "/w/app" = Some "app:src,x".
Proof.
  split; [exact yhonest|]. split; [exact ycompiled|]. split; [exact yfs_ok|]. split; [exact yorder0|]. split; [exact ymade|]. split; [apply ystart|].
  split; [intros partial th kind c1 objs sv a B; split; [eapply ynever_fails; exact B|intros q; eapply yincluded; exact B]|].
  destruct y_aside as (p & s & Y & Su & E1 & E2). exists (pr_kind p), (pr_core p), (pr_objs p), (pr_solver p), s.
  split; [apply around_partial; exact Y|]. split; [exact Su|]. split; [exact E1|]. split; [reflexivity|exact E2].
Qed.

(** It is not enough that others keep off the files of the targets that take part: headers
    that no list mentions yet are none of them.  Here a.h is changed after the list was made,
    and the object is compiled from b.h, which the list does not name. *)
Theorem C104_headers_refuted :
  exists cwd home glob_ its fs exists_ x th now kind c1 objs sv s u l o,
  honest cwd home glob_ its /\ compiled_listed its /\ disk_ok cwd (present fs) exists_ /\
  in_order cwd home glob_ exists_ (script_at cwd its (contents fs)) /\ In x (flat_map (makes cwd home glob_) (script_at cwd its (contents fs))) /\
  cxx_history cwd home glob_ (empty_list cwd its) its fs now /\
  amid_building cwd home exists_ glob_ true (script_at cwd its (contents fs)) x th fs now kind c1 objs sv s /\ succeeded objs s /\
  In (IUnit u) its /\ let s' := contents (w_fs (s_world s)) in
  s' (realpath cwd (u_dep u)) = Some l /\ s' (realpath cwd (u_obj u)) = Some o /\ u_comp u s' = Some o /\ u_list u s' <> Some l /\
  exists h, s' h <> None /\ ~ In h (map (realpath cwd) (u_src u :: listed (Some l))) /\
    u_comp u (fun q => if String.eqb q h then None else s' q) <> Some o.
Proof.
  destruct y_between as (p & s & Y & Su & E1 & E2 & E3 & E4 & E5).
  exists "/w", "/h", no_glob, yits, yfs, (on_path ydisk), "/w/app", 1%Z, 1, (pr_kind p), (pr_core p), (pr_objs p), (pr_solver p), s, yunit, "a.o: a.c a.h", "src,y".
  split; [exact yhonest|]. split; [exact ycompiled|]. split; [exact yfs_ok|]. split; [exact yorder0|]. split; [exact ymade|]. split; [apply ystart|].
  split; [eapply around_amid; apply around_partial; exact Y|]. split; [exact Su|]. split; [now left|].
  cbn [u_dep u_obj u_comp u_list u_src yunit]. rewrite rp_d, rp_o. split; [exact E1|]. split; [exact E2|].
  unfold ycomp, ylist. rewrite E3, E4, E5. split; [reflexivity|]. split; [intros X; discriminate X|].
  exists "/w/b.h". rewrite E5. split; [intros X; discriminate X|]. split.
  - change (listed (Some "a.o: a.c a.h")) with ["a.h"]. cbn [map]. rewrite rp_a, rp_c. intros [X|[X|[]]]; discriminate X.
  - cbn [String.eqb Ascii.eqb Bool.eqb]. rewrite ?E3, ?E4. cbn. intros X. discriminate X.
Qed.
Print Assumptions C104_headers_refuted.

(** Two processes: neither changes anything that the other one has to do with or looks at. *)
Theorem C104_two_processes :
  forall cwd home fs now there1 glob1 l1 there2 glob2 l2 (R1 R2 : string -> Prop) partial x1 th1 x2 th2 p1 p2 s1 s2,
  disk_ok cwd (present fs) there1 -> in_order cwd home glob1 there1 l1 -> disk_ok cwd (present fs) there2 -> in_order cwd home glob2 there2 l2 ->
  In x1 (flat_map (makes cwd home glob1) l1) -> In x2 (flat_map (makes cwd home glob2) l2) ->
  begins_alone cwd home there1 glob1 l1 x1 th1 fs now p1 -> begins_alone cwd home there2 glob2 l2 x2 th2 fs now p2 ->
  (forall a p, building cwd home there1 glob1 partial l1 x1 th1 fs now (pr_kind p1) (pr_core p1) (pr_objs p1) (pr_solver p1) a -> calls (pr_core p1) (pr_objs p1) a p ->
     looks_at R1 (project_of cwd home glob1 l1) p (contents (w_fs (s_world a)))) ->
  (forall a p, building cwd home there2 glob2 partial l2 x2 th2 fs now (pr_kind p2) (pr_core p2) (pr_objs p2) (pr_solver p2) a -> calls (pr_core p2) (pr_objs p2) a p ->
     looks_at R2 (project_of cwd home glob2 l2) p (contents (w_fs (s_world a)))) ->
  apart (pr_kind p1) (pr_core p1) (pr_objs p1) (pr_kind p2) (pr_core p2) (pr_objs p2) -> spares (pr_kind p1) (pr_core p1) (pr_objs p1) R2 ->
  apart (pr_kind p2) (pr_core p2) (pr_objs p2) (pr_kind p1) (pr_core p1) (pr_objs p1) -> spares (pr_kind p2) (pr_core p2) (pr_objs p2) R1 ->
  beside (realpath cwd) partial p1 p2 s1 s2 ->
  exists a1 a2,
  building cwd home there1 glob1 partial l1 x1 th1 fs now (pr_kind p1) (pr_core p1) (pr_objs p1) (pr_solver p1) a1 /\
  as_if_also R1 (pr_kind p1) (pr_core p1) (pr_objs p1) s1 a1 /\
  building cwd home there2 glob2 partial l2 x2 th2 fs now (pr_kind p2) (pr_core p2) (pr_objs p2) (pr_solver p2) a2 /\
  as_if_also R2 (pr_kind p2) (pr_core p2) (pr_objs p2) s2 a2.
Proof.
  intros cwd home fs now there1 glob1 l1 there2 glob2 l2 R1 R2 partial x1 th1 x2 th2 p1 p2 s1 s2 D1 K1 D2 K2 X1 X2 B1 B2 L1 L2 A1 S1 A2 S2 B.
  destruct (beside_around cwd home fs now there1 there2 glob1 glob2 l1 l2 D1 D2 K1 K2 R1 R2 partial x1 th1 x2 th2 p1 p2 s1 s2 X1 X2 B1 B2 A1 S1 A2 S2 B) as [G1 G2].
  destruct (C104_as_if_alone cwd home fs there1 glob1 l1 D1 K1 R1 partial x1 th1 now _ _ _ _ X1 L1 s1 G1) as (a1 & H1 & H1').
  destruct (C104_as_if_alone cwd home fs there2 glob2 l2 D2 K2 R2 partial x2 th2 now _ _ _ _ X2 L2 s2 G2) as (a2 & H2 & H2').
  exists a1, a2. auto.
Qed.
Print Assumptions C104_two_processes.
(** The C++ script and one that copies a file. *)
Example C104_case_two : exists p q s1 s2,
  in_order "/w" "/h" no_glob (on_path ydisk) qscript /\
  begins_alone "/w" "/h" (on_path ydisk) no_glob (yscript (contents yfs)) "/w/app" 1 yfs 1 p /\
  begins_alone "/w" "/h" (on_path ydisk) no_glob qscript "/w/gen/x" 1 yfs 1 q /\
  (forall a y, building "/w" "/h" (on_path ydisk) no_glob false (yscript (contents yfs)) "/w/app" 1 yfs 1 (pr_kind p) (pr_core p) (pr_objs p) (pr_solver p) a ->
     calls (pr_core p) (pr_objs p) a y -> looks_at yreads (yproj (contents yfs)) y (contents (w_fs (s_world a)))) /\
  (forall y s, looks_at (fun _ => False) qproj y s) /\
  apart (pr_kind p) (pr_core p) (pr_objs p) (pr_kind q) (pr_core q) (pr_objs q) /\ spares (pr_kind p) (pr_core p) (pr_objs p) (fun _ => False) /\
  apart (pr_kind q) (pr_core q) (pr_objs q) (pr_kind p) (pr_core p) (pr_objs p) /\ spares (pr_kind q) (pr_core q) (pr_objs q) yreads /\
  beside (realpath "/w") false p q s1 s2 /\ succeeded (pr_objs p) s1 /\ succeeded (pr_objs q) s2 /\
  contents (w_fs (s_world s1)) "/w/app" = Some "app:src,x" /\ contents (w_fs (s_world s1)) "/w/gen/x" = Some "main".
Proof.
  destruct yq_done as (p & q & s1 & s2 & B1 & B2 & A1 & A2 & S2 & B & Su1 & Su2 & T1 & T2). exists p, q, s1, s2.
  split; [exact yq_order|]. split; [exact B1|]. split; [exact B2|]. split; [intros a y; apply ylooks|].
  split; [intros y s; apply reads_looks; exact qproj_reads_only|]. split; [exact A1|]. split; [intros y []|]. auto 10.
Qed.
