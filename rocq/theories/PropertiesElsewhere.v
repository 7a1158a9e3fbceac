(** C101: builds while files elsewhere change. *)
From Coq Require Import Permutation.
From Verif Require Import PyBase PyPath SolverModel SpecGraph InvokerModel SpecTrace CoreModel SpecCore MakeModel SpecMake RegModel CliModel SpecUtil SpecReg RegExamples SpecProject ProjectExamples
  SpecCrowd SpecElsewhere ElsewhereProofs ElsewhereBuild ElsewhereExamples.
Local Open Scope string_scope.
Local Open Scope list_scope.

(** As long as others keep off the files and directories of the targets that take part, and
    put no file where a directory of the way to them belongs, the process behaves as if it
    were alone: it makes the same calls in the same order with the same results, knows the
    same dates and leaves the same files. *)
Theorem C101_as_if_alone :
  forall cwd home fs exists_ glob_ l, disk_ok cwd (present fs) exists_ -> in_order cwd home glob_ exists_ l ->
  reads_only (project_of cwd home glob_ l) ->
  forall partial x th now kind c1 objs sv s, In x (flat_map (makes cwd home glob_) l) ->
  amid_building cwd home exists_ glob_ partial l x th fs now kind c1 objs sv s ->
  exists a, building cwd home exists_ glob_ partial l x th fs now kind c1 objs sv a /\ as_if kind c1 objs s a.
Proof. intros cwd home fs exists_ glob_ l D K R partial x th now kind c1 objs sv s. now apply script_alone. Qed.
Print Assumptions C101_as_if_alone.

(** When it returns True, every file that the target needs has the right content. *)
Theorem C101_files_are_right :
  forall cwd home fs exists_ glob_ l, disk_ok cwd (present fs) exists_ -> in_order cwd home glob_ exists_ l ->
  reads_only (project_of cwd home glob_ l) ->
  forall x th now kind c1 objs sv s, In x (flat_map (makes cwd home glob_) l) ->
  amid_building cwd home exists_ glob_ false l x th fs now kind c1 objs sv s -> succeeded objs s ->
  script_history cwd home glob_ l fs now ->
  forall p, is_file (project_of cwd home glob_ l) p -> p_cone (project_of cwd home glob_ l) x p ->
  right_content (project_of cwd home glob_ l) (contents (w_fs (s_world s))) p (contents (w_fs (s_world s)) p).
Proof. intros cwd home fs exists_ glob_ l D K R x th now kind c1 objs sv s. now apply script_amid_right. Qed.
Print Assumptions C101_files_are_right.

(** It does not hang, cf. C80. *)
Theorem C101_goes_on :
  forall cwd home fs exists_ glob_ l, disk_ok cwd (present fs) exists_ -> in_order cwd home glob_ exists_ l ->
  reads_only (project_of cwd home glob_ l) ->
  forall partial x th now kind c1 objs sv s, In x (flat_map (makes cwd home glob_) l) ->
  dirs_free cwd home l fs -> (1 <= th)%Z ->
  amid_building cwd home exists_ glob_ partial l x th fs now kind c1 objs sv s ->
  no_rule_failed (project_of cwd home glob_ l) (s_world s) ->
  succeeded objs s \/
  s_main s = MJoin /\ exists s', step (inv_of (sv_inv sv)) (mk_task (realpath cwd) kind partial c1 objs) s s'.
Proof. intros cwd home fs exists_ glob_ l D K R partial x th now kind c1 objs sv s. now apply script_amid_goes_on. Qed.
Print Assumptions C101_goes_on.

(** Two processes, of one script or of two, in one directory: if neither changes anything
    that the other one has to do with, each behaves as if it were alone, however their steps
    are interleaved. *)
Theorem C101_two_processes :
  forall cwd home fs now there1 glob1 l1 there2 glob2 l2 partial x1 th1 x2 th2 p1 p2 s1 s2,
  disk_ok cwd (present fs) there1 -> in_order cwd home glob1 there1 l1 -> reads_only (project_of cwd home glob1 l1) ->
  disk_ok cwd (present fs) there2 -> in_order cwd home glob2 there2 l2 -> reads_only (project_of cwd home glob2 l2) ->
  In x1 (flat_map (makes cwd home glob1) l1) -> In x2 (flat_map (makes cwd home glob2) l2) ->
  begins_alone cwd home there1 glob1 l1 x1 th1 fs now p1 -> begins_alone cwd home there2 glob2 l2 x2 th2 fs now p2 ->
  apart (pr_kind p1) (pr_core p1) (pr_objs p1) (pr_kind p2) (pr_core p2) (pr_objs p2) ->
  apart (pr_kind p2) (pr_core p2) (pr_objs p2) (pr_kind p1) (pr_core p1) (pr_objs p1) ->
  beside (realpath cwd) partial p1 p2 s1 s2 ->
  exists a1 a2,
  building cwd home there1 glob1 partial l1 x1 th1 fs now (pr_kind p1) (pr_core p1) (pr_objs p1) (pr_solver p1) a1 /\
  as_if (pr_kind p1) (pr_core p1) (pr_objs p1) s1 a1 /\
  building cwd home there2 glob2 partial l2 x2 th2 fs now (pr_kind p2) (pr_core p2) (pr_objs p2) (pr_solver p2) a2 /\
  as_if (pr_kind p2) (pr_core p2) (pr_objs p2) s2 a2.
Proof.
  intros cwd home fs now there1 glob1 l1 there2 glob2 l2 partial x1 th1 x2 th2 p1 p2 s1 s2 D1 K1 R1 D2 K2 R2 X1 X2 B1 B2 A1 A2 B.
  destruct (beside_amid cwd home fs now there1 there2 glob1 glob2 l1 l2 D1 D2 K1 K2 partial x1 th1 x2 th2 p1 p2 s1 s2 X1 X2 B1 B2 A1 A2 B) as [G1 G2].
  destruct (script_alone cwd home fs there1 glob1 l1 D1 K1 R1 _ _ _ _ _ _ _ _ _ X1 G1) as (a1 & H1 & H1').
  destruct (script_alone cwd home fs there2 glob2 l2 D2 K2 R2 _ _ _ _ _ _ _ _ _ X2 G2) as (a2 & H2 & H2').
  exists a1, a2. auto.
Qed.
Print Assumptions C101_two_processes.
Example C101_case : exists p q s1 s2,
  disk_ok "/w" (present pfs) (on_path pdisk) /\
  in_order "/w" "/h" no_glob (on_path pdisk) pscript /\ reads_only pproj /\ In "/w/out/app" (flat_map (makes "/w" "/h" no_glob) pscript) /\
  in_order "/w" "/h" no_glob (on_path pdisk) qscript /\ reads_only qproj /\ In "/w/gen/x" (flat_map (makes "/w" "/h" no_glob) qscript) /\
  script_history "/w" "/h" no_glob pscript pfs 1 /\ script_history "/w" "/h" no_glob qscript pfs 1 /\ dirs_free "/w" "/h" pscript pfs /\ dirs_free "/w" "/h" qscript pfs /\
  begins_alone "/w" "/h" (on_path pdisk) no_glob pscript "/w/out/app" 2 pfs 1 p /\
  begins_alone "/w" "/h" (on_path pdisk) no_glob qscript "/w/gen/x" 1 pfs 1 q /\
  apart (pr_kind p) (pr_core p) (pr_objs p) (pr_kind q) (pr_core q) (pr_objs q) /\
  apart (pr_kind q) (pr_core q) (pr_objs q) (pr_kind p) (pr_core p) (pr_objs p) /\
  beside (realpath "/w") false p q s1 s2 /\
  amid_building "/w" "/h" (on_path pdisk) no_glob false pscript "/w/out/app" 2 pfs 1 (pr_kind p) (pr_core p) (pr_objs p) (pr_solver p) s1 /\
  succeeded (pr_objs p) s1 /\ succeeded (pr_objs q) s2 /\
  contents (w_fs (s_world s1)) "/w/out/app" = Some "o:src+main" /\ contents (w_fs (s_world s1)) "/w/gen/x" = Some "main".
Proof.
  destruct pq_done as (p & q & s1 & s2 & B1 & B2 & A1 & A2 & B & S1 & S2 & T1 & T2). exists p, q, s1, s2.
  destruct (beside_amid "/w" "/h" pfs 1 (on_path pdisk) (on_path pdisk) no_glob no_glob pscript qscript pfs_ok pfs_ok pscript_ok qscript_ok
    false "/w/out/app" 2 "/w/gen/x" 1 p q s1 s2 papp_made qmade B1 B2 A1 A2 B) as [G1 G2].
  split; [exact pfs_ok|]. split; [exact pscript_ok|]. split; [exact pproj_reads_only|]. split; [exact papp_made|].
  split; [exact qscript_ok|]. split; [exact qproj_reads_only|]. split; [exact qmade|]. split; [exact pstart|]. split; [exact qstart|].
  split; [exact pscript_free|]. split; [exact qscript_free|]. split; [exact B1|]. split; [exact B2|]. split; [exact A1|]. split; [exact A2|].
  split; [exact B|]. split; [exact G1|]. split; [exact S1|]. split; [exact S2|]. split; [exact T1|exact T2].
Qed.

(** It is not enough that the files are different: if both need a directory that is not
    there yet, os.makedirs (make.py:76-80) raises in the one that comes second and its
    worker is gone, though no rule has failed. *)
Theorem C101_different_files_refuted :
  exists cwd home glob_ exists_ l fs now x1 x2 p q s1 s2,
  disk_ok cwd (present fs) exists_ /\ in_order cwd home glob_ exists_ l /\ reads_only (project_of cwd home glob_ l) /\ dirs_free cwd home l fs /\
  In x1 (flat_map (makes cwd home glob_) l) /\ In x2 (flat_map (makes cwd home glob_) l) /\
  begins_alone cwd home exists_ glob_ l x1 1 fs now p /\ begins_alone cwd home exists_ glob_ l x2 1 fs now q /\
  (forall y, p_cone (project_of cwd home glob_ l) x1 y -> p_cone (project_of cwd home glob_ l) x2 y -> False) /\
  beside (realpath cwd) false p q s1 s2 /\
  no_rule_failed (project_of cwd home glob_ l) (s_world s1) /\ no_rule_failed (project_of cwd home glob_ l) (s_world s2) /\
  s_main s2 = MJoin /\
  forall fs' now' s', ~ step (inv_of (sv_inv (pr_solver q))) (mk_task (realpath cwd) (pr_kind q) false (pr_core q) (pr_objs q)) (at_now fs' now' s2) s'.
Proof.
  exists "/w", "/h", no_glob, (on_path pdisk), pscript, pfs, 1, "/w/out/lib/a.o", "/w/out/a.h".
  destruct hh_stuck as (p & q & s1 & s2 & B1 & B2 & B & N1 & N2 & M & St). exists p, q, s1, s2.
  split; [exact pfs_ok|]. split; [exact pscript_ok|]. split; [exact pproj_reads_only|]. split; [exact pscript_free|]. split; [exact pamade|]. split; [exact phmade|].
  split; [exact B1|]. split; [exact B2|]. split; [|auto].
  intros y Y1 Y2. apply pcone_a in Y1. apply pcone_h in Y2. destruct Y1 as [E1|E1]; destruct Y2 as [E2|E2]; rewrite E1 in E2; discriminate E2.
Qed.
Print Assumptions C101_different_files_refuted.
