(** C99: the calls of rules take time.  In the other theorems about builds a rule reads its
    inputs and writes its output at one moment, when its call ends.  Here ([interleaved],
    FineModel.v) each file is read at some moment of the call, different files at different
    moments, while other rules run, and until its end a rule may put anything into its output,
    any number of times.  The results are the same. *)
From Coq Require Import Permutation.
From Verif Require Import PyBase PyPath SolverModel SpecGraph InvokerModel InvokerPath SpecTrace CoreModel SpecCore CoreProofs MakeModel MakeEval SpecMake
  RegModel CliModel SpecUtil SpecReg RegExamples SpecProject ProjectProofs ProjectBuild ProjectExamples FineModel FineProofs SpecFine FineBuild FineExamples
  SpecTrack SpecCxxTrack CxxTrack TrackExamples SpecCxxFine CxxFine CxxFineExamples FineUndeclared.
Local Open Scope string_scope.
Local Open Scope list_scope.

(** At every moment of such a build: everything is as it would be if the calls that have ended
    had read and written at one moment, except for the files whose rules are running. *)
Theorem C99_as_if_at_one_moment :
  forall canon kind other_if partial P c i fs now ca c1 objs n s h,
  implements canon kind P c i -> reads_settled P -> fine_build_of canon kind other_if partial c i fs now ca c1 objs n (s :: h) ->
  exists a, build_of canon kind other_if partial c i fs now ca c1 objs a /\ same_but_made kind c1 objs s a.
Proof.
  intros canon kind other_if partial P c i fs now ca c1 objs n s h I R B.
  destruct (fine_build_atom _ _ _ _ _ _ _ _ _ _ _ _ _ _ _ I R B) as (a & Ba & Sa & _). eauto.
Qed.
Print Assumptions C99_as_if_at_one_moment.
(** What a rule is given to read does not change while it runs, whatever else runs. *)
Theorem C99_inputs_are_settled :
  forall canon kind other_if partial P c i fs now ca c1 objs n s h,
  implements canon kind P c i -> reads_settled P -> fine_build_of canon kind other_if partial c i fs now ca c1 objs n (s :: h) ->
  forall t f b q s1, busy (s_log s) t -> kind (nth t objs (List.length (c_heap c1))) = MFile f b ->
  In s1 h -> busy (s_log s1) t -> p_input P (t_name (obj c1 (nth t objs (List.length (c_heap c1))))) q ->
  w_fs (s_world s1) q = w_fs (s_world s) q.
Proof.
  intros canon kind other_if partial P c i fs now ca c1 objs n s h I R B t f b q s1 Bt Hk Hs1 B1 Hq.
  destruct (fine_build_atom _ _ _ _ _ _ _ _ _ _ _ _ _ _ _ I R B) as (a & _ & _ & _ & G).
  rewrite (G t f b q s1 Bt Hk (or_intror Hs1) B1 Hq). symmetry. exact (G t f b q s Bt Hk (or_introl eq_refl) Bt Hq).
Qed.
Print Assumptions C99_inputs_are_settled.

(** The same for scripts. *)
Theorem C99_scripts_as_if_at_one_moment :
  forall cwd home fs exists_ glob_ l, disk_ok cwd (present fs) exists_ -> in_order cwd home glob_ exists_ l ->
  reads_settled (project_of cwd home glob_ l) ->
  forall partial x th now kind c1 objs sv n s h, In x (flat_map (makes cwd home glob_) l) ->
  fine_building cwd home exists_ glob_ partial l x th fs now kind c1 objs sv n (s :: h) ->
  exists a, building cwd home exists_ glob_ partial l x th fs now kind c1 objs sv a /\ same_but_made kind c1 objs s a.
Proof.
  intros cwd home fs exists_ glob_ l D K R partial x th now kind c1 objs sv n s h Hx B.
  destruct (script_atom cwd home fs exists_ glob_ l D K R partial x th now kind c1 objs sv n s h Hx B) as (a & Ba & Sa & _). eauto.
Qed.
Print Assumptions C99_scripts_as_if_at_one_moment.
(** When the build has returned, the states are the same in all respects. *)
Theorem C99_nothing_half_made_at_the_end :
  forall cwd home fs exists_ glob_ l, disk_ok cwd (present fs) exists_ -> in_order cwd home glob_ exists_ l ->
  reads_settled (project_of cwd home glob_ l) ->
  forall partial x th now kind c1 objs sv n s h, In x (flat_map (makes cwd home glob_) l) ->
  fine_building cwd home exists_ glob_ partial l x th fs now kind c1 objs sv n (s :: h) -> s_main s = MReturned ->
  exists a, building cwd home exists_ glob_ partial l x th fs now kind c1 objs sv a /\ a = set_world (s_world a) s /\
    (forall q, w_fs (s_world s) q = w_fs (s_world a) q) /\
    w_cache (s_world s) = w_cache (s_world a) /\ w_now (s_world s) = w_now (s_world a) /\ w_ran (s_world s) = w_ran (s_world a).
Proof.
  intros cwd home fs exists_ glob_ l D K R partial x th now kind c1 objs sv n s h Hx B Hm.
  destruct (script_atom cwd home fs exists_ glob_ l D K R partial x th now kind c1 objs sv n s h Hx B) as (a & Ba & (Es & (E1 & _ & E2 & E3) & Ef) & Hn & _).
  exists a. split; [exact Ba|]. split; [exact Es|]. split; [|auto]. intros q. destruct (Ef q) as [H|H]; [exact H|destruct (Hn Hm q H)].
Qed.
Print Assumptions C99_nothing_half_made_at_the_end.
(** Conversely, reading and writing at one moment is one of the possibilities. *)
Theorem C99_at_one_moment_is_possible :
  forall cwd home fs exists_ glob_ l, disk_ok cwd (present fs) exists_ -> in_order cwd home glob_ exists_ l ->
  forall partial x th now kind c1 objs sv s, In x (flat_map (makes cwd home glob_) l) ->
  building cwd home exists_ glob_ partial l x th fs now kind c1 objs sv s ->
  exists n h, fine_building cwd home exists_ glob_ partial l x th fs now kind c1 objs sv n (s :: h).
Proof. intros. eapply building_fine; eauto. Qed.
Print Assumptions C99_at_one_moment_is_possible.

(** The end of a build: right files, no exception, no deadlock, a bounded number of moves. *)
Theorem C99_files_are_right :
  forall cwd home fs exists_ glob_ l, disk_ok cwd (present fs) exists_ -> in_order cwd home glob_ exists_ l ->
  reads_only (project_of cwd home glob_ l) ->
  forall x th now kind c1 objs sv n s h, In x (flat_map (makes cwd home glob_) l) -> fine_history cwd home glob_ l fs now ->
  fine_building cwd home exists_ glob_ false l x th fs now kind c1 objs sv n (s :: h) -> succeeded objs s ->
  forall p, is_file (project_of cwd home glob_ l) p -> p_cone (project_of cwd home glob_ l) x p ->
  right_content (project_of cwd home glob_ l) (contents (w_fs (s_world s))) p (contents (w_fs (s_world s)) p).
Proof. intros. eapply script_fine_right; eauto; [now apply only_settled|]. apply fine_histories; [now apply only_settled|assumption]. Qed.
Print Assumptions C99_files_are_right.
Theorem C99_goes_on :
  forall cwd home fs exists_ glob_ l, disk_ok cwd (present fs) exists_ -> in_order cwd home glob_ exists_ l ->
  reads_settled (project_of cwd home glob_ l) ->
  forall partial x th now kind c1 objs sv n s h, In x (flat_map (makes cwd home glob_) l) -> dirs_free cwd home l fs -> (1 <= th)%Z ->
  fine_building cwd home exists_ glob_ partial l x th fs now kind c1 objs sv n (s :: h) ->
  no_rule_failed (project_of cwd home glob_ l) (s_world s) ->
  succeeded objs s \/ s_main s = MJoin /\ exists s', fine_move (realpath cwd) kind partial sv c1 objs h s s'.
Proof. intros. eapply script_fine_goes_on; eauto. Qed.
Print Assumptions C99_goes_on.
Theorem C99_bounded :
  forall cwd home fs exists_ glob_ l, disk_ok cwd (present fs) exists_ -> in_order cwd home glob_ exists_ l ->
  reads_settled (project_of cwd home glob_ l) ->
  forall partial x th now kind c1 objs sv n s h, In x (flat_map (makes cwd home glob_) l) ->
  fine_building cwd home exists_ glob_ partial l x th fs now kind c1 objs sv n (s :: h) -> n <= 2 * List.length objs + 1.
Proof. intros. eapply script_fine_bounded; eauto. Qed.
Print Assumptions C99_bounded.

(** Non-vacuity: out/app of pscript by two workers; two rules run at the same time and scribble
    into their files. *)
Example C99_half_made_example : exists kind c1 objs sv n h s,
  fine_building "/w" "/h" (on_path pdisk) no_glob false pscript "/w/out/app" 2 pfs 1 kind c1 objs sv n (s :: h) /\
  s_main s = MJoin /\ no_rule_failed pproj (s_world s) /\
  being_made kind c1 objs s "/w/out/lib/a.o" /\ being_made kind c1 objs s "/w/out/a.h" /\
  contents (w_fs (s_world s)) "/w/out/lib/a.o" = Some "more" /\ contents (w_fs (s_world s)) "/w/out/a.h" = Some "h" /\
  exists a, building "/w" "/h" (on_path pdisk) no_glob false pscript "/w/out/app" 2 pfs 1 kind c1 objs sv a /\ same_but_made kind c1 objs s a.
Proof.
  destruct fine_middle as (kind & c1 & objs & sv & n & h & s & B & Hm & Hn & M7 & M6 & T7 & T6).
  exists kind, c1, objs, sv, n, h, s. repeat (split; [assumption|]).
  eapply (C99_scripts_as_if_at_one_moment "/w" "/h" pfs (on_path pdisk) no_glob pscript pfs_ok pscript_ok (only_settled _ pproj_reads_only)); [exact papp_made|exact B].
Qed.
Example C99_right_example : exists kind c1 objs sv h s,
  fine_building "/w" "/h" (on_path pdisk) no_glob false pscript "/w/out/app" 2 pfs 1 kind c1 objs sv 12 (s :: h) /\
  succeeded objs s /\ fine_history "/w" "/h" no_glob pscript pfs 1 /\ contents (w_fs (s_world s)) "/w/out/app" = Some "o:src+main" /\
  right_content pproj (contents (w_fs (s_world s))) "/w/out/app" (contents (w_fs (s_world s)) "/w/out/app").
Proof.
  destruct fine_done as (kind & c1 & objs & sv & h & s & B & Hs & _ & Ht). exists kind, c1, objs, sv, h, s.
  split; [exact B|]. split; [exact Hs|]. split; [exact fine_start|]. split; [exact Ht|].
  eapply (C99_files_are_right "/w" "/h" pfs (on_path pdisk) no_glob pscript pfs_ok pscript_ok pproj_reads_only); [exact papp_made|exact fine_start|exact B|exact Hs| |apply rt_refl].
  right. exists false, ["libs"; "/w/main.c"], link_app. rewrite pproj_eq. reflexivity.
Qed.
Example C99_history_example : exists fs now, fine_history "/w" "/h" no_glob pscript fs now /\
  contents fs "/w/out/app" = Some "o:src+main" /\ contents fs "/w/src.c" = Some "new".
Proof. exact fine_edited. Qed.
Example C99_goes_on_example : exists kind c1 objs sv n h s s',
  fine_building "/w" "/h" (on_path pdisk) no_glob false pscript "/w/out/app" 2 pfs 1 kind c1 objs sv n (s :: h) /\
  being_made kind c1 objs s "/w/out/a.h" /\ fine_move (realpath "/w") kind false sv c1 objs h s s' /\ n <= 2 * List.length objs + 1.
Proof.
  destruct fine_middle as (kind & c1 & objs & sv & n & h & s & B & Hm & Hn & M7 & M6 & _).
  destruct (C99_goes_on "/w" "/h" pfs (on_path pdisk) no_glob pscript pfs_ok pscript_ok (only_settled _ pproj_reads_only) false "/w/out/app" 2%Z 1 kind c1 objs sv n s h
    papp_made pscript_free ltac:(lia) B Hn) as [[H _]|[_ [s' H]]]; [congruence|].
  exists kind, c1, objs, sv, n, h, s, s'. split; [exact B|]. split; [exact M6|]. split; [exact H|].
  exact (C99_bounded "/w" "/h" pfs (on_path pdisk) no_glob pscript pfs_ok pscript_ok (only_settled _ pproj_reads_only) false "/w/out/app" 2%Z 1 kind c1 objs sv n s h papp_made B).
Qed.
Example C99_settled_example : exists other_if kind c i c1 objs n h s s1 f b,
  implements (realpath "/w") kind pproj c i /\ reads_settled pproj /\
  fine_build_of (realpath "/w") kind other_if false c i pfs 1 [] c1 objs n (s :: h) /\
  busy (s_log s) 7 /\ kind (nth 7 objs (List.length (c_heap c1))) = MFile f b /\ In s1 h /\ busy (s_log s1) 7 /\
  p_input pproj (t_name (obj c1 (nth 7 objs (List.length (c_heap c1))))) "/w/src.c" /\
  w_fs (s_world s1) "/w/src.c" = w_fs (s_world s) "/w/src.c".
Proof.
  destruct fine_long as (kind & c1 & objs & sv & n & h & s & s1 & f & b & B & H1 & Bs & B1 & Hk & Hn).
  destruct (script_fine_build "/w" "/h" pfs (on_path pdisk) no_glob pscript pfs_ok pscript_ok false _ _ _ _ _ _ _ _ _ papp_made B) as (oi & c & i & I & F).
  assert (Hi : p_input pproj (t_name (obj c1 (nth 7 objs (List.length (c_heap c1))))) "/w/src.c").
  { rewrite Hn. apply pi_file; [|apply psource; cbn; tauto]. exists ["/w/src.c"]. split; [now left|]. right.
    exists false, (read1 "o:" "/w/src.c"). rewrite pproj_eq. reflexivity. }
  exists oi, kind, c, i, c1, objs, n, h, s, s1, f, b.
  split; [exact I|]. split; [exact (only_settled _ pproj_reads_only)|]. split; [exact F|]. split; [exact Bs|]. split; [exact Hk|]. split; [exact H1|]. split; [exact B1|].
  split; [exact Hi|]. exact (C99_inputs_are_settled _ _ _ _ _ _ _ _ _ _ _ _ _ _ _ I (only_settled _ pproj_reads_only) F 7 f b "/w/src.c" s1 Bs Hk H1 B1 Hi).
Qed.

(** Rules that read outputs of other rules without declaring them see what is half made: what
    they make of it cannot be made at one moment. *)
Theorem C99_declarations_matter : exists cwd home fs exists_ glob_ l x th now kind c1 objs sv n s h p,
  disk_ok cwd (present fs) exists_ /\ in_order cwd home glob_ exists_ l /\ In x (flat_map (makes cwd home glob_) l) /\
  fine_building cwd home exists_ glob_ false l x th fs now kind c1 objs sv n (s :: h) /\ succeeded objs s /\
  forall kind' c1' objs' sv' a, building cwd home exists_ glob_ false l x th fs now kind' c1' objs' sv' a ->
    contents (w_fs (s_world a)) p <> contents (w_fs (s_world s)) p.
Proof.
  destruct (u_run_ok _ u_ok) as (kind & c1 & objs & sv & n & s & h & B & Hs & E).
  exists "/w", "/h", ufs, (on_path udisk), no_glob, uscript, "all", 2%Z, 1, kind, c1, objs, sv, n, s, h, "/w/y".
  split; [exact ufs_ok|]. split; [exact uscript_ok|]. split; [exact uall|]. split; [exact B|]. split; [exact Hs|].
  intros kind' c1' objs' sv' a Ba. rewrite E. exact (u_atomic _ _ _ _ _ _ _ _ uall Ba).
Qed.
Print Assumptions C99_declarations_matter.

(** C++ scripts.  Compilers read headers that the script does not mention; as long as those are
    not made by rules, or are declared ([honest], cf. C82), nothing changes. *)
Theorem C99_cxx_as_if_at_one_moment :
  forall cwd home glob_ its, honest cwd home glob_ its -> compiled_listed its ->
  forall fs exists_, disk_ok cwd (present fs) exists_ -> in_order cwd home glob_ exists_ (script_at cwd its (contents fs)) ->
  forall partial x th now kind c1 objs sv n s h, In x (flat_map (makes cwd home glob_) (script_at cwd its (contents fs))) ->
  fine_building cwd home exists_ glob_ partial (script_at cwd its (contents fs)) x th fs now kind c1 objs sv n (s :: h) ->
  exists a, building cwd home exists_ glob_ partial (script_at cwd its (contents fs)) x th fs now kind c1 objs sv a /\ same_but_made kind c1 objs s a.
Proof.
  intros cwd home glob_ its H C fs exists_ D K. apply C99_scripts_as_if_at_one_moment; auto. now apply cxx_settled.
Qed.
Print Assumptions C99_cxx_as_if_at_one_moment.
(** Killed processes: what may be left in the files that were being made are their old
    contents, nothing, or junk; these are the histories of C82. *)
Theorem C99_cxx_histories :
  forall cwd home glob_ its, honest cwd home glob_ its -> compiled_listed its ->
  forall junk fs now, fine_cxx_history cwd home glob_ junk its fs now -> cxx_history cwd home glob_ junk its fs now.
Proof. exact fine_cxx_histories. Qed.
Print Assumptions C99_cxx_histories.
Theorem C99_cxx_files_are_right :
  forall cwd home glob_ its, honest cwd home glob_ its -> compiled_listed its ->
  forall fs now exists_ x th kind c1 objs sv n s h, fine_cxx_history cwd home glob_ (empty_list cwd its) its fs now ->
  disk_ok cwd (present fs) exists_ -> in_order cwd home glob_ exists_ (script_at cwd its (contents fs)) ->
  In x (flat_map (makes cwd home glob_) (script_at cwd its (contents fs))) ->
  fine_building cwd home exists_ glob_ true (script_at cwd its (contents fs)) x th fs now kind c1 objs sv n (s :: h) -> succeeded objs s ->
  forall p b, p_cone (project_at cwd home glob_ its (contents fs)) x p -> rules_in cwd home glob_ its p = Some b ->
  exists v, b (contents (w_fs (s_world s))) = Some v /\ contents (w_fs (s_world s)) p = Some v.
Proof. intros. eapply fine_cxx_right; eauto. Qed.
Print Assumptions C99_cxx_files_are_right.
Theorem C99_objects_follow_their_headers :
  forall cwd home glob_ its, honest cwd home glob_ its -> compiled_listed its ->
  forall fs now exists_ x th kind c1 objs sv n s h u, fine_cxx_history cwd home glob_ (empty_list cwd its) its fs now ->
  disk_ok cwd (present fs) exists_ -> in_order cwd home glob_ exists_ (script_at cwd its (contents fs)) ->
  In x (flat_map (makes cwd home glob_) (script_at cwd its (contents fs))) ->
  fine_building cwd home exists_ glob_ true (script_at cwd its (contents fs)) x th fs now kind c1 objs sv n (s :: h) -> succeeded objs s ->
  In (IUnit u) its -> p_cone (project_at cwd home glob_ its (contents fs)) x (realpath cwd (u_obj u)) ->
  let s' := contents (w_fs (s_world s)) in
  exists l o, s' (realpath cwd (u_dep u)) = Some l /\ u_list u s' = Some l /\
    s' (realpath cwd (u_obj u)) = Some o /\ u_comp u s' = Some o /\
    forall h, In h (listed (Some l)) -> p_input (project_at cwd home glob_ its s') (realpath cwd (u_obj u)) (realpath cwd h).
Proof. intros. eapply fine_cxx_unit; eauto. Qed.
Print Assumptions C99_objects_follow_their_headers.
(** A first process was killed when half of the list was there, and left the list empty; a
    second one makes everything. *)
Example C99_cxx_example :
  honest "/w" "/h" no_glob xits /\ compiled_listed xits /\ fine_cxx_history "/w" "/h" no_glob (empty_list "/w" xits) xits xfs1 xnow1 /\
  (exists kind c1 objs sv n s h, fine_building "/w" "/h" (on_path xdisk) no_glob true (script_at "/w" xits (contents xfs)) "/w/app" 1 xfs 1 kind c1 objs sv n (s :: h) /\
     contents (w_fs (s_world s)) "/w/a.d" = Some "a.o: a.c") /\
  disk_ok "/w" (present xfs1) (on_path xdisk1) /\ in_order "/w" "/h" no_glob (on_path xdisk1) (script_at "/w" xits (contents xfs1)) /\
  In "/w/app" (flat_map (makes "/w" "/h" no_glob) (script_at "/w" xits (contents xfs1))) /\
  exists kind c1 objs sv n s h,
  fine_building "/w" "/h" (on_path xdisk1) no_glob true (script_at "/w" xits (contents xfs1)) "/w/app" 1 xfs1 xnow1 kind c1 objs sv n (s :: h) /\ succeeded objs s /\
  contents (w_fs (s_world s)) "/w/a.d" = Some "a.o: a.c gen.h a.h" /\ contents (w_fs (s_world s)) "/w/a.o" = Some "o:g,x".
Proof.
  split; [exact xhonest|]. split; [exact xcompiled|]. split; [exact zkilled|]. split; [exact z_half|]. split; [exact xdisk1_ok|]. split; [exact xorder1|].
  split; [apply xmade_in|exact zmade].
Qed.
