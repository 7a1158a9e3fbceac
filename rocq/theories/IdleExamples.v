(** Processes after successful ones. *)
From Coq Require Import Permutation Relations.
From Verif Require Import PyBase PyPath PathProofs SolverModel SpecGraph InvokerModel SpecTrace InvokerExec CoreModel SpecCore MakeModel UtilModel SpecMake
  MakeFacts MakeBuild MakeClaims MakeClean RegModel CliModel SpecUtil UtilProofs SpecReg RegExamples MakeExec MakeExamples SpecProject ProjectProofs ProjectBuild ProjectExamples
  SpecTrack TrackProofs SpecCxxTrack CxxTrack TrackExamples IdleProofs CxxIdle.
From Verif Require Import InvokerExec.
Local Open Scope string_scope.
Local Open Scope list_scope.

(** Which files there are after a process of a script that makes no directories. *)
Lemma ran_present cwd home disk disk' glob_ on_fail l x th fs now cs r :
  do_process cwd home (on_path disk) glob_ on_fail l x th fs now cs = Some r ->
  disk_ok cwd (present fs) (on_path disk) -> in_orderb cwd home glob_ (on_path disk) l = true -> In x (flat_map (makes cwd home glob_) l) ->
  dirless cwd home (on_path disk) glob_ l = true -> (forall p, present fs p = on disk p) ->
  forallb (fun p => Bool.eqb (present (w_fs (s_world (rn_state r))) p) (on (disk ++ disk') p)) (flat_map (makes cwd home glob_) l) = true ->
  forallb (fun p => mem p (flat_map (makes cwd home glob_) l)) disk' = true ->
  forall p, present (w_fs (s_world (rn_state r))) p = on (disk ++ disk') p.
Proof.
  intros Er Hd Ho Hx Hl Hp Ht Hn p.
  destruct (in_dec string_dec p (flat_map (makes cwd home glob_) l)) as [Hin|Hout].
  - rewrite forallb_forall in Ht. apply Bool.eqb_prop. now apply Ht.
  - unfold present in *. rewrite (ran_frame _ _ _ _ _ _ _ _ _ _ _ _ Er Hd (in_orderb_ok _ _ _ _ _ Ho) Hx Hl p Hout), Hp.
    unfold on. rewrite existsb_app. destruct (existsb (String.eqb p) disk') eqn:E; [|now rewrite orb_false_r].
    exfalso. apply existsb_exists in E. destruct E as (q & Hq & E). apply String.eqb_eq in E. subst q.
    rewrite forallb_forall in Hn. apply Hout, mem_In. now apply Hn.
Qed.
Definition simple_fs (files : list (string * string)) : fsys := fun p =>
  if mem p ["/"; "/w"] then Some (0, Dir) else match find (fun f => String.eqb (fst f) p) files with Some f => Some (1, Reg (snd f)) | None => None end.
Definition simple_disk (files : list (string * string)) : list string := ["/"; "/w"] ++ map fst files.
Lemma simple_present files p : present (simple_fs files) p = on (simple_disk files) p.
Proof.
  unfold present, simple_fs, on, simple_disk, mem. cbn [existsb app].
  destruct (String.eqb_spec p "/"), (String.eqb_spec p "/w"); try reflexivity. cbn [orb].
  induction files as [|[q v] files IH]; [reflexivity|]. cbn [find map existsb fst snd]. rewrite (String.eqb_sym p q). destruct (String.eqb q p); [reflexivity|exact IH].
Qed.

(** Two objects, and a program made from them.  One source is edited between the processes. *)
Definition link2 : buildfun := fun s => match s "/w/a.o", s "/w/b.o" with Some a, Some b => Some (a ++ "+" ++ b)%string | _, _ => None end.
Definition dscript : list stmt :=
  [SRule false "a.o" ["a.c"] (read1 "o:" "/w/a.c"); SRule false "b.o" ["b.c"] (read1 "o:" "/w/b.c"); SRule false "app" ["a.o"; "b.o"] link2].
Definition dfiles : list (string * string) := [("/w/a.c", "a"); ("/w/b.c", "b")].
Definition ddisk : list string := simple_disk dfiles.
Definition dfs : fsys := simple_fs dfiles.
Notation dproc disk fs now cs := (do_process "/w" "/h" (on_path disk) no_glob no_fail dscript "/w/app" 1 fs now cs).
Notation dproj := (project_of "/w" "/h" no_glob dscript).
Definition dcs : list choice := [CGet 0; CFin 0; CFin 0; CFin 0; CFin 0; CFin 0; CJoin].
Notation dr1 := (dproc ddisk dfs 1 dcs).
Definition dfs1 : fsys := out_fs dr1 dfs.
Definition dnow1 : nat := S (out_now dr1).
Definition ddisk1 : list string := ddisk ++ ["/w/a.o"; "/w/b.o"; "/w/app"].
Definition dfs2 : fsys := fs_set dfs1 "/w/a.c" (Some (dnow1, Reg "new")).
Lemma dpresent p : present dfs p = on ddisk p.
Proof. apply simple_present. Qed.
Lemma ddisk_ok : disk_ok "/w" (present dfs) (on_path ddisk).
Proof. apply present_ok; [exact dpresent|vm_compute; reflexivity..]. Qed.
Lemma dorder : in_order "/w" "/h" no_glob (on_path ddisk) dscript.
Proof. apply in_orderb_ok. vm_compute. reflexivity. Qed.
Lemma dorder1 : in_order "/w" "/h" no_glob (on_path ddisk1) dscript.
Proof. apply in_orderb_ok. vm_compute. reflexivity. Qed.
Lemma dapp : In "/w/app" (flat_map (makes "/w" "/h" no_glob) dscript).
Proof. apply mem_In. vm_compute. reflexivity. Qed.
Lemma dr1_ok : on_ran dr1 (fun r => fine r && forallb (fun p => Bool.eqb (present (w_fs (s_world (rn_state r))) p) (on ddisk1 p)) (flat_map (makes "/w" "/h" no_glob) dscript)) = true.
Proof. vm_compute. reflexivity. Qed.
Lemma dbuilt : exists kind c1 objs sv s, building "/w" "/h" (on_path ddisk) no_glob false dscript "/w/app" 1 dfs 1 kind c1 objs sv s /\ succeeded objs s /\
  w_fs (s_world s) = dfs1.
Proof.
  destruct (on_ran_ok _ _ dr1_ok) as (r & Er & T). apply andb_prop in T. destruct T as [T _].
  exists (rn_kind r), (rn_core r), (rn_objs r), (rn_solver r), (rn_state r).
  split; [exact (do_process_ok _ _ _ _ _ _ _ _ _ _ _ _ Er)|]. split; [now apply fine_ok|]. unfold dfs1. now rewrite Er.
Qed.
Lemma dpresent1 p : present dfs1 p = on ddisk1 p.
Proof.
  destruct (on_ran_ok _ _ dr1_ok) as (r & Er & T). apply andb_prop in T. destruct T as [_ T]. unfold dfs1. rewrite Er. cbn [out_fs].
  exact (ran_present _ _ _ ["/w/a.o"; "/w/b.o"; "/w/app"] _ _ _ _ _ _ _ _ _ Er ddisk_ok eq_refl dapp eq_refl dpresent T eq_refl p).
Qed.
Lemma ddisk1_ok : disk_ok "/w" (present dfs1) (on_path ddisk1).
Proof. apply present_ok; [exact dpresent1|vm_compute; reflexivity..]. Qed.
Lemma ddisk2_ok : disk_ok "/w" (present dfs2) (on_path ddisk1).
Proof.
  apply present_ok; [|vm_compute; reflexivity..]. intros p. rewrite <- dpresent1. unfold present, dfs2, fs_set.
  destruct (String.eqb_spec p "/w/a.c") as [->|]; [|reflexivity]. vm_compute. reflexivity.
Qed.
Lemma dcone p : p_cone dproj "/w/app" p -> In p ["/w/app"; "/w/a.o"; "/w/b.o"; "/w/a.c"; "/w/b.c"].
Proof.
  intros H. apply clos_rt_rtn1_iff in H. induction H as [|y z (ds & Hz & Hd) _ IH]; [now left|].
  destruct IH as [<-|[<-|[<-|[<-|[<-|[]]]]]]; vm_compute in Hd;
    destruct Hd as [Hd|(f & b & Hd)]; try discriminate; injection Hd as _ <- _; cbn in Hz |- *; tauto.
Qed.
Lemma dno_force p ds b : p_cone dproj "/w/app" p -> dproj p <> Some (DRule true ds b).
Proof. intros H. apply dcone in H. destruct H as [<-|[<-|[<-|[<-|[<-|[]]]]]]; vm_compute; discriminate. Qed.
Lemma dsources p : p_cone dproj "/w/app" p -> dproj p = Some DSource -> dfs p <> None.
Proof. intros H. apply dcone in H. destruct H as [<-|[<-|[<-|[<-|[<-|[]]]]]]; vm_compute; discriminate. Qed.
(** The second process makes a.o and app, but not b.o. *)
Lemma dr2_ok : on_ran (dproc ddisk1 dfs2 dnow1 dcs) (fun r => mem "/w/app" (map fst (w_ran (s_world (rn_state r)))) && negb (mem "/w/b.o" (map fst (w_ran (s_world (rn_state r)))))) = true.
Proof. vm_compute. reflexivity. Qed.
Lemma dagain : exists kind c1 objs sv s, building "/w" "/h" (on_path ddisk1) no_glob false dscript "/w/app" 1 dfs2 dnow1 kind c1 objs sv s /\
  In "/w/app" (map fst (w_ran (s_world s))) /\ ~ In "/w/b.o" (map fst (w_ran (s_world s))).
Proof.
  destruct (on_ran_ok _ _ dr2_ok) as (r & Er & T). apply andb_prop in T. destruct T as [T1 T2].
  exists (rn_kind r), (rn_core r), (rn_objs r), (rn_solver r), (rn_state r).
  split; [exact (do_process_ok _ _ _ _ _ _ _ _ _ _ _ _ Er)|]. split; [now apply mem_In|].
  intros H. apply mem_In in H. now rewrite H in T2.
Qed.
Lemma dr3_ok : on_ran (dproc ddisk1 dfs1 dnow1 dcs) (fun r => fine r) = true.
Proof. vm_compute. reflexivity. Qed.
Lemma didle : exists kind c1 objs sv s, building "/w" "/h" (on_path ddisk1) no_glob false dscript "/w/app" 1 dfs1 dnow1 kind c1 objs sv s /\ succeeded objs s.
Proof.
  destruct (on_ran_ok _ _ dr3_ok) as (r & Er & T).
  exists (rn_kind r), (rn_core r), (rn_objs r), (rn_solver r), (rn_state r).
  split; [exact (do_process_ok _ _ _ _ _ _ _ _ _ _ _ _ Er)|now apply fine_ok].
Qed.

Definition dcs2 : list choice := [CGet 0; CFin 0; CFin 0; CJoin].
(** Two scripts whose target is made again by every process: a forced rule, and a rule that
    depends on a file that nobody makes. *)
Definition again (l : list stmt) (files : list (string * string)) : bool :=
  let d0 := simple_disk files in let fs0 := simple_fs files in
  on_ran (do_process "/w" "/h" (on_path d0) no_glob no_fail l "/w/app" 1 fs0 1 dcs2) (fun r =>
    fine r && forallb (fun p => Bool.eqb (present (w_fs (s_world (rn_state r))) p) (on (d0 ++ ["/w/app"]) p)) (flat_map (makes "/w" "/h" no_glob) l) &&
    on_ran (do_process "/w" "/h" (on_path (d0 ++ ["/w/app"])) no_glob no_fail l "/w/app" 1 (w_fs (s_world (rn_state r))) 5 dcs2) (fun r2 =>
      mem "/w/app" (map fst (w_ran (s_world (rn_state r2)))))).

Lemma again_ok l files : again l files = true -> In "/w/app" (flat_map (makes "/w" "/h" no_glob) l) ->
  forallb (fun p => on (simple_disk files) (dirname p)) (simple_disk files ++ ["/w/app"]) = true ->
  in_orderb "/w" "/h" no_glob (on_path (simple_disk files)) l = true -> in_orderb "/w" "/h" no_glob (on_path (simple_disk files ++ ["/w/app"])) l = true ->
  dirless "/w" "/h" (on_path (simple_disk files)) no_glob l = true ->
  disk_ok "/w" (present (simple_fs files)) (on_path (simple_disk files)) /\
  exists kind c1 objs sv s kind2 c2 objs2 sv2 s2,
  building "/w" "/h" (on_path (simple_disk files)) no_glob false l "/w/app" 1 (simple_fs files) 1 kind c1 objs sv s /\ succeeded objs s /\
  disk_ok "/w" (present (w_fs (s_world s))) (on_path (simple_disk files ++ ["/w/app"])) /\
  building "/w" "/h" (on_path (simple_disk files ++ ["/w/app"])) no_glob false l "/w/app" 1 (w_fs (s_world s)) 5 kind2 c2 objs2 sv2 s2 /\
  In "/w/app" (map fst (w_ran (s_world s2))).
Proof.
  intros T Ha Hdir O1 O2 Hl. unfold again in T. destruct (on_ran_ok _ _ T) as (r & Er & T1). cbv beta in T1.
  apply andb_prop in T1. destruct T1 as [T1 T2]. apply andb_prop in T1. destruct T1 as [T1 T3].
  destruct (on_ran_ok _ _ T2) as (r2 & Er2 & T4).
  assert (Hd : forallb (fun p => on (simple_disk files) (dirname p)) (simple_disk files) = true).
  { rewrite forallb_forall in *. intros p Hp. apply Hdir, in_or_app. now left. }
  assert (D : disk_ok "/w" (present (simple_fs files)) (on_path (simple_disk files))) by (apply present_ok; [apply simple_present|exact Hd|reflexivity]).
  split; [exact D|].
  exists (rn_kind r), (rn_core r), (rn_objs r), (rn_solver r), (rn_state r), (rn_kind r2), (rn_core r2), (rn_objs r2), (rn_solver r2), (rn_state r2).
  split; [exact (do_process_ok _ _ _ _ _ _ _ _ _ _ _ _ Er)|]. split; [now apply fine_ok|]. split.
  - apply present_ok; [|rewrite forallb_forall in *; intros p Hp; unfold on; rewrite existsb_app; apply orb_true_intro; left; now apply Hdir|reflexivity].
    apply (ran_present _ _ _ ["/w/app"] _ _ _ _ _ _ _ _ _ Er D O1 Ha Hl (simple_present files) T3).
    apply mem_In in Ha. cbn [forallb]. now rewrite Ha.
  - split; [exact (do_process_ok _ _ _ _ _ _ _ _ _ _ _ _ Er2)|now apply mem_In].
Qed.
(** A forced rule. *)
Definition fscript : list stmt := [SRule true "app" ["a.c"] (read1 "o:" "/w/a.c")].
Definition ffiles : list (string * string) := [("/w/a.c", "a")].
Lemma fagain : again fscript ffiles = true.
Proof. vm_compute. reflexivity. Qed.
(** A source that does not exist. *)
Definition mscript : list stmt := [SSource "a.c"; SRule false "app" ["a.c"] (fun _ => Some "o")].
Lemma magain : again mscript [] = true.
Proof. vm_compute. reflexivity. Qed.

(** The script with headers: a fourth process. *)
Definition xfs3 : fsys := out_fs xr3 xfs2.
Definition xnow3 : nat := out_now xr3.
Definition xcs4 : list choice := [CGet 0; CFin 0; CFin 0; CFin 0; CFin 0; CFin 0; CFin 0; CFin 0; CFin 0; CFin 0; CJoin].
Notation xr4 := (xbuild xdisk2 xfs3 xnow3 xcs4).
Lemma xbuilt : exists kind c1 objs sv s,
  building "/w" "/h" (on_path xdisk2) no_glob true (xscript (contents xfs2)) "/w/app" 1 xfs2 xnow2 kind c1 objs sv s /\ succeeded objs s /\ w_fs (s_world s) = xfs3.
Proof.
  destruct (on_ran_ok _ _ xr3_ok) as (r & Er & T). apply andb_prop in T. destruct T as [T _]. apply andb_prop in T. destruct T as [T _].
  exists (rn_kind r), (rn_core r), (rn_objs r), (rn_solver r), (rn_state r).
  split; [exact (step_building xdisk2 xfs2 xnow2 xcs3 r Er)|]. split; [exact (fine_ok r T)|]. unfold xfs3. now rewrite Er.
Qed.
Lemma xpresent3 p : present xfs3 p = on xdisk2 p.
Proof.
  revert p. apply (xpresent xdisk2 xdisk2 xfs2 xnow2 xcs3); [exact xdisk2_ok|exact xpresent2|vm_compute; reflexivity..|].
  intros p Hp. split; reflexivity.
Qed.
Lemma xdisk3_ok : disk_ok "/w" (present xfs3) (on_path xdisk2).
Proof. apply present_ok; [exact xpresent3|vm_compute; reflexivity..]. Qed.
Lemma xorder3 : in_order "/w" "/h" no_glob (on_path xdisk2) (xscript (contents xfs3)).
Proof. apply in_orderb_ok. vm_compute. reflexivity. Qed.
Lemma xr4_ok : on_ran xr4 fine = true.
Proof. vm_compute. reflexivity. Qed.
Lemma xidle : exists kind c1 objs sv s,
  building "/w" "/h" (on_path xdisk2) no_glob true (xscript (contents xfs3)) "/w/app" 1 xfs3 xnow3 kind c1 objs sv s /\ succeeded objs s.
Proof.
  destruct (on_ran_ok _ _ xr4_ok) as (r & Er & T).
  exists (rn_kind r), (rn_core r), (rn_objs r), (rn_solver r), (rn_state r).
  split; [exact (step_building xdisk2 xfs3 xnow3 xcs4 r Er)|exact (fine_ok r T)].
Qed.
Lemma xlist3 : contents xfs3 "/w/a.d" = Some "a.o: a.c gen.h a.h b.h".
Proof. vm_compute. reflexivity. Qed.
Notation xlast := (xproj (fun _ => Some "a.o: a.c gen.h a.h b.h")).
Lemma xproj3 : xproj (contents xfs3) = xlast.
Proof.
  unfold project_at. rewrite (script_same "/w" xits (contents xfs3) (fun _ => Some "a.o: a.c gen.h a.h b.h")); [reflexivity|].
  intros u Hu. apply xits_unit in Hu. subst u. cbn [u_dep xunit]. rewrite rp_d. symmetry. exact xlist3.
Qed.
Lemma xlast_cone p : p_cone xlast "/w/app" p ->
  In p ["/w/app"; "/w/a.o"; "/w/a.d"; "/w/a.c"; "m__local_headers__"; "/w/gen.h"; "/w/gen.txt"; "/w/a.h"; "/w/b.h"].
Proof.
  intros H. apply clos_rt_rtn1_iff in H. induction H as [|y z (ds & Hz & Hd) _ IH]; [now left|].
  destruct IH as [<-|[<-|[<-|[<-|[<-|[<-|[<-|[<-|[<-|[]]]]]]]]]]; vm_compute in Hd;
    destruct Hd as [Hd|(f & b & Hd)]; try discriminate; injection Hd; intros; subst; cbn in Hz |- *; tauto.
Qed.
Lemma xno_force st p ds b : In (IStmt st) xits -> rule_of "/w" "/h" no_glob st = Some (p, ds, (true, b)) -> ~ p_cone (xproj (contents xfs3)) "/w/app" p.
Proof. intros [H|[H|[H|[H|[]]]]]; try discriminate; injection H as <-; discriminate. Qed.
Lemma xsources p : p_cone (xproj (contents xfs3)) "/w/app" p -> xproj (contents xfs3) p = Some DSource -> contents xfs3 p <> None.
Proof.
  rewrite xproj3. intros H. apply xlast_cone in H.
  destruct H as [<-|[<-|[<-|[<-|[<-|[<-|[<-|[<-|[<-|[]]]]]]]]]]; intros H; vm_compute in H; try discriminate H; vm_compute; discriminate.
Qed.
Lemma forced_again : exists cwd home fs exists_ glob_ l x th now kind c1 objs sv s exists_2 th2 now2 kind2 c2 objs2 sv2 s2,
  let P := project_of cwd home glob_ l in
  disk_ok cwd (present fs) exists_ /\ in_order cwd home glob_ exists_ l /\ In x (flat_map (makes cwd home glob_) l) /\
  building cwd home exists_ glob_ false l x th fs now kind c1 objs sv s /\ succeeded objs s /\
  (forall p, p_cone P x p -> P p = Some DSource -> fs p <> None) /\
  disk_ok cwd (present (w_fs (s_world s))) exists_2 /\ in_order cwd home glob_ exists_2 l /\
  building cwd home exists_2 glob_ false l x th2 (w_fs (s_world s)) now2 kind2 c2 objs2 sv2 s2 /\
  In x (map fst (w_ran (s_world s2))).
Proof.
  assert (Ha : In "/w/app" (flat_map (makes "/w" "/h" no_glob) fscript)) by (apply mem_In; vm_compute; reflexivity).
  destruct (again_ok fscript ffiles fagain Ha) as (D & kind & c1 & objs & sv & s & kind2 & c2 & objs2 & sv2 & s2 & B & Hs & D2 & B2 & H); [vm_compute; reflexivity..|].
  exists "/w", "/h", (simple_fs ffiles), (on_path (simple_disk ffiles)), no_glob, fscript, "/w/app", 1%Z, 1, kind, c1, objs, sv, s,
    (on_path (simple_disk ffiles ++ ["/w/app"])), 1%Z, 5, kind2, c2, objs2, sv2, s2.
  cbv zeta. split; [exact D|]. split; [apply in_orderb_ok; vm_compute; reflexivity|]. split; [exact Ha|]. split; [exact B|]. split; [exact Hs|]. split.
  - intros p Hp Hsrc. assert (G : In p ["/w/app"; "/w/a.c"]).
    { clear Hsrc. apply clos_rt_rtn1_iff in Hp. induction Hp as [|y z (ds & Hz & Hd) _ IH]; [now left|].
      destruct IH as [<-|[<-|[]]]; vm_compute in Hd; destruct Hd as [Hd|(f & b & Hd)]; try discriminate. injection Hd; intros; subst. cbn in Hz |- *. tauto. }
    destruct G as [<-|[<-|[]]]; [vm_compute in Hsrc; discriminate Hsrc|vm_compute; discriminate].
  - split; [exact D2|]. split; [apply in_orderb_ok; vm_compute; reflexivity|]. split; [exact B2|exact H].
Qed.
Lemma missing_again : exists cwd home fs exists_ glob_ l x th now kind c1 objs sv s exists_2 th2 now2 kind2 c2 objs2 sv2 s2,
  let P := project_of cwd home glob_ l in
  disk_ok cwd (present fs) exists_ /\ in_order cwd home glob_ exists_ l /\ In x (flat_map (makes cwd home glob_) l) /\
  building cwd home exists_ glob_ false l x th fs now kind c1 objs sv s /\ succeeded objs s /\
  (forall p ds b, p_cone P x p -> P p <> Some (DRule true ds b)) /\
  disk_ok cwd (present (w_fs (s_world s))) exists_2 /\ in_order cwd home glob_ exists_2 l /\
  building cwd home exists_2 glob_ false l x th2 (w_fs (s_world s)) now2 kind2 c2 objs2 sv2 s2 /\
  In x (map fst (w_ran (s_world s2))).
Proof.
  assert (Ha : In "/w/app" (flat_map (makes "/w" "/h" no_glob) mscript)) by (apply mem_In; vm_compute; reflexivity).
  destruct (again_ok mscript [] magain Ha) as (D & kind & c1 & objs & sv & s & kind2 & c2 & objs2 & sv2 & s2 & B & Hs & D2 & B2 & H); [vm_compute; reflexivity..|].
  exists "/w", "/h", (simple_fs []), (on_path (simple_disk [])), no_glob, mscript, "/w/app", 1%Z, 1, kind, c1, objs, sv, s,
    (on_path (simple_disk [] ++ ["/w/app"])), 1%Z, 5, kind2, c2, objs2, sv2, s2.
  cbv zeta. split; [exact D|]. split; [apply in_orderb_ok; vm_compute; reflexivity|]. split; [exact Ha|]. split; [exact B|]. split; [exact Hs|]. split.
  - intros p ds0 b0 Hp Hr. assert (G : In p ["/w/app"; "/w/a.c"]).
    { clear Hr. apply clos_rt_rtn1_iff in Hp. induction Hp as [|y z (ds & Hz & Hd) _ IH]; [now left|].
      destruct IH as [<-|[<-|[]]]; vm_compute in Hd; destruct Hd as [Hd|(f & b & Hd)]; try discriminate. injection Hd; intros; subst. cbn in Hz |- *. tauto. }
    destruct G as [<-|[<-|[]]]; vm_compute in Hr; discriminate Hr.
  - split; [exact D2|]. split; [apply in_orderb_ok; vm_compute; reflexivity|]. split; [exact B2|exact H].
Qed.
