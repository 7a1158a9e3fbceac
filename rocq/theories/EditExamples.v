(** Scripts that are edited. *)
From Coq Require Import Permutation Relations.
From Verif Require Import PyBase PyPath PathProofs SolverModel SpecGraph InvokerModel SpecTrace CoreModel SpecCore MakeModel UtilModel SpecMake
  MakeFacts MakeBuild MakeClaims MakeClean RegModel CliModel SpecUtil UtilProofs SpecReg RegExamples MakeExec MakeExamples SpecProject ProjectProofs ProjectBuild ProjectExamples
  SpecTrack TrackProofs SpecCxxTrack CxxTrack TrackExamples IdleProofs CxxIdle IdleExamples SpecEdit EditProofs.
From Verif Require Import InvokerExec.
Local Open Scope string_scope.
Local Open Scope list_scope.

Lemma rule_input (P : project) p q f ds b : P p = Some (DRule f ds b) -> In q ds -> is_file P q -> p_input P p q.
Proof. intros H Hq Hf. apply pi_file; [|exact Hf]. exists ds. split; [exact Hq|]. right. now exists f, b. Qed.
(** If a rule depends on files only. *)
Lemma input_rule (P : project) p q f ds b : P p = Some (DRule f ds b) -> (forall d s, In d ds -> P d <> Some (DSet s)) -> p_input P p q -> In q ds.
Proof.
  intros H Hn Hi. revert H Hn. destruct Hi as [p q (ds' & Hq & [E|(f' & b' & E)]) _|p s ds2 q (ds' & Hq & [E|(f' & b' & E)]) Es _];
    intros H Hn; rewrite H in E; try discriminate.
  - injection E as <- <- <-. exact Hq.
  - exfalso. injection E as <- <- <-. exact (Hn s ds2 Hq Es).
Qed.
Lemma project_domain cwd home glob_ l p : is_file (project_of cwd home glob_ l) p ->
  In p (flat_map (makes cwd home glob_) l ++ map (meaning cwd l) (flat_map (mentions home glob_) l)).
Proof.
  intros [H|H]; apply in_or_app; [|left; now apply rule_makes]. unfold project_of in H. destruct (in_dec string_dec p (flat_map (makes cwd home glob_) l)) as [|N]; [now left|right].
  rewrite (first_none cwd home glob_ l l p N) in H. destruct (is_name l p); [discriminate|]. destruct (existsb _ _) eqn:E; [|discriminate].
  apply existsb_exists in E. destruct E as (d & Hd & E). apply String.eqb_eq in E. subst p. now apply in_map.
Qed.
Definition files_named l : list string := flat_map (makes "/w" "/h" no_glob) l ++ map (meaning "/w" l) (flat_map (mentions "/h" no_glob) l).

(** The first version: dscript of IdleExamples, and its first process. *)
Notation ver l := (version "/w" "/h" (no_glob, l)).
Lemma drules l p : is_rule (ver l) p -> In p (flat_map (makes "/w" "/h" no_glob) l).
Proof. apply rule_makes. Qed.
Ltac in_cases H := cbn in H; repeat match type of H with _ \/ _ => destruct H as [H|H]; [subst|] | False => destruct H end.
Ltac looks q H Hs := rewrite (Hs q) by (eapply rule_input; [exact H|cbn; tauto|first [left; vm_compute; reflexivity|right; eexists _, _, _; vm_compute; reflexivity]]).
Ltac rules_of l HP := let R := fresh in
  match type of HP with version _ _ _ ?p = Some (DRule ?f ?ds ?b) => pose proof (drules l p (ex_intro _ f (ex_intro _ ds (ex_intro _ b HP)))) as R end;
  vm_compute in R; in_cases R.
Lemma dreads : reads_only (ver dscript).
Proof.
  intros p f ds b HP s s' Hs. rules_of dscript HP; pose proof HP as H; vm_compute in HP; injection HP as <- <- <-.
  - looks "/w/a.c" H Hs. reflexivity.
  - looks "/w/b.c" H Hs. reflexivity.
  - looks "/w/a.o" H Hs. looks "/w/b.o" H Hs. reflexivity.
Qed.
Lemma simple_dated files p m n : simple_fs files p = Some (m, n) -> m <= 1.
Proof. unfold simple_fs. destruct (mem p _); [intros [= <- _]; lia|]. destruct (find _ _); intros [= <- _]; lia. Qed.
Lemma no_dir l (fs : fsys) : forallb (fun p => match fs p with Some (_, Dir) => false | _ => true end) (files_named l) = true ->
  forall p m, is_file (ver l) p -> fs p <> Some (m, Dir).
Proof. intros H p m Hp E. apply project_domain in Hp. rewrite forallb_forall in H. specialize (H p Hp). now rewrite E in H. Qed.
Lemma dstart : edit_history "/w" "/h" (no_glob, dscript) dfs 1.
Proof.
  apply eh_start.
  - exact dreads.
  - intros p m n. apply simple_dated.
  - intros p H. apply drules in H. vm_compute in H. in_cases H; vm_compute; reflexivity.
  - apply no_dir. vm_compute. reflexivity.
Qed.
Definition dlast : nat := out_now dr1.
Lemma dbuilt1 : exists kind c1 objs sv s, building "/w" "/h" (on_path ddisk) no_glob false dscript "/w/app" 1 dfs 1 kind c1 objs sv s /\ succeeded objs s /\
  w_fs (s_world s) = dfs1 /\ w_now (s_world s) = dlast.
Proof.
  destruct (on_ran_ok _ _ dr1_ok) as (r & Er & T). apply andb_prop in T. destruct T as [T _].
  exists (rn_kind r), (rn_core r), (rn_objs r), (rn_solver r), (rn_state r).
  split; [exact (do_process_ok _ _ _ _ _ _ _ _ _ _ _ _ Er)|]. split; [now apply fine_ok|]. unfold dfs1, dlast. rewrite Er. split; reflexivity.
Qed.
Lemma dhistory1 : edit_history "/w" "/h" (no_glob, dscript) dfs1 dlast.
Proof.
  destruct dbuilt1 as (kind & c1 & objs & sv & s & B & _ & <- & <-).
  exact (eh_process "/w" "/h" (no_glob, dscript) dfs 1 _ _ _ _ _ _ _ _ dstart ddisk_ok dorder dapp B).
Qed.

(** A new source is written, and a program made from three objects is described. *)
Definition link3 : buildfun := fun s =>
  match s "/w/a.o", s "/w/b.o", s "/w/c.o" with Some a, Some b, Some c => Some (a ++ "+" ++ b ++ "+" ++ c)%string | _, _, _ => None end.
Definition escript : list stmt :=
  [SRule false "a.o" ["a.c"] (read1 "o:" "/w/a.c"); SRule false "b.o" ["b.c"] (read1 "o:" "/w/b.c"); SRule false "c.o" ["c.c"] (read1 "o:" "/w/c.c");
   SRule false "app" ["a.o"; "b.o"; "c.o"] link3].
Definition efs : fsys := fs_set dfs1 "/w/c.c" (Some (0, Reg "c")).
Definition edisk : list string := ddisk1 ++ ["/w/c.c"].
Definition ecs : list choice := [CGet 0; CFin 0; CFin 0; CFin 0; CFin 0; CFin 0; CFin 0; CFin 0; CJoin].
Notation er := (do_process "/w" "/h" (on_path edisk) no_glob no_fail escript "/w/app" 1 efs dlast ecs).
Lemma ereads : reads_only (ver escript).
Proof.
  intros p f ds b HP s s' Hs. rules_of escript HP; pose proof HP as H; vm_compute in HP; injection HP as <- <- <-.
  - looks "/w/a.c" H Hs. reflexivity.
  - looks "/w/b.c" H Hs. reflexivity.
  - looks "/w/c.c" H Hs. reflexivity.
  - looks "/w/a.o" H Hs. looks "/w/b.o" H Hs. looks "/w/c.o" H Hs. reflexivity.
Qed.
Lemma ewritten : edit_history "/w" "/h" (no_glob, dscript) efs dlast.
Proof.
  apply (eh_outside _ _ _ dfs1 dlast); [exact dhistory1|]. split; [lia|]. intros p. unfold efs, fs_set.
  destruct (String.eqb_spec p "/w/c.c") as [->|]; [|now left]. right. right. right. split; [|exists 0, (Reg "c"); split; [reflexivity|lia]].
  intros [H|(f & ds & b & H)]; vm_compute in H; discriminate.
Qed.
Lemma esame p q : In p ["/w/a.o"; "/w/b.o"] -> p_input (ver dscript) p q -> p_input (ver escript) p q.
Proof.
  intros Hp Hq. cbn in Hp. destruct Hp as [<-|[<-|[]]].
  - apply (input_rule _ _ _ false ["/w/a.c"] (read1 "o:" "/w/a.c")) in Hq; [|reflexivity|intros d s [<-|[]]; vm_compute; discriminate].
    destruct Hq as [<-|[]]. eapply rule_input; [vm_compute; reflexivity|now left|left; vm_compute; reflexivity].
  - apply (input_rule _ _ _ false ["/w/b.c"] (read1 "o:" "/w/b.c")) in Hq; [|reflexivity|intros d s [<-|[]]; vm_compute; discriminate].
    destruct Hq as [<-|[]]. eapply rule_input; [vm_compute; reflexivity|now left|left; vm_compute; reflexivity].
Qed.
Lemma ehistory : edit_history "/w" "/h" (no_glob, escript) efs dlast.
Proof.
  apply (eh_edit _ _ (no_glob, dscript)); [exact ewritten|exact ereads|apply no_dir; vm_compute; reflexivity|].
  intros p f ds b HP. rules_of escript HP; pose proof HP as H; vm_compute in HP; injection HP as <- <- <-.
  - eapply sv_same; [vm_compute; reflexivity|reflexivity|]. intros q. apply esame. now left.
  - eapply sv_same; [vm_compute; reflexivity|reflexivity|]. intros q. apply esame. right. now left.
  - apply sv_absent. vm_compute. reflexivity.
  - apply (sv_noticed _ _ _ _ _ "/w/c.o"); [|left; vm_compute; reflexivity].
    eapply rule_input; [exact H|cbn; tauto|right; eexists _, _, _; vm_compute; reflexivity].
Qed.
Lemma edisk_ok : disk_ok "/w" (present efs) (on_path edisk).
Proof.
  apply present_ok; [|vm_compute; reflexivity..]. intros p. unfold edisk, on. rewrite existsb_app. change (existsb (String.eqb p) ddisk1) with (on ddisk1 p).
  rewrite <- dpresent1. unfold present, efs, fs_set. cbn [existsb]. rewrite orb_false_r. destruct (String.eqb_spec p "/w/c.c") as [->|]; [now rewrite orb_true_r|now rewrite orb_false_r].
Qed.
Lemma eorder : in_order "/w" "/h" no_glob (on_path edisk) escript.
Proof. apply in_orderb_ok. vm_compute. reflexivity. Qed.
Lemma er_ok : on_ran er (fun r => fine r && String.eqb (text r "/w/app") "o:a+o:b+o:c" && negb (mem "/w/a.o" (map fst (w_ran (s_world (rn_state r)))))) = true.
Proof. vm_compute. reflexivity. Qed.
Lemma ebuilt : exists kind c1 objs sv s, building "/w" "/h" (on_path edisk) no_glob false escript "/w/app" 1 efs dlast kind c1 objs sv s /\ succeeded objs s /\
  contents (w_fs (s_world s)) "/w/app" = Some "o:a+o:b+o:c" /\ ~ In "/w/a.o" (map fst (w_ran (s_world s))).
Proof.
  destruct (on_ran_ok _ _ er_ok) as (r & Er & T). apply andb_prop in T. destruct T as [T T3]. apply andb_prop in T. destruct T as [T1 T2].
  exists (rn_kind r), (rn_core r), (rn_objs r), (rn_solver r), (rn_state r).
  split; [exact (do_process_ok _ _ _ _ _ _ _ _ _ _ _ _ Er)|]. clear Er. split; [now apply fine_ok|]. split; [now apply text_eq|].
  intros H. apply mem_In in H. now rewrite H in T3.
Qed.

(** Edits that take no care: an object is left out, or the command is changed. *)
Definition nscript (deps : list string) (b : buildfun) : list stmt :=
  [SRule false "a.o" ["a.c"] (read1 "o:" "/w/a.c"); SRule false "b.o" ["b.c"] (read1 "o:" "/w/b.c"); SRule false "app" deps b].
Definition link1 : buildfun := read1 "" "/w/a.o".
Definition link_other : buildfun := fun s => match s "/w/a.o", s "/w/b.o" with Some a, Some b => Some (a ++ "-" ++ b)%string | _, _ => None end.
Definition outv := nscript ["a.o"] link1.
Definition chgv := nscript ["a.o"; "b.o"] link_other.
Lemma dcareless : careless_history "/w" "/h" (no_glob, dscript) dfs1 dlast.
Proof.
  destruct dbuilt1 as (kind & c1 & objs & sv & s & B & _ & <- & <-).
  refine (ch_process "/w" "/h" (no_glob, dscript) dfs 1 _ _ _ _ _ _ _ _ _ ddisk_ok dorder dapp B).
  apply ch_start.
  - exact dreads.
  - intros p m n. apply simple_dated.
  - intros p H. apply drules in H. vm_compute in H. in_cases H; vm_compute; reflexivity.
  - apply no_dir. vm_compute. reflexivity.
Qed.
Lemma out_reads : reads_only (ver outv).
Proof.
  intros p f ds b HP s s' Hs. rules_of outv HP; pose proof HP as H; vm_compute in HP; injection HP as <- <- <-.
  - looks "/w/a.c" H Hs. reflexivity.
  - looks "/w/b.c" H Hs. reflexivity.
  - looks "/w/a.o" H Hs. reflexivity.
Qed.
Lemma chg_reads : reads_only (ver chgv).
Proof.
  intros p f ds b HP s s' Hs. rules_of chgv HP; pose proof HP as H; vm_compute in HP; injection HP as <- <- <-.
  - looks "/w/a.c" H Hs. reflexivity.
  - looks "/w/b.c" H Hs. reflexivity.
  - looks "/w/a.o" H Hs. looks "/w/b.o" H Hs. reflexivity.
Qed.
Lemma out_careless : careless_history "/w" "/h" (no_glob, outv) dfs1 dlast.
Proof. apply (ch_edit _ _ (no_glob, dscript)); [exact dcareless|exact out_reads|apply no_dir; vm_compute; reflexivity]. Qed.
Lemma chg_careless : careless_history "/w" "/h" (no_glob, chgv) dfs1 dlast.
Proof. apply (ch_edit _ _ (no_glob, dscript)); [exact dcareless|exact chg_reads|apply no_dir; vm_compute; reflexivity]. Qed.
Definition ocs : list choice := [CGet 0; CFin 0; CFin 0; CFin 0; CJoin].
Notation nr l cs := (do_process "/w" "/h" (on_path ddisk1) no_glob no_fail l "/w/app" 1 dfs1 dlast cs).
Lemma out_ok : on_ran (nr outv ocs) (fun r => fine r && String.eqb (text r "/w/app") "o:a+o:b" && String.eqb (text r "/w/a.c") "a") = true.
Proof. vm_compute. reflexivity. Qed.
Lemma chg_ok : on_ran (nr chgv dcs) (fun r => fine r && String.eqb (text r "/w/app") "o:a+o:b" && String.eqb (text r "/w/a.c") "a") = true.
Proof. vm_compute. reflexivity. Qed.
Lemma stale l cs : on_ran (nr l cs) (fun r => fine r && String.eqb (text r "/w/app") "o:a+o:b" && String.eqb (text r "/w/a.c") "a") = true ->
  exists kind c1 objs sv s, building "/w" "/h" (on_path ddisk1) no_glob false l "/w/app" 1 dfs1 dlast kind c1 objs sv s /\ succeeded objs s /\
  contents (w_fs (s_world s)) "/w/app" = Some "o:a+o:b" /\ contents (w_fs (s_world s)) "/w/a.c" = Some "a".
Proof.
  intros H. destruct (on_ran_ok _ _ H) as (r & Er & T). clear H. apply andb_prop in T. destruct T as [T T3]. apply andb_prop in T. destruct T as [T1 T2].
  exists (rn_kind r), (rn_core r), (rn_objs r), (rn_solver r), (rn_state r).
  split; [exact (do_process_ok _ _ _ _ _ _ _ _ _ _ _ _ Er)|]. clear Er. split; [now apply fine_ok|]. split; now apply text_eq.
Qed.
(** What the objects and programs should be. *)
Lemma right_source (P : project) src p v : P p = Some DSource -> right_content P src p v -> v = src p.
Proof. intros H R. destruct R as [p _|p f ds b s v E]; [reflexivity|congruence]. Qed.
Lemma right_object l src v : ver l "/w/a.o" = Some (DRule false ["/w/a.c"] (read1 "o:" "/w/a.c")) -> ver l "/w/a.c" = Some DSource ->
  src "/w/a.c" = Some "a" -> right_content (ver l) src "/w/a.o" v -> v = Some "o:a".
Proof.
  intros Ho Hc Es H. inversion H as [p E|p f ds b s w E Hi Eb]; subst; rewrite Ho in E; [discriminate|]. injection E as <- <- <-.
  assert (R : right_content (ver l) src "/w/a.c" (s "/w/a.c")).
  { apply Hi. eapply rule_input; [exact Ho|now left|now left]. }
  apply (right_source _ _ _ _ Hc) in R. unfold read1 in Eb. rewrite R, Es in Eb. now rewrite <- Eb.
Qed.
Lemma out_wrong src : src "/w/a.c" = Some "a" -> ~ right_content (ver outv) src "/w/app" (Some "o:a+o:b").
Proof.
  intros Es H. inversion H as [p E|p f ds b s w E Hi Eb]; subst; [vm_compute in E; discriminate|].
  assert (A : ver outv "/w/app" = Some (DRule false ["/w/a.o"] link1)) by (vm_compute; reflexivity). rewrite A in E. injection E as <- <- <-.
  assert (R : right_content (ver outv) src "/w/a.o" (s "/w/a.o")).
  { apply Hi. eapply rule_input; [exact A|now left|]. right. eexists _, _, _. vm_compute. reflexivity. }
  apply right_object in R; [|vm_compute; reflexivity|vm_compute; reflexivity|exact Es]. unfold link1, read1 in Eb. rewrite R in Eb. vm_compute in Eb. discriminate.
Qed.
Lemma chg_wrong src : src "/w/a.c" = Some "a" -> ~ right_content (ver chgv) src "/w/app" (Some "o:a+o:b").
Proof.
  intros Es H. inversion H as [p E|p f ds b s w E Hi Eb]; subst; [vm_compute in E; discriminate|].
  assert (A : ver chgv "/w/app" = Some (DRule false ["/w/a.o"; "/w/b.o"] link_other)) by (vm_compute; reflexivity). rewrite A in E. injection E as <- <- <-.
  assert (R : right_content (ver chgv) src "/w/a.o" (s "/w/a.o")).
  { apply Hi. eapply rule_input; [exact A|now left|]. right. eexists _, _, _. vm_compute. reflexivity. }
  apply right_object in R; [|vm_compute; reflexivity|vm_compute; reflexivity|exact Es]. unfold link_other in Eb. rewrite R in Eb.
  destruct (s "/w/b.o") as [w|]; [|discriminate]. injection Eb as Eb. discriminate.
Qed.

(** Every rule names the script, and the script has just been edited. *)
Definition named : list stmt :=
  [SRule false "a.o" ["a.c"; "make.py"] (read1 "o:" "/w/a.c"); SRule false "b.o" ["b.c"; "make.py"] (read1 "o:" "/w/b.c"); SRule false "app" ["a.o"; "make.py"] link1].
Definition nfs : fsys := fs_set dfs1 "/w/make.py" (Some (dnow1, Reg "...")).
Lemma nreads : reads_only (ver named).
Proof.
  intros p f ds b HP s s' Hs. rules_of named HP; pose proof HP as H; vm_compute in HP; injection HP as <- <- <-.
  - looks "/w/a.c" H Hs. reflexivity.
  - looks "/w/b.c" H Hs. reflexivity.
  - looks "/w/a.o" H Hs. reflexivity.
Qed.
Lemma nwritten : edit_history "/w" "/h" (no_glob, dscript) nfs dnow1.
Proof.
  apply (eh_outside _ _ _ dfs1 dlast); [exact dhistory1|]. split; [unfold dnow1, dlast; lia|]. intros p. unfold nfs, fs_set.
  destruct (String.eqb_spec p "/w/make.py") as [->|]; [|now left]. right. right. right. split; [|exists dnow1, (Reg "..."); split; [reflexivity|lia]].
  intros [H|(f & ds & b & H)]; vm_compute in H; discriminate.
Qed.
Lemma nnamed p : is_rule (ver named) p -> p_input (ver named) p "/w/make.py".
Proof.
  intros H. apply drules in H. vm_compute in H.
  in_cases H; (eapply rule_input; [vm_compute; reflexivity|right; now left|left; vm_compute; reflexivity]).
Qed.
Lemma nnewer p : is_rule (ver named) p -> nfs p = None \/ newer nfs "/w/make.py" p.
Proof.
  intros H. apply drules in H. vm_compute in H. right.
  in_cases H; (eexists _, _, _, _; split; [vm_compute; reflexivity|split; [vm_compute; reflexivity|lia]]).
Qed.
Lemma ndir : forall p m, is_file (ver named) p -> nfs p <> Some (m, Dir).
Proof. apply no_dir. vm_compute. reflexivity. Qed.
Definition ndisk : list string := ddisk1 ++ ["/w/make.py"].
Lemma ndisk_ok : disk_ok "/w" (present nfs) (on_path ndisk).
Proof.
  apply present_ok; [|vm_compute; reflexivity..]. intros p. unfold ndisk, on. rewrite existsb_app. change (existsb (String.eqb p) ddisk1) with (on ddisk1 p).
  rewrite <- dpresent1. unfold present, nfs, fs_set. cbn [existsb]. rewrite orb_false_r. destruct (String.eqb_spec p "/w/make.py") as [->|]; [now rewrite orb_true_r|now rewrite orb_false_r].
Qed.
Definition ncs : list choice := [CGet 0; CFin 0; CFin 0; CFin 0; CFin 0; CJoin].
Notation nnr := (do_process "/w" "/h" (on_path ndisk) no_glob no_fail named "/w/app" 1 nfs dnow1 ncs).
Lemma nn_ok : on_ran nnr (fun r => fine r && String.eqb (text r "/w/app") "o:a") = true.
Proof. vm_compute. reflexivity. Qed.
Lemma nbuilt : exists kind c1 objs sv s, building "/w" "/h" (on_path ndisk) no_glob false named "/w/app" 1 nfs dnow1 kind c1 objs sv s /\ succeeded objs s /\
  contents (w_fs (s_world s)) "/w/app" = Some "o:a".
Proof.
  destruct (on_ran_ok _ _ nn_ok) as (r & Er & T). apply andb_prop in T. destruct T as [T1 T2].
  exists (rn_kind r), (rn_core r), (rn_objs r), (rn_solver r), (rn_state r).
  split; [exact (do_process_ok _ _ _ _ _ _ _ _ _ _ _ _ Er)|]. clear Er. split; [now apply fine_ok|]. now apply text_eq.
Qed.
(** Everything has been removed. *)
Definition cfs : fsys := fun p => if mem p ["/w/a.o"; "/w/b.o"; "/w/app"] then None else dfs1 p.
Lemma cremoved : edit_history "/w" "/h" (no_glob, dscript) cfs dlast.
Proof.
  apply (eh_outside _ _ _ dfs1 dlast); [exact dhistory1|]. split; [lia|]. intros p. unfold cfs. destruct (mem p _); auto.
Qed.
Lemma cabsent p : is_rule (ver chgv) p -> cfs p = None.
Proof. intros H. apply drules in H. vm_compute in H. in_cases H; reflexivity. Qed.
Lemma cdir : forall p m, is_file (ver chgv) p -> cfs p <> Some (m, Dir).
Proof. apply no_dir. vm_compute. reflexivity. Qed.
