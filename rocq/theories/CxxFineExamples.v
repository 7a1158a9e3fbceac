(** The C++ script of TrackExamples, with commands that take time: non-vacuity examples for
    C99. *)
From Coq Require Import Permutation.
From Verif Require Import PyBase PyPath PathProofs SolverModel SpecGraph InvokerModel SpecTrace InvokerPath InvokerExec CoreModel SpecCore
  MakeModel SpecMake MakeExec MakeExamples RegModel CliModel SpecUtil SpecReg RegExamples SpecProject ProjectExamples
  SpecTrack SpecCxxTrack CxxTrack TrackExamples FineModel SpecFine FineBuild FineExamples SpecCxxFine CxxFine.
Local Open Scope string_scope.
Local Open Scope list_scope.

Lemma fine_update_partial canon kind partial c t h i w r w' : fine_update canon kind false c t h i w r w' -> fine_update canon kind partial c t h i w r w'.
Proof.
  destruct 1 as [force b f v m Hk Hs Hb Hlt Hin p fs'|force b f fs' now' r ca' Hk Hs Hb p Hq Hf Hr|r w' Hk U].
  - eapply fu_rule; eauto.
  - eapply fu_rule_fails; eauto. destruct Hf as [H|[H|[E _]]]; [now left|right; now left|discriminate].
  - apply fu_plain; [exact Hk|]. destruct U; try (now econstructor; eauto).
    exfalso. now apply (Hk force b).
Qed.
Lemma fine_task_partial canon kind partial c objs h k w r w' : fine_task canon kind false c objs h k w r w' -> fine_task canon kind partial c objs h k w r w'.
Proof.
  unfold fine_task, task_behaviour. destruct (kind _); try (intros H; exact H); destruct (t_class _); try (intros H; exact H);
    destruct (t_need _) as [[|]|]; try (intros H; exact H); apply fine_update_partial.
Qed.
Lemma interleaved_partial canon kind partial sv c objs w0 n h : interleaved canon kind false sv c objs w0 n h -> interleaved canon kind partial sv c objs w0 n h.
Proof.
  induction 1 as [|n s h s' H IH M|n s h t force b e H IH Hm Bt i Hk Hn w].
  - constructor.
  - apply il_moves; [exact IH|]. destruct M as [s s' M|s w t r world' order Hm Hw T HP]; [now apply fm_plain|].
    apply fm_ends; auto. now apply fine_task_partial.
  - eapply il_writes; eauto.
Qed.
Lemma fine_building_partial cwd home exists_ glob_ partial l x th fs now kind c1 objs sv n h :
  fine_building cwd home exists_ glob_ false l x th fs now kind c1 objs sv n h -> fine_building cwd home exists_ glob_ partial l x th fs now kind c1 objs sv n h.
Proof.
  intros (fuel & st & i & other_if & fuel' & ca1 & order & so & Hr & Hk & Hg & He & Ho & Hso & Hru & Hex).
  exists fuel, st, i, other_if, fuel', ca1, order, so. repeat (split; [assumption|]). now apply interleaved_partial.
Qed.

Lemma xcompiled : compiled_listed xits.
Proof.
  intros u s o Hu H. rewrite (xits_unit u Hu) in *. cbn [u_comp u_list xunit] in *. unfold xcomp in H. unfold xlist.
  destruct (s "/w/a.c") as [c|]; [|discriminate]. destruct (s "/w/gen.h") as [g|]; [|discriminate].
  destruct (String.eqb c "a"); [|eauto]. destruct (s "/w/a.h") as [a|]; [|discriminate]. destruct (String.eqb a "b"); [|eauto].
  destruct (s "/w/b.h"); [eauto|discriminate].
Qed.

(** A process that is killed while the list is half made. *)
Notation xfine disk fs now ms := (fine_process "/w" "/h" (on_path disk) no_glob (xscript (contents fs)) "/w/app" 1 fs now ms).
Definition on_fine (o : option fine_ran) (test : fine_ran -> bool) : bool := match o with Some r => test r | None => false end.
Lemma on_fine_ok o test : on_fine o test = true -> exists r, o = Some r /\ test r = true.
Proof. destruct o; [eauto|discriminate]. Qed.
Definition zms1 : list move := map Move xcs1 ++ [Scribble 0 "a.o: a.c"].
Definition zms2 : list move :=
  map Move (firstn 5 xcs2) ++ [Scribble 0 "a.o: a.c"] ++ map Move (firstn 1 (skipn 5 xcs2)) ++ [Scribble 0 "half an object"] ++ map Move (skipn 6 xcs2).
Definition z_past (o : option fine_ran) : fsys := match o with Some r => match fr_past r with s :: _ => w_fs (s_world s) | [] => fun _ => None end | None => fun _ => None end.
Lemma z_past_eq p : z_past (xfine xdisk xfs 1 zms1) p = out_fs (xbuild xdisk xfs 1 xcs1) xfs p.
Proof. vm_compute. reflexivity. Qed.
(** The only rule that is running is the one for [p], task [t]; it has changed nothing else. *)
Definition half_test (t : nat) (p : string) (r : fine_ran) : bool :=
  let s := rn_state (fr_ran r) in let c1 := rn_core (fr_ran r) in
  let o t := nth t (rn_objs (fr_ran r)) (List.length (c_heap c1)) in
  all_ran_well (fr_ran r) && busyb (s_log s) t && match rn_kind (fr_ran r) (o t) with MFile _ _ => true | _ => false end
  && match t_need (obj c1 (o t)) with Some true => true | _ => false end && String.eqb p (t_name (obj c1 (o t)))
  && forallb (fun k => negb (busyb (s_log s) k) || Nat.eqb k t) (started (s_log s))
  && Nat.ltb (w_base (s_world s)) (Datatypes.S (w_now (s_world s))).
Lemma busyb_yes l t : busy l t -> busyb l t = true.
Proof.
  assert (G : forall xs, existsb (Nat.eqb t) xs = true <-> In t xs).
  { intros xs. rewrite existsb_exists. split; [intros (y & Hy & E); apply Nat.eqb_eq in E; now subst|intros H; exists t; split; [exact H|apply Nat.eqb_refl]]. }
  intros (H1 & H2 & H3). unfold busyb. apply G in H1. rewrite H1. cbn [andb].
  destruct (existsb (Nat.eqb t) (finished l)) eqn:E2; [apply G in E2; contradiction|].
  destruct (existsb (Nat.eqb t) (raised l)) eqn:E3; [apply G in E3; contradiction|reflexivity].
Qed.
Lemma half_left t p r (junk : string -> string -> Prop) fs' now' m v : half_test t p r = true -> fs' p = Some (m, Reg v) -> w_now (s_world (rn_state (fr_ran r))) < m <= now' -> junk p v ->
  (forall q, q <> p -> fs' q = w_fs (s_world (rn_state (fr_ran r))) q) ->
  fine_left junk (rn_kind (fr_ran r)) (rn_core (fr_ran r)) (rn_objs (fr_ran r)) (rn_state (fr_ran r)) (fr_past r) fs' now'.
Proof.
  unfold half_test. cbv zeta. intros H Hp Hm Hj Hq.
  apply andb_prop in H. destruct H as [H H7]. apply andb_prop in H. destruct H as [H H6]. apply andb_prop in H. destruct H as [H H5].
  apply andb_prop in H. destruct H as [H H4]. apply andb_prop in H. destruct H as [H H3]. apply andb_prop in H. destruct H as [_ H2].
  apply String.eqb_eq in H5. apply Nat.ltb_lt in H7.
  split; [lia|]. intros q. destruct (string_dec q p) as [->|N].
  - right. destruct (rn_kind (fr_ran r) (nth t _ _)) as [f b| | | |] eqn:Ek; try discriminate. exists t, f, b. cbv zeta. split.
    + split; [now apply busyb_ok|]. split; [exact Ek|]. split; [|exact H5].
      destruct (t_need (obj _ (nth t _ _))) as [[|]|]; [reflexivity|discriminate|discriminate].
    + right. right. exists m, v. split; [exact Hp|]. split; [lia|exact Hj].
  - left. split; [|now apply Hq]. intros (k & f & b & Bk & _ & _ & Eq). apply N. rewrite Eq, H5.
    rewrite forallb_forall in H6. specialize (H6 k (proj1 Bk)). rewrite (busyb_yes _ _ Bk) in H6. cbn [negb orb] in H6. apply Nat.eqb_eq in H6. now rewrite H6.
Qed.
Definition z1_test (r : fine_ran) : bool :=
  half_test 2 "/w/a.d" r && Nat.eqb (Datatypes.S (w_now (s_world (rn_state (fr_ran r))))) xnow1 && String.eqb (text (fr_ran r) "/w/a.d") "a.o: a.c".
Lemma z1_ok : on_fine (xfine xdisk xfs 1 zms1) z1_test = true.
Proof. vm_compute. reflexivity. Qed.
Lemma zstart junk : fine_cxx_history "/w" "/h" no_glob junk xits xfs 1.
Proof.
  apply fch_start.
  - intros p m n. unfold xfs. destruct (mem p _); [intros [= <- <-]; auto|].
    destruct (String.eqb p "/w/a.c"); [intros [= <- <-]; auto|]. destruct (String.eqb p "/w/a.h"); [intros [= <- <-]; auto|].
    destruct (String.eqb p "/w/b.h"); [intros [= <- <-]; auto|]. destruct (String.eqb p "/w/gen.txt"); [intros [= <- <-]; auto|discriminate].
  - intros p Hp. apply xrules in Hp. destruct Hp as [<-|[<-|[<-|[<-|[<-|[]]]]]]; reflexivity.
Qed.
(** The same files as before that move, but for the list. *)
Lemma z_rest p : p <> "/w/a.d" -> match xfine xdisk xfs 1 zms1 with Some r => w_fs (s_world (rn_state (fr_ran r))) p = xfs1 p | None => True end.
Proof.
  intros N. assert (E : match xfine xdisk xfs 1 zms1 with Some r => w_fs (s_world (rn_state (fr_ran r))) p | None => None end =
    if String.eqb p "/w/a.d" then Some (0, Reg "a.o: a.c") else out_fs (xbuild xdisk xfs 1 xcs1) xfs p) by (vm_compute; reflexivity).
  destruct (xfine xdisk xfs 1 zms1) as [r|]; [|exact Logic.I]. rewrite E. unfold xfs1, fs_set. destruct (String.eqb_spec p "/w/a.d"); [contradiction|reflexivity].
Qed.
Lemma zkilled : fine_cxx_history "/w" "/h" no_glob (empty_list "/w" xits) xits xfs1 xnow1.
Proof.
  destruct (on_fine_ok _ _ z1_ok) as (r & Er & T). unfold z1_test in T. apply andb_prop in T. destruct T as [T T3]. apply andb_prop in T. destruct T as [T1 T2].
  apply Nat.eqb_eq in T2. pose proof (fine_building_partial _ _ _ _ true _ _ _ _ _ _ _ _ _ _ _ (fine_process_ok _ _ _ _ _ _ _ _ _ _ _ Er)) as B.
  assert (R : forall q, q <> "/w/a.d" -> xfs1 q = w_fs (s_world (rn_state (fr_ran r))) q).
  { intros q N. pose proof (z_rest q N) as H. rewrite Er in H. now symmetry. }
  eapply fch_process; [apply zstart|exact xfs_ok|exact xorder0|apply xmade_in|exact B| |].
  - apply no_junk. unfold half_test in T1. cbv zeta in T1. do 6 (apply andb_prop in T1; destruct T1 as [T1 _]). exact T1.
  - eapply (half_left 2 "/w/a.d" r _ xfs1 xnow1 xnow1 ""); [exact T1|reflexivity|lia|exact xempty|exact R].
Qed.
Lemma z_half : exists kind c1 objs sv n s h, fine_building "/w" "/h" (on_path xdisk) no_glob true (xscript (contents xfs)) "/w/app" 1 xfs 1 kind c1 objs sv n (s :: h) /\
  contents (w_fs (s_world s)) "/w/a.d" = Some "a.o: a.c".
Proof.
  destruct (on_fine_ok _ _ z1_ok) as (r & Er & T). unfold z1_test in T. apply andb_prop in T. destruct T as [_ T3].
  pose proof (fine_building_partial _ _ _ _ true _ _ _ _ _ _ _ _ _ _ _ (fine_process_ok _ _ _ _ _ _ _ _ _ _ _ Er)) as B.
  do 7 eexists. split; [exact B|]. apply text_eq; [discriminate|exact T3].
Qed.
(** The next process; its commands scribble, too. *)
Definition z2_test (r : fine_ran) : bool :=
  fine (fr_ran r) && String.eqb (text (fr_ran r) "/w/a.d") "a.o: a.c gen.h a.h" && String.eqb (text (fr_ran r) "/w/a.o") "o:g,x".
Lemma z2_ok : on_fine (xfine xdisk1 xfs1 xnow1 zms2) z2_test = true.
Proof. vm_compute. reflexivity. Qed.
Lemma zmade : exists kind c1 objs sv n s h,
  fine_building "/w" "/h" (on_path xdisk1) no_glob true (xscript (contents xfs1)) "/w/app" 1 xfs1 xnow1 kind c1 objs sv n (s :: h) /\ succeeded objs s /\
  contents (w_fs (s_world s)) "/w/a.d" = Some "a.o: a.c gen.h a.h" /\ contents (w_fs (s_world s)) "/w/a.o" = Some "o:g,x".
Proof.
  destruct (on_fine_ok _ _ z2_ok) as (r & Er & T). unfold z2_test in T. apply andb_prop in T. destruct T as [T T3]. apply andb_prop in T. destruct T as [T1 T2].
  pose proof (fine_building_partial _ _ _ _ true _ _ _ _ _ _ _ _ _ _ _ (fine_process_ok _ _ _ _ _ _ _ _ _ _ _ Er)) as B.
  do 7 eexists. split; [exact B|]. split; [exact (fine_ok _ T1)|]. split; (apply text_eq; [discriminate|assumption]).
Qed.
