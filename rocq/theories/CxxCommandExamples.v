(** Witnesses and non-vacuity examples for C92. *)
From Coq Require Import Relations.
From Verif Require Import PyBase PyPath PathProofs SolverModel SpecGraph InvokerModel SpecTrace CoreModel SpecCore MakeModel UtilModel SpecMake MakeExec MakeExamples
  RegModel CliModel SpecUtil SpecReg RegExamples SpecProject ProjectProofs ProjectBuild ProjectExamples SpecTrack SpecCxxTrack CxxTrack TrackExamples IdleProofs CxxIdle IdleExamples
  CommandModel SpecCommand CommandProofs CommandExamples SpecCxxCommand CxxCommandProofs InvokerExec.
Local Open Scope string_scope.
Local Open Scope list_scope.

(** The project of C82, whose script ends with licant.ex("app"), used by [python3 make.py]. *)
Lemma xmean s : meaning "/w" (xscript s) "app" = "/w/app".
Proof. unfold meaning. rewrite (name_same "/w" xits s "app"). vm_compute. reflexivity. Qed.
Lemma xasked s : In (meaning "/w" (xscript s) "app") (flat_map (makes "/w" "/h" no_glob) (xscript s)).
Proof. rewrite xmean. apply xmade_in. Qed.
Lemma xcalls s : calls_for "/w" "/h" no_glob (xscript s) (Some "app") [] "app" "makefile".
Proof. now apply cf_default. Qed.
Lemma default_command fs exists_ now kind c1 objs sv s : disk_ok "/w" (present fs) exists_ -> in_order "/w" "/h" no_glob exists_ (xscript (contents fs)) ->
  building "/w" "/h" exists_ no_glob true (xscript (contents fs)) "/w/app" 1 fs now kind c1 objs sv s ->
  commanded "/w" "/h" exists_ no_glob true no_info (xscript (contents fs)) (Some "app") [] 1 fs now kind c1 objs sv s.
Proof.
  intros D O B. apply (building_default "/w" "/h" fs exists_ no_glob _ D O no_info true "app"); [apply xasked|]. rewrite xmean. exact B.
Qed.
Section Steps.
  Variable junk : string -> string -> Prop.
  Variables (disk : list string) (fs : fsys) (now : nat) (cs : list choice) (r : ran).
  Hypothesis Hr : xbuild disk fs now cs = Some r.
  Hypothesis Hh : cxx_commands "/w" "/h" no_glob junk xits fs now.
  Hypothesis Hd : disk_ok "/w" (present fs) (on_path disk).
  Hypothesis Ho : in_order "/w" "/h" no_glob (on_path disk) (xscript (contents fs)).
  Hypothesis Ht : all_ran_well r = true.
  Lemma command_left fs' now' : left_by (rules_in "/w" "/h" no_glob xits) junk (rn_core r) (rn_objs r) (rn_state r) fs' now' ->
    cxx_commands "/w" "/h" no_glob junk xits fs' now'.
  Proof.
    intros H. eapply cc_makefile; [exact Hh|exact Hd|exact Ho|apply xcalls|apply xasked|exact (default_command _ _ _ _ _ _ _ _ Hd Ho (step_building disk fs now cs r Hr))|now apply no_junk|exact H].
  Qed.
  Lemma command_killed m v : junk "/w/a.d" v -> runningb r "/w/a.d" = true -> w_base (s_world (rn_state r)) < m -> w_now (s_world (rn_state r)) <= m ->
    cxx_commands "/w" "/h" no_glob junk xits (fs_set (w_fs (s_world (rn_state r))) "/w/a.d" (Some (m, Reg v))) m.
  Proof.
    intros Hj H1 H2 H3. apply command_left. split; [exact H3|]. intros p. unfold fs_set.
    destruct (String.eqb_spec p "/w/a.d") as [->|N]; [|now left]. right. split; [vm_compute; discriminate|]. split; [now apply runningb_ok|].
    exists m, v. split; [reflexivity|]. split; [auto|exact Hj].
  Qed.
  Lemma command_edit v : cxx_commands "/w" "/h" no_glob junk xits
    (fs_set (w_fs (s_world (rn_state r))) "/w/a.h" (Some (S (w_now (s_world (rn_state r))), Reg v))) (S (w_now (s_world (rn_state r)))).
  Proof.
    apply (cc_outside _ _ _ _ _ (w_fs (s_world (rn_state r))) (w_now (s_world (rn_state r)))).
    - apply command_left. split; [auto|]. intros p. now left.
    - split; [auto|]. intros p. unfold fs_set. destruct (String.eqb_spec p "/w/a.h") as [->|N]; [|now left].
      right. right. split; [vm_compute; reflexivity|]. eexists _, _. split; [reflexivity|]. auto.
  Qed.
End Steps.
Lemma zstart junk : cxx_commands "/w" "/h" no_glob junk xits xfs 1.
Proof.
  apply cc_start.
  - intros p m n. unfold xfs. destruct (mem p _); [intros [= <- <-]; auto|].
    destruct (String.eqb p "/w/a.c"); [intros [= <- <-]; auto|]. destruct (String.eqb p "/w/a.h"); [intros [= <- <-]; auto|].
    destruct (String.eqb p "/w/b.h"); [intros [= <- <-]; auto|]. destruct (String.eqb p "/w/gen.txt"); [intros [= <- <-]; auto|discriminate].
  - intros p Hp. apply xrules in Hp. destruct Hp as [<-|[<-|[<-|[<-|[<-|[]]]]]]; reflexivity.
Qed.
Lemma zkilled : cxx_commands "/w" "/h" no_glob (empty_list "/w" xits) xits xfs1 xnow1.
Proof.
  destruct (on_ran_ok _ _ xr1_ok) as (r & Er & T). apply andb_prop in T. destruct T as [T T3]. apply andb_prop in T. destruct T as [T1 T2].
  apply Nat.ltb_lt in T3. unfold xfs1, xnow1. rewrite Er. cbn [out_fs out_now].
  pose proof (command_killed (empty_list "/w" xits) xdisk xfs 1 xcs1 r Er) as H.
  exact (H (zstart _) xfs_ok xorder0 T1 (S (w_now (s_world (rn_state r)))) "" xempty T2 T3 (Nat.le_succ_diag_r _)).
Qed.
Lemma zedited : cxx_commands "/w" "/h" no_glob (empty_list "/w" xits) xits xfs2 xnow2.
Proof.
  destruct (on_ran_ok _ _ xr2_ok) as (r & Er & T). unfold xfs2, xnow2. rewrite Er. cbn [out_fs out_now].
  exact (command_edit _ xdisk1 xfs1 xnow1 xcs2 r Er zkilled xdisk1_ok xorder1 T "b").
Qed.
Lemma zremade : exists kind c1 objs sv s,
  commanded "/w" "/h" (on_path xdisk2) no_glob true no_info (xscript (contents xfs2)) (Some "app") [] 1 xfs2 xnow2 kind c1 objs sv s /\ succeeded objs s /\
  contents (w_fs (s_world s)) "/w/a.d" = Some "a.o: a.c gen.h a.h b.h" /\ contents (w_fs (s_world s)) "/w/a.o" = Some "o:g,b,y".
Proof.
  destruct xremade as (kind & c1 & objs & sv & s & B & H). exists kind, c1, objs, sv, s.
  split; [exact (default_command _ _ _ _ _ _ _ _ xdisk2_ok xorder2 B)|exact H].
Qed.
Lemma zbuilt : exists kind c1 objs sv s,
  commanded "/w" "/h" (on_path xdisk2) no_glob true no_info (xscript (contents xfs2)) (Some "app") [] 1 xfs2 xnow2 kind c1 objs sv s /\ succeeded objs s /\ w_fs (s_world s) = xfs3.
Proof.
  destruct xbuilt as (kind & c1 & objs & sv & s & B & H). exists kind, c1, objs, sv, s.
  split; [exact (default_command _ _ _ _ _ _ _ _ xdisk2_ok xorder2 B)|exact H].
Qed.
Lemma zidle : exists kind c1 objs sv s,
  commanded "/w" "/h" (on_path xdisk2) no_glob true no_info (xscript (contents xfs3)) (Some "app") [] 1 xfs3 xnow3 kind c1 objs sv s /\ succeeded objs s.
Proof.
  destruct xidle as (kind & c1 & objs & sv & s & B & H). exists kind, c1, objs, sv, s.
  split; [exact (default_command _ _ _ _ _ _ _ _ xdisk3_ok xorder3 B)|exact H].
Qed.
(** [python3 make.py app clean] removes the list as well, and then the next process reads a
    script that mentions no header. *)
Lemma zcleaned : exists fs', cleaned "/w" "/h" (on_path xdisk2) no_glob no_info (xscript (contents xfs2)) (Some "app") ["app"; "clean"] 1 xfs2 fs' /\
  cxx_commands "/w" "/h" no_glob (empty_list "/w" xits) xits fs' xnow2 /\ contents fs' "/w/a.d" = None /\ contents fs' "/w/a.h" = Some "b".
Proof.
  assert (C : calls_for "/w" "/h" no_glob (xscript (contents xfs2)) (Some "app") ["app"; "clean"] "app" "clean") by (apply cf_action; [reflexivity|right; now left]).
  destruct (clean_runs "/w" "/h" xfs2 (on_path xdisk2) no_glob _ xdisk2_ok xorder2 no_info (Some "app") ["app"; "clean"] "app" 1 (fun _ => Ok true)) as (f0 & H0);
    [intros i; now exists true|exact C|apply xasked|].
  destruct (H0 f0 (le_n _)) as (st & _ & f1 & H1). destruct (H1 f1 (le_n _)) as (i & c1 & ca1 & fs' & ca' & _ & _ & Hc). exists fs'. split; [exact Hc|].
  split; [exact (cc_clean _ _ _ _ _ xfs2 xnow2 (on_path xdisk2) no_info (Some "app") ["app"; "clean"] "app" 1 fs' zedited xdisk2_ok xorder2 C (xasked _) Hc)|].
  destruct (clean_removes "/w" "/h" xfs2 (on_path xdisk2) no_glob _ xdisk2_ok xorder2 no_info (Some "app") ["app"; "clean"] "app" 1 fs' C (xasked _) Hc) as [A B].
  split.
  - unfold contents. rewrite (A "/w/a.d"); [reflexivity| |rewrite xmean; exact (proj2 xcone)|vm_compute; reflexivity].
    apply (is_rule_at _ _ _ _ xhonest (contents xfs2)). vm_compute. discriminate.
  - assert (E : fs' "/w/a.h" = xfs2 "/w/a.h").
    { destruct (fs_entry_dec (fs' "/w/a.h") (xfs2 "/w/a.h")) as [E|E]; [exact E|]. exfalso. destruct (B _ E) as (_ & _ & Hr & _).
      apply (is_rule_at _ _ _ _ xhonest (contents xfs2)) in Hr. apply Hr. vm_compute. reflexivity. }
    unfold contents. rewrite E. exact (proj2 (proj2 xedited_files)).
Qed.
