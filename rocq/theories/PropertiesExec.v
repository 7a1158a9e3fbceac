(** C35, C36: what rules do when they are run. *)
From Coq Require Import Permutation.
From Verif Require Import PyBase PyPath PathProofs FormatModel InvokerModel CoreModel MakeModel ProcessModel SpecProcess ProcessProofs Utf8Proofs ShellModel SpecShell ShellProofs.
Local Open Scope string_scope.
Local Open Scope list_scope.

Definition dir_fs (p : string) : option (nat * node) :=
  if String.eqb p "/w/a" then Some (1, Reg "mine")
  else if String.eqb p "/w/d/a" then Some (1, Reg "precious")
  else if String.eqb p "/w/d" then Some (1, Dir)
  else if String.eqb p "/w" then Some (1, Dir)
  else if String.eqb p "/" then Some (1, Dir) else None.

(** C35: true of names made of characters that mean nothing to the shell ... *)
Theorem C35_rm_removes_the_target_partial :
  forall cwd now tgt src fs, canonical cwd tgt -> portable_name tgt -> (forall m, fs tgt <> Some (m, Dir)) -> tgt <> "/" ->
  exists fs', exec_rule cwd now clr_rule (env_of src tgt) fs = Some (fs', true) /\ fs' tgt = None /\ only_at tgt fs fs'.
Proof. exact rm_own_file. Qed.
Print Assumptions C35_rm_removes_the_target_partial.
Theorem C35_cp_writes_the_target_partial :
  forall cwd now src tgt fs v, canonical cwd tgt -> portable_name tgt -> portable_name src -> ~ option_like src ->
  src <> "" -> ends_slash src = false -> tgt <> "/" -> contents fs (realpath cwd src) = Some v -> realpath cwd src <> tgt ->
  (forall m, fs tgt <> Some (m, Dir)) -> (exists m, fs (dirname tgt) = Some (m, Dir)) ->
  exists fs', exec_rule cwd now copy_rule (env_of src tgt) fs = Some (fs', true) /\
    fs' tgt = Some (now, Reg v) /\ only_at tgt fs fs'.
Proof. exact cp_own_files. Qed.
Print Assumptions C35_cp_writes_the_target_partial.
(** ... but not of names with a blank: another file is removed, the target stays ... *)
Theorem C35_blank_refuted : exists cwd tgt fs fs', canonical cwd tgt /\ contents fs tgt = Some "mine" /\
  exec_rule cwd 2 clr_rule (env_of "" tgt) fs = Some (fs', true) /\
  fs' tgt = fs tgt /\ exists p v, p <> tgt /\ contents fs p = Some v /\ fs' p = None.
Proof. exact rm_other_file. Qed.
Print Assumptions C35_blank_refuted.
(** ... or a semicolon: the rest of the name is executed ... *)
Theorem C35_semicolon_refuted : exists cwd tgt fs fs', canonical cwd tgt /\ fs tgt = None /\
  exec_rule cwd 2 clr_rule (env_of "" tgt) fs = Some (fs', true) /\
  exists p v, p <> tgt /\ contents fs p = Some v /\ fs' p = None.
Proof. exact rm_injected. Qed.
Print Assumptions C35_semicolon_refuted.
(** ... and such a file cannot be copied. *)
Theorem C35_cp_refuted : exists cwd src tgt fs, canonical cwd tgt /\ contents fs (realpath cwd src) = Some "mine" /\
  fs tgt = None /\ exists fs', exec_rule cwd 2 copy_rule (env_of src tgt) fs = Some (fs', false) /\ fs' tgt = None.
Proof. exact cp_blank_fails. Qed.
Print Assumptions C35_cp_refuted.
(** If the target's name is that of a directory, the file goes into it ... *)
Theorem C35_cp_into_a_directory :
  forall cwd now src tgt fs v, canonical cwd tgt -> portable_name tgt -> portable_name src -> ~ option_like src ->
  src <> "" -> ends_slash src = false -> tgt <> "/" -> contents fs (realpath cwd src) = Some v ->
  (exists m, fs tgt = Some (m, Dir)) -> let inner := realpath cwd (tgt ++ "/" ++ basename src)%string in
  realpath cwd src <> inner -> (forall m, fs inner <> Some (m, Dir)) -> (exists m, fs (dirname inner) = Some (m, Dir)) ->
  exists fs', exec_rule cwd now copy_rule (env_of src tgt) fs = Some (fs', true) /\
    fs' inner = Some (now, Reg v) /\ only_at inner fs fs'.
Proof.
  intros cwd now src tgt fs v Hc Hp Hps Ho He Hs Hr Hv [mt Ht] inner Hne Hd [m0 Hpar]. unfold exec_rule, env_of, copy_rule.
  assert (F : format [("src", PV src []); ("tgt", PV tgt [])] "cp {src} {tgt}" = FOk ("cp " ++ (src ++ String " " tgt))%string).
  { rewrite <- (app_str_nil tgt) at 2. vm_compute. reflexivity. }
  rewrite F. unfold sh.
  assert (L : sh_lex ("cp " ++ (src ++ String " " tgt))%string "" [] = Some [["cp"; src; tgt]]).
  { change (sh_lex (src ++ String " " tgt)%string "" ["cp"] = Some [["cp"; src; tgt]]).
    rewrite lex_plain by exact Hps. cbn [String.append sh_lex]. change (plain_char " ") with false. change (blank " ") with true. cbv iota.
    rewrite lex_word by exact Hp. cbn [String.append]. unfold end_word. rewrite (canonical_nonempty cwd tgt Hc).
    apply String.eqb_neq in He. now rewrite He. }
  rewrite L. cbn [run_cmds run_cmd filter].
  assert (Ds : dash src = false).
  { destruct src as [|c q]; [reflexivity|]. cbn. destruct (Ascii.eqb_spec c "-") as [->|]; [|reflexivity]. destruct Ho. now exists q. }
  rewrite Ds, (canonical_dash cwd tgt Hc). cbn [negb existsb]. unfold trailing_slash. rewrite Hs, (canonical_ends cwd tgt Hc Hr). cbn [orb].
  change (String.eqb "cp" "rm") with false. change (String.eqb "cp" "cp") with true. cbv iota.
  unfold cp_all. cbn [rev app]. rewrite Hc. unfold is_dir at 1. rewrite Ht. cbn [cp_into].
  assert (Ei : realpath cwd (path_join tgt (basename src)) = inner).
  { unfold inner, path_join. rewrite (canonical_ends cwd tgt Hc Hr). assert (B : starts_slash (basename src) = false).
    { pose proof (basename_no_slash src) as N. destruct (basename src) as [|c b]; [reflexivity|]. destruct N as [N _]. cbn. now apply slash_neq. }
    rewrite B. destruct (canonical_starts cwd tgt Hc) as [q ->]. reflexivity. }
  rewrite Ei. unfold cp_one. rewrite Hv. apply String.eqb_neq in Hne. rewrite Hne.
  assert (Nd : is_dir fs inner = false).
  { unfold is_dir. destruct (fs inner) as [[m [w|]]|] eqn:E; try reflexivity. now destruct (Hd m). }
  rewrite Nd. unfold is_dir. rewrite Hpar. cbn [orb negb andb].
  eexists. split; [reflexivity|]. unfold fs_set, only_at. split; [now rewrite String.eqb_refl|].
  intros q Hq. apply String.eqb_neq in Hq. now rewrite Hq.
Qed.
Print Assumptions C35_cp_into_a_directory.
(** ... so that the rule succeeds and the target is not there, and another file is overwritten. *)
Theorem C35_cp_directory_refuted : exists cwd src tgt fs fs', canonical cwd tgt /\ portable_name tgt /\ portable_name src /\
  contents fs (realpath cwd src) = Some "mine" /\ exec_rule cwd 2 copy_rule (env_of src tgt) fs = Some (fs', true) /\
  contents fs' tgt = None /\ exists p, p <> tgt /\ contents fs p = Some "precious" /\ contents fs' p = Some "mine".
Proof.
  exists "/w", "a", "/w/d", dir_fs. eexists. split; [reflexivity|].
  split; [intros c Hc; apply plain_portable; cbn in Hc; repeat (destruct Hc as [<-|Hc]; [reflexivity|]); destruct Hc|].
  split; [intros c Hc; apply plain_portable; cbn in Hc; repeat (destruct Hc as [<-|Hc]; [reflexivity|]); destruct Hc|].
  split; [reflexivity|]. split; [vm_compute; reflexivity|]. split; [reflexivity|].
  exists "/w/d/a". split; [discriminate|]. split; reflexivity.
Qed.
Print Assumptions C35_cp_directory_refuted.
(** The rule succeeds if the last command that its name makes of it does: here the target, a
    directory, cannot be removed. *)
Theorem C35_last_status_refuted : exists cwd tgt rest fs fs' fs'', exec_rule cwd 2 clr_rule (env_of "" tgt) fs = Some (fs', false) /\
  exec_rule cwd 2 clr_rule (env_of "" (tgt ++ ";" ++ rest)%string) fs = Some (fs'', true) /\ fs'' tgt = fs tgt /\ fs tgt <> None.
Proof.
  exists "/w", "/w/d", "rm -f /w/x", dir_fs. do 2 eexists. split; [vm_compute; reflexivity|]. split; [vm_compute; reflexivity|].
  split; [reflexivity|discriminate].
Qed.
Print Assumptions C35_last_status_refuted.
Example C35_case :
  canonical "/w" "/w/a" /\ contents sh_fs "/w/a" = Some "precious" /\ is_dir sh_fs (dirname "/w/a2") = true /\
  portable_name "/w/a2" /\
  option_map (fun r => (snd r, fst r "/w/a2")) (exec_rule "/w" 7 copy_rule (env_of "../w/a" "/w/a2") sh_fs) =
    Some (true, Some (7, Reg "precious")) /\
  option_map (fun r => (snd r, fst r "/w/a")) (exec_rule "/w" 7 clr_rule (env_of "" "/w/a") sh_fs) = Some (true, None).
Proof.
  split; [reflexivity|]. split; [reflexivity|]. split; [reflexivity|].
  split; [|split; vm_compute; reflexivity]. intros c Hc. apply plain_portable. cbn in Hc.
  repeat (destruct Hc as [<-|Hc]; [reflexivity|]). destruct Hc.
Qed.

(** C36.  No run of do_execute goes on for ever ... *)
Theorem C36_no_infinite_run :
  forall cap n cmd s, psteps cap n (pstart cmd) s -> n <= list_sum (map (fun p => 2 * List.length p + 1) cmd) + 3.
Proof. exact steps_bounded. Qed.
Print Assumptions C36_no_infinite_run.
(** ... and it returns, whatever the schedule, as long as the pipes can take all output. *)
Theorem C36_returns_if_the_output_fits_partial :
  forall cap shell bg, 0 < cap -> amount true (shell :: bg) <= cap -> amount false (shell :: bg) <= cap ->
  forall s, reachable cap shell bg s ->
    (~ finished s -> exists s', pstep cap s s') /\ exists n s', psteps cap n s s' /\ finished s'.
Proof. exact always_ends. Qed.
Print Assumptions C36_returns_if_the_output_fits_partial.
(** Exactly then, if there are no background processes. *)
Theorem C36_returns_exactly_if_the_output_fits :
  forall cap p, 0 < cap ->
  ((forall s, reachable cap p [] s -> ~ finished s -> exists s', pstep cap s s') <->
   List.length (writes true p) <= cap /\ List.length (writes false p) <= cap) /\
  ((exists s, reachable cap p [] s /\ finished s) <->
   List.length (writes true p) <= cap /\ List.length (writes false p) <= cap).
Proof. exact single_ends. Qed.
Print Assumptions C36_returns_exactly_if_the_output_fits.
(** With background processes: it can return iff standard error fits and so does what the
    shell itself prints. *)
Theorem C36_can_return_iff :
  forall cap shell bg, 0 < cap ->
  ((exists s, reachable cap shell bg s /\ finished s) <->
   List.length (writes true shell) <= cap /\ amount false (shell :: bg) <= cap).
Proof. exact ends_iff. Qed.
Print Assumptions C36_can_return_iff.
(** A command that prints too much, on one of the streams, hangs. *)
Theorem C36_refuted : forall cap st, 0 < cap -> exists p, writes (negb st) p = [] /\ forall s, reachable cap p [] s -> ~ finished s.
Proof. exact too_much. Qed.
Print Assumptions C36_refuted.
(** The command has exited, do_execute never returns. *)
Theorem C36_background_refuted : forall cap, 0 < cap ->
  exists bg s, reachable cap [] [bg] s /\ nth_error (p_procs s) 0 = Some None /\
  forall s', reachable cap [] [bg] s' -> ~ finished s'.
Proof. exact background. Qed.
Print Assumptions C36_background_refuted.
(** What it returns and prints: everything that was written, in order. *)
Theorem C36_result :
  forall cap p s status, reachable cap p [] s -> finished s ->
  utf8_text (writes true p) -> utf8_text (writes false p) ->
  p_pc s = PDone (writes true p) (writes false p) /\
  (do_execute_result status (p_pc s) = Some (Ok true) <-> status = 0%Z) /\
  (do_execute_result status (p_pc s) = Some (Ok false) <-> status <> 0%Z).
Proof.
  exact (fun cap p s status Hr Hf H1 H2 =>
    match single_result cap p s Hr Hf with
    | or_introl (conj _ (conj _ E)) => conj E (result_status status _ _ _ E)
    | or_intror (conj (or_introl E) _) => False_ind _ (eq_true_false_abs _ (proj2 (utf8_ok_iff _) H1) E)
    | or_intror (conj (or_intror E) _) => False_ind _ (eq_true_false_abs _ (proj2 (utf8_ok_iff _) H2) E)
    end).
Qed.
Print Assumptions C36_result.
Theorem C36_all_output_is_collected :
  forall cap shell bg s, reachable cap shell bg s ->
  (forall o e, p_pc s = PDone o e -> utf8_ok o = true /\ utf8_ok e = true /\
     Permutation o (flat_map (writes true) (shell :: bg)) /\ Permutation e (flat_map (writes false) (shell :: bg))) /\
  (forall o e, p_pc s = PRaised o e -> utf8_ok o = false \/ utf8_ok e = false).
Proof. exact printed. Qed.
Print Assumptions C36_all_output_is_collected.
(** The check of the text is the UTF-8 of RFC 3629. *)
Theorem C36_utf8 : forall l, utf8_ok l = true <-> utf8_text l.
Proof. exact utf8_ok_iff. Qed.
Print Assumptions C36_utf8.
(** Output that is not UTF-8 makes a successful command raise. *)
Theorem C36_undecodable_refuted :
  forall cap, 0 < cap -> exists p, List.length (writes true p) <= cap /\ List.length (writes false p) <= cap /\
  forall s, reachable cap p [] s -> finished s -> do_execute_result 0 (p_pc s) = Some (Raise (ValueError "utf-8")).
Proof. exact undecodable. Qed.
Print Assumptions C36_undecodable_refuted.
Example C36_case :
  let p := [(true, "o"%char); (false, "e"%char); (true, "k"%char)] in
  amount true [p] = 2 /\ amount false [p] = 1 /\ utf8_text (writes true p) /\ exists s, reachable 2 p [] s /\ finished s.
Proof.
  cbv zeta. split; [reflexivity|]. split; [reflexivity|]. split; [apply utf8_ok_iff; reflexivity|].
  apply (C36_returns_exactly_if_the_output_fits 2); cbn; lia.
Qed.
