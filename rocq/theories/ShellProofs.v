(** Lemmas about rm and cp as run by the rules. *)
From Verif Require Import PyBase PyPath PathProofs FormatModel InvokerModel CoreModel MakeModel ShellModel SpecShell.
Local Open Scope string_scope.
Local Open Scope list_scope.

Lemma portable_plain c : In c portable -> plain_char c = true.
Proof.
  intros H. unfold portable in H. cbn [list_ascii_of_string] in H.
  repeat (destruct H as [<-|H]; [reflexivity|]). destruct H.
Qed.
Lemma plain_portable c : plain_char c = true -> In c portable.
Proof. destruct c as [[] [] [] [] [] [] [] []]; intros H; try discriminate H; vm_compute; tauto. Qed.

Lemma app_str_assoc' (a b c : string) : ((a ++ b) ++ c = a ++ (b ++ c))%string.
Proof. apply app_str_assoc. Qed.
Lemma snoc_app w c : snoc w c = (w ++ String c "")%string.
Proof. induction w as [|d w IH]; cbn; [reflexivity|]. now rewrite IH. Qed.
Lemma lex_plain p s w cmd : portable_name p -> sh_lex (p ++ s)%string w cmd = sh_lex s (w ++ p)%string cmd.
Proof.
  revert w. induction p as [|c p IH]; intros w H; [now rewrite app_str_nil|].
  cbn [String.append sh_lex]. rewrite portable_plain by (apply H; now left).
  rewrite IH by (intros d Hd; apply H; now right). now rewrite snoc_app, app_str_assoc.
Qed.
Lemma lex_word p w cmd : portable_name p -> sh_lex p w cmd = Some [end_word (w ++ p)%string cmd].
Proof. intros H. rewrite <- (app_str_nil p) at 1. now rewrite lex_plain. Qed.

Lemma canonical_starts cwd p : canonical cwd p -> exists q, p = String slash q.
Proof. intros <-. apply starts_slash_inv, realpath_starts. Qed.
Lemma ends_slash_app s c : ends_slash (s ++ String c "")%string = Ascii.eqb c slash.
Proof. induction s as [|d s IH]; [reflexivity|]. cbn [String.append]. rewrite <- IH. destruct s; reflexivity. Qed.
Lemma canonical_ends cwd p : canonical cwd p -> p <> "/" -> ends_slash p = false.
Proof.
  intros <- Hp. rewrite realpath_abs in *. pose proof (rp_normal cwd p) as N. apply normal_true_proper in N.
  destruct (rp_comps cwd p) as [|c acc] eqn:E; [now destruct Hp|]. inversion N as [|? ? Hc Ha]; subst.
  destruct (abs_str_last c acc Hc) as (h & x & -> & Hx). rewrite ends_slash_app. now apply slash_neq.
Qed.
Lemma canonical_dash cwd p : canonical cwd p -> dash p = false.
Proof. intros H. destruct (canonical_starts cwd p H) as [q ->]. reflexivity. Qed.
Lemma canonical_nonempty cwd p : canonical cwd p -> String.eqb p "" = false.
Proof. intros H. destruct (canonical_starts cwd p H) as [q ->]. reflexivity. Qed.

Lemma rm_own_file cwd now tgt src fs : canonical cwd tgt -> portable_name tgt -> (forall m, fs tgt <> Some (m, Dir)) -> tgt <> "/" ->
  exists fs', exec_rule cwd now clr_rule (env_of src tgt) fs = Some (fs', true) /\ fs' tgt = None /\ only_at tgt fs fs'.
Proof.
  intros Hc Hp Hd Hr. unfold exec_rule, env_of, clr_rule.
  assert (F : format [("src", PV src []); ("tgt", PV tgt [])] "rm -f {tgt}" = FOk ("rm -f " ++ tgt)%string).
  { rewrite <- (app_str_nil tgt) at 2. vm_compute. reflexivity. }
  rewrite F. unfold sh.
  assert (L : sh_lex ("rm -f " ++ tgt)%string "" [] = Some [["rm"; "-f"; tgt]]).
  { cbn [String.append sh_lex plain_char blank]. change (sh_lex tgt "" ["rm"; "-f"] = Some [["rm"; "-f"; tgt]]).
    rewrite lex_word by exact Hp. cbn [String.append]. unfold end_word. now rewrite (canonical_nonempty cwd tgt Hc). }
  rewrite L. cbn [run_cmds]. unfold run_cmd.
  assert (D : filter dash ["-f"; tgt] = ["-f"]).
  { cbn [filter]. rewrite (canonical_dash cwd tgt Hc). reflexivity. }
  assert (O : filter (fun w => negb (dash w)) ["-f"; tgt] = [tgt]).
  { cbn [filter]. rewrite (canonical_dash cwd tgt Hc). reflexivity. }
  rewrite D, O. cbn [existsb]. unfold trailing_slash. rewrite (canonical_ends cwd tgt Hc Hr). cbn [orb].
  change (String.eqb "rm" "rm") with true. change (forallb (String.eqb "-f") ["-f"]) with true. cbv iota.
  cbn [rm_all]. rewrite Hc.
  destruct (fs tgt) as [[m [v|]]|] eqn:E.
  - eexists. split; [reflexivity|]. unfold fs_set, only_at. split; [now rewrite String.eqb_refl|].
    intros q Hq. apply String.eqb_neq in Hq. now rewrite Hq.
  - destruct (Hd m). reflexivity.
  - eexists. split; [reflexivity|]. split; [exact E|]. intros q Hq. reflexivity.
Qed.

Lemma cp_own_files cwd now src tgt fs v : canonical cwd tgt -> portable_name tgt -> portable_name src -> ~ option_like src ->
  src <> "" -> ends_slash src = false -> tgt <> "/" -> contents fs (realpath cwd src) = Some v -> realpath cwd src <> tgt ->
  (forall m, fs tgt <> Some (m, Dir)) -> (exists m, fs (dirname tgt) = Some (m, Dir)) ->
  exists fs', exec_rule cwd now copy_rule (env_of src tgt) fs = Some (fs', true) /\
    fs' tgt = Some (now, Reg v) /\ only_at tgt fs fs'.
Proof.
  intros Hc Hp Hps Ho He Hs Hr Hv Hne Hd [m0 Hpar]. unfold exec_rule, env_of, copy_rule.
  assert (F : format [("src", PV src []); ("tgt", PV tgt [])] "cp {src} {tgt}" = FOk ("cp " ++ (src ++ String " " tgt))%string).
  { rewrite <- (app_str_nil tgt) at 2. vm_compute. reflexivity. }
  rewrite F. unfold sh.
  assert (L : sh_lex ("cp " ++ (src ++ String " " tgt))%string "" [] = Some [["cp"; src; tgt]]).
  { change (sh_lex (src ++ String " " tgt)%string "" ["cp"] = Some [["cp"; src; tgt]]).
    rewrite lex_plain by exact Hps. cbn [String.append sh_lex]. change (plain_char " ") with false. change (blank " ") with true. cbv iota.
    rewrite lex_word by exact Hp. cbn [String.append]. unfold end_word. rewrite (canonical_nonempty cwd tgt Hc).
    apply String.eqb_neq in He. now rewrite He. }
  rewrite L. cbn [run_cmds run_cmd filter].
  assert (Ds : dash src = false).
  { destruct src as [|c q]; [reflexivity|]. cbn. destruct (Ascii.eqb_spec c "-") as [->|]; [|reflexivity]. destruct Ho. now exists q. }
  rewrite Ds, (canonical_dash cwd tgt Hc). cbn [negb existsb]. unfold trailing_slash. rewrite Hs, (canonical_ends cwd tgt Hc Hr). cbn [orb].
  change (String.eqb "cp" "rm") with false. change (String.eqb "cp" "cp") with true. cbv iota.
  unfold cp_all. cbn [rev app]. rewrite Hc.
  assert (Nd : is_dir fs tgt = false).
  { unfold is_dir. destruct (fs tgt) as [[m [w|]]|] eqn:E; try reflexivity. now destruct (Hd m). }
  rewrite Nd. unfold cp_one. rewrite Hv. apply String.eqb_neq in Hne. rewrite Hne, Nd.
  unfold is_dir. rewrite Hpar. cbn [orb negb].
  eexists. split; [reflexivity|]. unfold fs_set, only_at. split; [now rewrite String.eqb_refl|].
  intros q Hq. apply String.eqb_neq in Hq. now rewrite Hq.
Qed.

(** Names with a blank, and names that look like options. *)
Definition sh_fs (p : string) : option (nat * node) :=
  if String.eqb p "/w/a b" then Some (1, Reg "mine")
  else if String.eqb p "/w/a" then Some (1, Reg "precious")
  else if String.eqb p "/w/-s" then Some (1, Reg "text")
  else if String.eqb p "/w" then Some (1, Dir)
  else if String.eqb p "/" then Some (1, Dir) else None.
Lemma rm_other_file : exists cwd tgt fs fs', canonical cwd tgt /\ contents fs tgt = Some "mine" /\
  exec_rule cwd 2 clr_rule (env_of "" tgt) fs = Some (fs', true) /\
  fs' tgt = fs tgt /\ exists p v, p <> tgt /\ contents fs p = Some v /\ fs' p = None.
Proof.
  exists "/w", "/w/a b", sh_fs. eexists. split; [reflexivity|]. split; [reflexivity|].
  split; [vm_compute; reflexivity|]. split; [reflexivity|]. exists "/w/a", "precious". split; [discriminate|]. split; reflexivity.
Qed.
(** "x; rm -f /w/a" as a file name. *)
Lemma rm_injected : exists cwd tgt fs fs', canonical cwd tgt /\ fs tgt = None /\
  exec_rule cwd 2 clr_rule (env_of "" tgt) fs = Some (fs', true) /\
  exists p v, p <> tgt /\ contents fs p = Some v /\ fs' p = None.
Proof.
  exists "/w", "/w/x; rm -f /w/a", sh_fs. eexists. split; [reflexivity|]. split; [reflexivity|].
  split; [vm_compute; reflexivity|]. exists "/w/a", "precious". split; [discriminate|]. split; reflexivity.
Qed.
Lemma cp_blank_fails : exists cwd src tgt fs, canonical cwd tgt /\ contents fs (realpath cwd src) = Some "mine" /\
  fs tgt = None /\ exists fs', exec_rule cwd 2 copy_rule (env_of src tgt) fs = Some (fs', false) /\ fs' tgt = None.
Proof.
  exists "/w", "a b", "/w/t", sh_fs. split; [reflexivity|]. split; [reflexivity|]. split; [reflexivity|].
  eexists. split; [vm_compute; reflexivity|reflexivity].
Qed.
