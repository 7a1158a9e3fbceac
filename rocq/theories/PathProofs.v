(** Lemmas about the path functions of PyPath.v. *)
From Verif Require Import PyBase PyPath.
Local Open Scope string_scope.
Local Open Scope list_scope.

(** No slash in [s]. *)
Fixpoint no_slash (s : string) : Prop :=
  match s with EmptyString => True | String c s' => c <> slash /\ no_slash s' end.
(** A file name: not empty, not "." or "..", no slash. *)
Definition proper (s : string) : Prop := s <> "" /\ s <> "." /\ s <> ".." /\ no_slash s.

Lemma slash_dec c : Ascii.eqb c slash = true <-> c = slash.
Proof. apply Ascii.eqb_eq. Qed.
Lemma slash_neq c : c <> slash -> Ascii.eqb c slash = false.
Proof. intros H. now apply Ascii.eqb_neq. Qed.
Lemma app_str_assoc (a b c : string) : ((a ++ b) ++ c = a ++ (b ++ c))%string.
Proof. induction a as [|x a IH]; cbn; [reflexivity|now rewrite IH]. Qed.
Lemma app_str_nil (a : string) : (a ++ "" = a)%string.
Proof. induction a as [|x a IH]; cbn; [reflexivity|now rewrite IH]. Qed.

(** ** split and concat *)
Lemma split_cons s : split_slash s <> [].
Proof.
  destruct s as [|c s]; cbn; [discriminate|].
  destruct (Ascii.eqb c slash); [discriminate|]. destruct (split_slash s); discriminate.
Qed.
Lemma concat_cons a b l : String.concat "/" (a :: b :: l) = (a ++ String slash (String.concat "/" (b :: l)))%string.
Proof. reflexivity. Qed.
Lemma concat_split s : String.concat "/" (split_slash s) = s.
Proof.
  induction s as [|c s IH]; [reflexivity|]. cbn [split_slash].
  destruct (Ascii.eqb c slash) eqn:E.
  - apply slash_dec in E. subst c. pose proof (split_cons s) as N.
    destruct (split_slash s) as [|h t]; [congruence|]. rewrite concat_cons, IH. reflexivity.
  - pose proof (split_cons s) as N. destruct (split_slash s) as [|h t]; [congruence|].
    destruct t as [|h2 t].
    + cbn in *. now rewrite IH.
    + rewrite concat_cons in *. cbn [String.append]. now rewrite IH.
Qed.
Lemma split_no_slash s : no_slash s -> split_slash s = [s].
Proof.
  induction s as [|c s IH]; cbn; [reflexivity|]. intros [H1 H2].
  rewrite (slash_neq _ H1), (IH H2). reflexivity.
Qed.
Lemma split_parts s : Forall no_slash (split_slash s).
Proof.
  induction s as [|c s IH]; cbn; [repeat constructor|].
  destruct (Ascii.eqb c slash) eqn:E; [now constructor|].
  destruct (split_slash s) as [|h t]; [repeat constructor|].
  - intros ->. now rewrite Ascii.eqb_refl in E.
  - inversion IH as [|? ? Hh Ht]. subst. constructor; [|exact Ht]. split; [|exact Hh].
    intros ->. now rewrite Ascii.eqb_refl in E.
Qed.
(** Splitting a text at a slash. *)
Lemma split_app a b : split_slash (a ++ String slash b)%string = split_slash a ++ split_slash b.
Proof.
  induction a as [|c a IH]; cbn [String.append split_slash].
  - rewrite Ascii.eqb_refl. reflexivity.
  - destruct (Ascii.eqb c slash); [now rewrite IH|]. rewrite IH.
    pose proof (split_cons a) as N. destruct (split_slash a) as [|h t]; [congruence|]. reflexivity.
Qed.
Lemma split_concat l : l <> [] -> Forall no_slash l -> split_slash (String.concat "/" l) = l.
Proof.
  induction l as [|a l IH]; [congruence|]. intros _ F. inversion F as [|? ? Ha Fl]. subst.
  destruct l as [|b l]; [cbn; now apply split_no_slash|].
  rewrite concat_cons, split_app, (split_no_slash a Ha), IH; [reflexivity|discriminate|exact Fl].
Qed.

(** ** cut_last_slash: the last component *)
Lemma cut_app s : (fst (cut_last_slash s) ++ snd (cut_last_slash s) = s)%string.
Proof.
  induction s as [|c s IH]; [reflexivity|]. cbn [cut_last_slash].
  destruct (cut_last_slash s) as [h t]. cbn [fst snd] in IH.
  destruct h as [|x h].
  - destruct (Ascii.eqb c slash); cbn in *; now rewrite IH.
  - cbn in *. now rewrite <- IH.
Qed.
Lemma cut_tail s : no_slash (snd (cut_last_slash s)).
Proof.
  induction s as [|c s IH]; [exact I|]. cbn [cut_last_slash].
  destruct (cut_last_slash s) as [h t]. cbn [snd] in IH.
  destruct h as [|x h]; [|exact IH].
  destruct (Ascii.eqb c slash) eqn:E; [exact IH|]. cbn. split; [|exact IH].
  intros ->. now rewrite Ascii.eqb_refl in E.
Qed.
Lemma cut_head s : fst (cut_last_slash s) = "" \/ exists h, fst (cut_last_slash s) = (h ++ String slash "")%string.
Proof.
  induction s as [|c s IH]; [now left|]. cbn [cut_last_slash].
  destruct (cut_last_slash s) as [h t]. cbn [fst] in *.
  destruct h as [|x h].
  - destruct (Ascii.eqb c slash) eqn:E; [|now left]. right. exists "".
    apply slash_dec in E. now subst.
  - right. destruct IH as [IH|[g IH]]; [discriminate|]. exists (String c g). cbn. now rewrite IH.
Qed.
Lemma cut_no_slash t : no_slash t -> cut_last_slash t = ("", t).
Proof.
  induction t as [|c t IH]; [reflexivity|]. intros [H1 H2]. cbn. rewrite (IH H2), (slash_neq _ H1). reflexivity.
Qed.
Lemma cut_at a t : no_slash t -> cut_last_slash (a ++ String slash t)%string = ((a ++ String slash "")%string, t).
Proof.
  intros H. induction a as [|c a IH]; cbn [String.append cut_last_slash].
  - rewrite (cut_no_slash t H), Ascii.eqb_refl. reflexivity.
  - rewrite IH. destruct a as [|x a]; reflexivity.
Qed.

(** ** rstrip *)
Fixpoint all_slash (s : string) : Prop :=
  match s with EmptyString => True | String c s' => c = slash /\ all_slash s' end.
Lemma rstrip_spec s : exists t, all_slash t /\ s = (rstrip_slash s ++ t)%string /\
  (rstrip_slash s = "" \/ exists h c, rstrip_slash s = (h ++ String c "")%string /\ c <> slash).
Proof.
  induction s as [|c s IH]; [exists ""; cbn; auto|]. cbn [rstrip_slash].
  destruct IH as (t & Ht & E & D). destruct (rstrip_slash s) as [|x r] eqn:R.
  - destruct (Ascii.eqb c slash) eqn:Ec.
    + apply slash_dec in Ec. subst c. exists (String slash t). cbn in *. subst s.
      repeat split; auto.
    + exists t. cbn in *. split; [exact Ht|]. split; [now rewrite <- E|]. right. exists "", c.
      split; [reflexivity|]. intros ->. now rewrite Ascii.eqb_refl in Ec.
  - exists t. split; [exact Ht|]. split; [cbn in *; now rewrite <- E|]. right.
    destruct D as [D|(h & y & D & Hy)]; [discriminate|]. exists (String c h), y. cbn. now rewrite D.
Qed.
Lemma rstrip_all s : all_slash s -> rstrip_slash s = "".
Proof.
  induction s as [|c s IH]; [reflexivity|]. intros [-> H]. cbn. rewrite (IH H). reflexivity.
Qed.
Lemma rstrip_app s t : all_slash t -> rstrip_slash (s ++ t)%string = rstrip_slash s.
Proof.
  intros H. induction s as [|c s IH]; cbn [String.append rstrip_slash].
  - now apply rstrip_all.
  - now rewrite IH.
Qed.
Lemma rstrip_id h c : c <> slash -> rstrip_slash (h ++ String c "")%string = (h ++ String c "")%string.
Proof.
  intros H. induction h as [|x h IH]; cbn [String.append rstrip_slash].
  - now rewrite (slash_neq _ H).
  - rewrite IH. destruct h; reflexivity.
Qed.
Lemma split_all_slash t : all_slash t -> Forall (fun c => c = "") (split_slash t).
Proof.
  induction t as [|c t IH]; cbn; [repeat constructor|]. intros [-> H].
  rewrite Ascii.eqb_refl. constructor; auto.
Qed.
Lemma split_app_slashes s t : all_slash t -> exists e, split_slash (s ++ t)%string = split_slash s ++ e /\ Forall (fun c => c = "") e.
Proof.
  destruct t as [|c t]; intros H.
  - exists []. rewrite app_str_nil, app_nil_r. split; [reflexivity|constructor].
  - destruct H as [-> H]. exists (split_slash t). split; [apply split_app|now apply split_all_slash].
Qed.

(** ** Normalisation of component lists *)
Lemma norm_app abs a b acc : norm_loop abs (a ++ b) acc = norm_loop abs b (norm_loop abs a acc).
Proof.
  revert acc. induction a as [|c a IH]; intros acc; [reflexivity|]. cbn [app norm_loop].
  destruct (String.eqb c "" || String.eqb c "."); [apply IH|].
  destruct (negb (String.eqb c "..")); [apply IH|].
  destruct acc as [|x acc]; [destruct abs; apply IH|].
  destruct (String.eqb x ".."); apply IH.
Qed.
Lemma norm_empties abs e acc : Forall (fun c => c = "") e -> norm_loop abs e acc = acc.
Proof. induction 1 as [|c e -> _ IH]; [reflexivity|exact IH]. Qed.
Lemma norm_proper abs c l acc : proper c -> norm_loop abs (c :: l) acc = norm_loop abs l (c :: acc).
Proof.
  intros (H1 & H2 & H3 & _). cbn [norm_loop].
  apply String.eqb_neq in H1, H2, H3. rewrite H1, H2, H3. reflexivity.
Qed.

(** Reversed component lists as [norm_loop] builds them: proper names on top of dot-dots,
    which occur only in relative paths. *)
Inductive normal (abs : bool) : list string -> Prop :=
| n_nil : normal abs []
| n_up acc : abs = false -> Forall (fun c => c = "..") acc -> normal abs (".." :: acc)
| n_name c acc : proper c -> normal abs acc -> normal abs (c :: acc).

Lemma normal_ups abs acc : normal abs acc -> match acc with a :: _ => a = ".." | [] => True end ->
  abs = false /\ Forall (fun c => c = "..") acc \/ acc = [].
Proof.
  intros [|acc' H F|c acc' Hc _]; [now right|intros _; left; split; [exact H|now constructor]|].
  intros ->. destruct Hc as (_ & _ & H & _). congruence.
Qed.
Lemma norm_normal abs cs acc : Forall no_slash cs -> normal abs acc -> normal abs (norm_loop abs cs acc).
Proof.
  revert acc. induction cs as [|c cs IH]; intros acc F Ha; [exact Ha|].
  inversion F as [|? ? Hc Fc]. subst. cbn [norm_loop].
  destruct (String.eqb c "") eqn:E1; [now apply IH|]. destruct (String.eqb c ".") eqn:E2; [now apply IH|].
  cbn [orb]. destruct (String.eqb c "..") eqn:E3; cbn [negb].
  - apply String.eqb_eq in E3. subst c. destruct acc as [|a acc].
    + destruct abs; apply IH; auto. constructor; [reflexivity|constructor].
    + destruct (String.eqb a "..") eqn:E4.
      * apply String.eqb_eq in E4. subst a. apply IH; [exact Fc|].
        destruct (normal_ups _ _ Ha eq_refl) as [[Hf Fa]|D]; [|discriminate]. now apply n_up.
      * apply IH; [exact Fc|]. inversion Ha; subst; auto. now rewrite String.eqb_refl in E4.
  - apply IH; [exact Fc|]. apply n_name; [|exact Ha]. apply String.eqb_neq in E1, E2, E3.
    repeat split; auto.
Qed.
Lemma normal_slash abs acc : normal abs acc -> Forall no_slash acc.
Proof.
  induction 1 as [|acc _ F|c acc Hc _ IH]; [constructor| |constructor; [apply Hc|exact IH]].
  constructor; [cbn; repeat split; discriminate|].
  eapply Forall_impl; [|exact F]. intros c ->. cbn. repeat split; discriminate.
Qed.
Lemma norm_ups k acc : Forall (fun c => c = "..") k -> Forall (fun c => c = "..") acc ->
  norm_loop false k acc = rev k ++ acc.
Proof.
  intros Hk. revert acc. induction Hk as [|c k -> Hk IH]; intros acc Ha; [reflexivity|].
  cbn [norm_loop]. destruct acc as [|a acc].
  - cbn. rewrite IH; [|repeat constructor]. now rewrite <- app_assoc.
  - inversion Ha. subst. cbn. rewrite IH; [|now constructor]. now rewrite <- app_assoc.
Qed.
(** Normal lists are left unchanged. *)
Lemma norm_id abs acc : normal abs acc -> norm_loop abs (rev acc) [] = acc.
Proof.
  induction 1 as [|acc Hab F|c acc Hc Ha IH]; [reflexivity| |].
  - subst abs. rewrite norm_ups; [|apply Forall_rev; now constructor|constructor].
    rewrite rev_involutive, app_nil_r. reflexivity.
  - cbn [rev]. rewrite norm_app, IH. rewrite norm_proper by exact Hc. reflexivity.
Qed.
Lemma normal_true_proper acc : normal true acc -> Forall proper acc.
Proof. induction 1; [constructor|discriminate|now constructor]. Qed.

(** Normalising a relative path first changes nothing below an absolute one. *)
Lemma norm_relative cs acc base : Forall no_slash cs -> normal false acc -> normal true base ->
  norm_loop true (rev (norm_loop false cs acc)) base = norm_loop true cs (norm_loop true (rev acc) base).
Proof.
  revert acc. induction cs as [|c cs IH]; intros acc F Ha Hb; [reflexivity|].
  inversion F as [|? ? Hc Fc]. subst. cbn [norm_loop].
  destruct (String.eqb c "") eqn:E1; [now apply IH|]. destruct (String.eqb c ".") eqn:E2; [now apply IH|].
  cbn [orb]. destruct (String.eqb c "..") eqn:E3; cbn [negb].
  - apply String.eqb_eq in E3. subst c. destruct acc as [|a acc].
    + rewrite IH; [|exact Fc|constructor; [reflexivity|constructor]|exact Hb]. cbn.
      destruct base as [|x base]; [reflexivity|].
      pose proof (normal_true_proper _ Hb) as Pb. inversion Pb as [|? ? Px _]. subst.
      destruct Px as (_ & _ & Px & _). apply String.eqb_neq in Px. now rewrite Px.
    + destruct (String.eqb a "..") eqn:E4.
      * apply String.eqb_eq in E4. subst a.
        destruct (normal_ups _ _ Ha eq_refl) as [[_ Fa]|D]; [|discriminate].
        match goal with |- ?L = _ =>
          change (L = norm_loop true (".." :: cs) (norm_loop true (rev (".." :: acc)) base)) end.
        rewrite IH; [|exact Fc|now apply n_up|exact Hb].
        change (".." :: cs) with ([".."] ++ cs). rewrite norm_app. f_equal.
        change (rev (".." :: ".." :: acc)) with (rev (".." :: acc) ++ [".."]). now rewrite norm_app.
      * inversion Ha as [| |? ? Pa Ha']; subst; [now rewrite String.eqb_refl in E4|].
        rewrite IH by assumption. cbn [rev]. rewrite norm_app, norm_proper by exact Pa. cbn [norm_loop].
        destruct Pa as (_ & _ & Pa & _). apply String.eqb_neq in Pa. now rewrite Pa.
  - apply String.eqb_neq in E1, E2, E3.
    rewrite IH; [|exact Fc|apply n_name; [repeat split; auto|exact Ha]|exact Hb].
    cbn [rev]. rewrite norm_app, norm_proper by (repeat split; auto). reflexivity.
Qed.

(** ** realpath *)
(** Components of [realpath cwd p], reversed. *)
Definition rp_comps (cwd p : string) : list string :=
  norm_loop true (split_slash p) (if starts_slash p then [] else norm_loop true (split_slash cwd) []).

Lemma starts_slash_inv p : starts_slash p = true -> exists q, p = String slash q.
Proof. destruct p as [|c p]; [discriminate|]. intros H. apply slash_dec in H. subst. eauto. Qed.
Lemma ends_slash_inv p : ends_slash p = true -> exists q, p = (q ++ String slash "")%string.
Proof.
  induction p as [|c p IH]; [discriminate|]. intros H. destruct p as [|d p].
  - apply slash_dec in H. subst. exists "". reflexivity.
  - destruct (IH H) as [q Hq]. exists (String c q). cbn. now rewrite <- Hq.
Qed.
Lemma norm_split_join abs cwd p : starts_slash p = false -> forall acc,
  norm_loop abs (split_slash (path_join cwd p)) acc = norm_loop abs (split_slash p) (norm_loop abs (split_slash cwd) acc).
Proof.
  intros H acc. unfold path_join. rewrite H. destruct cwd as [|c cwd]; [reflexivity|].
  destruct (ends_slash (String c cwd)) eqn:E.
  - destruct (ends_slash_inv _ E) as [q ->]. rewrite app_str_assoc. cbn [String.append].
    rewrite !split_app, !norm_app. reflexivity.
  - rewrite split_app, norm_app. reflexivity.
Qed.
Lemma realpath_comps cwd p : realpath cwd p = String slash (String.concat "/" (rev (rp_comps cwd p))).
Proof.
  unfold realpath, rp_comps, norm_comps. f_equal. f_equal. f_equal.
  destruct (starts_slash p) eqn:E.
  - unfold path_join. now rewrite E.
  - now apply norm_split_join.
Qed.
Lemma cwd_normal cwd : normal true (norm_loop true (split_slash cwd) []).
Proof. apply norm_normal; [apply split_parts|constructor]. Qed.
Lemma rp_normal cwd p : normal true (rp_comps cwd p).
Proof.
  unfold rp_comps. apply norm_normal; [apply split_parts|].
  destruct (starts_slash p); [constructor|apply cwd_normal].
Qed.
(** The components of an absolute normal path. *)
Definition abs_str (acc : list string) : string := String slash (String.concat "/" (rev acc)).
Lemma rp_abs_str cwd acc : normal true acc -> rp_comps cwd (abs_str acc) = acc.
Proof.
  intros H. unfold rp_comps, abs_str. cbn [starts_slash]. rewrite Ascii.eqb_refl. cbn [split_slash].
  rewrite Ascii.eqb_refl. cbn [norm_loop String.eqb orb].
  destruct acc as [|a acc]; [reflexivity|].
  rewrite split_concat.
  - now apply norm_id.
  - cbn. destruct (rev acc); discriminate.
  - apply Forall_rev. eapply normal_slash; eauto.
Qed.
Lemma realpath_abs cwd p : realpath cwd p = abs_str (rp_comps cwd p).
Proof. apply realpath_comps. Qed.
Lemma abs_str_inj a b : normal true a -> normal true b -> abs_str a = abs_str b -> a = b.
Proof.
  intros Ha Hb E. rewrite <- (rp_abs_str "" a Ha), <- (rp_abs_str "" b Hb). now rewrite E.
Qed.
Lemma realpath_idem cwd cwd' p : realpath cwd' (realpath cwd p) = realpath cwd p.
Proof. rewrite (realpath_abs cwd), realpath_abs, rp_abs_str; [reflexivity|apply rp_normal]. Qed.
Lemma realpath_starts cwd p : starts_slash (realpath cwd p) = true.
Proof. reflexivity. Qed.

(** ** normpath *)
Lemma initial_slashes_0 p : initial_slashes p = 0 <-> starts_slash p = false.
Proof.
  destruct p as [|a [|b [|c p]]]; cbn; [split; reflexivity| | |];
    destruct (Ascii.eqb a slash); try (split; congruence || reflexivity).
  - destruct (Ascii.eqb b slash); split; congruence || discriminate.
  - destruct (Ascii.eqb b slash && negb (Ascii.eqb c slash)); split; congruence || discriminate.
Qed.
Lemma initial_slashes_range p : initial_slashes p = 0 \/ initial_slashes p = 1 \/ initial_slashes p = 2.
Proof.
  destruct p as [|a [|b [|c p]]]; cbn; auto; destruct (Ascii.eqb a slash); auto; destruct (Ascii.eqb b slash); auto.
  destruct (negb (Ascii.eqb c slash)); auto.
Qed.
Definition np_comps (p : string) : list string := norm_loop (Nat.ltb 0 (initial_slashes p)) (split_slash p) [].
Lemma np_normal p : normal (Nat.ltb 0 (initial_slashes p)) (np_comps p).
Proof. apply norm_normal; [apply split_parts|constructor]. Qed.
Definition np_str (n : nat) (acc : list string) : string :=
  let r := (slashes n ++ String.concat "/" (rev acc))%string in
  match r with EmptyString => "." | _ => r end.
Lemma normpath_str p : normpath p = np_str (initial_slashes p) (np_comps p).
Proof. reflexivity. Qed.

Lemma concat_head acc abs : normal abs acc -> starts_slash (String.concat "/" (rev acc)) = false.
Proof.
  intros H. assert (F : Forall (fun s => s <> "" /\ no_slash s) (rev acc)).
  { apply Forall_rev. induction H as [|acc _ F|c acc Hc _ IH]; [constructor| |].
    - constructor; [split; [discriminate|cbn; repeat split; discriminate]|].
      eapply Forall_impl; [|exact F]. intros c ->. split; [discriminate|cbn; repeat split; discriminate].
    - constructor; [|exact IH]. destruct Hc as (? & _ & _ & ?). auto. }
  destruct (rev acc) as [|a l]; [reflexivity|]. inversion F as [|? ? [Ha Hs] _]. subst.
  destruct a as [|c a]; [congruence|]. destruct Hs as [Hc _].
  destruct l; cbn; now apply slash_neq.
Qed.
Lemma initial_np n acc : (n = 0 \/ n = 1 \/ n = 2) -> normal (Nat.ltb 0 n) acc -> initial_slashes (np_str n acc) = n.
Proof.
  intros Hn H. pose proof (concat_head _ _ H) as C. unfold np_str.
  destruct (String.concat "/" (rev acc)) as [|c s] eqn:E.
  - destruct Hn as [->|[->| ->]]; reflexivity.
  - cbn in C. destruct Hn as [->|[->| ->]]; cbn.
    + rewrite C. destruct s as [|? [|? ?]]; reflexivity.
    + destruct s as [|? ?]; rewrite C; reflexivity.
    + rewrite C. reflexivity.
Qed.
(** The components of a normal path string. *)
Lemma np_str_norm abs n acc base : (n = 0 \/ n = 1 \/ n = 2) -> normal (Nat.ltb 0 n) acc ->
  norm_loop abs (split_slash (np_str n acc)) base = norm_loop abs (rev acc) base.
Proof.
  intros Hn H. destruct acc as [|a acc].
  - destruct Hn as [->|[->| ->]]; reflexivity.
  - assert (S : split_slash (String.concat "/" (rev (a :: acc))) = rev (a :: acc)).
    { apply split_concat; [cbn; destruct (rev acc); discriminate|]. apply Forall_rev. eapply normal_slash; eauto. }
    assert (Ne : String.concat "/" (rev (a :: acc)) <> "").
    { intros E. rewrite E in S. cbn in S. destruct (rev acc) as [|b l] eqn:R; cbn in S.
      * injection S as S. subst a. inversion H as [| |? ? Hp _]; subst. destruct Hp. congruence.
      * injection S as _ S. destruct l; discriminate. }
    assert (E : np_str n (a :: acc) = (slashes n ++ String.concat "/" (rev (a :: acc)))%string).
    { unfold np_str. destruct (String.concat "/" (rev (a :: acc))); [congruence|].
      destruct Hn as [->|[->| ->]]; reflexivity. }
    rewrite E. destruct Hn as [->|[->| ->]]; cbn [slashes String.append split_slash]; rewrite ?Ascii.eqb_refl, S; reflexivity.
Qed.
Lemma np_comps_str n acc : (n = 0 \/ n = 1 \/ n = 2) -> normal (Nat.ltb 0 n) acc -> np_comps (np_str n acc) = acc.
Proof.
  intros Hn H. unfold np_comps. rewrite (initial_np n acc Hn H), np_str_norm by assumption. now apply norm_id.
Qed.
Lemma normpath_idem p : normpath (normpath p) = normpath p.
Proof.
  rewrite (normpath_str p), normpath_str.
  rewrite initial_np, np_comps_str; try apply initial_slashes_range; try apply np_normal. reflexivity.
Qed.
Lemma normpath_starts p : starts_slash (normpath p) = starts_slash p.
Proof.
  pose proof (initial_np _ _ (initial_slashes_range p) (np_normal p)) as H. rewrite <- normpath_str in H.
  destruct (starts_slash p) eqn:E.
  - destruct (starts_slash (normpath p)) eqn:E'; [reflexivity|]. apply initial_slashes_0 in E'.
    rewrite E' in H. symmetry in H. apply initial_slashes_0 in H. congruence.
  - apply initial_slashes_0 in E. rewrite E in H. now apply initial_slashes_0.
Qed.
Lemma np_abs p : Nat.ltb 0 (initial_slashes p) = starts_slash p.
Proof.
  destruct (starts_slash p) eqn:E.
  - destruct (initial_slashes p) eqn:I; [|reflexivity]. apply initial_slashes_0 in I. congruence.
  - apply initial_slashes_0 in E. now rewrite E.
Qed.
Lemma realpath_normpath cwd p : realpath cwd (normpath p) = realpath cwd p.
Proof.
  rewrite !realpath_abs. f_equal. unfold rp_comps. rewrite normpath_starts.
  rewrite (normpath_str p) at 1. rewrite np_str_norm; [|apply initial_slashes_range|apply np_normal].
  pose proof (np_normal p) as N. unfold np_comps in *. rewrite np_abs in *.
  destruct (starts_slash p).
  - apply norm_id. exact N.
  - rewrite norm_relative; [reflexivity|apply split_parts|constructor|apply cwd_normal].
Qed.

(** ** dirname, basename *)
Lemma norm_dirname abs p acc :
  norm_loop abs (split_slash p) acc = norm_loop abs [basename p] (norm_loop abs (split_slash (dirname p)) acc).
Proof.
  unfold basename, dirname, path_split. pose proof (cut_app p) as A. pose proof (cut_tail p) as T.
  pose proof (cut_head p) as H. destruct (cut_last_slash p) as [h t]. cbn [fst snd] in *.
  destruct H as [->|[g ->]].
  - cbn [rstrip_slash split_slash norm_loop String.eqb orb]. cbn in A. subst p. now rewrite (split_no_slash t T).
  - rewrite <- A, app_str_assoc. cbn [String.append]. rewrite split_app, norm_app, (split_no_slash t T). f_equal.
    assert (R : rstrip_slash (g ++ String slash "")%string = rstrip_slash g) by (apply rstrip_app; cbn; auto).
    rewrite R. destruct (rstrip_spec g) as (e & He & Eg & _).
    destruct (rstrip_slash g) as [|x r] eqn:Er.
    + cbn in Eg. subst e. rewrite split_app, norm_app. reflexivity.
    + rewrite Eg. destruct (split_app_slashes (String x r) e He) as (k & -> & Hk).
      rewrite norm_app. now rewrite norm_empties.
Qed.
Lemma dirname_starts p : starts_slash (dirname p) = starts_slash p.
Proof.
  unfold dirname, path_split. pose proof (cut_app p) as A. pose proof (cut_tail p) as T.
  pose proof (cut_head p) as H. destruct (cut_last_slash p) as [h t]. cbn [fst snd] in *.
  destruct H as [->|[g ->]].
  - cbn in *. subst p. destruct t as [|c t]; [reflexivity|]. cbn. destruct T as [T _]. now rewrite slash_neq.
  - rewrite <- A. destruct (rstrip_spec (g ++ String slash "")%string) as (e & He & Eg & _).
    destruct (rstrip_slash (g ++ String slash "")%string) as [|x r] eqn:R.
    + destruct g as [|c g]; reflexivity.
    + rewrite Eg. reflexivity.
Qed.
Lemma basename_no_slash p : no_slash (basename p).
Proof.
  unfold basename, path_split. pose proof (cut_tail p) as T. destruct (cut_last_slash p). exact T.
Qed.
Lemma rp_dirname cwd p : rp_comps cwd p = norm_loop true [basename p] (rp_comps cwd (dirname p)).
Proof. unfold rp_comps. rewrite norm_dirname, dirname_starts. reflexivity. Qed.
Lemma rp_proper cwd p : proper (basename p) -> rp_comps cwd p = basename p :: rp_comps cwd (dirname p).
Proof. intros H. rewrite rp_dirname, norm_proper by exact H. reflexivity. Qed.
Lemma abs_str_cons c acc : acc <> [] -> abs_str (c :: acc) = (abs_str acc ++ String slash c)%string.
Proof.
  intros N. unfold abs_str. cbn [rev String.append]. f_equal.
  assert (R : rev acc <> []).
  { intros E. apply N. rewrite <- (rev_involutive acc), E. reflexivity. }
  revert R. generalize (rev acc). intros l. induction l as [|a l IH]; [congruence|]. intros _.
  destruct l as [|b l]; [reflexivity|]. change ((a :: b :: l) ++ [c]) with (a :: b :: (l ++ [c])).
  rewrite !concat_cons, app_str_assoc. cbn [String.append]. f_equal. f_equal.
  apply IH. discriminate.
Qed.
Lemma abs_str_last c acc : proper c -> exists h x, abs_str (c :: acc) = (h ++ String x "")%string /\ x <> slash.
Proof.
  intros (Hc & _ & _ & Hs). assert (E : exists g, abs_str (c :: acc) = (g ++ c)%string).
  { destruct acc as [|a acc]; [exists (String slash ""); reflexivity|].
    exists (abs_str (a :: acc) ++ String slash "")%string. rewrite abs_str_cons by discriminate.
    rewrite app_str_assoc. reflexivity. }
  destruct E as [g ->]. assert (L : exists k x, c = (k ++ String x "")%string /\ x <> slash).
  { clear -Hc Hs. induction c as [|y c IH]; [congruence|]. destruct Hs as [H1 H2]. destruct c as [|z c].
    - exists "", y. auto.
    - destruct IH as (k & x & E & Hx); [discriminate|exact H2|]. exists (String y k), x. cbn. now rewrite E. }
  destruct L as (k & x & -> & Hx). exists (g ++ k)%string, x. rewrite app_str_assoc. auto.
Qed.
Lemma dirname_abs c acc : proper c -> normal true acc -> dirname (abs_str (c :: acc)) = abs_str acc.
Proof.
  intros Hc Ha. destruct acc as [|a acc].
  - unfold abs_str. cbn [rev app String.concat]. unfold dirname, path_split.
    change (String slash c) with ("" ++ String slash c)%string.
    rewrite cut_at by apply Hc. reflexivity.
  - rewrite abs_str_cons by discriminate. unfold dirname, path_split. rewrite cut_at by apply Hc.
    cbn [fst]. rewrite rstrip_app by (cbn; auto).
    pose proof (normal_true_proper _ Ha) as P. inversion P as [|? ? Pa _]. subst.
    destruct (abs_str_last a acc Pa) as (h & x & -> & Hx). rewrite rstrip_id by exact Hx.
    destruct h; reflexivity.
Qed.
Lemma basename_abs c acc : proper c -> basename (abs_str (c :: acc)) = c.
Proof.
  intros Hc. destruct acc as [|a acc].
  - unfold abs_str. cbn [rev app String.concat]. unfold basename, path_split.
    change (String slash c) with ("" ++ String slash c)%string.
    rewrite cut_at by apply Hc. reflexivity.
  - rewrite abs_str_cons by discriminate. unfold basename, path_split. rewrite cut_at by apply Hc. reflexivity.
Qed.
(** The directory of a path means the directory of what the path means. *)
Lemma realpath_dirname cwd p : proper (basename p) -> realpath cwd (dirname p) = dirname (realpath cwd p).
Proof.
  intros H. rewrite !realpath_abs, (rp_proper cwd p H), dirname_abs; [reflexivity|exact H|apply rp_normal].
Qed.
