(** Lemmas about build_paths. *)
From Verif Require Import PyBase PyPath PathProofs UtilModel UtilProofs SpecReg RegProofs ModulesModel CxxModel SpecCxx.
Local Open Scope string_scope.
Local Open Scope list_scope.

(** ** replace *)
Lemma strong_str (P : string -> Prop) :
  P "" -> (forall a, P (String a "")) -> (forall a b t, P t -> P (String b t) -> P (String a (String b t))) ->
  forall s, P s.
Proof.
  intros H0 H1 H2 s. assert (H : P s /\ forall a, P (String a s)); [|apply H].
  induction s as [|b t [IH1 IH2]]; split; auto.
Qed.
Lemma replace_eq a b t : replace_dd (String a (String b t)) =
  if Ascii.eqb a dot && Ascii.eqb b dot then String "_" (String "_" (replace_dd t))
  else String a (replace_dd (String b t)).
Proof. reflexivity. Qed.
Lemma replace_head s : match replace_dd s with
  | "" => s = "" | String c _ => exists c' s', s = String c' s' /\ (c = c' \/ c = "_"%char) end.
Proof.
  destruct s as [|a [|b t]]; [reflexivity|cbn; eauto|]. rewrite replace_eq.
  destruct (Ascii.eqb a dot && Ascii.eqb b dot); eauto.
Qed.
Lemma replace_free s : two_dots_free (replace_dd s).
Proof.
  induction s as [|a|a b t IH1 IH2] using strong_str; intros x y E.
  - destruct x; discriminate.
  - destruct x as [|c [|d x]]; discriminate.
  - rewrite replace_eq in E. destruct (Ascii.eqb a dot && Ascii.eqb b dot) eqn:D.
    + destruct x as [|c [|d x]]; cbn [String.append] in E; try discriminate. inversion E. now apply (IH1 x y).
    + destruct x as [|c x]; cbn [String.append] in E.
      * assert (Ea : a = "."%char) by congruence. assert (Er : replace_dd (String b t) = String "."%char y) by congruence. clear E. subst a. pose proof (replace_head (String b t)) as Hh. rewrite Er in Hh.
        destruct Hh as (c' & s' & Hs & [<-|Hc]); [|discriminate]. inversion Hs; subst.
        discriminate D.
      * assert (Er : replace_dd (String b t) = (x ++ String "." (String "." y))%string) by congruence. now apply (IH2 x y).
Qed.
Lemma replace_id s : two_dots_free s -> replace_dd s = s.
Proof.
  induction s as [|a|a b t IH1 IH2] using strong_str; intros H; [reflexivity|reflexivity|].
  rewrite replace_eq. destruct (Ascii.eqb a dot && Ascii.eqb b dot) eqn:D.
  - apply andb_true_iff in D as [D1 D2]. apply Ascii.eqb_eq in D1, D2. subst. exfalso. now apply (H "" t).
  - f_equal. apply IH2. intros x y E. apply (H (String a x) y). now rewrite E.
Qed.
Lemma replace_slash s : map String.length (split_slash (replace_dd s)) = map String.length (split_slash s).
Proof.
  induction s as [|a|a b t IH1 IH2] using strong_str; [reflexivity|reflexivity|].
  rewrite replace_eq. destruct (Ascii.eqb a dot && Ascii.eqb b dot) eqn:D.
  - apply andb_true_iff in D as [D1 D2]. apply Ascii.eqb_eq in D1, D2. subst.
    change (split_slash (String "_" (String "_" (replace_dd t)))) with
      (match (match split_slash (replace_dd t) with h :: r => String "_" h :: r | [] => [String "_" ""] end)
       with h :: r => String "_" h :: r | [] => [String "_" ""] end).
    change (split_slash (String dot (String dot t))) with
      (match (match split_slash t with h :: r => String dot h :: r | [] => [String dot ""] end)
       with h :: r => String dot h :: r | [] => [String dot ""] end).
    pose proof (split_cons t) as N1. pose proof (split_cons (replace_dd t)) as N2.
    destruct (split_slash t) as [|h r]; [congruence|]. destruct (split_slash (replace_dd t)) as [|h' r']; [congruence|].
    cbn in *. congruence.
  - change (split_slash (String a (replace_dd (String b t)))) with
      (if Ascii.eqb a slash then "" :: split_slash (replace_dd (String b t))
       else match split_slash (replace_dd (String b t)) with h :: r => String a h :: r | [] => [String a ""] end).
    change (split_slash (String a (String b t))) with
      (if Ascii.eqb a slash then "" :: split_slash (String b t)
       else match split_slash (String b t) with h :: r => String a h :: r | [] => [String a ""] end).
    destruct (Ascii.eqb a slash); [cbn [map]; now rewrite IH2|].
    pose proof (split_cons (String b t)) as N1. pose proof (split_cons (replace_dd (String b t))) as N2.
    destruct (split_slash (String b t)) as [|h r]; [congruence|]. destruct (split_slash (replace_dd (String b t))) as [|h' r']; [congruence|].
    cbn in *. congruence.
Qed.
Lemma replace_starts s : starts_slash s = false -> starts_slash (replace_dd s) = false.
Proof.
  intros H. pose proof (replace_head s) as Hh. destruct (replace_dd s) as [|c r]; [reflexivity|].
  destruct Hh as (c' & s' & -> & [<-| ->]); [exact H|reflexivity].
Qed.
Lemma replace_app_dot r e : two_dots_free (String dot e) -> (forall r', r <> (r' ++ String dot "")%string) ->
  replace_dd (r ++ String dot e)%string = (replace_dd r ++ String dot e)%string.
Proof.
  intros He. induction r as [|a|a b t IH1 IH2] using strong_str; intros Hr.
  - now apply replace_id.
  - cbn [String.append]. destruct e as [|c e].
    + rewrite replace_eq. destruct (Ascii.eqb a dot) eqn:Ea; [|reflexivity]. apply Ascii.eqb_eq in Ea. subst.
      exfalso. now apply (Hr "").
    + rewrite replace_eq. destruct (Ascii.eqb a dot) eqn:Ea; [apply Ascii.eqb_eq in Ea; subst; exfalso; now apply (Hr "")|].
      cbn [andb]. rewrite replace_id by exact He. reflexivity.
  - cbn [String.append]. rewrite !replace_eq. destruct (Ascii.eqb a dot && Ascii.eqb b dot).
    + cbn [String.append]. f_equal. f_equal. apply IH1. intros r' E. apply (Hr (String a (String b r'))). now rewrite E.
    + cbn [String.append]. f_equal. apply IH2. intros r' E. apply (Hr (String a r')). now rewrite E.
Qed.

Lemma str_len_app a b : String.length (a ++ b)%string = String.length a + String.length b.
Proof. induction a as [|c a IH]; cbn; [reflexivity|now rewrite IH]. Qed.

(** ** Components *)
Lemma split_substring s c : In c (split_slash s) -> exists a b, s = (a ++ c ++ b)%string.
Proof.
  revert c. induction s as [|x s IH]; cbn [split_slash]; intros c H.
  - destruct H as [<-|[]]. exists "", "". reflexivity.
  - destruct (Ascii.eqb x slash).
    + destruct H as [<-|H]; [exists "", (String x s); reflexivity|]. destruct (IH c H) as (a & b & ->).
      exists (String x a), b. reflexivity.
    + destruct (split_slash s) as [|h t] eqn:E; [now apply split_cons in E|]. destruct H as [<-|H].
      * destruct (IH h (or_introl eq_refl)) as (a & b & Es).
        assert (exists b', s = (h ++ b')%string) as [b' ->].
        { clear -E. revert h t E. induction s as [|y s IH]; cbn [split_slash]; intros h t E.
          - inversion E; subst. exists "". reflexivity.
          - destruct (Ascii.eqb y slash); [inversion E; subst; eexists; reflexivity|].
            destruct (split_slash s) as [|h' t'] eqn:E'; [now apply split_cons in E'|]. inversion E; subst.
            destruct (IH h' t eq_refl) as [b ->]. exists b. reflexivity. }
        exists "", b'. reflexivity.
      * destruct (IH c (or_intror H)) as (a & b & ->). exists (String x a), b. reflexivity.
Qed.
Lemma free_comps s : two_dots_free s -> Forall (fun c => c <> "..") (split_slash s).
Proof.
  intros H. apply Forall_forall. intros c Hc ->. destruct (split_substring s _ Hc) as (a & b & E). now apply (H a b).
Qed.
Definition keep (c : string) : bool := negb (String.eqb c "" || String.eqb c ".").
Lemma norm_no_up abs cs acc : Forall (fun c => c <> "..") cs -> norm_loop abs cs acc = rev (filter keep cs) ++ acc.
Proof.
  intros H. revert acc. induction H as [|c cs Hc _ IH]; intros acc; [reflexivity|]. cbn [norm_loop filter].
  unfold keep at 1. destruct (String.eqb c "" || String.eqb c "."); cbn [negb]; [apply IH|].
  apply String.eqb_neq in Hc. rewrite Hc. cbn [negb]. rewrite IH. cbn [rev]. now rewrite <- app_assoc.
Qed.
Lemma keep_proper cs : Forall no_slash cs -> Forall (fun c => c <> "..") cs -> Forall proper (filter keep cs).
Proof.
  intros H1 H2. apply Forall_forall. intros c Hc. apply filter_In in Hc as [Hc Hk].
  rewrite Forall_forall in H1, H2. unfold keep in Hk. apply negb_true_iff, orb_false_iff in Hk as [K1 K2].
  apply String.eqb_neq in K1, K2. repeat split; auto.
Qed.
Lemma above_comps l acc : l <> [] -> Forall proper l -> normal true acc -> above (abs_str acc) (abs_str (l ++ acc)).
Proof.
  intros N P A. induction P as [|c l Hc Hl IH]; [congruence|]. cbn [app].
  assert (Nl : normal true (l ++ acc)) by (clear -Hl A; induction Hl; [exact A|now constructor]).
  pose proof (dirname_abs c (l ++ acc) Hc Nl) as D.
  assert (Nd : dirname (abs_str (c :: l ++ acc)) <> abs_str (c :: l ++ acc)).
  { rewrite D. intros E. apply abs_str_inj in E; [|exact Nl|now constructor].
    apply (f_equal (@List.length string)) in E. cbn in E. lia. }
  destruct l as [|c' l].
  - cbn [app] in *. rewrite <- D. now constructor.
  - apply above_trans_dir; [exact Nd|]. rewrite D. apply IH. discriminate.
Qed.
Lemma rp_join cwd b x : starts_slash x = false ->
  rp_comps cwd (path_join b x) = norm_loop true (split_slash x) (rp_comps cwd b).
Proof.
  intros H. unfold rp_comps. rewrite norm_split_join by exact H. f_equal.
  unfold path_join. rewrite H. destruct b as [|c b].
  - rewrite H. cbn [starts_slash]. reflexivity.
  - destruct (ends_slash (String c b)); reflexivity.
Qed.

(** ** Changing the extension *)
Lemma changeext_parts s e : no_slash e -> exists h r t, s = (h ++ t)%string /\ changeext s e = (h ++ r ++ String dot e)%string /\
  (h = "" \/ exists g, h = (g ++ String slash "")%string) /\ no_slash t /\ no_slash r /\
  cut_last_slash s = (h, t) /\ r = fst (splitext t) /\ fst (splitext s) = (h ++ r)%string.
Proof.
  intros He. unfold changeext. change ("." ++ e)%string with (String dot e).
  pose proof (cut_app s) as A. pose proof (cut_tail s) as T. pose proof (cut_head s) as Hh.
  unfold splitext. destruct (cut_last_slash s) as [h t] eqn:C. cbn [fst snd] in *.
  exists h, (fst (splitext t)), t. unfold splitext. rewrite (cut_no_slash t T).
  destruct (cut_last_dot t) as [[r x]|] eqn:E; [destruct (only_dots r)|]; cbn [fst String.append];
    (split; [now rewrite A|]); (split; [now rewrite <- ?A, app_str_assoc|]);
    (split; [exact Hh|]); (split; [exact T|]); (split; [|split; [reflexivity|split; [reflexivity|now rewrite ?A]]]);
    try exact T.
  destruct (cut_last_dot_spec _ _ _ E) as [-> _]. now apply no_slash_app in T.
Qed.
Lemma changeext_names s e : no_slash e ->
  dirname (changeext s e) = dirname s /\ basename (changeext s e) = (stem s ++ String dot e)%string.
Proof.
  intros He. destruct (changeext_parts s e He) as (h & r & t & Es & Ec & Hh & Ht & Hr & Hc & -> & _).
  unfold stem, dirname, basename, path_split. rewrite Ec, Hc.
  rewrite cut_last_slash_app; [|exact Hh|].
  - cbn [fst snd]. split; reflexivity.
  - apply no_slash_app. split; [exact Hr|]. split; [discriminate|exact He].
Qed.
Lemma changeext_starts s e : no_slash e -> starts_slash (changeext s e) = starts_slash s.
Proof.
  intros He. rewrite <- (dirname_starts (changeext s e)), <- (dirname_starts s). now rewrite (proj1 (changeext_names s e He)).
Qed.
Lemma split_last_len p : exists l, split_slash p = l ++ [basename p].
Proof.
  unfold basename, path_split. pose proof (cut_app p) as A. pose proof (cut_tail p) as T.
  pose proof (cut_head p) as H. destruct (cut_last_slash p) as [h t]. cbn [fst snd] in *.
  destruct H as [->|[g ->]].
  - cbn in A. subst p. exists []. now rewrite (split_no_slash t T).
  - exists (split_slash g). rewrite <- A, app_str_assoc. cbn [String.append]. now rewrite split_app, (split_no_slash t T).
Qed.

Lemma ext_no_slash e : ~ In "/"%char (list_ascii_of_string e) -> no_slash e.
Proof. intros H. now apply in_no_slash. Qed.

(** ** Inside the build directory *)
Lemma with_prefix_rel prefix s : (forall pre, prefix = Some pre -> starts_slash pre = false) ->
  starts_slash (with_prefix prefix s) = starts_slash s.
Proof.
  intros Hp. destruct prefix as [pre|]; [|reflexivity]. specialize (Hp pre eq_refl). cbn.
  destruct (String.eqb_spec pre "") as [->|N]; [reflexivity|].
  pose proof (dirname_starts s) as D. unfold dirname in D. destruct (path_split s) as [d b]. cbn [fst] in D.
  rewrite <- D. unfold path_join. assert (P : starts_slash (pre ++ b)%string = false) by (destruct pre; [congruence|exact Hp]).
  rewrite P. destruct d as [|c d]; [exact P|]. destruct (ends_slash (String c d)); reflexivity.
Qed.
Lemma replaced_kept x : (exists l t, split_slash x = l ++ [t] /\ 2 <= String.length t) -> 
  filter keep (split_slash (replace_dd x)) <> [].
Proof.
  intros (l & t & E & Ht). pose proof (replace_slash x) as R. rewrite E, map_app in R. cbn in R.
  destruct (rev (split_slash (replace_dd x))) as [|t' r'] eqn:E'.
  { apply (f_equal (@rev string)) in E'. rewrite rev_involutive in E'. now apply split_cons in E'. }
  apply (f_equal (@rev string)) in E'. rewrite rev_involutive in E'. cbn in E'. rewrite E' in R |- *.
  rewrite map_app in R. cbn in R. apply app_inj_tail in R as [_ R].
  rewrite filter_app. cbn. unfold keep. destruct (String.eqb_spec t' ""); [subst; cbn in R; lia|].
  destruct (String.eqb_spec t' "."); [subst; cbn in R; lia|]. cbn. intros F. now apply app_eq_nil in F as [_ F].
Qed.
Lemma relative_inside cwd b e prefix s : starts_slash s = false -> e <> "" -> no_slash e ->
  (forall pre, prefix = Some pre -> starts_slash pre = false) ->
  above (realpath cwd b) (realpath cwd (build_path b e prefix s)).
Proof.
  intros Hs Ne He Hp. unfold build_path. rewrite <- (with_prefix_rel prefix s Hp) in Hs.
  generalize dependent (with_prefix prefix s). clear s. intros s Hs. unfold isabs. rewrite Hs.
  rewrite realpath_normpath, !realpath_abs.
  rewrite rp_join; [|now apply replace_starts; rewrite changeext_starts].
  pose proof (free_comps _ (replace_free (changeext s e))) as F.
  rewrite norm_no_up by exact F. apply above_comps; [|apply Forall_rev, keep_proper; [apply split_parts|exact F]|apply rp_normal].
  intros E. apply (f_equal (@rev string)) in E. rewrite rev_involutive in E. cbn in E. revert E.
  apply replaced_kept. destruct (split_last_len (changeext s e)) as [l El]. exists l, (basename (changeext s e)).
  split; [exact El|]. rewrite (proj2 (changeext_names s e He)). rewrite str_len_app. cbn.
  destruct e; [congruence|cbn; lia].
Qed.

(** ** Absolute sources *)
Lemma absolute_inside cwd b e s : starts_slash s = true -> b <> "" -> object_ext e -> ~ In ".." (split_slash s) ->
  above (realpath cwd b) (realpath cwd (build_path b e None s)).
Proof.
  intros Hs Nb ((c & e' & Ee & Nc) & Hsl & _) Hu. apply ext_no_slash in Hsl. unfold build_path. cbn [with_prefix]. unfold isabs. rewrite Hs.
  destruct (changeext_parts s e Hsl) as (h & r & t & Es & Ec & Hh & Ht & Hr & _).
  destruct Hh as [->|[g Hg]].
  { cbn in Es. subst s. destruct t as [|x t]; [discriminate|]. apply slash_dec in Hs. destruct Ht. congruence. }
  assert (Hx : exists x, changeext s e = String slash x /\ split_slash (String slash x) = split_slash g ++ [(r ++ String dot e)%string]).
  { pose proof (changeext_starts s e Hsl) as Hst. rewrite Hs in Hst. destruct (starts_slash_inv _ Hst) as [x Hx].
    exists x. split; [exact Hx|]. rewrite <- Hx, Ec, Hg, app_str_assoc. cbn [String.append]. rewrite split_app.
    rewrite (split_no_slash (r ++ String dot e)%string); [reflexivity|]. apply no_slash_app. split; [exact Hr|]. split; [discriminate|exact Hsl]. }
  destruct Hx as (x & -> & Hx). rewrite !realpath_abs.
  assert (Hx' : split_slash x = tl (split_slash g) ++ [(r ++ String dot e)%string] \/ (split_slash g = [""] /\ split_slash x = [(r ++ String dot e)%string])).
  { cbn [split_slash] in Hx. change (Ascii.eqb slash slash) with true in Hx. cbn iota in Hx.
    destruct (split_slash g) as [|g0 gs] eqn:Eg; [now apply split_cons in Eg|]. cbn [app] in Hx. injection Hx as _ Hx. left. exact Hx. }
  assert (F : Forall (fun c => c <> "..") (split_slash x)).
  { assert (L : (r ++ String dot e)%string <> "..").
    { rewrite Ee. destruct r as [|r0 [|r1 r]]; intros E; cbn in E.
      - injection E as E1 E2. congruence.
      - discriminate.
      - destruct r; discriminate. }
    assert (Gs : Forall (fun c => c <> "..") (split_slash g)).
    { apply Forall_forall. intros y Hy ->. apply Hu. rewrite Es, Hg, app_str_assoc. cbn [String.append]. rewrite split_app. apply in_or_app. now left. }
    destruct Hx' as [->|[_ ->]]; [|repeat constructor; exact L].
    apply Forall_app. split; [|repeat constructor; exact L]. destruct (split_slash g); [constructor|]. now inversion Gs. }
  assert (E : rp_comps cwd (b ++ String slash x)%string = norm_loop true (split_slash x) (rp_comps cwd b)).
  { unfold rp_comps. rewrite split_app, norm_app. destruct b; [congruence|reflexivity]. }
  rewrite E, norm_no_up by exact F.
  apply above_comps; [|apply Forall_rev, keep_proper; [apply split_parts|exact F]|apply rp_normal].
  intros E'. apply (f_equal (@rev string)) in E'. rewrite rev_involutive in E'. cbn in E'. revert E'.
  assert (K : keep (r ++ String dot e)%string = true).
  { unfold keep. rewrite Ee. destruct r as [|r0 [|r1 r]]; cbn; repeat match goal with |- context [if ?x then _ else _] => destruct x end; reflexivity. }
  destruct Hx' as [->|[_ ->]]; rewrite ?filter_app; cbn [filter]; rewrite K; [|discriminate].
  intros F'. now apply app_eq_nil in F' as [_ F'].
Qed.

(** ** The extension *)
Lemma basename_app u v : no_slash v -> basename (u ++ v)%string = (basename u ++ v)%string.
Proof.
  intros Hv. unfold basename, path_split. pose proof (cut_app u) as A. pose proof (cut_tail u) as T. pose proof (cut_head u) as H.
  destruct (cut_last_slash u) as [h t]. cbn [fst snd] in *. rewrite <- A, app_str_assoc, cut_last_slash_app; [reflexivity|exact H|].
  now apply no_slash_app.
Qed.
Lemma dot_ext_free e : object_ext e -> two_dots_free (String dot e).
Proof.
  intros ((c & e' & -> & Nc) & _ & F) x y E. destruct x as [|d x]; cbn in E.
  - injection E as E1 _. congruence.
  - injection E as _ E. now apply (F x y).
Qed.
Lemma dot_ext_proper b e : object_ext e -> no_slash b -> proper (b ++ String dot e)%string.
Proof.
  intros ((c & e' & -> & Nc) & N & F) Hb. apply ext_no_slash in N. repeat split.
  - destruct b; discriminate.
  - destruct b as [|b0 [|b1 b]]; discriminate.
  - destruct b as [|b0 [|b1 b]]; intros E; cbn in E.
    + injection E as E1 _. congruence.
    + discriminate.
    + destruct b; discriminate.
  - apply no_slash_app. split; [exact Hb|]. split; [discriminate|exact N].
Qed.
Lemma np_str_ends n c acc : exists q, np_str n (c :: acc) = (q ++ c)%string.
Proof.
  unfold np_str. assert (H : exists q, String.concat "/" (rev (c :: acc)) = (q ++ c)%string).
  { cbn [rev]. generalize (rev acc) as l. induction l as [|a l IH]; [exists ""; reflexivity|].
    destruct IH as [q IH]. cbn [app]. destruct (l ++ [c]) as [|b m] eqn:E; [now destruct l|].
    exists (a ++ String slash q)%string. rewrite concat_cons, IH. rewrite app_str_assoc. reflexivity. }
  destruct H as [q ->].
  destruct (slashes n ++ q ++ c)%string as [|x r] eqn:E.
  - destruct n; [|discriminate]. cbn in E. destruct q; [|discriminate]. cbn in E. subst c. exists ".". reflexivity.
  - exists (slashes n ++ q)%string. rewrite app_str_assoc. congruence.
Qed.
Lemma build_keeps_ext b e s : object_ext e -> (forall r, fst (splitext s) <> (r ++ ".")%string) ->
  exists q, build_path b e None s = (q ++ "." ++ e)%string.
Proof.
  intros He Hr. pose proof He as (_ & N & _). apply ext_no_slash in N.
  unfold build_path. cbn [with_prefix]. unfold isabs. destruct (starts_slash s) eqn:Hs.
  - exists (b ++ fst (splitext s))%string. unfold changeext. now rewrite app_str_assoc.
  - unfold changeext. change ("." ++ e)%string with (String dot e).
    assert (St : starts_slash (replace_dd (fst (splitext s) ++ String dot e)) = false).
    { apply replace_starts. change (starts_slash (changeext s e) = false). now rewrite changeext_starts. }
    rewrite replace_app_dot in *; [|now apply dot_ext_free|exact Hr|now apply dot_ext_free|exact Hr].
    set (u := replace_dd (fst (splitext s))) in *. rewrite normpath_str. unfold np_comps.
    rewrite norm_split_join by exact St. rewrite (norm_dirname _ (u ++ String dot e)%string).
    assert (Nd : no_slash (String dot e)) by (split; [discriminate|exact N]).
    rewrite basename_app by exact Nd. rewrite norm_proper by (apply dot_ext_proper; [exact He|apply basename_no_slash]).
    cbn [norm_loop]. destruct (np_str_ends (initial_slashes (path_join b (u ++ String dot e))) (basename u ++ String dot e)
      (norm_loop (Nat.ltb 0 (initial_slashes (path_join b (u ++ String dot e)))) (split_slash (dirname (u ++ String dot e)))
        (norm_loop (Nat.ltb 0 (initial_slashes (path_join b (u ++ String dot e)))) (split_slash b) []))) as [q Hq].
    rewrite Hq. exists (q ++ basename u)%string. now rewrite app_str_assoc.
Qed.

(** ** Collisions *)
Lemma append_inj_l a b c : (a ++ b = a ++ c)%string -> b = c.
Proof. induction a as [|x a IH]; cbn; [auto|]. intros [= H]. auto. Qed.
Lemma append_inj_r a b c : (a ++ c = b ++ c)%string -> a = b.
Proof.
  revert b. induction a as [|x a IH]; intros b E.
  - destruct b as [|y b]; [reflexivity|]. apply (f_equal String.length) in E. rewrite !str_len_app in E. cbn in E. lia.
  - destruct b as [|y b].
    + apply (f_equal String.length) in E. rewrite !str_len_app in E. cbn in E. lia.
    + cbn in E. injection E as -> E. f_equal. now apply IH.
Qed.
Lemma free_prefix a b : two_dots_free (a ++ b)%string -> two_dots_free a.
Proof. intros H x y E. apply (H x (y ++ b)%string). rewrite E, !app_str_assoc. reflexivity. Qed.
Lemma free_app u v : two_dots_free u -> two_dots_free (String dot v) -> (forall r, u <> (r ++ ".")%string) ->
  two_dots_free (u ++ String dot v)%string.
Proof.
  induction u as [|c u IH]; intros Hu Hv Hr; [exact Hv|]. intros x y E. destruct x as [|d x]; cbn in E.
  - destruct u as [|c' u]; cbn in E.
    + injection E as -> _. now apply (Hr "").
    + injection E as -> -> _. now apply (Hu "" u).
  - injection E as _ E. revert E. apply IH; auto.
    + intros a b' E'. apply (Hu (String c a) b'). now rewrite E'.
    + intros r E'. apply (Hr (String c r)). now rewrite E'.
Qed.
Lemma root_no_dot s : two_dots_free s -> basename s <> "." -> forall r, fst (splitext s) <> (r ++ ".")%string.
Proof.
  intros F B r E. unfold splitext in E. unfold basename, path_split in B.
  pose proof (cut_app s) as A. pose proof (cut_tail s) as T. pose proof (cut_head s) as H.
  destruct (cut_last_slash s) as [h t]. cbn [fst snd] in *.
  assert (P : forall t', t = (t' ++ ".")%string -> cut_last_dot t = Some (t', ".")).
  { intros t' ->. change "."%string with (String "."%char ""). apply cut_last_dot_at. intros []. }
  assert (Q : forall h t' r, (h = "" \/ exists g, h = (g ++ String slash "")%string) -> (h ++ t' = r ++ ".")%string ->
     t' <> "" -> exists r', t' = (r' ++ ".")%string).
  { clear. intros h t' r H E N. assert (L : exists k x, t' = (k ++ String x "")%string).
    { clear -N. induction t' as [|y c IH]; [congruence|]. destruct c as [|z c].
      - exists "", y. auto.
      - destruct IH as (k & x & E); [discriminate|]. exists (String y k), x. cbn. now rewrite E. }
    destruct L as (k & x & ->). exists k. rewrite <- app_str_assoc in E.
    assert (forall a b x y, (a ++ String x "" = b ++ String y "")%string -> x = y) as I.
    { clear. intros a. induction a as [|c a IH]; intros b x y E.
      - destruct b as [|d b]; cbn in E; [congruence|]. injection E as _ E. destruct b; discriminate.
      - destruct b as [|d b]; cbn in E; [injection E as _ E; destruct a; discriminate|]. injection E as _ E. eauto. }
    apply I in E. now rewrite E. }
  assert (Q0 : forall h r, (h = "" \/ exists g, h = (g ++ String slash "")%string) -> h <> (r ++ ".")%string).
  { clear. intros h r [->|[g ->]] E; [destruct r; discriminate|]. revert r E. induction g as [|c g IH]; intros [|d r] E; cbn in E; try discriminate.
    - injection E as _ E. destruct r; discriminate.
    - injection E as _ E. destruct g; discriminate.
    - injection E as _ E. eauto. }
  destruct (cut_last_dot t) as [[r' x]|] eqn:C; [destruct (only_dots r') eqn:O|]; cbn [fst] in E.
  - rewrite <- A in E. destruct (String.eqb_spec t "") as [->|N]; [discriminate|].
    destruct (Q h t r H E N) as (t' & Et). specialize (P t' Et). injection P as -> ->.
    destruct t' as [|c t']; [now subst|]. apply B. exfalso. cbn in O. apply andb_true_iff in O as [O1 O2].
    apply Ascii.eqb_eq in O1. subst c. destruct t' as [|c t'].
    + apply (F h ""). rewrite <- A, Et. reflexivity.
    + cbn in O2. apply andb_true_iff in O2 as [O2 _]. apply Ascii.eqb_eq in O2. subst c.
      apply (F h (t' ++ ".")%string). rewrite <- A, Et. reflexivity.
  - destruct (cut_last_dot_spec _ _ _ C) as [Et (x' & -> & _)].
    assert (N : r' <> "") by (intros ->; discriminate).
    destruct (Q h r' r H E N) as (r0 & ->). apply (F (h ++ r0)%string x'). rewrite <- A, Et. rewrite !app_str_assoc. reflexivity.
  - rewrite <- A in E. destruct (String.eqb_spec t "") as [->|N].
    + rewrite app_str_nil in E. now apply (Q0 h r).
    + destruct (Q h t r H E N) as (t' & Et). specialize (P t' Et). discriminate.
Qed.
Lemma changeext_free s e : two_dots_free s -> basename s <> "." -> object_ext e -> two_dots_free (changeext s e).
Proof.
  intros F B He. unfold changeext. change ("." ++ e)%string with (String dot e). apply free_app.
  - apply (free_prefix _ (snd (splitext s))). now rewrite splitext_app.
  - now apply dot_ext_free.
  - now apply root_no_dot.
Qed.
Lemma build_rel_comps cwd b e s : starts_slash s = false -> two_dots_free s -> basename s <> "." -> object_ext e ->
  rp_comps cwd (build_path b e None s) =
    (stem s ++ String dot e)%string :: rev (filter keep (split_slash (dirname s))) ++ rp_comps cwd b /\
  Forall (fun c => c <> "..") (split_slash (dirname s)).
Proof.
  intros Hs F B He. pose proof He as (_ & N & _). apply ext_no_slash in N.
  unfold build_path. cbn [with_prefix]. unfold isabs. rewrite Hs.
  rewrite replace_id by now apply changeext_free.
  assert (E : rp_comps cwd (normpath (path_join b (changeext s e))) = rp_comps cwd (path_join b (changeext s e))).
  { pose proof (realpath_normpath cwd (path_join b (changeext s e))) as E. rewrite !realpath_abs in E.
    apply abs_str_inj in E; [exact E|apply rp_normal|apply rp_normal]. }
  rewrite E, rp_join by now rewrite changeext_starts.
  destruct (changeext_names s e N) as [Ed Eb].
  rewrite norm_dirname, Ed, Eb.
  assert (D : Forall (fun c => c <> "..") (split_slash (dirname s))).
  { apply free_comps. destruct (split_decomposes s) as (n & En & _). rewrite En in F.
    now apply free_prefix in F. }
  rewrite norm_proper.
  - cbn [norm_loop]. now rewrite norm_no_up.
  - apply dot_ext_proper; [exact He|]. unfold stem. pose proof (splitext_app (basename s)) as S.
    pose proof (basename_no_slash s) as Ns. rewrite <- S in Ns. now apply no_slash_app in Ns.
Qed.
Lemma relative_collision b e s1 s2 :
  starts_slash s1 = false -> starts_slash s2 = false -> two_dots_free s1 -> two_dots_free s2 ->
  basename s1 <> "." -> basename s2 <> "." -> object_ext e ->
  build_path b e None s1 = build_path b e None s2 ->
  stem s1 = stem s2 /\ forall cwd, realpath cwd (dirname s1) = realpath cwd (dirname s2).
Proof.
  intros A1 A2 F1 F2 B1 B2 He E.
  destruct (build_rel_comps "/" b e s1 A1 F1 B1 He) as [E1 D1].
  destruct (build_rel_comps "/" b e s2 A2 F2 B2 He) as [E2 D2].
  rewrite E, E2 in E1. injection E1 as Es Ed. split; [symmetry; eapply append_inj_r, Es|].
  apply app_inv_tail in Ed. apply (f_equal (@rev string)) in Ed. rewrite !rev_involutive in Ed.
  intros cwd. rewrite !realpath_abs. f_equal. unfold rp_comps.
  rewrite !dirname_starts, A1, A2, (norm_no_up _ _ _ D1), (norm_no_up _ _ _ D2). congruence.
Qed.
Lemma absolute_collision b e s1 s2 : starts_slash s1 = true -> starts_slash s2 = true ->
  build_path b e None s1 = build_path b e None s2 -> fst (splitext s1) = fst (splitext s2).
Proof.
  intros A1 A2 E. unfold build_path in E. cbn [with_prefix] in E. unfold isabs in E. rewrite A1, A2 in E.
  apply append_inj_l in E. unfold changeext in E. eapply append_inj_r, E.
Qed.
