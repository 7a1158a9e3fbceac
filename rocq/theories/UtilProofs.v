(** Lemmas about licant.util, rule templates and paths. *)
From Verif Require Import PyBase PyPath PathProofs UtilModel FormatModel SpecUtil.
Local Open Scope string_scope.
Local Open Scope list_scope.

(** ** queue *)
Section Queue.
  Context {A : Type}.
  Definition q_like (q : queue A) (l : list A) : Prop :=
    l = skipn (q_rdr q) (q_lst q) /\
    (q_lst q = [] /\ q_rdr q = 0 \/ q_rdr q < List.length (q_lst q)).
  Lemma skipn_nth (l : list A) n x : nth_error l n = Some x -> skipn n l = x :: skipn (S n) l.
  Proof. revert n. induction l as [|y l IH]; intros [|n] H; cbn in *; try discriminate; [congruence|now apply IH]. Qed.
  Lemma q_like_step q l c : q_like q l -> fst (q_step q c) = fst (fifo_step l c) /\
    q_like (snd (q_step q c)) (snd (fifo_step l c)).
  Proof.
    intros [-> H]. destruct c as [x| |]; cbn [q_step fifo_step fst snd].
    - split; [reflexivity|]. split; cbn [q_put q_lst q_rdr].
      + rewrite skipn_app. destruct H as [[-> ->]|H]; [reflexivity|].
        replace (q_rdr q - List.length (q_lst q)) with 0 by lia. reflexivity.
      + right. rewrite app_length. cbn. destruct H as [[-> ->]|H]; cbn; lia.
    - unfold q_get. destruct H as [[E1 E2]|H].
      + rewrite E1, E2. cbn. split; [reflexivity|]. split; [rewrite E1, E2; reflexivity|auto].
      + destruct (Nat.eqb_spec (List.length (q_lst q)) 0) as [E|_]; [lia|].
        destruct (nth_error (q_lst q) (q_rdr q)) as [x|] eqn:N; [|apply nth_error_None in N; lia].
        rewrite (skipn_nth _ _ _ N). cbn [fst snd]. split; [reflexivity|].
        destruct (Nat.leb_spec (List.length (q_lst q)) (S (q_rdr q))) as [L|L].
        * split; [|now left]. rewrite skipn_all2 by lia. reflexivity.
        * split; [reflexivity|right; exact L].
    - split; [|split; auto]. unfold q_empty. destruct H as [[-> ->]|H]; [reflexivity|].
      destruct (Nat.eqb_spec (List.length (q_lst q)) 0) as [E|_]; [lia|].
      destruct (skipn (q_rdr q) (q_lst q)) eqn:E; [|reflexivity].
      apply (f_equal (@List.length A)) in E. rewrite skipn_length in E. cbn in E. lia.
  Qed.
  Lemma queue_is_fifo (cs : list (q_call A)) : q_run q_new cs = fifo_run [] cs.
  Proof.
    assert (G : forall cs q l, q_like q l -> q_run q cs = fifo_run l cs).
    { clear cs. induction cs as [|c cs IH]; intros q l H; [reflexivity|]. cbn [q_run fifo_run].
      destruct (q_like_step q l c H) as [H1 H2]. destruct (q_step q c), (fifo_step l c). cbn in *.
      subst. f_equal. now apply IH. }
    apply G. split; [reflexivity|now left].
  Qed.
End Queue.

(** ** canonical_path *)
Lemma cp_run_first l n rp p : nth_error l n = Some (rp, p) ->
  exists rp', first_query l p = Some rp' /\ nth_error (cp_run [] l) n = Some (rp' p).
Proof.
  assert (G : forall l st n rp p, nth_error l n = Some (rp, p) ->
    nth_error (cp_run st l) n = match sget st p with
                                | Some v => Some v
                                | None => match first_query l p with Some rp' => Some (rp' p) | None => None end
                                end /\ first_query l p <> None).
  { clear. induction l as [|[rq q] l IH]; intros st n rp p H; [destruct n; discriminate|].
    cbn [cp_run first_query]. unfold canonical_path.
    destruct n as [|n]; cbn [nth_error] in H.
    - injection H as -> ->. rewrite String.eqb_refl. split; [|discriminate].
      destruct (sget st p) as [v|]; reflexivity.
    - assert (E : forall st', nth_error (cp_run st' l) n = match sget st' p with
                                | Some v => Some v
                                | None => match first_query l p with Some rp' => Some (rp' p) | None => None end
                                end) by (intros st'; apply (IH st' n rp p H)).
      split; [|destruct (String.eqb q p); [discriminate|apply (IH [] n rp p H)]].
      destruct (sget st q) as [v|] eqn:Eq.
      + cbn [nth_error]. rewrite E. destruct (String.eqb_spec q p) as [->|N]; [now rewrite Eq|reflexivity].
      + cbn [nth_error]. rewrite E. destruct (String.eqb_spec q p) as [->|N].
        * rewrite Eq. rewrite (dget_dset_eq String.eqb string_eqb_spec'). reflexivity.
        * rewrite (dget_dset_neq String.eqb string_eqb_spec') by congruence. reflexivity. }
  intros H. destruct (G l [] n rp p H) as [E N]. cbn [dget] in E.
  destruct (first_query l p) as [rp'|]; [|congruence]. eauto.
Qed.

Lemma in_no_slash s : no_slash s <-> ~ In "/"%char (list_ascii_of_string s).
Proof.
  induction s as [|c s IH]; cbn; [intuition|]. rewrite IH. unfold slash. intuition congruence.
Qed.
Lemma file_name_proper s : file_name s <-> proper s.
Proof. unfold file_name, proper. now rewrite in_no_slash. Qed.

Lemma sp_skip a c b : c = "" \/ c = "." -> same_place (a ++ c :: b) (a ++ b).
Proof. intros [->| ->]; [apply sp_empty|apply sp_dot]. Qed.
Lemma place_norm l acc : Forall no_slash l -> normal true acc ->
  same_place (rev acc ++ l) (rev (norm_loop true l acc)).
Proof.
  revert acc. induction l as [|c l IH]; intros acc F Ha; [rewrite app_nil_r; apply sp_refl|].
  inversion F as [|? ? Hc Fl]. subst. cbn [norm_loop].
  destruct (String.eqb c "") eqn:E1; cbn [orb].
  - eapply sp_trans; [apply sp_skip; left; now apply String.eqb_eq|now apply IH].
  - destruct (String.eqb c ".") eqn:E2.
    + eapply sp_trans; [apply sp_skip; right; now apply String.eqb_eq|now apply IH].
    + destruct (String.eqb c "..") eqn:E3; cbn [negb].
      * apply String.eqb_eq in E3. subst c. destruct acc as [|a acc].
        -- eapply sp_trans; [apply sp_root|]. exact (IH [] Fl Ha).
        -- pose proof (normal_true_proper _ Ha) as P. inversion P as [|? ? Pa _]. subst.
           destruct (String.eqb a "..") eqn:E4; [apply String.eqb_eq in E4; destruct Pa as (_ & _ & N & _); congruence|].
           cbn [rev]. rewrite <- app_assoc. cbn [app].
           eapply sp_trans; [apply sp_up; now apply file_name_proper|]. apply IH; [exact Fl|].
           inversion Ha; [discriminate|assumption].
      * apply String.eqb_neq in E1, E2, E3. assert (Pc : proper c) by (repeat split; auto).
        specialize (IH (c :: acc) Fl (n_name _ _ _ Pc Ha)). cbn [rev] in IH. rewrite <- app_assoc in IH. exact IH.
Qed.
Lemma norm_skip abs a c b acc : c = "" \/ c = "." -> norm_loop abs (a ++ c :: b) acc = norm_loop abs (a ++ b) acc.
Proof. intros [->| ->]; rewrite !norm_app; reflexivity. Qed.
Lemma same_place_norm l k : same_place l k -> norm_loop true l [] = norm_loop true k [].
Proof.
  induction 1 as [l|l k _ IH|l k m _ IH1 _ IH2|a b|a b|a x b Hx|b].
  - reflexivity.
  - now symmetry.
  - congruence.
  - apply norm_skip. auto.
  - apply norm_skip. auto.
  - rewrite !norm_app. apply file_name_proper in Hx. rewrite norm_proper by exact Hx. cbn [norm_loop].
    destruct Hx as (_ & _ & N & _). apply String.eqb_neq in N. now rewrite N.
  - reflexivity.
Qed.
Lemma from_root_rp cwd p : norm_loop true (from_root cwd p) [] = rp_comps cwd p.
Proof. unfold from_root, rp_comps. destruct (starts_slash p); [reflexivity|now rewrite norm_app]. Qed.
Lemma from_root_parts cwd p : Forall no_slash (from_root cwd p).
Proof.
  unfold from_root. destruct (starts_slash p); [apply split_parts|]. apply Forall_app. split; apply split_parts.
Qed.
Lemma realpath_same_path cwd p q : realpath cwd p = realpath cwd q <-> same_path cwd p q.
Proof.
  rewrite !realpath_abs. split.
  - intros E. apply abs_str_inj in E; try apply rp_normal. unfold same_path.
    pose proof (place_norm (from_root cwd p) [] (from_root_parts cwd p) (n_nil _)) as H1.
    pose proof (place_norm (from_root cwd q) [] (from_root_parts cwd q) (n_nil _)) as H2.
    cbn [rev app] in *. rewrite from_root_rp in *. rewrite E in H1.
    eapply sp_trans; [exact H1|]. now apply sp_sym.
  - intros H. f_equal. rewrite <- !from_root_rp. now apply same_place_norm.
Qed.

(** ** cxx_read_depends *)
Lemma list_ascii_app a b : list_ascii_of_string (a ++ b)%string = list_ascii_of_string a ++ list_ascii_of_string b.
Proof. induction a as [|c a IH]; cbn; [reflexivity|now rewrite IH]. Qed.
Lemma name_char_spec c : In c (list_ascii_of_string name_characters) -> name_char c = true.
Proof.
  assert (H : forallb name_char (list_ascii_of_string name_characters) = true) by reflexivity.
  rewrite forallb_forall in H. apply H.
Qed.
Lemma findall_name nm s cur :
  (forall c, In c (list_ascii_of_string nm) -> In c (list_ascii_of_string name_characters)) ->
  findall (nm ++ s)%string cur = findall s (cur ++ nm)%string.
Proof.
  revert cur. induction nm as [|c nm IH]; intros cur H; cbn [String.append findall]; [now rewrite app_str_nil|].
  rewrite name_char_spec by (apply H; now left). rewrite IH by (intros d Hd; apply H; now right).
  rewrite app_str_assoc. reflexivity.
Qed.
Lemma separator_char sep c : separator sep -> In c (list_ascii_of_string sep) -> name_char c = false.
Proof.
  intros H Hc. specialize (H c Hc). cbn in H.
  decompose [or] H; try contradiction; subst; reflexivity.
Qed.
Lemma findall_sep sep s : separator sep -> findall (sep ++ s)%string "" = findall s "".
Proof.
  induction sep as [|c sep IH]; intros H; [reflexivity|]. cbn [String.append findall].
  rewrite (separator_char (String c sep) c H) by now left. apply IH. intros d Hd. apply H. now right.
Qed.
Lemma findall_sep_cur sep s cur : separator sep -> sep <> "" -> cur <> "" ->
  findall (sep ++ s)%string cur = cur :: findall s "".
Proof.
  intros H N C. destruct sep as [|c sep]; [congruence|]. cbn [String.append findall].
  rewrite (separator_char (String c sep) c H) by now left.
  assert (Hs : separator sep) by (intros d Hd; apply H; now right).
  rewrite findall_sep by exact Hs. destruct cur; [congruence|reflexivity].
Qed.
Lemma findall_layout l : separated l -> findall (lay_out l) "" = map fst l.
Proof.
  induction l as [|[nm sep] l IH]; [reflexivity|]. intros ([Hn1 Hn2] & Hs & Hl & H). cbn [lay_out map fst].
  rewrite findall_name by exact Hn2. cbn [String.append].
  destruct sep as [|c sep].
  - destruct l as [|x l]; [|exfalso; apply Hl; [discriminate|reflexivity]].
    cbn. destruct nm; [congruence|reflexivity].
  - rewrite findall_sep_cur by (assumption || discriminate). f_equal. now apply IH.
Qed.
Lemma read_depends_layout l : separated l -> l <> [] ->
  cxx_read_depends (Some (lay_out l)) = Some (skipn 2 (map fst l)).
Proof.
  intros H N. unfold cxx_read_depends. rewrite findall_layout by exact H.
  destruct (String.eqb_spec (lay_out l) "") as [E|_]; [|reflexivity].
  destruct l as [|[nm sep] l]; [congruence|]. destruct H as ([Hn _] & _). cbn in E.
  destruct nm; [congruence|discriminate].
Qed.
Lemma read_depends_leading sep l : separator sep -> separated l -> l <> [] ->
  cxx_read_depends (Some (sep ++ lay_out l)%string) = Some (skipn 2 (map fst l)).
Proof.
  intros Hs H N. unfold cxx_read_depends. rewrite findall_sep, findall_layout by assumption.
  destruct (String.eqb_spec (sep ++ lay_out l)%string "") as [E|_]; [|reflexivity].
  destruct sep; [|discriminate]. destruct l as [|[nm sep'] l]; [congruence|]. destruct H as ([Hn _] & _). cbn in E.
  destruct nm; [congruence|discriminate].
Qed.

(** ** format *)
Lemma split_dot_cons s : split_dot s <> [].
Proof.
  destruct s as [|c s]; cbn; [discriminate|].
  destruct (Ascii.eqb c ch_dot); [discriminate|]. destruct (split_dot s); discriminate.
Qed.
Definition no_dot (s : string) : Prop := ~ In "."%char (list_ascii_of_string s).
Lemma split_dot_plain s : no_dot s -> split_dot s = [s].
Proof.
  induction s as [|c s IH]; [reflexivity|]. intros H. cbn.
  destruct (Ascii.eqb_spec c ch_dot) as [->|_]; [exfalso; apply H; now left|].
  rewrite IH; [reflexivity|]. intros Hc. apply H. now right.
Qed.
Lemma split_dot_app a b : split_dot (a ++ String ch_dot b)%string = split_dot a ++ split_dot b.
Proof.
  induction a as [|c a IH]; cbn [String.append split_dot].
  - rewrite Ascii.eqb_refl. reflexivity.
  - destruct (Ascii.eqb c ch_dot); [now rewrite IH|]. rewrite IH.
    pose proof (split_dot_cons a) as N. destruct (split_dot a) as [|h t]; [congruence|]. reflexivity.
Qed.
Lemma split_dot_concat l : l <> [] -> Forall no_dot l -> split_dot (String.concat "." l) = l.
Proof.
  induction l as [|a l IH]; [congruence|]. intros _ F. inversion F as [|? ? Ha Fl]. subst.
  destruct l as [|b l]; [cbn; now apply split_dot_plain|].
  change (String.concat "." (a :: b :: l)) with (a ++ String ch_dot (String.concat "." (b :: l)))%string.
  rewrite split_dot_app, (split_dot_plain a Ha), IH; [reflexivity|discriminate|exact Fl].
Qed.
Lemma concat_dot_split s : String.concat "." (split_dot s) = s.
Proof.
  induction s as [|c s IH]; [reflexivity|]. cbn [split_dot].
  destruct (Ascii.eqb c ch_dot) eqn:E.
  - apply Ascii.eqb_eq in E. subst c. pose proof (split_dot_cons s) as N.
    destruct (split_dot s) as [|h t]; [congruence|].
    change (String.concat "." ("" :: h :: t)) with (String ch_dot (String.concat "." (h :: t))). now rewrite IH.
  - pose proof (split_dot_cons s) as N. destruct (split_dot s) as [|h t]; [congruence|].
    destruct t as [|h2 t].
    + cbn in *. now rewrite IH.
    + change (String.concat "." (String c h :: h2 :: t)) with (String c (String.concat "." (h :: h2 :: t))). now rewrite IH.
Qed.
Lemma split_dot_parts s : Forall no_dot (split_dot s).
Proof.
  induction s as [|c s IH]; cbn; [constructor; [intros []|constructor]|].
  destruct (Ascii.eqb_spec c ch_dot) as [->|E]; [constructor; [intros []|exact IH]|].
  destruct (split_dot s) as [|h t]; [constructor; [intros [H|[]]; now apply E|constructor]|].
  inversion IH as [|? ? Hh Ht]. subst. constructor; [|exact Ht]. intros [H|H]; [now apply E|now apply Hh].
Qed.
Lemma special_in s : special s = true <-> exists c, In c (list_ascii_of_string s) /\ (c = "["%char \/ c = "!"%char \/ c = ":"%char).
Proof.
  induction s as [|c s IH]; cbn; [split; [discriminate|intros (c & [] & _)]|].
  rewrite !orb_true_iff, IH, !Ascii.eqb_eq. split.
  - intros [[[H|H]|H]|(d & Hd & H)]; [exists c; auto..|]. exists d. auto.
  - intros (d & [<-|Hd] & H); [intuition|]. right. eauto.
Qed.
Lemma in_concat c sep l : In c (list_ascii_of_string (String.concat sep l)) ->
  In c (list_ascii_of_string sep) \/ exists s, In s l /\ In c (list_ascii_of_string s).
Proof.
  induction l as [|a l IH]; [intros []|]. destruct l as [|b l].
  - intros H. right. exists a. split; [now left|exact H].
  - change (String.concat sep (a :: b :: l)) with (a ++ sep ++ String.concat sep (b :: l))%string.
    rewrite !list_ascii_app, !in_app_iff. intros [H|[H|H]]; [right; exists a; split; [now left|exact H]|now left|].
    destruct (IH H) as [H'|(s & Hs & Hc)]; [now left|]. right. exists s. split; [now right|exact Hc].
Qed.
Lemma concat_in c sep l s : In s l -> In c (list_ascii_of_string s) -> In c (list_ascii_of_string (String.concat sep l)).
Proof.
  induction l as [|a l IH]; [intros []|]. intros [->|Hs] Hc.
  - destruct l as [|b l]; [exact Hc|].
    change (String.concat sep (s :: b :: l)) with (s ++ sep ++ String.concat sep (b :: l))%string.
    rewrite list_ascii_app, in_app_iff. now left.
  - destruct l as [|b l]; [destruct Hs|].
    change (String.concat sep (a :: b :: l)) with (a ++ sep ++ String.concat sep (b :: l))%string.
    rewrite !list_ascii_app, !in_app_iff. right. right. now apply IH.
Qed.
Lemma get_attrs_value v l s : Forall plain_field l -> (get_attrs v l = FOk s <-> attr_value v l s).
Proof.
  intros F. revert v. induction F as [|a l Ha _ IH]; intros v; cbn [get_attrs].
  - split; [intros [= <-]; constructor|inversion 1; reflexivity].
  - destruct Ha as [Ha _]. apply String.eqb_neq in Ha. rewrite Ha.
    destruct (sget (pv_attrs v) a) as [v'|] eqn:E.
    + rewrite IH. split; [econstructor; eauto|]. inversion 1. subst. congruence.
    + split; [discriminate|]. inversion 1. congruence.
Qed.
Lemma plain_concat_no_special k l : plain_field k -> Forall plain_field l -> special (String.concat "." (k :: l)) = false.
Proof.
  intros Hk Hl. destruct (special (String.concat "." (k :: l))) eqn:E; [|reflexivity]. exfalso.
  apply special_in in E. destruct E as (c & Hc & D). apply in_concat in Hc. destruct Hc as [Hc|(s & Hs & Hc)].
  - destruct Hc as [<-|[]]. intuition discriminate.
  - assert (P : plain_field s) by (rewrite Forall_forall in Hl; destruct Hs as [<-|Hs]; auto).
    apply (proj2 P c Hc). cbn. intuition.
Qed.
Lemma plain_no_dot s : plain_field s -> no_dot s.
Proof. intros [_ H] Hd. apply (H _ Hd). cbn. tauto. Qed.
Lemma get_field_plain env k l : plain_field k -> all_digits k = false -> Forall plain_field l ->
  get_field env (String.concat "." (k :: l)) =
  match sget env k with None => FRaise (FKey k) | Some v => get_attrs v l end.
Proof.
  intros Hk Hd Hl. unfold get_field. rewrite (plain_concat_no_special k l Hk Hl).
  rewrite split_dot_concat; [now rewrite Hd|discriminate|].
  constructor; [now apply plain_no_dot|]. eapply Forall_impl; [|exact Hl]. apply plain_no_dot.
Qed.
Lemma get_field_value env k l s : plain_field k -> all_digits k = false -> Forall plain_field l ->
  (get_field env (String.concat "." (k :: l)) = FOk s <-> field_value env k l s).
Proof.
  intros Hk Hd Hl. rewrite get_field_plain by assumption. unfold field_value.
  destruct (sget env k) as [v|].
  - rewrite get_attrs_value by exact Hl. split; [eauto|]. intros (v' & [= <-] & H). exact H.
  - split; [discriminate|]. intros (v' & H & _). discriminate.
Qed.
(** Reading the name of a field. *)
Lemma fmt_field env f g s : (forall c, In c (list_ascii_of_string g) -> c <> "{"%char /\ c <> "}"%char) ->
  fmt env (Some f) (g ++ String ch_close s)%string =
  match get_field env (f ++ g)%string with FOk v => fapp (FOk v) (fmt env None s) | e => e end.
Proof.
  revert f. induction g as [|c g IH]; intros f H; cbn [String.append fmt].
  - rewrite Ascii.eqb_refl, app_str_nil. reflexivity.
  - destruct (H c (or_introl eq_refl)) as [H1 H2].
    assert (E2 : Ascii.eqb c ch_close = false) by now apply Ascii.eqb_neq.
    assert (E1 : Ascii.eqb c ch_open = false) by now apply Ascii.eqb_neq.
    rewrite E2, E1, IH by (intros d Hd; apply H; now right). rewrite app_str_assoc. reflexivity.
Qed.
Lemma plain_concat_no_brace k l c : plain_field k -> Forall plain_field l ->
  In c (list_ascii_of_string (String.concat "." (k :: l))) -> c <> "{"%char /\ c <> "}"%char.
Proof.
  intros Hk Hl Hc. apply in_concat in Hc. destruct Hc as [Hc|(s & Hs & Hc)].
  - destruct Hc as [<-|[]]. split; discriminate.
  - assert (P : plain_field s) by (rewrite Forall_forall in Hl; destruct Hs as [<-|Hs]; auto).
    pose proof (proj2 P c Hc) as N. split; intros ->; apply N; cbn; tauto.
Qed.
Lemma plain_concat_head k l : plain_field k -> exists c t, String.concat "." (k :: l) = String c t.
Proof.
  intros [Hk _]. destruct k as [|c k]; [congruence|]. destruct l as [|b l]; cbn; eauto.
Qed.
Lemma write_pieces_cons p l : write_pieces (p :: l) = (write_piece p ++ write_pieces l)%string.
Proof.
  unfold write_pieces. cbn [map]. destruct l as [|q l]; [cbn; now rewrite app_str_nil|reflexivity].
Qed.
Lemma fmt_piece env p s : good_piece p -> fmt env None (write_piece p ++ s)%string =
  match p with
  | Lit c => fcons c (fmt env None s)
  | Field k l => match get_field env (String.concat "." (k :: l)) with
                 | FOk v => fapp (FOk v) (fmt env None s)
                 | e => e
                 end
  end.
Proof.
  destruct p as [c|k l]; cbn [write_piece good_piece].
  - intros _. destruct (Ascii.eqb_spec c "{") as [->|E1]; [reflexivity|].
    destruct (Ascii.eqb_spec c "}") as [->|E2]; [reflexivity|].
    cbn [String.append fmt]. unfold ch_open, ch_close. apply Ascii.eqb_neq in E1, E2. now rewrite E1, E2.
  - intros (Hk & Hd & Hl). destruct (plain_concat_head k l Hk) as (c & t & E).
    pose proof (plain_concat_no_brace k l c Hk Hl) as B. rewrite E in B.
    destruct (B (or_introl eq_refl)) as [B1 _]. apply Ascii.eqb_neq in B1.
    transitivity (fmt env (Some "") (String.concat "." (k :: l) ++ String ch_close s)%string).
    + rewrite !app_str_assoc, E. cbn [String.append fmt]. unfold ch_open. rewrite B1. reflexivity.
    + rewrite fmt_field; [reflexivity|]. intros d. now apply plain_concat_no_brace.
Qed.
Lemma format_fills env l s : Forall good_piece l -> (format env (write_pieces l) = FOk s <-> fills env l s).
Proof.
  intros F. revert s. induction F as [|p l Hp _ IH]; intros s.
  - unfold format. cbn. split; [intros [= <-]; constructor|inversion 1; reflexivity].
  - unfold format in *. rewrite write_pieces_cons, fmt_piece by exact Hp. destruct p as [c|k a].
    + destruct (fmt env None (write_pieces l)) as [r|e] eqn:E; cbn [fcons].
      * split; [intros [= <-]; constructor; now apply IH|]. inversion 1 as [|? ? ? H'|]. subst.
        apply IH in H'. congruence.
      * split; [discriminate|]. inversion 1 as [|? ? ? H'|]. subst. apply IH in H'. congruence.
    + destruct Hp as (Hk & Hd & Ha). pose proof (fun v => get_field_value env k a v Hk Hd Ha) as G.
      destruct (get_field env (String.concat "." (k :: a))) as [v|e].
      * cbn [fapp]. destruct (fmt env None (write_pieces l)) as [r|e] eqn:E.
        -- split.
           ++ intros [= <-]. constructor; [now apply G|now apply IH].
           ++ inversion 1 as [| |? ? v' ? r' Hv H']. subst. apply G in Hv. injection Hv as ->. apply IH in H'. congruence.
        -- split; [discriminate|]. inversion 1 as [| |? ? ? ? ? Hv H']. subst. apply IH in H'. congruence.
      * split; [discriminate|]. inversion 1 as [| |? ? ? ? ? Hv H']. subst. apply G in Hv. discriminate.
Qed.
Lemma format_missing_key env l k a l' : Forall good_piece l -> good_piece (Field k a) ->
  (exists s, fills env l s) -> sget env k = None ->
  format env (write_pieces l ++ write_piece (Field k a) ++ l')%string = FRaise (FKey k).
Proof.
  intros F. unfold format. intros G [s Hs] N. revert s Hs. induction F as [|p l Hp _ IH]; intros s Hs.
  - cbn [write_pieces map String.concat String.append]. rewrite fmt_piece by exact G.
    destruct G as (Hk & Hd & Ha). rewrite get_field_plain by assumption. now rewrite N.
  - rewrite write_pieces_cons, app_str_assoc, fmt_piece by exact Hp. inversion Hs as [|? ? ? Hs'|? ? v ? ? Hv Hs']; subst.
    + now rewrite (IH _ Hs').
    + destruct Hp as (Hk & Hd & Ha). apply get_field_value in Hv; [|assumption..]. rewrite Hv, (IH _ Hs'). reflexivity.
Qed.

(** Templates that are filled are well written. *)
Lemma get_attrs_plain v l s : Forall no_dot l -> (forall x c, In x l -> In c (list_ascii_of_string x) ->
    ~ In c ["{"%char; "}"%char; "["%char; "!"%char; ":"%char]) ->
  get_attrs v l = FOk s -> Forall plain_field l.
Proof.
  revert v. induction l as [|a l IH]; intros v F H E; [constructor|]. inversion F as [|? ? Fa Fl]. subst. cbn [get_attrs] in E.
  destruct (String.eqb_spec a "") as [->|Na]; [discriminate|].
  destruct (sget (pv_attrs v) a) as [v'|]; [|discriminate]. constructor.
  - split; [exact Na|]. intros c Hc D. specialize (H a c (or_introl eq_refl) Hc).
    destruct D as [<-|[<-|[<-|[<-|[<-|[<-|[]]]]]]]; try (apply H; cbn; tauto). now apply Fa.
  - apply (IH v'); auto. intros x c Hx. apply H. now right.
Qed.
Lemma get_field_good env f s : (forall c, In c (list_ascii_of_string f) -> c <> "{"%char /\ c <> "}"%char) ->
  get_field env f = FOk s -> exists k l, f = String.concat "." (k :: l) /\ good_piece (Field k l).
Proof.
  intros B. unfold get_field. destruct (special f) eqn:Sp; [discriminate|].
  pose proof (concat_dot_split f) as C. pose proof (split_dot_parts f) as D.
  destruct (split_dot f) as [|k l]; [discriminate|].
  destruct (all_digits k) eqn:Ed; [discriminate|].
  destruct (sget env k) as [v|]; [|discriminate]. intros E.
  assert (H : forall x c, In x (k :: l) -> In c (list_ascii_of_string x) -> ~ In c ["{"%char; "}"%char; "["%char; "!"%char; ":"%char]).
  { intros x c Hx Hc Hbad. pose proof (concat_in c "." _ _ Hx Hc) as Hf. rewrite C in Hf.
    destruct (B c Hf). assert (special f = true) as Hs; [|congruence]. apply special_in. exists c. split; [exact Hf|].
    cbn in Hbad. decompose [or] Hbad; subst; tauto. }
  inversion D as [|? ? Dk Dl]. subst.
  exists k, l. split; [reflexivity|]. split; [|split; [exact Ed|]].
  - split; [intros ->; discriminate|]. intros c Hc Hbad. specialize (H k c (or_introl eq_refl) Hc).
    destruct Hbad as [<-|[<-|[<-|[<-|[<-|[<-|[]]]]]]]; try (apply H; cbn; tauto). now apply Dk.
  - apply (get_attrs_plain v l s); auto. intros x c Hx. apply H. now right.
Qed.
Lemma fmt_good env s : (forall r, fmt env None s = FOk r -> exists l, s = write_pieces l /\ Forall good_piece l) /\
  (forall f r, (forall c, In c (list_ascii_of_string f) -> c <> "{"%char /\ c <> "}"%char) -> fmt env (Some f) s = FOk r ->
     exists k a l, ("{" ++ f ++ s)%string = (write_piece (Field k a) ++ write_pieces l)%string /\
       good_piece (Field k a) /\ Forall good_piece l).
Proof.
  remember (String.length s) as n eqn:En. revert s En.
  induction n as [n IH] using (well_founded_induction lt_wf). intros s ->. destruct s as [|c s].
  - split; [intros r _; exists []; split; [reflexivity|constructor]|intros f r _ H; discriminate].
  - split.
    + intros r. cbn [fmt]. unfold ch_open, ch_close. destruct (Ascii.eqb_spec c "{") as [->|E1].
      * destruct s as [|d s]; [discriminate|]. destruct (Ascii.eqb_spec d "{") as [->|Ed].
        -- destruct (fmt env None s) as [r'|] eqn:Er; [|discriminate]. intros _.
           destruct (IH (String.length s)) with (s := s) as [I _]; [cbn; lia|reflexivity|].
           destruct (I r' Er) as (l & -> & F). exists (Lit "{"%char :: l). rewrite write_pieces_cons.
           split; [reflexivity|constructor; [exact Logic.I|exact F]]. 
        -- intros H. destruct (IH (String.length (String d s))) with (s := String d s) as [_ I]; [cbn; lia|reflexivity|].
           destruct (I "" r) as (k & a & l & E & G & F); [intros ? []|exact H|].
           exists (Field k a :: l). rewrite write_pieces_cons. split; [exact E|now constructor].
      * destruct (Ascii.eqb_spec c "}") as [->|E2].
        -- destruct s as [|d s]; [discriminate|]. destruct (Ascii.eqb_spec d "}") as [->|Ed]; [|discriminate].
           destruct (fmt env None s) as [r'|] eqn:Er; [|discriminate]. intros _.
           destruct (IH (String.length s)) with (s := s) as [I _]; [cbn; lia|reflexivity|].
           destruct (I r' Er) as (l & -> & F). exists (Lit "}"%char :: l). rewrite write_pieces_cons.
           split; [reflexivity|constructor; [exact Logic.I|exact F]].
        -- destruct (fmt env None s) as [r'|] eqn:Er; [|discriminate]. intros _.
           destruct (IH (String.length s)) with (s := s) as [I _]; [cbn; lia|reflexivity|].
           destruct (I r' Er) as (l & -> & F). exists (Lit c :: l). rewrite write_pieces_cons.
           cbn [write_piece]. apply Ascii.eqb_neq in E1, E2. rewrite E1, E2.
           split; [reflexivity|constructor; [exact Logic.I|exact F]].
    + intros f r Hf. cbn [fmt]. unfold ch_open, ch_close. destruct (Ascii.eqb_spec c "}") as [->|E2].
      * destruct (get_field env f) as [v|] eqn:Ev; [|discriminate]. cbn [fapp].
        destruct (fmt env None s) as [r'|] eqn:Er; [|discriminate]. intros _.
        destruct (IH (String.length s)) with (s := s) as [I _]; [cbn; lia|reflexivity|].
        destruct (I r' Er) as (l & -> & F). destruct (get_field_good env f v Hf Ev) as (k & a & -> & G).
        exists k, a, l. split; [|auto]. cbn [write_piece]. rewrite !app_str_assoc. reflexivity.
      * destruct (Ascii.eqb_spec c "{") as [->|E1]; [discriminate|]. intros H.
        destruct (IH (String.length s)) with (s := s) as [_ I]; [cbn; lia|reflexivity|].
        destruct (I (f ++ String c "")%string r) as (k & a & l & E & G & F); [|exact H|].
        -- intros d. rewrite list_ascii_app, in_app_iff. intros [Hd|[<-|[]]]; auto.
        -- exists k, a, l. split; [|auto]. rewrite <- E. rewrite app_str_assoc. reflexivity.
Qed.
Lemma format_only_well_written env s r : format env s = FOk r ->
  exists l, s = write_pieces l /\ Forall good_piece l /\ fills env l r.
Proof.
  intros H. destruct (proj1 (fmt_good env s) r H) as (l & -> & F). exists l. split; [reflexivity|]. split; [exact F|].
  now apply format_fills.
Qed.

(** ** Paths *)
Lemma cut_last_dot_spec s r e : cut_last_dot s = Some (r, e) ->
  s = (r ++ e)%string /\ exists x, e = String "."%char x /\ no_dot x.
Proof.
  revert r e. induction s as [|c s IH]; intros r e; cbn [cut_last_dot]; [discriminate|].
  destruct (cut_last_dot s) as [[r' e']|] eqn:E.
  - intros [= <- <-]. destruct (IH _ _ eq_refl) as [-> H]. split; [reflexivity|exact H].
  - destruct (Ascii.eqb_spec c dot) as [->|]; [|discriminate]. intros [= <- <-]. split; [reflexivity|].
    exists s. split; [reflexivity|]. clear IH. induction s as [|d s IH]; [intros []|]. cbn in E.
    destruct (cut_last_dot s) as [[? ?]|]; [discriminate|].
    destruct (Ascii.eqb_spec d dot) as [->|N]; [discriminate|]. intros [H|H]; [now apply N|now apply IH].
Qed.
Lemma cut_last_dot_at r x : no_dot x -> cut_last_dot (r ++ String "."%char x)%string = Some (r, String "."%char x).
Proof.
  intros H. induction r as [|c r IH]; cbn [String.append cut_last_dot].
  - assert (N : cut_last_dot x = None).
    { clear -H. induction x as [|d x IH]; [reflexivity|]. cbn. rewrite IH by (intros Hx; apply H; now right).
      destruct (Ascii.eqb_spec d dot) as [->|]; [exfalso; apply H; now left|reflexivity]. }
    rewrite N. reflexivity.
  - now rewrite IH.
Qed.
Lemma no_slash_app a b : no_slash (a ++ b)%string <-> no_slash a /\ no_slash b.
Proof. induction a as [|c a IH]; cbn; [tauto|]. rewrite IH. tauto. Qed.
Lemma splitext_app p : (fst (splitext p) ++ snd (splitext p))%string = p.
Proof.
  unfold splitext. pose proof (cut_app p) as A. destruct (cut_last_slash p) as [h t]. cbn [fst snd] in A.
  destruct (cut_last_dot t) as [[r e]|] eqn:E; [|cbn; apply app_str_nil].
  destruct (only_dots r); cbn [fst snd]; [apply app_str_nil|].
  destruct (cut_last_dot_spec _ _ _ E) as [-> _]. rewrite app_str_assoc. exact A.
Qed.
Lemma splitext_ext p : snd (splitext p) = "" \/ exists x, snd (splitext p) = String "."%char x /\ plain_ext x.
Proof.
  unfold splitext. pose proof (cut_tail p) as T. destruct (cut_last_slash p) as [h t]. cbn [snd] in T.
  destruct (cut_last_dot t) as [[r e]|] eqn:E; [|now left].
  destruct (only_dots r); [now left|]. right. destruct (cut_last_dot_spec _ _ _ E) as [-> (x & -> & Hx)].
  exists x. split; [reflexivity|]. split; [exact Hx|]. apply in_no_slash. apply no_slash_app in T.
  destruct T as [_ [_ T]]. exact T.
Qed.
Lemma cut_last_slash_app h r e : (h = "" \/ exists g, h = (g ++ String slash "")%string) -> no_slash (r ++ e)%string ->
  cut_last_slash (h ++ r ++ e)%string = (h, (r ++ e)%string).
Proof.
  intros [->|[g ->]] N; [now apply cut_no_slash|]. rewrite app_str_assoc. cbn [String.append]. now apply cut_at.
Qed.
Lemma only_dots_app r s : only_dots (r ++ s)%string = only_dots r && only_dots s.
Proof. induction r as [|c r IH]; cbn; [reflexivity|]. now rewrite IH, andb_assoc. Qed.
(** What comes before the extension is a name: there is a character other than a dot. *)
Lemma splitext_root p : snd (splitext p) <> "" -> exists h r, fst (splitext p) = (h ++ r)%string /\ only_dots r = false /\
  (h = "" \/ exists g, h = (g ++ String slash "")%string) /\ no_slash r.
Proof.
  unfold splitext. pose proof (cut_tail p) as T. pose proof (cut_head p) as H. destruct (cut_last_slash p) as [h t]. cbn [fst snd] in *.
  destruct (cut_last_dot t) as [[r e]|] eqn:E; [|cbn; congruence].
  destruct (only_dots r) eqn:Eo; cbn [fst snd]; [congruence|]. intros _.
  destruct (cut_last_dot_spec _ _ _ E) as [-> _]. apply no_slash_app in T. exists h, r. tauto.
Qed.
Lemma splitext_none p : snd (splitext p) = "" -> fst (splitext p) = p.
Proof. intros E. rewrite <- (splitext_app p) at 2. now rewrite E, app_str_nil. Qed.
Lemma changeext_ext p e : plain_ext e -> only_dots (basename (fst (splitext p))) = false ->
  splitext (changeext p e) = (fst (splitext p), String "."%char e).
Proof.
  intros [H1 H2] Hb. unfold changeext. set (q := fst (splitext p)) in *. clearbody q.
  assert (N : no_slash ("." ++ e)%string).
  { cbn. split; [discriminate|]. now apply in_no_slash. }
  unfold basename, path_split in Hb. pose proof (cut_app q) as A. pose proof (cut_tail q) as T. pose proof (cut_head q) as Hh.
  destruct (cut_last_slash q) as [h t]. cbn [fst snd] in *. subst q.
  unfold splitext. rewrite app_str_assoc, cut_last_slash_app; [|exact Hh|apply no_slash_app; tauto].
  change ("." ++ e)%string with (String "."%char e). rewrite cut_last_dot_at by exact H1. rewrite Hb. reflexivity.
Qed.

Lemma slashes_all n : all_slash (slashes n).
Proof. induction n; cbn; auto. Qed.
Lemma all_slash_slashes t : all_slash t -> exists n, t = slashes n.
Proof.
  induction t as [|c t IH]; [exists 0; reflexivity|]. intros [-> H]. destruct (IH H) as [n ->]. exists (S n). reflexivity.
Qed.
Lemma split_decomposes p : exists n, p = (dirname p ++ slashes n ++ basename p)%string /\
  ~ In "/"%char (list_ascii_of_string (basename p)) /\
  (n = 0%nat -> dirname p = "" \/ exists m, dirname p = slashes (S m)).
Proof.
  assert (B : ~ In "/"%char (list_ascii_of_string (basename p))) by (apply in_no_slash, basename_no_slash).
  unfold dirname, basename, path_split in *. pose proof (cut_app p) as A. pose proof (cut_head p) as H.
  destruct (cut_last_slash p) as [h t]. cbn [fst snd] in *. destruct H as [->|[g ->]].
  - exists 0%nat. cbn in *. auto.
  - destruct (rstrip_spec (g ++ String slash "")%string) as (e & He & Eg & _).
    destruct (all_slash_slashes e He) as [n ->].
    destruct (rstrip_slash (g ++ String slash "")%string) as [|x r] eqn:R.
    + exists 0%nat. cbn [slashes String.append]. split; [now rewrite A|]. split; [exact B|]. intros _. right.
      cbn in Eg. rewrite Eg. destruct n as [|n]; [destruct g; discriminate|]. exists n. reflexivity.
    + exists n. rewrite <- app_str_assoc, <- Eg. split; [now rewrite A|]. split; [exact B|].
      intros ->. exfalso. cbn [slashes] in Eg. rewrite app_str_nil in Eg.
      pose proof (rstrip_app g (String slash "") (conj eq_refl Logic.I)) as E. rewrite R in E.
      destruct (rstrip_spec g) as (e' & _ & Eg' & D). rewrite <- E in D, Eg'.
      destruct D as [D|(h & c & D & Hc)]; [discriminate|]. rewrite <- Eg in D.
      clear -D Hc. revert h D. induction g as [|a g IH]; intros h D.
      * destruct h as [|b [|b' h]]; cbn in D; [injection D as D; congruence| |]; discriminate.
      * destruct h as [|b h]; cbn in D; [destruct g; discriminate|]. injection D as _ D. now apply (IH h).
Qed.
Lemma join_abs a b : isabs b = true -> path_join a b = b.
Proof. unfold isabs, path_join. now intros ->. Qed.
Lemma join_starts a b : starts_slash (path_join a b) = starts_slash b || starts_slash a.
Proof.
  unfold path_join. destruct (starts_slash b) eqn:E; [now rewrite E|]. cbn [orb].
  destruct a as [|c a]; [exact E|]. destruct (ends_slash (String c a)); reflexivity.
Qed.
Lemma ends_slash_app a c s : ends_slash (a ++ String c s)%string = ends_slash (String c s).
Proof.
  induction a as [|x a IH]; [reflexivity|]. cbn [String.append]. rewrite <- IH.
  destruct a as [|y a]; reflexivity.
Qed.
Lemma join_assoc a b c : path_join (path_join a b) c = path_join a (path_join b c).
Proof.
  destruct (starts_slash c) eqn:Ec.
  - rewrite (join_abs _ c) by exact Ec. rewrite (join_abs b c) by exact Ec. now rewrite join_abs.
  - destruct (starts_slash b) eqn:Eb.
    + rewrite (join_abs a b) by exact Eb. rewrite (join_abs a); [reflexivity|]. unfold isabs. now rewrite join_starts, Eb, orb_true_r.
    + assert (Ebc : starts_slash (path_join b c) = false) by (now rewrite join_starts, Ec, Eb).
      destruct b as [|y b].
      * assert (E1 : path_join "" c = c) by (unfold path_join; now rewrite Ec). rewrite E1.
        destruct a as [|x a]; [unfold path_join; cbn; now rewrite Ec|].
        unfold path_join at 2. cbn [starts_slash]. unfold path_join. rewrite Ec.
        destruct (ends_slash (String x a)) eqn:E.
        -- rewrite app_str_nil, E. reflexivity.
        -- rewrite ends_slash_app. cbn [ends_slash]. rewrite Ascii.eqb_refl. cbn [String.append].
           f_equal. rewrite app_str_assoc. reflexivity.
      * assert (E1 : path_join (String y b) c = if ends_slash (String y b) then (String y b ++ c)%string
            else (String y b ++ String slash c)%string) by (unfold path_join; now rewrite Ec).
        destruct a as [|x a].
        -- assert (E2 : forall s, path_join "" s = s) by (intros s; unfold path_join; now destruct (starts_slash s)).
           now rewrite !E2.
        -- assert (E2 : forall s, starts_slash s = false -> path_join (String x a) s =
             if ends_slash (String x a) then (String x a ++ s)%string else (String x a ++ String slash s)%string)
             by (intros s Hs; unfold path_join; now rewrite Hs).
           rewrite (E2 _ Ebc), (E2 _ Eb), E1. clear E1 E2. unfold path_join. rewrite Ec.
           destruct (ends_slash (String x a)).
           ++ rewrite ends_slash_app. cbn [String.append]. destruct (ends_slash (String y b)); rewrite ?app_str_assoc; reflexivity.
           ++ assert (E3 : ends_slash (String x a ++ String slash (String y b))%string = ends_slash (String y b)).
              { rewrite ends_slash_app. reflexivity. }
              rewrite E3. cbn [String.append]. destruct (ends_slash (String y b)); rewrite ?app_str_assoc; reflexivity.
Qed.

Lemma normal_shape abs acc : normal abs acc -> exists ups names, rev acc = repeat ".." ups ++ names /\
  Forall file_name names /\ (abs = true -> ups = 0%nat).
Proof.
  induction 1 as [|acc Hab F|c acc Hc _ IH].
  - exists 0%nat, []. repeat split; constructor.
  - exists (S (List.length acc)), []. rewrite app_nil_r. split; [|split; [constructor|congruence]].
    assert (E : forall l, Forall (fun c => c = "..") l -> l = repeat ".." (List.length l)).
    { clear. induction 1 as [|c l -> _ IH]; [reflexivity|]. cbn. now rewrite <- IH. }
    rewrite (E (rev (".." :: acc))); [|apply Forall_rev; now constructor]. now rewrite rev_length.
  - destruct IH as (ups & names & E & F & H). exists ups, (names ++ [c]). cbn [rev]. rewrite E, <- app_assoc.
    split; [reflexivity|]. split; [|exact H]. apply Forall_app. split; [exact F|]. constructor; [|constructor].
    now apply file_name_proper.
Qed.
Lemma normpath_normal p : normal_form (normpath p).
Proof.
  rewrite normpath_str. pose proof (initial_slashes_range p) as R. pose proof (np_normal p) as N.
  unfold np_str. set (n := initial_slashes p) in *. set (acc := np_comps p) in *. clearbody n acc.
  destruct (slashes n ++ String.concat "/" (rev acc))%string as [|c s] eqn:E; [now left|]. right.
  destruct (normal_shape _ _ N) as (ups & names & Er & F & H). exists n, ups, names.
  split; [lia|]. split; [exact F|]. split.
  - intros Hn. apply H. now apply Nat.ltb_lt.
  - split; [|now rewrite <- E, Er]. intros -> -> ->. cbn in Er. rewrite Er in E. discriminate.
Qed.
Lemma normpath_same cwd p : same_path cwd p (normpath p).
Proof. apply realpath_same_path. now rewrite realpath_normpath. Qed.
Lemma normal_unique s : normal_form s -> normpath s = s.
Proof.
  intros [->|(n & ups & names & Hn & F & H & H0 & ->)]; [reflexivity|].
  assert (Fp : Forall proper names) by (eapply Forall_impl; [|exact F]; apply file_name_proper).
  assert (Nm : normal (Nat.ltb 0 n) (rev (repeat ".." ups ++ names))).
  { rewrite rev_app_distr. clear H0. assert (G : normal (Nat.ltb 0 n) (rev (repeat ".." ups))).
    { assert (Fu : Forall (fun c => c = "..") (rev (repeat ".." ups))).
      { apply Forall_rev. clear. induction ups; cbn; constructor; auto. }
      destruct (rev (repeat ".." ups)) as [|c l] eqn:E; [constructor|]. inversion Fu as [|? ? -> Fl]. subst.
      apply n_up; [|exact Fl]. destruct n as [|n]; [reflexivity|]. rewrite H in E by lia. discriminate. }
    apply Forall_rev in Fp. induction Fp as [|c l Hc _ IH]; [exact G|]. now apply n_name. }
  assert (R : n = 0 \/ n = 1 \/ n = 2) by lia.
  assert (E : (slashes n ++ String.concat "/" (repeat ".." ups ++ names))%string = np_str n (rev (repeat ".." ups ++ names))).
  { unfold np_str. rewrite rev_involutive.
    destruct (slashes n ++ String.concat "/" (repeat ".." ups ++ names))%string eqn:E; [|reflexivity]. exfalso.
    destruct n as [|n]; [|discriminate]. cbn in E. destruct ups as [|ups].
    - cbn in E. specialize (H0 eq_refl eq_refl). destruct names as [|a names]; [congruence|]. inversion Fp as [|? ? Pa _]. subst.
      destruct Pa as (Pa & _). destruct a; [congruence|]. destruct names; discriminate.
    - cbn in E. destruct (repeat ".." ups ++ names); discriminate. }
  rewrite E, normpath_str, initial_np, np_comps_str by assumption. reflexivity.
Qed.
Lemma no_slash_starts s : no_slash s -> starts_slash s = false.
Proof. destruct s as [|c s]; [reflexivity|]. intros [H _]. now apply slash_neq. Qed.
Lemma join_split cwd p : same_path cwd (path_join (dirname p) (basename p)) p.
Proof.
  apply realpath_same_path. rewrite !realpath_abs. f_equal. rewrite (rp_dirname cwd p). unfold rp_comps.
  pose proof (basename_no_slash p) as B. rewrite join_starts, (no_slash_starts _ B). cbn [orb].
  rewrite norm_split_join by now apply no_slash_starts. now rewrite (split_no_slash _ B).
Qed.
Lemma dirname_parent cwd p : file_name (basename p) -> realpath cwd (dirname p) = dirname (realpath cwd p).
Proof. intros H. apply realpath_dirname. now apply file_name_proper. Qed.
Lemma plain_field_check s : s <> "" ->
  forallb (fun c => negb (existsb (Ascii.eqb c) ["{"%char; "}"%char; "["%char; "!"%char; ":"%char; "."%char]))
    (list_ascii_of_string s) = true -> plain_field s.
Proof.
  intros N H. split; [exact N|]. intros c Hc Hin. rewrite forallb_forall in H. specialize (H c Hc).
  apply negb_true_iff in H. assert (E : existsb (Ascii.eqb c) ["{"%char; "}"%char; "["%char; "!"%char; ":"%char; "."%char] = true).
  { apply existsb_exists. exists c. split; [exact Hin|apply Ascii.eqb_refl]. }
  congruence.
Qed.
