(** Lemmas about the options of C++ modules. *)
From Verif Require Import PyBase PyPath PathProofs ModulesModel CxxModel SpecCxx.
Local Open Scope string_scope.
Local Open Scope list_scope.

Lemma bind_ok {A B} (r : res A) (f : A -> res B) b :
  bind r f = Ok b -> exists a, r = Ok a /\ f a = Ok b.
Proof. destruct r; simpl; try discriminate. eauto. Qed.
Lemma map_res_ok {A B} (f : A -> res B) l r : map_res f l = Ok r <-> Forall2 (fun a b => f a = Ok b) l r.
Proof.
  revert r. induction l as [|a l IH]; intros r; simpl.
  - split; [intros [= <-]; constructor|]. intros H. now inversion H.
  - split.
    + intros H. apply bind_ok in H as (b & Hb & H). apply bind_ok in H as (r' & Hr & H).
      inversion H; subst. constructor; [exact Hb|]. now apply IH.
    + intros H. inversion H; subst. rewrite H2. simpl. apply IH in H4. rewrite H4. reflexivity.
Qed.

Section S.
  Variable home : string.
  Variable tool : toolchain.
  Notation table := (table tool).
  Notation combine := (combine home).
  Notation merge := (merge home tool).
  Notation check_item := (check_item tool).
  Notation check := (check tool).
  Notation mk_options := (mk_options tool).

  (** ** The table *)
  Definition type_of (k : string) : option string :=
    match sget table k with Some f => Some (f_type f) | None => None end.
  Lemma table_cases k f : sget table k = Some f ->
    (f_type f = "str" /\ In k string_options) \/ (f_type f = "list" /\ In k list_options) \/
    (f_type f = "toolchain" /\ k = "toolchain").
  Proof.
    unfold CxxModel.table. cbn [dget].
    repeat match goal with
      |- context [String.eqb k ?x] =>
          destruct (String.eqb_spec k x) as [Hk|_]; [intros [= <-]; subst k; cbn; tauto|]
    end.
    discriminate.
  Qed.
  Lemma str_in_table k : In k string_options -> exists f, sget table k = Some f /\ f_type f = "str".
  Proof.
    intros H. cbn in H. repeat destruct H as [<-|H]; try destruct H; eexists; (split; [reflexivity|reflexivity]).
  Qed.
  Lemma list_in_table k : In k list_options -> exists f, sget table k = Some f /\ f_type f = "list".
  Proof.
    intros H. cbn in H. repeat destruct H as [<-|H]; try destruct H; eexists; (split; [reflexivity|reflexivity]).
  Qed.

  (** ** check *)
  Lemma special_spec k : special k = false <-> k <> "__script__" /\ k <> "__dir__".
  Proof.
    unfold special. destruct (String.eqb_spec k "__script__"), (String.eqb_spec k "__dir__"); simpl;
      intuition congruence.
  Qed.
  Lemma check_item_typed k v : k <> "__script__" -> k <> "__dir__" -> well_typed k v -> check_item (k, v) = Ok tt.
  Proof.
    intros Hs Hd H. unfold CxxModel.check_item. rewrite (proj2 (special_spec k) (conj Hs Hd)).
    destruct H as [s H|l H|t ->]; [apply str_in_table in H|apply list_in_table in H|].
    - destruct H as (f & -> & ->). reflexivity.
    - destruct H as (f & -> & ->). reflexivity.
    - reflexivity.
  Qed.
  Lemma check_item_ok k v u : check_item (k, v) = Ok u -> k <> "__script__" -> k <> "__dir__" ->
    (forall c, v = VOther c -> ~ In c ["str"; "list"; "toolchain"]) -> well_typed k v.
  Proof.
    intros H Hs Hd Hc. unfold CxxModel.check_item in H. rewrite (proj2 (special_spec k) (conj Hs Hd)) in H.
    destruct (sget table k) as [f|] eqn:E; [|discriminate].
    destruct (String.eqb_spec (cls v) (f_type f)) as [Ht|]; [|discriminate].
    apply table_cases in E. destruct E as [[E I]|[[E I]|[E I]]]; rewrite E in Ht;
      destruct v; simpl in Ht; try discriminate; try (constructor; assumption);
      exfalso; apply (Hc _ eq_refl); subst; cbn; tauto.
  Qed.
  Lemma check_item_cases kv : check_item kv = Ok tt \/ exists msg, check_item kv = Raise (SystemExit msg).
  Proof.
    destruct kv as [k v]. unfold CxxModel.check_item. destruct (special k); [now left|].
    destruct (sget table k) as [f|]; [|right; eauto]. destruct (String.eqb (cls v) (f_type f)); [now left|right; eauto].
  Qed.
  Lemma check_ok o : check o = Ok tt <-> forall kv, In kv o -> check_item kv = Ok tt.
  Proof.
    unfold CxxModel.check. induction o as [|kv o IH]; cbn [fold_res]; [split; [intros _ ? []|auto]|].
    destruct (check_item_cases kv) as [E|[msg E]]; rewrite E; cbn [bind].
    - rewrite IH. split; [intros H x [<-|Hx]; auto|intros H x Hx; apply H; now right].
    - split; [discriminate|]. intros H. specialize (H kv (or_introl eq_refl)). congruence.
  Qed.
  Lemma check_cases o : check o = Ok tt \/ exists msg, check o = Raise (SystemExit msg).
  Proof.
    unfold CxxModel.check. induction o as [|kv o IH]; cbn [fold_res]; [now left|].
    destruct (check_item_cases kv) as [E|[msg E]]; rewrite E; cbn [bind]; [exact IH|right; eauto].
  Qed.
  Lemma mk_options_ok o r : mk_options o = Ok r <-> r = o /\ check o = Ok tt.
  Proof.
    unfold CxxModel.mk_options. destruct (check_cases o) as [E|[msg E]]; rewrite E; cbn [bind].
    - split; [intros [= <-]; auto|intros [-> _]; reflexivity].
    - split; [discriminate|intros [_ ?]; discriminate].
  Qed.
  Lemma accepted_iff o : true_classes o -> (mk_options o = Ok o <-> well_formed o).
  Proof.
    intros T. rewrite mk_options_ok. split.
    - intros [_ H] k v Hi Hs Hd. apply (check_item_ok k v tt); auto.
      + apply check_ok with (1 := H). exact Hi.
      + intros c ->. eapply T; eauto.
    - intros H. split; [reflexivity|]. apply check_ok. intros [k v] Hi.
      destruct (special k) eqn:E; [unfold CxxModel.check_item; now rewrite E|].
      apply special_spec in E as [E1 E2]. apply check_item_typed; auto.
  Qed.
  Lemma accepted_or_exit o : mk_options o = Ok o \/ exists msg, mk_options o = Raise (SystemExit msg).
  Proof.
    unfold CxxModel.mk_options. destruct (check_cases o) as [E|[msg E]]; rewrite E; cbn [bind]; [now left|right; eauto].
  Qed.
  Lemma merge_accepted md o other r : merge md o other = Ok r -> mk_options r = Ok r.
  Proof.
    unfold CxxModel.merge. intros H. apply bind_ok in H as (x & _ & H). pose proof H as H'.
    apply mk_options_ok in H as [-> _]. exact H'.
  Qed.

  (** ** merge, key by key *)
  Definition kind_of (md : mode) (f : field) : fkind := match md with Merge => f_merge f | Include => f_include f end.
  Definition given (o : opts) (k : string) : oval := match sget o k with Some v => v | None => VNone end.
  Definition merged_item md other (kv kv' : string * oval) : Prop :=
    fst kv' = fst kv /\ exists f, sget table (fst kv) = Some f /\
      combine (kind_of md f) (snd kv) (given other (fst kv)) (f_default f) other = Ok (snd kv').
  Lemma merge_loop md other o acc r :
    fold_res (merge_item home tool md other) o acc = Ok r ->
    exists r', r = acc ++ r' /\ Forall2 (merged_item md other) o r'.
  Proof.
    revert acc. induction o as [|[k v] o IH]; cbn [fold_res]; intros acc H.
    - inversion H; subst. exists []. rewrite app_nil_r. auto.
    - apply bind_ok in H as (a & Ha & H). unfold merge_item in Ha. destruct (sget table k) as [f|] eqn:Ef; [|discriminate].
      apply bind_ok in Ha as (w & Hw & Ha). inversion Ha; subst. apply IH in H as (r' & -> & H).
      exists ((k, w) :: r'). rewrite <- app_assoc. split; [reflexivity|]. constructor; [|exact H].
      split; [reflexivity|]. cbn [fst snd]. exists f. auto.
  Qed.
  Lemma merge_items md o other r : merge md o other = Ok r -> Forall2 (merged_item md other) o r.
  Proof.
    unfold CxxModel.merge. intros H. apply bind_ok in H as (x & Hx & H). apply mk_options_ok in H as [-> _].
    apply merge_loop in Hx as (r' & -> & H). exact H.
  Qed.
  Lemma merge_loop_total md other o acc :
    (forall kv, In kv o -> exists kv', merged_item md other kv kv') ->
    exists r, fold_res (merge_item home tool md other) o acc = Ok r.
  Proof.
    revert acc. induction o as [|[k v] o IH]; cbn [fold_res]; intros acc H; [eauto|].
    destruct (H (k, v) (or_introl eq_refl)) as ([k' w] & E & f & Ef & Hf). cbn [fst snd] in *. subst k'.
    assert (E : merge_item home tool md other acc (k, v) = Ok (acc ++ [(k, w)])).
    { unfold merge_item. rewrite Ef. unfold given, kind_of in Hf. destruct md; rewrite Hf; reflexivity. }
    rewrite E. cbn [bind]. apply IH. intros; apply H; now right.
  Qed.
  Lemma merged_keys md other o r : Forall2 (merged_item md other) o r -> map fst r = map fst o.
  Proof. induction 1 as [|x y l l' [H _] _ IH]; simpl; congruence. Qed.
  Lemma merged_get md other o r k : Forall2 (merged_item md other) o r ->
    match sget o k with
    | None => sget r k = None
    | Some v => exists f w, sget table k = Some f /\ sget r k = Some w /\
        combine (kind_of md f) v (given other k) (f_default f) other = Ok w
    end.
  Proof.
    induction 1 as [|[k1 v1] [k2 v2] l l' H _ IH]; [reflexivity|]. destruct H as [E (f & Ef & Hf)].
    cbn [fst snd] in *. subst k2. cbn [dget]. destruct (String.eqb_spec k k1) as [->|_]; [|exact IH].
    exists f, v2. auto.
  Qed.
  Lemma merge_get md o other r k : merge md o other = Ok r ->
    match sget o k with
    | None => sget r k = None
    | Some v => exists f w, sget table k = Some f /\ sget r k = Some w /\
        combine (kind_of md f) v (given other k) (f_default f) other = Ok w
    end.
  Proof. intros H. apply merge_items in H. now apply merged_get. Qed.

  (** ** Including *)
  Notation included := (fold_res (merge Include)).
  Lemma include_kind k f : sget table k = Some f ->
    match f_include f with
    | KBase => In k fixed_options
    | KStrconcat => In k flag_options
    | KLocalIf => In k standard_options
    | KConcat | KConcatSrcdir | KConcatLocdir | KConcatLocdir2 => In k growing_options
    | _ => False
    end.
  Proof.
    unfold CxxModel.table. cbn [dget].
    repeat match goal with
      |- context [String.eqb k ?x] =>
          destruct (String.eqb_spec k x) as [Hk|_]; [intros [= <-]; subst k; cbn; tauto|]
    end.
    discriminate.
  Qed.
  Lemma fixed_kind k : In k fixed_options -> exists f, sget table k = Some f /\ f_include f = KBase.
  Proof.
    intros H. cbn in H. repeat destruct H as [<-|H]; try destruct H; eexists; (split; reflexivity).
  Qed.
  Lemma flag_kind k : In k flag_options -> exists f, sget table k = Some f /\ f_include f = KStrconcat /\ f_type f = "str".
  Proof.
    intros H. cbn in H. repeat destruct H as [<-|H]; try destruct H; eexists; (split; [|split]; reflexivity).
  Qed.
  Lemma standard_kind k : In k standard_options -> exists f, sget table k = Some f /\ f_include f = KLocalIf /\ f_type f = "str".
  Proof.
    intros H. cbn in H. repeat destruct H as [<-|H]; try destruct H; eexists; (split; [|split]; reflexivity).
  Qed.
  Lemma growing_kind k : In k growing_options -> exists f, sget table k = Some f /\
    In (f_include f) [KConcat; KConcatSrcdir; KConcatLocdir; KConcatLocdir2].
  Proof.
    intros H. cbn in H. repeat destruct H as [<-|H]; try destruct H; eexists; (split; [reflexivity|cbn; tauto]).
  Qed.

  Lemma include_fixed o inc r k : merge Include o inc = Ok r -> In k fixed_options -> sget r k = sget o k.
  Proof.
    intros H Hk. apply (merge_get _ _ _ _ k) in H. destruct (sget o k) as [v|]; [|exact H].
    destruct H as (f & w & Ef & -> & Hc). destruct (fixed_kind k Hk) as (f' & Ef' & Ek).
    rewrite Ef in Ef'. inversion Ef'; subst f'. unfold kind_of in Hc. rewrite Ek in Hc. now inversion Hc.
  Qed.
  Lemma include_keys o inc r : merge Include o inc = Ok r -> map fst r = map fst o.
  Proof. intros H. eapply merged_keys, merge_items, H. Qed.
  Lemma padd_list l b w : padd (VList l) b = Ok w -> exists l', b = VList l' /\ w = VList (l ++ l').
  Proof. destruct b; simpl; intros [= <-]; eauto. Qed.
  Lemma padd_str l b w : padd (VStr l) b = Ok w -> exists l', b = VStr l' /\ w = VStr (l ++ l')%string.
  Proof. destruct b; simpl; intros [= <-]; eauto. Qed.
  Lemma growing_value k f l inc w : In (f_include f) [KConcat; KConcatSrcdir; KConcatLocdir; KConcatLocdir2] ->
    combine (kind_of Include f) (VList l) (given inc k) (f_default f) inc = Ok w -> exists l', w = VList (l ++ l').
  Proof.
    unfold kind_of. generalize (given inc k). intros v. cbn [In].
    intros [<-|[<-|[<-|[<-|[]]]]]; cbn [CxxModel.combine]; intros H.
    - apply padd_list in H as (l' & _ & ->). eauto.
    - destruct v; try (apply padd_list in H as (l' & _ & ->); eauto);
        repeat (apply bind_ok in H as (? & _ & H)); apply padd_list in H as (l' & _ & ->); eauto.
    - destruct v; try (inversion H; subst; exists []; rewrite app_nil_r; reflexivity);
        repeat (apply bind_ok in H as (? & _ & H)); apply padd_list in H as (l' & _ & ->); eauto.
    - destruct v; try (inversion H; subst; exists []; rewrite app_nil_r; reflexivity);
        repeat (apply bind_ok in H as (? & _ & H)); apply padd_list in H as (l' & _ & ->); eauto.
  Qed.
  Lemma include_grows o inc r k l : merge Include o inc = Ok r -> In k growing_options ->
    sget o k = Some (VList l) -> exists l', sget r k = Some (VList (l ++ l')).
  Proof.
    intros H Hk Hl. apply (merge_get _ _ _ _ k) in H. rewrite Hl in H.
    destruct H as (f & w & Ef & -> & Hc). destruct (growing_kind k Hk) as (f' & Ef' & Ek).
    rewrite Ef in Ef'. inversion Ef'; subst f'. destruct (growing_value k f l inc w Ek Hc) as (l' & ->). eauto.
  Qed.
  Lemma include_raw o inc r k l : merge Include o inc = Ok r -> In k ["libs"; "libdirs"; "defines"; "modules"] ->
    sget o k = Some (VList l) -> sget r k = Some (VList (l ++ lists_given k [inc])).
  Proof.
    intros H Hk Hl. apply (merge_get _ _ _ _ k) in H. rewrite Hl in H.
    destruct H as (f & w & Ef & -> & Hc). unfold lists_given. cbn [flat_map]. rewrite app_nil_r.
    assert (Ek : f_include f = KConcat).
    { cbn in Hk. repeat destruct Hk as [<-|Hk]; try destruct Hk; cbn in Ef; inversion Ef; reflexivity. }
    unfold kind_of in Hc. rewrite Ek in Hc. cbn [CxxModel.combine] in Hc. unfold given in Hc.
    destruct (sget inc k) as [[]|]; cbn in Hc; inversion Hc; subst; reflexivity.
  Qed.
  Lemma merged_type md o inc r k v f : merge md o inc = Ok r -> sget r k = Some v -> special k = false ->
    sget table k = Some f -> cls v = f_type f.
  Proof.
    intros H Hv Hs Hf. apply merge_accepted in H. apply mk_options_ok in H as [_ H].
    apply (dget_In _ string_eqb_spec') in Hv.
    pose proof (proj1 (check_ok r) H _ Hv) as Hi. unfold CxxModel.check_item in Hi. rewrite Hs, Hf in Hi.
    destruct (String.eqb_spec (cls v) (f_type f)); [assumption|discriminate].
  Qed.
  Lemma include_flag o inc r k s : merge Include o inc = Ok r -> In k flag_options ->
    sget o k = Some (VStr s) ->
    sget r k = Some (VStr (s ++ String.concat "" (map (fun x => " " ++ x)%string (strings_given k [inc])))).
  Proof.
    intros H Hk Hl. apply (merge_get _ _ _ _ k) in H. rewrite Hl in H.
    destruct H as (f & w & Ef & -> & Hc). destruct (flag_kind k Hk) as (f' & Ef' & Ek & _).
    rewrite Ef in Ef'. inversion Ef'; subst f'. unfold kind_of in Hc. rewrite Ek in Hc. cbn [CxxModel.combine] in Hc.
    unfold given in Hc. unfold strings_given. cbn [flat_map]. rewrite app_nil_r.
    destruct (sget inc k) as [v|].
    - destruct v; cbn in Hc; inversion Hc; subst; cbn [map String.concat]; f_equal; f_equal.
      + rewrite <- (app_str_assoc s " " s0). reflexivity.
      + now rewrite app_str_nil.
    - inversion Hc. cbn. now rewrite app_str_nil.
  Qed.
  Lemma include_standard o inc r k : merge Include o inc = Ok r -> true_classes inc -> In k standard_options ->
    sget o k <> None ->
    sget r k = match strings_given k [inc] with s :: _ => Some (VStr s) | [] => sget o k end.
  Proof.
    intros H T Hk Hl. pose proof (merged_type Include o inc r k) as Ht.
    pose proof (merge_get _ _ _ _ k H) as Hg. destruct (sget o k) as [v|]; [|congruence].
    destruct Hg as (f & w & Ef & Hw & Hc). destruct (standard_kind k Hk) as (f' & Ef' & Ek & Et).
    rewrite Ef in Ef'. inversion Ef'; subst f'.
    specialize (Ht w f H Hw). assert (Hs : special k = false).
    { cbn in Hk. destruct Hk as [<-|[<-|[]]]; reflexivity. }
    specialize (Ht Hs Ef). rewrite Et in Ht.
    unfold kind_of in Hc. rewrite Ek in Hc. cbn [CxxModel.combine] in Hc. rewrite Hw.
    unfold given in Hc. unfold strings_given. cbn [flat_map]. rewrite app_nil_r.
    destruct (sget inc k) as [x|] eqn:Ex; [|now inversion Hc].
    destruct x; inversion Hc; subst; try reflexivity; cbn in Ht; try discriminate.
    subst. exfalso. apply (dget_In _ string_eqb_spec') in Ex. apply (T _ _ Ex). now left.
  Qed.

  (** ** Sequences of includes *)
  Lemma included_ind (P : opts -> opts -> list opts -> Prop) :
    (forall o, P o o []) ->
    (forall o inc o1 incs r, merge Include o inc = Ok o1 -> included incs o1 = Ok r -> P o1 r incs -> P o r (inc :: incs)) ->
    forall incs o r, included incs o = Ok r -> P o r incs.
  Proof.
    intros H0 H1. induction incs as [|inc incs IH]; cbn [fold_res]; intros o r H.
    - inversion H; subst. apply H0.
    - apply bind_ok in H as (o1 & Ho & H). eapply H1; eauto.
  Qed.
  Lemma included_keys incs o r : included incs o = Ok r -> map fst r = map fst o.
  Proof.
    intros H. pattern o, r, incs. revert incs o r H. refine (included_ind _ _ _); [reflexivity|]. intros o inc o1 incs r H _ IH.
    rewrite IH. eapply include_keys, H.
  Qed.
  Lemma included_fixed incs o r : included incs o = Ok r -> forall k, In k fixed_options -> sget r k = sget o k.
  Proof.
    intros H. pattern o, r, incs. revert incs o r H. refine (included_ind _ _ _); [reflexivity|]. intros o inc o1 incs r H _ IH k Hk.
    rewrite IH by exact Hk. eapply include_fixed; eauto.
  Qed.
  Lemma included_grows incs o r : included incs o = Ok r -> forall k l, In k growing_options ->
    sget o k = Some (VList l) -> exists l', sget r k = Some (VList (l ++ l')).
  Proof.
    intros H. pattern o, r, incs. revert incs o r H. refine (included_ind _ _ _).
    - intros o k l _ H. exists []. now rewrite app_nil_r.
    - intros o inc o1 incs r H _ IH k l Hk Hl. destruct (include_grows _ _ _ _ _ H Hk Hl) as (l1 & H1).
      destruct (IH k _ Hk H1) as (l2 & H2). exists (l1 ++ l2). now rewrite app_assoc.
  Qed.
  Lemma included_raw incs o r : included incs o = Ok r -> forall k l, In k ["libs"; "libdirs"; "defines"; "modules"] ->
    sget o k = Some (VList l) -> sget r k = Some (VList (l ++ lists_given k incs)).
  Proof.
    intros H. pattern o, r, incs. revert incs o r H. refine (included_ind _ _ _).
    - intros o k l _ H. unfold lists_given. cbn. now rewrite app_nil_r.
    - intros o inc o1 incs r H _ IH k l Hk Hl. pose proof (include_raw _ _ _ _ _ H Hk Hl) as H1.
      rewrite (IH k _ Hk H1). unfold lists_given. cbn [flat_map]. now rewrite app_nil_r, app_assoc.
  Qed.
  Lemma concat_empty_app l1 l2 : String.concat "" (l1 ++ l2) = (String.concat "" l1 ++ String.concat "" l2)%string.
  Proof.
    induction l1 as [|a l1 IH]; [reflexivity|]. cbn [app].
    destruct l1 as [|b l1].
    - destruct l2 as [|c l2]; cbn [app String.concat]; [now rewrite app_str_nil|reflexivity].
    - change (String.concat "" (a :: (b :: l1) ++ l2)) with (a ++ "" ++ String.concat "" ((b :: l1) ++ l2))%string.
      change (String.concat "" (a :: b :: l1)) with (a ++ "" ++ String.concat "" (b :: l1))%string.
      rewrite IH. cbn [String.append]. now rewrite app_str_assoc.
  Qed.
  Lemma included_flag incs o r : included incs o = Ok r -> forall k s, In k flag_options ->
    sget o k = Some (VStr s) ->
    sget r k = Some (VStr (s ++ String.concat "" (map (fun x => " " ++ x)%string (strings_given k incs)))).
  Proof.
    intros H. pattern o, r, incs. revert incs o r H. refine (included_ind _ _ _).
    - intros o k l _ H. cbn. now rewrite app_str_nil.
    - intros o inc o1 incs r H _ IH k l Hk Hl. pose proof (include_flag _ _ _ _ _ H Hk Hl) as H1.
      rewrite (IH k _ Hk H1). unfold strings_given. cbn [flat_map].
      rewrite app_nil_r, map_app, concat_empty_app, app_str_assoc. reflexivity.
  Qed.
  Lemma last_cons {A} (x : A) l d : last (x :: l) d = last l x.
  Proof. revert x. induction l as [|y l IH]; intros x; [reflexivity|]. destruct l; [reflexivity|]. exact (IH x). Qed.
  Lemma included_standard incs o r : included incs o = Ok r -> Forall true_classes incs ->
    forall k, In k standard_options -> sget o k <> None ->
    sget r k = last (map (fun s => Some (VStr s)) (strings_given k incs)) (sget o k).
  Proof.
    revert incs o r. apply (included_ind (fun o r incs => Forall true_classes incs -> forall k,
      In k standard_options -> sget o k <> None ->
      sget r k = last (map (fun s => Some (VStr s)) (strings_given k incs)) (sget o k))).
    - reflexivity.
    - intros o inc o1 incs r H _ IH T k Hk Hl. inversion T; subst.
      pose proof (include_standard _ _ _ _ H H2 Hk Hl) as H1.
      assert (N : sget o1 k <> None) by (rewrite H1; destruct (strings_given k [inc]); congruence).
      rewrite (IH H3 k Hk N), H1. unfold strings_given. cbn [flat_map]. rewrite app_nil_r, map_app.
      destruct (sget inc k) as [[s| | | |]|]; try reflexivity. cbn [app map].
      symmetry. apply last_cons.
  Qed.

  (** ** Merging accepted options *)
  Lemma srcdir_total o ps : has_dir o -> well_formed o ->
    exists r, map_res (srcdir_path home o) (map EStr ps) = Ok r.
  Proof.
    intros [d Hd] W. assert (exists s, path_arg (match sget o "srcdir" with Some v => v | None => VStr "" end) = Ok s) as [s Hs].
    { destruct (sget o "srcdir") as [v|] eqn:E; [|eexists; reflexivity].
      apply (dget_In _ string_eqb_spec') in E.
      assert (E' : well_typed "srcdir" v) by (apply W; [exact E|discriminate|discriminate]).
      inversion E'; subst; [eexists; reflexivity|cbn in H; exfalso; repeat destruct H as [H|H]; try discriminate; contradiction|discriminate]. }
    induction ps as [|p ps [r IH]]; [eexists; reflexivity|]. cbn [map map_res].
    unfold srcdir_path at 1, dir_of. rewrite Hd. cbn [path_arg bind]. rewrite Hs. cbn [bind path_elem].
    rewrite IH. cbn. eauto.
  Qed.
  Lemma locdir_total o ps : has_dir o -> exists r, map_res (locdir_path home o) (map EStr ps) = Ok r.
  Proof.
    intros [d Hd]. induction ps as [|p ps [r IH]]; [eexists; reflexivity|]. cbn [map map_res].
    unfold locdir_path at 1, dir_of. rewrite Hd. cbn [path_arg bind path_elem].
    rewrite IH. cbn. eauto.
  Qed.
  Lemma locdir2_total o l : has_dir o -> (forall e, In e l -> exists a b, e = EPair a b) ->
    exists r, map_res (locdir_pair o) l = Ok r.
  Proof.
    intros [d Hd]. induction l as [|p l IH]; intros H; [eexists; reflexivity|].
    destruct IH as [r IH]; [intros; apply H; now right|]. destruct (H p (or_introl eq_refl)) as (a & b & ->).
    cbn [map_res]. unfold locdir_pair at 1, dir_of. rewrite Hd. cbn [pair_of bind path_arg].
    rewrite IH. cbn. eauto.
  Qed.
  (** Which kinds occur for which types. *)
  Lemma table_kinds md k f : sget table k = Some f ->
    match kind_of md f with
    | KBase | KLocalIf => True
    | KLocal => well_typed k (f_default f)
    | KStrconcat => In k string_options
    | KConcat | KToSub => In k list_options
    | KConcatSrcdir | KLocalSrcdir | KConcatLocdir => In k list_options /\ In k path_options
    | KConcatLocdir2 => k = "local_headers"
    end.
  Proof.
    unfold CxxModel.table. cbn [dget].
    repeat match goal with
      |- context [String.eqb k ?x] =>
          destruct (String.eqb_spec k x) as [Hk|_]; [intros [= <-]; subst k; destruct md; first [solve [constructor; cbn; tauto] | cbn; tauto]|]
    end.
    discriminate.
  Qed.
  Lemma disjoint_types k : In k list_options -> ~ In k string_options /\ k <> "toolchain".
  Proof.
    intros H. cbn in H. repeat destruct H as [<-|H]; try destruct H; (split; [cbn; intuition discriminate|discriminate]).
  Qed.
  Lemma typed_list k v : In k list_options -> well_typed k v -> exists l, v = VList l.
  Proof.
    intros Hk H. destruct (disjoint_types k Hk) as [Hn Ht]. inversion H; subst; [contradiction|eauto|contradiction].
  Qed.
  Lemma typed_str k v : In k string_options -> well_typed k v -> exists l, v = VStr l.
  Proof.
    intros Hk H. inversion H; subst; [eauto| |cbn in Hk; exfalso; repeat destruct Hk as [Hk|Hk]; try discriminate; contradiction].
    destruct (disjoint_types k H0). contradiction.
  Qed.
  Lemma typed_known k v : well_typed k v -> exists f, sget table k = Some f /\ cls v = f_type f.
  Proof.
    intros [s H|l H| t ->].
    - apply str_in_table in H as (f & H & E). exists f. now rewrite E.
    - apply list_in_table in H as (f & H & E). exists f. now rewrite E.
    - eexists. split; reflexivity.
  Qed.
  Lemma typed_special k v : well_typed k v -> special k = false.
  Proof.
    intros [s H|l H| t ->]; [| |reflexivity]; cbn in H; repeat destruct H as [<-|H]; try destruct H; reflexivity.
  Qed.
  Lemma given_typed o k : well_formed o -> special k = false -> given o k = VNone \/ well_typed k (given o k).
  Proof.
    intros W Hs. apply special_spec in Hs as [H1 H2]. unfold given. destruct (sget o k) as [v|] eqn:E; [|now left].
    apply (dget_In _ string_eqb_spec') in E. right. now apply W.
  Qed.
  Lemma combine_total md k base other f :
    sget table k = Some f -> well_typed k base -> well_formed other -> has_dir other -> plain_paths other ->
    exists w, combine (kind_of md f) base (given other k) (f_default f) other = Ok w /\ well_typed k w.
  Proof.
    intros Hf Hb W D [P1 P2]. pose proof (typed_special _ _ Hb) as Hs.
    pose proof (given_typed other k W Hs) as Hg. pose proof (table_kinds md k f Hf) as Hk.
    destruct (kind_of md f); cbn [CxxModel.combine].
    - eauto.
    - destruct Hg as [->|Hg].
      + exists (f_default f). split; [reflexivity|exact Hk].
      + exists (given other k). split; [destruct (given other k); try reflexivity; inversion Hg|exact Hg].
    - destruct (typed_list _ _ Hk Hb) as [l ->]. destruct Hg as [->|Hg].
      + exists (VList (l ++ [])). split; [reflexivity|now constructor].
      + destruct (typed_list _ _ Hk Hg) as [l' El]. rewrite El. exists (VList (l ++ l')). split; [reflexivity|now constructor].
    - destruct (typed_str _ _ Hk Hb) as [l ->]. destruct Hg as [->|Hg].
      + exists (VStr l). split; [reflexivity|now constructor].
      + destruct (typed_str _ _ Hk Hg) as [l' El]. rewrite El. cbn. eexists. split; [reflexivity|now constructor].
    - destruct Hk as [Hk Hp]. destruct (typed_list _ _ Hk Hb) as [l ->]. destruct Hg as [->|Hg].
      + eexists. split; [reflexivity|now constructor].
      + destruct (typed_list _ _ Hk Hg) as [l' El]. unfold given in *. destruct (sget other k) as [v|] eqn:E; [|discriminate].
        subst v. destruct (P1 k l' Hp E) as [ps ->]. cbn [iter_oval bind].
        destruct (srcdir_total other ps D W) as [r ->]. cbn. eexists. split; [reflexivity|now constructor].
    - destruct Hk as [Hk Hp]. destruct Hg as [->|Hg].
      + eexists. split; [reflexivity|now constructor].
      + destruct (typed_list _ _ Hk Hg) as [l' El]. unfold given in *. destruct (sget other k) as [v|] eqn:E; [|discriminate].
        subst v. destruct (P1 k l' Hp E) as [ps ->]. cbn [iter_oval bind].
        destruct (srcdir_total other ps D W) as [r ->]. cbn. eexists. split; [reflexivity|now constructor].
    - destruct Hk as [Hk Hp]. destruct (typed_list _ _ Hk Hb) as [l ->]. destruct Hg as [->|Hg].
      + eexists. split; [reflexivity|now constructor].
      + destruct (typed_list _ _ Hk Hg) as [l' El]. unfold given in *. destruct (sget other k) as [v|] eqn:E; [|discriminate].
        subst v. destruct (P1 k l' Hp E) as [ps ->]. cbn [iter_oval bind].
        destruct (locdir_total other ps D) as [r ->]. cbn. eexists. split; [reflexivity|now constructor].
    - assert (Hl : In k list_options) by (subst; cbn; tauto).
      destruct (typed_list _ _ Hl Hb) as [l ->]. destruct Hg as [->|Hg].
      + eexists. split; [reflexivity|now constructor].
      + destruct (typed_list _ _ Hl Hg) as [l' El]. unfold given in *. destruct (sget other k) as [v|] eqn:E; [|discriminate].
        subst v. rewrite Hk in E. cbn [iter_oval bind].
        destruct (locdir2_total other l' D (P2 l' E)) as [r ->]. cbn. eexists. split; [reflexivity|now constructor].
    - destruct Hg as [->|Hg]; [eauto|]. exists (given other k). split; [destruct (given other k); try reflexivity; inversion Hg|exact Hg].
    - destruct (typed_list _ _ Hk Hb) as [l ->]. destruct Hg as [->|Hg].
      + eexists. split; [reflexivity|now constructor].
      + destruct (typed_list _ _ Hk Hg) as [l' El]. rewrite El. cbn. eexists. split; [reflexivity|now constructor].
  Qed.
  Lemma merge_total md o other :
    well_formed o -> (forall k v, In (k, v) o -> special k = false) ->
    well_formed other -> has_dir other -> plain_paths other ->
    exists r, merge md o other = Ok r /\ well_formed r.
  Proof.
    intros W N W' D P.
    assert (T : forall kv, In kv o -> exists kv', merged_item md other kv kv' /\ well_typed (fst kv') (snd kv')).
    { intros [k v] Hi. pose proof (N k v Hi) as Hs. pose proof Hs as Hs'. apply special_spec in Hs' as [H1 H2].
      pose proof (W k v Hi H1 H2) as Ht. destruct (typed_known k v Ht) as (f & Hf & _).
      destruct (combine_total md k v other f Hf Ht W' D P) as (w & Hw & Hw').
      exists (k, w). split; [|exact Hw']. split; [reflexivity|]. exists f. auto. }
    destruct (merge_loop_total md other o []) as [r Hr].
    { intros kv Hi. destruct (T kv Hi) as (kv' & H & _). eauto. }
    pose proof (merge_loop _ _ _ _ _ Hr) as (r' & E & F). cbn in E. subst r'.
    assert (Wr : well_formed r).
    { intros k v Hi H1 H2. clear -F T Hi. induction F as [|a b l l' Hab F IH]; [destruct Hi|].
      destruct Hi as [->|Hi].
      - destruct (T a (or_introl eq_refl)) as ([k' w] & [Ek (f & Ef & Hf)] & Ht). destruct Hab as [Ek' (f' & Ef' & Hf')].
        cbn [fst snd] in *. subst k' k. replace v with w; [exact Ht|]. congruence.
      - apply IH; auto. intros kv Hkv. apply T. now right. }
    exists r. split; [|exact Wr]. unfold CxxModel.merge. rewrite Hr. cbn [bind]. apply mk_options_ok.
    split; [reflexivity|]. apply check_ok. intros [k v] Hi.
    destruct (special k) eqn:E; [unfold CxxModel.check_item; now rewrite E|].
    apply special_spec in E as [E1 E2]. apply check_item_typed; auto.
  Qed.
End S.
