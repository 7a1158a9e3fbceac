(** C50-C53, C64: helpers of licant.util, rule templates, paths. *)
From Verif Require Import PyBase PyPath PathProofs UtilModel FormatModel SpecUtil UtilProofs.
Local Open Scope string_scope.
Local Open Scope list_scope.

(** ** C50: util.queue is a first-in-first-out queue *)
Theorem C50_queue_is_fifo : forall (A : Type) (calls : list (q_call A)),
  q_run q_new calls = fifo_run [] calls.
Proof. exact @queue_is_fifo. Qed.
Print Assumptions C50_queue_is_fifo.
Example C50_case : q_run q_new [CEmpty; CPut 7; CPut 8; CGet; CPut 9; CGet; CGet; CGet; CPut 1; CGet; CEmpty] =
  [ABool true; ADone; ADone; AGot 7; ADone; AGot 8; AGot 9; ARaised; ADone; AGot 1; ABool true].
Proof. reflexivity. Qed.

(** ** C51: canonical_path *)
Theorem C51_first_value_is_kept : forall l n rp p, nth_error l n = Some (rp, p) ->
  exists rp', first_query l p = Some rp' /\ nth_error (cp_run [] l) n = Some (rp' p).
Proof. exact cp_run_first. Qed.
Print Assumptions C51_first_value_is_kept.
(** The current directory changes between two queries: the second answer is the first. *)
Example C51_case_kept : cp_run [] [(realpath "/a", "x"); (realpath "/b", "y"); (realpath "/b", "x")] = ["/a/x"; "/b/y"; "/a/x"].
Proof. reflexivity. Qed.

Theorem C51_equal_exactly_for_the_same_path : forall cwd p q,
  realpath cwd p = realpath cwd q <-> same_path cwd p q.
Proof. exact realpath_same_path. Qed.
Print Assumptions C51_equal_exactly_for_the_same_path.
Theorem C51_idempotent : forall cwd cwd' p, realpath cwd' (realpath cwd p) = realpath cwd p.
Proof. exact PathProofs.realpath_idem. Qed.
Print Assumptions C51_idempotent.
Example C51_case_same : same_path "/w/d" "../x/./y//" "/w/z/../x/y".
Proof. apply C51_equal_exactly_for_the_same_path. reflexivity. Qed.
Example C51_case_differ : ~ same_path "/w/d" "x" "/w/x".
Proof. rewrite <- C51_equal_exactly_for_the_same_path. discriminate. Qed.

(** Within one process two spellings may still get different canonical paths: the current
    directory was changed in between. *)
Theorem C51_spellings_after_chdir_refuted : exists cwd1 cwd2 p q,
  same_path cwd2 p q /\ cp_run [] [(realpath cwd1, p); (realpath cwd2, q); (realpath cwd2, p)] = ["/a/x"; "/b/x"; "/a/x"].
Proof.
  exists "/a", "/b", "x", "./x". split; [|reflexivity]. apply C51_equal_exactly_for_the_same_path. reflexivity.
Qed.
Print Assumptions C51_spellings_after_chdir_refuted.

(** ** C52: cxx_read_depends *)
Theorem C52_reads_the_names_back_partial : forall sep l, separator sep -> separated l -> l <> [] ->
  cxx_read_depends (Some (sep ++ lay_out l)%string) = Some (skipn 2 (map fst l)).
Proof. exact read_depends_leading. Qed.
Print Assumptions C52_reads_the_names_back_partial.
Definition C52_file := [("build/a.o", ": "); ("src/a.cpp", " \
 "); ("include/a.h", " "); ("../lib-1/b_2.hpp", "
")].
Example C52_case : separated C52_file /\ cxx_read_depends (Some (lay_out C52_file)) = Some ["include/a.h"; "../lib-1/b_2.hpp"].
Proof.
  split; [|reflexivity]. cbn. unfold plain_name, separator.
  repeat split; try discriminate; try congruence;
    intros c Hc; cbn in Hc; repeat destruct Hc as [<-|Hc]; try destruct Hc; try reflexivity; cbn; tauto.
Qed.
Theorem C52_missing_or_empty_file : cxx_read_depends None = None /\ cxx_read_depends (Some "") = None.
Proof. split; reflexivity. Qed.
Print Assumptions C52_missing_or_empty_file.
(** A header whose name has a plus sign is cut into pieces. *)
Theorem C52_other_characters_refuted : exists obj src h,
  cxx_read_depends (Some (obj ++ ": " ++ src ++ " " ++ h ++ String "010" "")%string) <> Some [h].
Proof. exists "a.o", "a.cpp", "c++/vec.h". discriminate. Qed.
Print Assumptions C52_other_characters_refuted.
Example C52_case_pieces : cxx_read_depends (Some "a.o: a.cpp c++/vec.h") = Some ["c"; "/vec.h"].
Proof. reflexivity. Qed.

(** ** C53: rule templates *)
Theorem C53_filled_literally : forall env l s, Forall good_piece l ->
  (format env (write_pieces l) = FOk s <-> fills env l s).
Proof. exact format_fills. Qed.
Print Assumptions C53_filled_literally.
Theorem C53_only_well_written_templates : forall env s r, format env s = FOk r ->
  exists l, s = write_pieces l /\ Forall good_piece l /\ fills env l r.
Proof. exact format_only_well_written. Qed.
Print Assumptions C53_only_well_written_templates.
Theorem C53_missing_field_raises : forall env l k a l', Forall good_piece l -> good_piece (Field k a) ->
  (exists s, fills env l s) -> sget env k = None ->
  format env (write_pieces l ++ write_piece (Field k a) ++ l')%string = FRaise (FKey k).
Proof. exact format_missing_key. Qed.
Print Assumptions C53_missing_field_raises.
(** The attributes along [l] lead from one value to another. *)
Inductive leads : pyobj -> list string -> pyobj -> Prop :=
| le_here v : leads v [] v
| le_attr v a v' l w : sget (pv_attrs v) a = Some v' -> leads v' l w -> leads v (a :: l) w.
Lemma format_stops env l p r e : Forall good_piece l -> (exists s, fills env l s) -> fmt env None (p ++ r)%string = FRaise e ->
  format env (write_pieces l ++ p ++ r)%string = FRaise e.
Proof.
  intros F [s Hs] N. unfold format. revert s Hs. induction F as [|q l Hp _ IH]; intros s Hs; [exact N|].
  rewrite write_pieces_cons, app_str_assoc, fmt_piece by exact Hp. inversion Hs as [|? ? ? Hs'|? ? v ? ? Hv Hs']; subst.
  - now rewrite (IH _ Hs').
  - destruct Hp as (Hk & Hd & Ha). apply get_field_value in Hv; [|assumption..]. rewrite Hv, (IH _ Hs'). reflexivity.
Qed.
Theorem C53_missing_attribute_raises : forall env l k a x b v w l', Forall good_piece l -> good_piece (Field k (a ++ x :: b)) ->
  (exists s, fills env l s) -> sget env k = Some v -> leads v a w -> sget (pv_attrs w) x = None ->
  format env (write_pieces l ++ write_piece (Field k (a ++ x :: b)) ++ l')%string = FRaise (FAttr x).
Proof.
  intros env l k a x b v w l' F G Hs Hk L N. apply format_stops; [exact F|exact Hs|]. rewrite fmt_piece by exact G.
  destruct G as (Gk & Gd & Ga). rewrite get_field_plain by assumption. rewrite Hk. clear Hk.
  assert (E : get_attrs v (a ++ x :: b) = FRaise (FAttr x)); [|now rewrite E].
  induction L as [v|v y v' a w Hy _ IH]; cbn [app get_attrs]; inversion Ga as [|? ? G1 G2]; subst;
    destruct (String.eqb_spec x "") as [Ex|Ex]; try (now destruct G1).
  - now rewrite N.
  - destruct (String.eqb_spec y "") as [Ey|Ey]; [now destruct G1|]. rewrite Hy. exfalso. subst x.
    apply Forall_app in G2 as [_ G2]. inversion G2 as [|? ? G3 _]; subst. now destruct G3.
  - destruct (String.eqb_spec y "") as [Ey|Ey]; [now destruct G1|]. rewrite Hy. now apply IH.
Qed.
Print Assumptions C53_missing_attribute_raises.
(** A field that is a number, or has no name, is a position, and there are no positional arguments. *)
Theorem C53_positions_raise : forall env l k a l', Forall good_piece l -> (exists s, fills env l s) ->
  (forall c, In c (list_ascii_of_string k) -> In c (list_ascii_of_string "0123456789")) -> Forall plain_field a ->
  format env (write_pieces l ++ write_piece (Field k a) ++ l')%string = FRaise FIndex.
Proof.
  intros env l k a l' F Hs Hk Ha. apply format_stops; [exact F|exact Hs|].
  assert (Pk : forall c, In c (list_ascii_of_string k) -> ~ In c ["{"%char; "}"%char; "["%char; "!"%char; ":"%char; "."%char]).
  { intros c Hc. apply Hk in Hc. cbn in Hc. repeat destruct Hc as [<-|Hc]; try (cbn; intuition discriminate). }
  assert (Dg : all_digits k = true).
  { clear Pk. induction k as [|c k IH]; [reflexivity|]. cbn [all_digits].
    rewrite IH by (intros; apply Hk; now right). specialize (Hk c (or_introl eq_refl)). cbn in Hk.
    repeat destruct Hk as [<-|Hk]; try reflexivity. destruct Hk. }
  assert (C : forall c, In c (list_ascii_of_string (String.concat "." (k :: a))) -> ~ In c ["{"%char; "}"%char; "["%char; "!"%char; ":"%char]).
  { intros c Hc D. apply in_concat in Hc as [[<-|[]]|(s & [<-|Hin] & Hc)].
    - cbn in D. intuition discriminate.
    - apply (Pk c Hc). cbn in *. tauto.
    - rewrite Forall_forall in Ha. apply (proj2 (Ha s Hin) c Hc). cbn in *. tauto. }
  assert (N : Forall no_dot (k :: a)).
  { constructor; [intros Hd; apply (Pk _ Hd); cbn; tauto|]. eapply Forall_impl; [|exact Ha]. apply plain_no_dot. }
  assert (E : get_field env (String.concat "." (k :: a)) = FRaise FIndex).
  { unfold get_field. destruct (special (String.concat "." (k :: a))) eqn:Sp.
    - apply special_in in Sp as (c & Hc & D). destruct (C c Hc). cbn. intuition.
    - rewrite split_dot_concat; [now rewrite Dg|discriminate|exact N]. }
  cbn [write_piece]. set (g := String.concat "." (k :: a)) in *. clearbody g.
  rewrite app_str_assoc. cbn [String.append]. rewrite app_str_assoc. cbn [String.append].
  assert (Fl : fmt env (Some "") (g ++ String ch_close l')%string = FRaise FIndex).
  { rewrite fmt_field; [cbn [String.append]; now rewrite E|]. intros c Hc. pose proof (C c Hc) as Nc. split; intros ->; apply Nc; cbn; tauto. }
  cbn [fmt]. rewrite Ascii.eqb_refl. destruct g as [|c g]; cbn [String.append] in *; [exact Fl|].
  assert (Ec : Ascii.eqb c ch_open = false).
  { apply Ascii.eqb_neq. intros ->. apply (C ch_open); cbn; tauto. }
  rewrite Ec. exact Fl.
Qed.
Print Assumptions C53_positions_raise.
Example C53_case_errors :
  format [("opts", PV "<options>" [("toolchain", PV "<tools>" [("cc", PV "gcc" [])])])] "{opts.toolchain.cc}, {opts.toolchain.ld}" = FRaise (FAttr "ld") /\
  format [("0", PV "x" [])] "{0}" = FRaise FIndex /\ format [("", PV "x" [])] "{}" = FRaise FIndex.
Proof. repeat split. Qed.
Definition C53_env : list (string * pyobj) :=
  [("tgt", PV "out/{x}" []); ("opts", PV "<options>" [("toolchain", PV "<tools>" [("cc", PV "gcc" [])])])].
Definition C53_rule : list piece :=
  [Field "opts" ["toolchain"; "cc"]; Lit " "; Lit "{"; Field "tgt" []; Lit "}"].
Example C53_case : Forall good_piece C53_rule /\ write_pieces C53_rule = "{opts.toolchain.cc} {{{tgt}}}" /\
  format C53_env (write_pieces C53_rule) = FOk "gcc {out/{x}}" /\
  format C53_env "cp {src} {tgt}" = FRaise (FKey "src").
Proof.
  split; [|repeat split].
  repeat constructor; try (apply plain_field_check; [discriminate|reflexivity]).
Qed.

(** ** C64: paths *)
Theorem C64_normpath_is_normal : forall p, normal_form (normpath p).
Proof. exact normpath_normal. Qed.
Print Assumptions C64_normpath_is_normal.
Theorem C64_normal_paths_are_kept : forall p, normal_form p -> normpath p = p.
Proof. exact normal_unique. Qed.
Print Assumptions C64_normal_paths_are_kept.
Theorem C64_normpath_idempotent : forall p, normpath (normpath p) = normpath p.
Proof. exact PathProofs.normpath_idem. Qed.
Print Assumptions C64_normpath_idempotent.
Theorem C64_normpath_means_the_same : forall cwd p, same_path cwd p (normpath p).
Proof. exact normpath_same. Qed.
Print Assumptions C64_normpath_means_the_same.
Theorem C64_split : forall p, exists n, p = (dirname p ++ slashes n ++ basename p)%string /\
  ~ In "/"%char (list_ascii_of_string (basename p)) /\
  (n = 0%nat -> dirname p = "" \/ exists m, dirname p = slashes (S m)).
Proof. exact split_decomposes. Qed.
Print Assumptions C64_split.
Theorem C64_split_then_join : forall cwd p, same_path cwd (path_join (dirname p) (basename p)) p.
Proof. exact join_split. Qed.
Print Assumptions C64_split_then_join.
Theorem C64_dirname_is_the_parent : forall cwd p, file_name (basename p) ->
  realpath cwd (dirname p) = dirname (realpath cwd p).
Proof. exact dirname_parent. Qed.
Print Assumptions C64_dirname_is_the_parent.
Theorem C64_join_associative : forall a b c, path_join (path_join a b) c = path_join a (path_join b c).
Proof. exact join_assoc. Qed.
Print Assumptions C64_join_associative.
Theorem C64_root_and_extension : forall p, (fst (splitext p) ++ snd (splitext p))%string = p /\
  (snd (splitext p) = "" \/ exists x, snd (splitext p) = String "."%char x /\ plain_ext x).
Proof. intros p. exact (conj (splitext_app p) (splitext_ext p)). Qed.
Print Assumptions C64_root_and_extension.
Theorem C64_changeext : forall p e, plain_ext e -> only_dots (basename (fst (splitext p))) = false ->
  splitext (changeext p e) = (fst (splitext p), String "."%char e).
Proof. exact changeext_ext. Qed.
Print Assumptions C64_changeext.
(** flag_prefix puts the flag before each name, and one blank between them. *)
Theorem C64_flag_prefix : forall pref x y l,
  flag_prefix pref [] = "" /\ flag_prefix pref [x] = (pref ++ x)%string /\
  flag_prefix pref (x :: y :: l) = (pref ++ x ++ " " ++ flag_prefix pref (y :: l))%string.
Proof. intros. unfold flag_prefix. cbn [map String.concat]. split; [reflexivity|]. split; [reflexivity|]. now rewrite app_str_assoc. Qed.
Print Assumptions C64_flag_prefix.
Example C64_case_flags : flag_prefix "-I" ["src"; "lib/include"] = "-Isrc -Ilib/include".
Proof. reflexivity. Qed.
Example C64_case : normpath "a//b/../../../c/./d/" = "../c/d" /\ normpath "//x/.." = "//" /\ normpath "" = "." /\
  normal_form "../c/d" /\ dirname "a//b" = "a" /\ basename "a//b" = "b" /\ splitext "d.x/.a" = ("d.x/.a", "") /\
  splitext "d/a.tar.gz" = ("d/a.tar", ".gz") /\ changeext "d/a.tar.gz" "o" = "d/a.tar.o" /\
  path_join "a/" "b" = "a/b" /\ path_join "a" "/b" = "/b".
Proof.
  repeat split. right. exists 0%nat, 1%nat, ["c"; "d"]. split; [lia|]. split.
  - repeat constructor; try discriminate; intros [H|[]]; discriminate.
  - split; [lia|]. split; [congruence|reflexivity].
Qed.
