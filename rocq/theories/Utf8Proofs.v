(** The UTF-8 check of ProcessModel.v accepts exactly the encodings of scalar values. *)
From Verif Require Import PyBase ProcessModel SpecProcess.
Local Open Scope list_scope.
Local Open Scope Z_scope.
Ltac Zify.zify_post_hook ::= Z.div_mod_to_equations.

Lemma between_code lo hi c : between lo hi c = true <-> Z.of_nat lo <= code c <= Z.of_nat hi.
Proof. unfold between, code. rewrite Bool.andb_true_iff, !Nat.leb_le. lia. Qed.
Lemma between_no lo hi c : between lo hi c = false <-> code c < Z.of_nat lo \/ Z.of_nat hi < code c.
Proof.
  destruct (between lo hi c) eqn:E; [apply between_code in E; split; [discriminate|lia]|].
  split; [|auto]. intros _. destruct (Z_lt_dec (code c) (Z.of_nat lo)) as [H|H]; [auto|].
  destruct (Z_lt_dec (Z.of_nat hi) (code c)) as [H'|H']; [auto|].
  assert (T : between lo hi c = true) by (apply between_code; lia). congruence.
Qed.
Lemma eqb_code c n : Nat.eqb (nat_of_ascii c) n = true <-> code c = Z.of_nat n.
Proof. unfold code. rewrite Nat.eqb_eq. lia. Qed.
Lemma code_range c : 0 <= code c < 256.
Proof. unfold code. pose proof (nat_ascii_bounded c). lia. Qed.

Lemma lohi (b : bool) (x y : nat) z : Z.of_nat (if b then x else y) <= z <-> (b = true -> Z.of_nat x <= z) /\ (b = false -> Z.of_nat y <= z).
Proof. destruct b; intuition. Qed.
Lemma lohi' (b : bool) (x y : nat) z : z <= Z.of_nat (if b then x else y) <-> (b = true -> z <= Z.of_nat x) /\ (b = false -> z <= Z.of_nat y).
Proof. destruct b; intuition. Qed.

Lemma sound : forall k l, (List.length l <= k)%nat -> utf8_ok l = true -> utf8_text l.
Proof.
  induction k as [|k IH]; intros l Hl H.
  { destruct l; [|cbn in Hl; lia]. exists []. split; [constructor|reflexivity]. }
  assert (G : forall l1 l2 n, l = l1 ++ l2 -> (1 <= List.length l1)%nat -> scalar n -> map code l1 = encode n -> utf8_ok l2 = true -> utf8_text l).
  { intros l1 l2 n -> H1 Hn E H2. rewrite app_length in Hl. destruct (IH l2) as (ns & F & E2); [lia|exact H2|].
    exists (n :: ns). split; [now constructor|]. cbn. now rewrite map_app, E, E2. }
  destruct l as [|c l1]; [exists []; split; [constructor|reflexivity]|]. cbn [utf8_ok] in H.
  pose proof (code_range c) as Rc.
  destruct (between 0 127 c) eqn:B0.
  { apply between_code in B0. apply (G [c] l1 (code c)); auto; [unfold scalar; lia|]. unfold encode.
    destruct (Z.ltb_spec (code c) 128); [reflexivity|lia]. }
  apply between_no in B0. destruct l1 as [|c1 l2]; [discriminate|]. pose proof (code_range c1) as Rc1.
  destruct (between 194 223 c) eqn:B1.
  { apply between_code in B1. apply Bool.andb_true_iff in H. destruct H as [H1 H2]. apply between_code in H1.
    apply (G [c; c1] l2 ((code c - 192) * 64 + (code c1 - 128))); auto; [cbn; lia|unfold scalar; lia|]. unfold encode.
    destruct (Z.ltb_spec ((code c - 192) * 64 + (code c1 - 128)) 128); [lia|].
    destruct (Z.ltb_spec ((code c - 192) * 64 + (code c1 - 128)) 2048); [|lia]. cbn [map]. f_equal; [|f_equal]; lia. }
  apply between_no in B1. destruct l2 as [|c2 l3]; [discriminate|]. pose proof (code_range c2) as Rc2.
  destruct (between 224 239 c) eqn:B2.
  { apply between_code in B2. apply Bool.andb_true_iff in H. destruct H as [H H3]. apply Bool.andb_true_iff in H. destruct H as [H1 H2].
    apply between_code in H1, H2. destruct H1 as [H1 H1']. apply lohi in H1. apply lohi' in H1'.
    rewrite !eqb_code in H1, H1'. destruct H1 as [L1 L2], H1' as [L3 L4].
    assert (N1 : (Nat.eqb (nat_of_ascii c) 224) = false <-> code c <> 224) by (rewrite <- Bool.not_true_iff_false, eqb_code; lia).
    assert (N2 : (Nat.eqb (nat_of_ascii c) 237) = false <-> code c <> 237) by (rewrite <- Bool.not_true_iff_false, eqb_code; lia).
    rewrite N1 in L2. rewrite N2 in L4.
    set (n := (code c - 224) * 4096 + (code c1 - 128) * 64 + (code c2 - 128)).
    assert (Rn : 2048 <= n < 65536 /\ ~ (55296 <= n < 57344)).
    { unfold n. destruct (Z.eq_dec (code c) 224); [specialize (L1 e)|specialize (L2 n0)]; (destruct (Z.eq_dec (code c) 237) as [e2|e2]; [specialize (L3 e2)|specialize (L4 e2)]); lia. }
    apply (G [c; c1; c2] l3 n); auto; [cbn; lia|unfold scalar; lia|]. unfold encode.
    destruct (Z.ltb_spec n 128); [lia|]. destruct (Z.ltb_spec n 2048); [lia|]. destruct (Z.ltb_spec n 65536); [|lia].
    assert (128 <= code c1 <= 191) by (destruct (Z.eq_dec (code c) 224) as [e|e]; [specialize (L1 e)|specialize (L2 e)]; (destruct (Z.eq_dec (code c) 237) as [e2|e2]; [specialize (L3 e2)|specialize (L4 e2)]); lia).
    clear L1 L2 L3 L4 N1 N2. cbn [map]. unfold n. f_equal; [|f_equal; [|f_equal]]; lia. }
  apply between_no in B2. destruct l3 as [|c3 l4]; [discriminate|]. pose proof (code_range c3) as Rc3.
  do 4 (apply Bool.andb_true_iff in H; let H' := fresh "K" in destruct H as [H H']).
  apply between_code in H, K0, K1, K2. destruct K2 as [H1 H1']. apply lohi in H1. apply lohi' in H1'.
  rewrite !eqb_code in H1, H1'. destruct H1 as [L1 L2], H1' as [L3 L4].
  assert (N1 : (Nat.eqb (nat_of_ascii c) 240) = false <-> code c <> 240) by (rewrite <- Bool.not_true_iff_false, eqb_code; lia).
  assert (N2 : (Nat.eqb (nat_of_ascii c) 244) = false <-> code c <> 244) by (rewrite <- Bool.not_true_iff_false, eqb_code; lia).
  rewrite N1 in L2. rewrite N2 in L4.
  set (n := (code c - 240) * 262144 + (code c1 - 128) * 4096 + (code c2 - 128) * 64 + (code c3 - 128)).
  assert (R1 : 128 <= code c1 <= 191 /\ (code c = 240 -> 144 <= code c1) /\ (code c = 244 -> code c1 <= 143)).
  { destruct (Z.eq_dec (code c) 240) as [e|e]; [specialize (L1 e)|specialize (L2 e)]; (destruct (Z.eq_dec (code c) 244) as [e2|e2]; [specialize (L3 e2)|specialize (L4 e2)]); lia. }
  assert (Rn : 65536 <= n < 1114112) by (unfold n; lia).
  apply (G [c; c1; c2; c3] l4 n); auto; [cbn; lia|unfold scalar; lia|]. unfold encode.
  destruct (Z.ltb_spec n 128); [lia|]. destruct (Z.ltb_spec n 2048); [lia|]. destruct (Z.ltb_spec n 65536); [lia|].
  clear L1 L2 L3 L4 N1 N2. cbn [map]. unfold n. f_equal; [|f_equal; [|f_equal; [|f_equal]]]; lia.
Qed.

Lemma map_cons {A B} (f : A -> B) l y l' : map f l = y :: l' -> exists x k, l = x :: k /\ f x = y /\ map f k = l'.
Proof. destruct l as [|x k]; [discriminate|]. cbn. intros [= <- <-]. eauto. Qed.

Lemma complete : forall ns l, Forall scalar ns -> map code l = flat_map encode ns -> utf8_ok l = true.
Proof.
  induction ns as [|n ns IH]; intros l F E; [destruct l; [reflexivity|discriminate]|].
  inversion F as [|? ? Hn Fn]; subst. cbn [flat_map] in E. unfold encode in E at 1. unfold scalar in Hn.
  destruct (Z.ltb_spec n 128).
  { cbn [app] in E. apply map_cons in E. destruct E as (c & l1 & -> & Ec & E). cbn [utf8_ok].
    rewrite (proj2 (between_code 0 127 c)) by lia. now apply IH. }
  destruct (Z.ltb_spec n 2048).
  { cbn [app] in E. apply map_cons in E. destruct E as (c & l1 & -> & Ec & E).
    apply map_cons in E. destruct E as (c1 & l2 & -> & Ec1 & E). cbn [utf8_ok].
    rewrite (proj2 (between_no 0 127 c)) by lia. rewrite (proj2 (between_code 194 223 c)) by lia.
    rewrite (proj2 (between_code 128 191 c1)) by lia. cbn [andb]. now apply IH. }
  destruct (Z.ltb_spec n 65536).
  { cbn [app] in E. apply map_cons in E. destruct E as (c & l1 & -> & Ec & E).
    apply map_cons in E. destruct E as (c1 & l2 & -> & Ec1 & E).
    apply map_cons in E. destruct E as (c2 & l3 & -> & Ec2 & E). cbn [utf8_ok].
    rewrite (proj2 (between_no 0 127 c)) by lia. rewrite (proj2 (between_no 194 223 c)) by lia.
    rewrite (proj2 (between_code 224 239 c)) by lia.
    rewrite (proj2 (between_code _ _ c1)).
    2:{ rewrite lohi, lohi'. rewrite <- !Bool.not_true_iff_false, !eqb_code. split; (split; intros; lia). }
    rewrite (proj2 (between_code 128 191 c2)) by lia. cbn [andb]. now apply IH. }
  cbn [app] in E. apply map_cons in E. destruct E as (c & l1 & -> & Ec & E).
  apply map_cons in E. destruct E as (c1 & l2 & -> & Ec1 & E).
  apply map_cons in E. destruct E as (c2 & l3 & -> & Ec2 & E).
  apply map_cons in E. destruct E as (c3 & l4 & -> & Ec3 & E). cbn [utf8_ok].
  rewrite (proj2 (between_no 0 127 c)) by lia. rewrite (proj2 (between_no 194 223 c)) by lia.
  rewrite (proj2 (between_no 224 239 c)) by lia. rewrite (proj2 (between_code 240 244 c)) by lia.
  rewrite (proj2 (between_code _ _ c1)).
  2:{ rewrite lohi, lohi'. rewrite <- !Bool.not_true_iff_false, !eqb_code. split; (split; intros; lia). }
  rewrite (proj2 (between_code 128 191 c2)) by lia. rewrite (proj2 (between_code 128 191 c3)) by lia. cbn [andb]. now apply IH.
Qed.

Lemma utf8_ok_iff l : utf8_ok l = true <-> utf8_text l.
Proof.
  split; [apply (sound (List.length l)); apply le_n|]. intros (ns & F & E). eapply complete; eauto.
Qed.
