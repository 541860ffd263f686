(** Writing 64-bit numbers: Proto/Pb.v against Proto/PbSpec.v. *)

From Coq Require Import ZArith List Bool Lia ZifyBool ZifyNat.
From Verif Require Import Lib.Res Lib.Bytes.
From Verif Require Import Proto.Pb Proto.PbSpec Proto.PbFacts Proto.TextFacts.
Import ListNotations.
Local Open Scope Z_scope.
Ltac Zify.zify_post_hook ::= Z.to_euclidean_division_equations.

Lemma write_more : forall x, writeByte (jor x 0x80) = [128 + x mod 128].
Proof.
  intros x. unfold writeByte, wrapu, jor. rewrite (i32_id 0x80) by (apply half_small; lia). f_equal.
  rewrite <- Z.land_ones, Z.land_lor_distr_l, Z.land_ones by lia. change (Z.land 128 (Z.ones 8)) with 128.
  assert (E : i32 x mod 2 ^ 8 = x mod 2 ^ 8) by (destruct (i32_eqm x) as (k & ->); lia). rewrite E.
  assert (F : (Z.lor (x mod 2 ^ 8) 128 =? 128 + x mod 2 ^ 8 mod 128) = true).
  { apply (bytes_all (fun r => Z.lor r 128 =? 128 + r mod 128)); [vm_compute; reflexivity|lia]. }
  apply Z.eqb_eq in F. rewrite F. lia.
Qed.
Lemma write_last : forall x, writeByte (jand x 0x7F) = [x mod 128].
Proof.
  intros x. unfold jand. rewrite (i32_id 0x7F) by (apply half_small; lia). change 0x7F with (Z.ones 7). rewrite Z.land_ones by lia.
  assert (E : i32 x mod 2 ^ 7 = x mod 128) by (destruct (i32_eqm x) as (k & ->); lia). rewrite E. apply write_byte. lia.
Qed.
Definition digit (n : Z) (i : nat) : Z := n / 128 ^ Z.of_nat i mod 128.
Lemma varint_digits : forall j k n, (j < k)%nat -> 0 <= n < 128 ^ Z.of_nat (S j) -> (j = 0%nat \/ 128 ^ Z.of_nat j <= n) ->
  varint_n k n = map (fun i => 128 + digit n i) (seq 0 j) ++ [digit n j].
Proof.
  induction j; intros k n K N L; (destruct k; [lia|]); cbn [varint_n].
  - cbn in N. replace (n <? 128) with true by lia. unfold digit. cbn [seq map app].
    change (128 ^ Z.of_nat 0) with 1. rewrite Z.div_1_r, Z.mod_small by lia. reflexivity.
  - destruct L as [L|L]; [lia|]. rewrite pow128_S in L. rewrite pow128_S in N.
    assert (P : 0 < 128 ^ Z.of_nat j) by (apply Z.pow_pos_nonneg; lia).
    replace (n <? 128) with false by lia. rewrite (IHj k (n / 128)) by (try lia).
    assert (D : forall i, digit (n / 128) i = digit n (S i)).
    { intros i. unfold digit. rewrite pow128_S, Z.div_div by (try apply Z.pow_pos_nonneg; lia). reflexivity. }
    cbn [seq map app]. f_equal.
    + unfold digit. change (128 ^ Z.of_nat 0) with 1. rewrite Z.div_1_r. reflexivity.
    + rewrite <- seq_shift, map_map, D. f_equal. apply map_ext. intros i. rewrite D. reflexivity.
Qed.
Lemma write64 : forall lo hi, half lo -> half hi -> writeVarint64 lo hi = varint (long_value lo hi mod 2 ^ 64).
Proof.
  intros lo hi L H. unfold writeVarint64. set (n := long_value lo hi mod 2 ^ 64).
  assert (N : 0 <= n < 2 ^ 64) by (subst n; lia).
  assert (P0 : ushr lo 0 = n mod 2 ^ 32).
  { rewrite ushr_div by lia. change (2 ^ 0) with 1. rewrite Z.div_1_r. subst n. unfold long_value. lia. }
  assert (P2 : ushr hi 24 = n / 2 ^ 56).
  { rewrite ushr_div by lia. subst n. unfold long_value. lia. }
  assert (P1 : ushr (jor (ushr lo 28) (shl hi 4)) 0 = n / 2 ^ 28 mod 2 ^ 32).
  { rewrite (ushr_div lo) by lia. rewrite jor_shl by (try assumption; try apply half_small; lia).
    rewrite ushr_div, mod_i32 by lia. change (2 ^ 0) with 1. rewrite Z.div_1_r. subst n. unfold long_value. lia. }
  rewrite P0, P1, P2. clearbody n. clear P0 P1 P2 L H lo hi.
  assert (D : forall i, digit n i = n / 128 ^ Z.of_nat i mod 128) by reflexivity.
  assert (Q : forall p a, 0 <= a -> ushr (p mod 2 ^ 32) a = p mod 2 ^ 32 / 2 ^ a).
  { intros p a A. rewrite ushr_div by lia. rewrite Z.mod_mod by lia. reflexivity. }
  rewrite !Q by lia. rewrite (ushr_div (n / 2 ^ 56)) by lia.
  assert (D0 : (n mod 2 ^ 32) mod 128 = digit n 0) by (rewrite D; change (128 ^ Z.of_nat 0) with 1; lia).
  assert (D1 : (n mod 2 ^ 32 / 2 ^ 7) mod 128 = digit n 1) by (rewrite D; change (128 ^ Z.of_nat 1) with (2 ^ 7); lia).
  assert (D2 : (n mod 2 ^ 32 / 2 ^ 14) mod 128 = digit n 2) by (rewrite D; change (128 ^ Z.of_nat 2) with (2 ^ 14); lia).
  assert (D3 : (n mod 2 ^ 32 / 2 ^ 21) mod 128 = digit n 3) by (rewrite D; change (128 ^ Z.of_nat 3) with (2 ^ 21); lia).
  assert (D4 : (n / 2 ^ 28 mod 2 ^ 32) mod 128 = digit n 4) by (rewrite D; change (128 ^ Z.of_nat 4) with (2 ^ 28); lia).
  assert (D5 : (n / 2 ^ 28 mod 2 ^ 32 / 2 ^ 7) mod 128 = digit n 5) by (rewrite D; change (128 ^ Z.of_nat 5) with (2 ^ 35); lia).
  assert (D6 : (n / 2 ^ 28 mod 2 ^ 32 / 2 ^ 14) mod 128 = digit n 6) by (rewrite D; change (128 ^ Z.of_nat 6) with (2 ^ 42); lia).
  assert (D7 : (n / 2 ^ 28 mod 2 ^ 32 / 2 ^ 21) mod 128 = digit n 7) by (rewrite D; change (128 ^ Z.of_nat 7) with (2 ^ 49); lia).
  assert (D8 : (n / 2 ^ 56) mod 128 = digit n 8) by (rewrite D; change (128 ^ Z.of_nat 8) with (2 ^ 56); lia).
  assert (D9 : writeByte (jand ((n / 2 ^ 56) mod 2 ^ 32 / 2 ^ 7) 1) = [digit n 9]).
  { unfold jand. rewrite !i32_id by (apply half_small; lia). change 1 with (Z.ones 1) at 1. rewrite Z.land_ones by lia.
    rewrite write_byte by lia. f_equal. rewrite D. change (128 ^ Z.of_nat 9) with (2 ^ 63). lia. }
  rewrite D9. clear D9 D Q.
  assert (W : forall x : Z, [128 + x mod 128] = writeByte (jor x 0x80)) by (intros; symmetry; apply write_more).
  unfold varint, varint64_size.
  assert (F : forall j, (j < 10)%nat -> n < 128 ^ Z.of_nat (S j) -> (j = 0%nat \/ 128 ^ Z.of_nat j <= n) ->
    varint_n 10 n = map (fun i => 128 + digit n i) (seq 0 j) ++ [digit n j]).
  { intros j J A B. apply varint_digits; [exact J|lia|exact B]. }
  Ltac done_w := cbn [Z.eqb Pos.eqb]; rewrite ?write_more, ?write_last; cbn [app firstn Z.to_nat Pos.to_nat Pos.iter_op Nat.add seq map]; repeat match goal with H : _ = digit _ _ |- _ => try rewrite H; clear H end; reflexivity.
  destruct (n / 2 ^ 56 =? 0) eqn:E2; [destruct (n / 2 ^ 28 mod 2 ^ 32 =? 0) eqn:E1|].
  - destruct (n mod 2 ^ 32 <? 2 ^ 14) eqn:E; [destruct (n mod 2 ^ 32 <? 2 ^ 7) eqn:E'|destruct (n mod 2 ^ 32 <? 2 ^ 21) eqn:E'].
    + rewrite (F 0%nat) by (cbn; lia). done_w.
    + rewrite (F 1%nat) by (cbn; lia). done_w.
    + rewrite (F 2%nat) by (cbn; lia). done_w.
    + rewrite (F 3%nat) by (cbn; lia). done_w.
  - destruct (n / 2 ^ 28 mod 2 ^ 32 <? 2 ^ 14) eqn:E; [destruct (n / 2 ^ 28 mod 2 ^ 32 <? 2 ^ 7) eqn:E'|destruct (n / 2 ^ 28 mod 2 ^ 32 <? 2 ^ 21) eqn:E'].
    + rewrite (F 4%nat) by (cbn; lia). done_w.
    + rewrite (F 5%nat) by (cbn; lia). done_w.
    + rewrite (F 6%nat) by (cbn; lia). done_w.
    + rewrite (F 7%nat) by (cbn; lia). done_w.
  - destruct (n / 2 ^ 56 <? 2 ^ 7) eqn:E.
    + rewrite (F 8%nat) by (cbn; lia). done_w.
    + rewrite (F 9%nat) by (cbn; lia). done_w.
Qed.
