(** Arithmetic of the helpers in Proto/Pb.v. *)

From Coq Require Import ZArith List Bool Lia ZifyBool ZifyNat.
From Verif Require Import Lib.Res Lib.Bytes.
From Verif Require Import Proto.Pb Proto.PbSpec.
Import ListNotations.
Local Open Scope Z_scope.
Ltac Zify.zify_post_hook ::= Z.to_euclidean_division_equations.

(** ** Bitwise operators as arithmetic *)
Lemma i32_id : forall z, half z -> i32 z = z.
Proof. intros z H. unfold i32. apply wraps_id; unfold half in H; lia. Qed.
Lemma i32_half : forall z, half (i32 z).
Proof.
  intros z. unfold i32, wraps, half. pose proof (signed_range 32 (z mod 2 ^ 32) ltac:(lia)) as H.
  apply H. apply Z.mod_pos_bound. lia.
Qed.
Lemma i32_eqm : forall z, exists k, i32 z = z + k * 2 ^ 32.
Proof.
  intros z. unfold i32, wraps, signed.
  destruct (_ <? _); [exists (- (z / 2 ^ 32))|exists (- (z / 2 ^ 32) - 1)];
    pose proof (Z.div_mod z (2 ^ 32) ltac:(lia)); lia.
Qed.
Lemma i32_unique : forall z y k, half y -> y = z + k * 2 ^ 32 -> i32 z = y.
Proof.
  intros z y k H E. destruct (i32_eqm z) as (k' & E'). pose proof (i32_half z) as H'. unfold half in *. lia.
Qed.
Lemma mod_i32 : forall z, i32 z mod 2 ^ 32 = z mod 2 ^ 32.
Proof. intros z. destruct (i32_eqm z) as (k & ->). apply Z_mod_plus_full. Qed.

Lemma lor_add : forall v x c, 0 <= c -> 0 <= v < 2 ^ c -> Z.lor v (x * 2 ^ c) = v + x * 2 ^ c.
Proof.
  intros v x c C V. assert (L : Z.land v (x * 2 ^ c) = 0).
  { apply Z.bits_inj'. intros n N. rewrite Z.land_spec, Z.bits_0, <- Z.shiftl_mul_pow2, Z.shiftl_spec by lia.
    destruct (Z_lt_ge_dec n c).
    - rewrite (Z.testbit_neg_r x) by lia. apply andb_false_r.
    - destruct (Z.eq_dec v 0) as [->|]; [rewrite Z.testbit_0_l; reflexivity|].
      rewrite (Z.bits_above_log2 v); [reflexivity|lia|]. apply Z.log2_lt_pow2; [lia|].
      apply Z.lt_le_trans with (2 ^ c); [lia|]. apply Z.pow_le_mono_r; lia. }
  rewrite Z.add_nocarry_lxor by exact L. rewrite Z.lxor_lor by exact L. reflexivity.
Qed.
Lemma jor_add : forall v x c, 0 <= c <= 31 -> 0 <= v < 2 ^ c -> half v -> half (x * 2 ^ c) ->
  jor v (x * 2 ^ c) = v + x * 2 ^ c.
Proof. intros v x c C V H1 H2. unfold jor. rewrite !i32_id by assumption. apply lor_add; [lia|exact V]. Qed.
Lemma jand_mask : forall z k, 0 <= k <= 30 -> half z -> jand z (2 ^ k - 1) = z mod 2 ^ k.
Proof.
  intros z k K H. unfold jand. rewrite (i32_id z H), i32_id.
  - rewrite Z.sub_1_r. change (Z.pred (2 ^ k)) with (Z.pred (2 ^ k)). rewrite <- Z.ones_equiv. apply Z.land_ones. lia.
  - unfold half. pose proof (Z.pow_le_mono_r 2 k 30 ltac:(lia) ltac:(lia)).
    pose proof (Z.pow_pos_nonneg 2 k ltac:(lia) ltac:(lia)). lia.
Qed.
Lemma shl_mul : forall z c, 0 <= c -> half z -> shl z c = i32 (z * 2 ^ c).
Proof. intros z c C H. unfold shl. rewrite (i32_id z H), Z.shiftl_mul_pow2 by lia. reflexivity. Qed.
Lemma shl_small : forall z c, 0 <= c -> half z -> half (z * 2 ^ c) -> shl z c = z * 2 ^ c.
Proof. intros z c C H H'. rewrite shl_mul, i32_id; auto. Qed.
Lemma shr_div : forall z c, 0 <= c -> half z -> shr z c = z / 2 ^ c.
Proof. intros z c C H. unfold shr. rewrite (i32_id z H), Z.shiftr_div_pow2 by lia. reflexivity. Qed.
Lemma ushr_div : forall z c, 0 <= c -> ushr z c = z mod 2 ^ 32 / 2 ^ c.
Proof. intros z c C. unfold ushr, wrapu. rewrite Z.shiftr_div_pow2 by lia. reflexivity. Qed.
(** a word shifted to the left is a multiple *)
Lemma shl_multiple : forall z c, 0 <= c <= 31 -> half z -> exists x, shl z c = x * 2 ^ c.
Proof.
  intros z c C H. rewrite shl_mul by (assumption || lia). destruct (i32_eqm (z * 2 ^ c)) as (k & ->).
  exists (z + k * 2 ^ (32 - c)). replace (2 ^ 32) with (2 ^ (32 - c) * 2 ^ c); [ring|].
  rewrite <- Z.pow_add_r by lia. f_equal. lia.
Qed.
(** .. and joins with what is below it *)
Lemma jor_shl : forall v z c, 0 <= c <= 31 -> 0 <= v < 2 ^ c -> half v -> half z ->
  jor v (shl z c) = i32 (v + z * 2 ^ c).
Proof.
  intros v z c C V Hv Hz. symmetry.
  destruct (i32_eqm (z * 2 ^ c)) as (k & E).
  destruct (shl_multiple z c C Hz) as (x & Ex).
  pose proof (i32_half (z * 2 ^ c)) as Hs. rewrite shl_mul in * by (assumption || lia).
  rewrite Ex in *. rewrite jor_add by assumption.
  apply i32_unique with k; [|lia].
  assert (P : 2 ^ 31 = 2 ^ (31 - c) * 2 ^ c) by (rewrite <- Z.pow_add_r by lia; f_equal; lia).
  assert (Q : 0 < 2 ^ c) by (apply Z.pow_pos_nonneg; lia).
  assert (R : 0 < 2 ^ (31 - c)) by (apply Z.pow_pos_nonneg; lia).
  unfold half in *. split; [lia|].
  assert (x < 2 ^ (31 - c)) by (apply (Z.mul_lt_mono_pos_r (2 ^ c)); lia).
  assert ((x + 1) * 2 ^ c <= 2 ^ (31 - c) * 2 ^ c) by (apply Z.mul_le_mono_nonneg_r; lia).
  lia.
Qed.

(** A property of bytes that computes. *)
Lemma bytes_all : forall f : Z -> bool, forallb (fun n => f (Z.of_nat n)) (seq 0 256) = true ->
  forall b, 0 <= b < 256 -> f b = true.
Proof.
  intros f H b B. rewrite forallb_forall in H. specialize (H (Z.to_nat b)).
  rewrite Z2Nat.id in H by lia. apply H. apply in_seq. lia.
Qed.
Lemma hi_bit : forall b, 0 <= b < 256 -> (jand b 0x80 =? 0) = (b <? 128).
Proof. intros b B. apply eqb_prop. revert b B. apply bytes_all. vm_compute. reflexivity. Qed.
Lemma low7 : forall b, half b -> jand b 0x7F = b mod 128.
Proof. intros b B. apply (jand_mask b 7); [lia|exact B]. Qed.

(** ** Varints *)
Lemma half_small : forall z, 0 <= z < 2 ^ 31 -> half z.
Proof. unfold half. lia. Qed.
Lemma pow128_S : forall k, 128 ^ Z.of_nat (S k) = 128 * 128 ^ Z.of_nat k.
Proof. intros. rewrite Nat2Z.inj_succ, Z.pow_succ_r; lia. Qed.
Lemma len_cons : forall b l, len (b :: l) = 1 + len l.
Proof. intros. unfold len. cbn [List.length]. lia. Qed.
Lemma len_app : forall a b, len (a ++ b) = len a + len b.
Proof. intros. unfold len. rewrite app_length. lia. Qed.
Lemma len_nonneg : forall l, 0 <= len l.
Proof. intros. unfold len. lia. Qed.

Lemma varint_ok : forall k n, 0 <= n -> bytes_ok (varint_n k n).
Proof.
  induction k; intros n N; cbn [varint_n]; [constructor|].
  destruct (n <? 128) eqn:E.
  - constructor; [unfold byte_ok; lia|constructor].
  - constructor; [unfold byte_ok; lia|]. apply IHk. lia.
Qed.

Lemma varint32_read : forall k n c v o post,
  (0 < k)%nat -> 0 <= n < 128 ^ Z.of_nat k -> 0 <= c < 32 -> 0 <= v < 2 ^ c -> half v -> v + n * 2 ^ c < 2 ^ 32 ->
  varint32_loop (varint_n k n ++ post) c v o = Ok (i32 (v + n * 2 ^ c), o + len (varint_n k n)).
Proof.
  induction k; intros n c v o post K N C V Hv B.
  - lia.
  - rewrite pow128_S in N. cbn [varint_n].
    assert (P : 0 < 2 ^ c) by (apply Z.pow_pos_nonneg; lia).
    destruct (n <? 128) eqn:E; cbn [app varint32_loop].
    + replace (c <? 32) with true by lia.
      rewrite hi_bit by lia. rewrite E. cbn [negb]. rewrite low7 by (apply half_small; lia).
      rewrite Z.mod_small by lia. rewrite jor_shl; [reflexivity|lia|exact V|exact Hv|apply half_small; lia].
    + replace (c <? 32) with true by lia.
      rewrite hi_bit by lia. replace (128 + n mod 128 <? 128) with false by lia. cbn [negb].
      rewrite low7 by (apply half_small; lia).
      replace ((128 + n mod 128) mod 128) with (n mod 128) by lia.
      assert (C7 : c + 7 < 32).
      { assert (~ 32 <= c + 7); [|lia]. intros L. assert (2 ^ 25 <= 2 ^ c) by (apply Z.pow_le_mono_r; lia).
        assert (128 * 2 ^ 25 <= n * 2 ^ c) by (apply Z.mul_le_mono_nonneg; lia). lia. }
      assert (P7 : 2 ^ (c + 7) = 128 * 2 ^ c) by (rewrite Z.pow_add_r by lia; lia).
      assert (Q : 2 ^ (c + 7) <= 2 ^ 31) by (apply Z.pow_le_mono_r; lia).
      set (p := 2 ^ c) in *. set (d := n mod 128). set (q := n / 128).
      assert (En : n = 128 * q + d) by (subst q d; lia).
      assert (D : 0 <= d < 128) by (subst d; lia).
      assert (M : v + d * p < 128 * p) by nia.
      rewrite jor_shl; [|lia|exact V|exact Hv|apply half_small; lia].
      rewrite i32_id by (apply half_small; fold p; nia).
      fold p. rewrite (IHk q (c + 7) (v + d * p) (o + 1) post).
      * rewrite len_cons. rewrite P7. fold p. f_equal. f_equal; [f_equal; nia|lia].
      * destruct k; [cbn in N; lia|lia].
      * subst q. lia.
      * lia.
      * rewrite P7. nia.
      * apply half_small. nia.
      * rewrite P7. fold p. nia.
Qed.

(** ** Positions in a message *)
Lemma byte_at_app : forall pre b post, byte_at (pre ++ b :: post) (len pre) = b.
Proof.
  intros. unfold byte_at, len. replace (_ <? 0) with false by lia. rewrite Nat2Z.id.
  rewrite app_nth2 by lia. rewrite Nat.sub_diag. reflexivity.
Qed.
Lemma skipn_len : forall pre post, skipn (Z.to_nat (len pre)) (pre ++ post) = post.
Proof. intros. unfold len. rewrite Nat2Z.id, skipn_app, skipn_all, Nat.sub_diag. reflexivity. Qed.
Lemma size_app : forall pre post, size (pre ++ post) = len pre + len post.
Proof. intros. unfold size, len. rewrite app_length. lia. Qed.
Lemma read_byte_at : forall pre b post, readByte (pre ++ b :: post) (len pre) = Ok (b, len pre + 1).
Proof.
  intros. unfold readByte, advance. rewrite size_app, len_cons. pose proof (len_nonneg post).
  replace (_ <? _) with false by lia. cbn [bind]. rewrite byte_at_app. reflexivity.
Qed.
Lemma read_varint32 : forall pre n post, 0 <= n < 2 ^ 32 ->
  readVarint32 (pre ++ varint n ++ post) (len pre) = Ok (i32 n, len pre + len (varint n)).
Proof.
  intros pre n post N. unfold readVarint32. pose proof (len_nonneg pre).
  replace (_ <? 0) with false by lia. rewrite skipn_len. unfold varint.
  rewrite varint32_read; [f_equal; f_equal; f_equal; lia| | | | | |].
  - lia.
  - change (128 ^ Z.of_nat 10) with (2 ^ 70). lia.
  - lia.
  - lia.
  - apply half_small. lia.
  - change (2 ^ 0) with 1. lia.
Qed.
Lemma slice_app : forall pre s post, slice (pre ++ s ++ post) (len pre) (len s) = s.
Proof.
  intros. unfold slice. replace (Z.to_nat (len s)) with (List.length s) by (unfold len; lia).
  assert (G : forall s pre, map (fun i => byte_at (pre ++ s ++ post) (len pre + Z.of_nat i)) (seq 0 (List.length s)) = s).
  { clear. induction s as [|b s IH]; intros pre; [reflexivity|]. cbn [List.length seq map].
    rewrite Z.add_0_r. cbn [app]. rewrite byte_at_app. f_equal.
    rewrite <- seq_shift, map_map. rewrite <- (IH (pre ++ [b])) at 2. apply map_ext. intros i.
    rewrite <- app_assoc. cbn [app]. rewrite len_app, len_cons. f_equal. cbn. lia. }
  apply G.
Qed.
