(** Texts and 64-bit numbers: the helpers of Proto/Pb.v against Proto/PbSpec.v. *)

From Coq Require Import ZArith List Bool Lia ZifyBool ZifyNat.
From Verif Require Import Lib.Res Lib.Bytes.
From Verif Require Import Proto.Pb Proto.PbSpec Proto.PbFacts.
Import ListNotations.
Local Open Scope Z_scope.
Ltac Zify.zify_post_hook ::= Z.to_euclidean_division_equations.

(** ** Reading UTF-8 *)
Lemma land_split : forall k a b m n, 0 <= k -> 0 <= a < 2 ^ k -> 0 <= m < 2 ^ k ->
  Z.land (a + b * 2 ^ k) (m + n * 2 ^ k) = Z.land a m + Z.land b n * 2 ^ k.
Proof.
  intros k a b m n K A M. rewrite <- !lor_add by lia.
  assert (L : 0 <= Z.land a m < 2 ^ k).
  { split; [apply Z.land_nonneg; lia|]. destruct (Z.eq_dec (Z.land a m) 0) as [->|N]; [lia|].
    assert (0 <= Z.land a m) by (apply Z.land_nonneg; lia).
    apply Z.log2_lt_pow2; [lia|]. destruct (Z.eq_dec a 0) as [->|]; [rewrite Z.land_0_l in N; lia|].
    apply Z.le_lt_trans with (Z.log2 a).
    - etransitivity; [apply Z.log2_land; lia|]. apply Z.le_min_l.
    - apply Z.log2_lt_pow2; lia. }
  rewrite <- lor_add by lia. rewrite <- !Z.shiftl_mul_pow2 by lia. apply Z.bits_inj'. intros i I.
  repeat rewrite ?Z.land_spec, ?Z.lor_spec. rewrite !Z.shiftl_spec by lia. rewrite Z.land_spec.
  destruct (Z_lt_ge_dec i k).
  - rewrite !(Z.testbit_neg_r _ (i - k)) by lia. rewrite !orb_false_r. reflexivity.
  - assert (T : forall x, 0 <= x < 2 ^ k -> Z.testbit x i = false).
    { intros x X. destruct (Z.eq_dec x 0) as [->|]; [apply Z.testbit_0_l|].
      apply Z.bits_above_log2; [lia|]. apply Z.lt_le_trans with k; [|lia]. apply Z.log2_lt_pow2; lia. }
    rewrite !T by lia. reflexivity.
Qed.

Definition tail_byte (b : Z) : Prop := 128 <= b < 192.
Lemma tail_land : forall b, tail_byte b -> Z.land b 0xC0 = 0x80.
Proof.
  intros b B. assert (H : (if b <? 128 then true else if b <? 192 then Z.land b 0xC0 =? 0x80 else true) = true).
  { apply (bytes_all (fun b => if b <? 128 then true else if b <? 192 then Z.land b 0xC0 =? 0x80 else true));
      [vm_compute; reflexivity|unfold tail_byte in B; lia]. }
  unfold tail_byte in B. replace (b <? 128) with false in H by lia. replace (b <? 192) with true in H by lia. lia.
Qed.
Lemma two_tails : forall b c, tail_byte b -> tail_byte c -> jand (jor b (shl c 8)) 0xC0C0 = 0x8080.
Proof.
  intros b c B C. unfold tail_byte in *. rewrite jor_shl; [|lia|lia|apply half_small; lia|apply half_small; lia].
  rewrite i32_id by (apply half_small; lia). unfold jand. rewrite !i32_id by (apply half_small; lia).
  change 0xC0C0 with (0xC0 + 0xC0 * 2 ^ 8). rewrite land_split by lia. rewrite !tail_land by assumption. reflexivity.
Qed.
Lemma three_tails : forall b c d, tail_byte b -> tail_byte c -> tail_byte d ->
  jand (jor (jor b (shl c 8)) (shl d 16)) 0xC0C0C0 = 0x808080.
Proof.
  intros b c d B C D. unfold tail_byte in *.
  rewrite (jor_shl b c 8); [|lia|lia|apply half_small; lia|apply half_small; lia].
  rewrite (i32_id (b + c * 2 ^ 8)) by (apply half_small; lia).
  rewrite jor_shl; [|lia|lia|apply half_small; lia|apply half_small; lia].
  rewrite i32_id by (apply half_small; lia). unfold jand. rewrite !i32_id by (apply half_small; lia).
  change 0xC0C0C0 with ((0xC0 + 0xC0 * 2 ^ 8) + 0xC0 * 2 ^ 16). rewrite land_split by lia. rewrite land_split by lia.
  rewrite !tail_land by assumption. reflexivity.
Qed.
Lemma low6 : forall b, 0 <= b < 64 -> jand (128 + b) 0x3F = b.
Proof. intros b B. etransitivity; [apply (jand_mask _ 6); [lia|apply half_small; lia]|lia]. Qed.

(** the first byte says how many follow *)
Lemma lead1 : forall c, 0 <= c < 128 -> (jand c 0x80 =? 0) = true.
Proof. intros c C. rewrite hi_bit; lia. Qed.
Definition lead2b (c : Z) : bool :=
  negb (jand c 0x80 =? 0) && (jand c 0xE0 =? 0xC0) && (jand c 0x1F =? c - 192).
Definition lead3b (c : Z) : bool :=
  negb (jand c 0x80 =? 0) && negb (jand c 0xE0 =? 0xC0) && (jand c 0xF0 =? 0xE0) && (jand c 0x0F =? c - 224).
Definition lead4b (c : Z) : bool :=
  negb (jand c 0x80 =? 0) && negb (jand c 0xE0 =? 0xC0) && negb (jand c 0xF0 =? 0xE0) && (jand c 0xF8 =? 0xF0)
  && (jand c 0x07 =? c - 240).
Lemma lead2 : forall c, 192 <= c < 224 -> lead2b c = true.
Proof.
  intros c C. pose proof (bytes_all (fun c => negb ((192 <=? c) && (c <? 224)) || lead2b c) ltac:(vm_compute; reflexivity) c ltac:(lia)).
  cbv beta in *. apply orb_true_iff in H. destruct H as [H|H]; [lia|exact H].
Qed.
Lemma lead3 : forall c, 224 <= c < 240 -> lead3b c = true.
Proof.
  intros c C. pose proof (bytes_all (fun c => negb ((224 <=? c) && (c <? 240)) || lead3b c) ltac:(vm_compute; reflexivity) c ltac:(lia)).
  cbv beta in *. apply orb_true_iff in H. destruct H as [H|H]; [lia|exact H].
Qed.
Lemma lead4 : forall c, 240 <= c < 248 -> lead4b c = true.
Proof.
  intros c C. pose proof (bytes_all (fun c => negb ((240 <=? c) && (c <? 248)) || lead4b c) ltac:(vm_compute; reflexivity) c ltac:(lia)).
  cbv beta in *. apply orb_true_iff in H. destruct H as [H|H]; [lia|exact H].
Qed.

(** groups of six bits are joined from the left; here from the right *)
Lemma jor_comm : forall a b, jor a b = jor b a.
Proof. intros. unfold jor. apply Z.lor_comm. Qed.
Lemma jor_low : forall x k r, 0 <= k <= 30 -> 0 <= r < 2 ^ k -> 0 <= x * 2 ^ k < 2 ^ 31 -> 0 <= x ->
  jor (x * 2 ^ k) r = x * 2 ^ k + r.
Proof.
  intros x k r K R X X0. assert (0 < 2 ^ k) by (apply Z.pow_pos_nonneg; lia).
  assert (2 ^ k <= 2 ^ 30) by (apply Z.pow_le_mono_r; lia).
  rewrite jor_comm, jor_add; [lia|lia|lia|apply half_small; lia|apply half_small; lia].
Qed.

Lemma read_point : forall c rest, scalar c -> read_units (utf8_point c ++ rest) = utf16_point c ++ read_units rest.
Proof.
  intros c rest S. unfold scalar in S. unfold utf8_point, utf16_point.
  destruct (c <? 0x80) eqn:E1.
  { replace (c <? 0x10000) with true by lia. cbn [app read_units]. rewrite lead1 by lia. reflexivity. }
  destruct (c <? 0x800) eqn:E2.
  { replace (c <? 0x10000) with true by lia. cbn [app read_units].
    assert (L : lead2b (192 + c / 64) = true) by (apply lead2; lia). unfold lead2b in L.
    apply andb_prop in L as (L & L3). apply andb_prop in L as (L1 & L2). apply negb_true_iff in L1. rewrite L1, L2.
    assert (T : tail_byte (128 + c mod 64)) by (unfold tail_byte; lia).
    assert (TL : jand (128 + c mod 64) 0xC0 = 0x80).
    { unfold jand. rewrite !i32_id by (apply half_small; lia). apply tail_land. exact T. }
    rewrite TL. cbn [Z.eqb Pos.eqb negb]. rewrite low6 by lia. replace (jand (192 + c / 64) 31) with (c / 64) by lia.
    rewrite shl_small by (try apply half_small; lia). rewrite jor_low by lia.
    replace (c / 64 * 2 ^ 6 + c mod 64) with c by lia. rewrite E1. reflexivity. }
  destruct (c <? 0x10000) eqn:E3.
  { cbn [app read_units].
    assert (L : lead3b (224 + c / 4096) = true) by (apply lead3; lia). unfold lead3b in L.
    apply andb_prop in L as (L & L4). apply andb_prop in L as (L & L3). apply andb_prop in L as (L1 & L2).
    apply negb_true_iff in L1, L2. rewrite L1, L2, L3.
    assert (T : tail_byte (128 + c / 64 mod 64)) by (unfold tail_byte; lia).
    assert (T' : tail_byte (128 + c mod 64)) by (unfold tail_byte; lia).
    rewrite two_tails by assumption. cbn [Z.eqb Pos.eqb negb]. rewrite !low6 by lia.
    replace (jand (224 + c / 4096) 15) with (c / 4096) by lia.
    rewrite !shl_small by (try apply half_small; lia). rewrite (jor_low (c / 4096)) by lia.
    replace (c / 4096 * 2 ^ 12 + c / 64 mod 64 * 2 ^ 6) with (c / 64 * 2 ^ 6) by lia. rewrite jor_low by lia.
    replace (c / 64 * 2 ^ 6 + c mod 64) with c by lia. rewrite E2. replace (_ && _) with false by lia. reflexivity. }
  cbn [app read_units].
  assert (L : lead4b (240 + c / 262144) = true) by (apply lead4; lia). unfold lead4b in L.
  apply andb_prop in L as (L & L5). apply andb_prop in L as (L & L4). apply andb_prop in L as (L & L3). apply andb_prop in L as (L1 & L2).
  apply negb_true_iff in L1, L2, L3. rewrite L1, L2, L3, L4.
  assert (T : tail_byte (128 + c / 4096 mod 64)) by (unfold tail_byte; lia).
  assert (T' : tail_byte (128 + c / 64 mod 64)) by (unfold tail_byte; lia).
  assert (T'' : tail_byte (128 + c mod 64)) by (unfold tail_byte; lia).
  rewrite three_tails by assumption. cbn [Z.eqb Pos.eqb negb]. rewrite !low6 by lia.
  replace (jand (240 + c / 262144) 7) with (c / 262144) by lia.
  rewrite !shl_small by (try apply half_small; lia). rewrite (jor_low (c / 262144)) by lia.
  replace (c / 262144 * 2 ^ 18 + c / 4096 mod 64 * 2 ^ 12) with (c / 4096 * 2 ^ 12) by lia.
  rewrite (jor_low (c / 4096)) by lia.
  replace (c / 4096 * 2 ^ 12 + c / 64 mod 64 * 2 ^ 6) with (c / 64 * 2 ^ 6) by lia. rewrite jor_low by lia.
  replace (c / 64 * 2 ^ 6 + c mod 64) with c by lia. rewrite E3. replace (1114111 <? c) with false by lia. cbn [orb].
  rewrite shr_div by (try apply half_small; lia).
  replace (jand (c - 65536) 1023) with ((c - 65536) mod 2 ^ 10) by (symmetry; apply (jand_mask _ 10); [lia|apply half_small; lia]).
  rewrite (Z.add_comm (_ / _)), (Z.add_comm (_ mod _)). reflexivity.
Qed.
Lemma read_text : forall cs, Forall scalar cs -> read_units (utf8 cs) = utf16 cs.
Proof.
  induction cs as [|c cs IH]; intros H; [reflexivity|]. inversion H as [|? ? Hc Hcs]; subst.
  cbn [utf8 utf16 flat_map]. rewrite read_point by exact Hc. f_equal. apply IH. exact Hcs.
Qed.

(** ** Writing UTF-8 *)
Lemma points_text : forall cs, Forall scalar cs -> points (utf16 cs) = cs.
Proof.
  induction cs as [|c cs IH]; intros H; [reflexivity|]. inversion H as [|? ? Hc Hcs]; subst.
  unfold utf16. cbn [flat_map]. fold (utf16 cs). unfold utf16_point, scalar in *. destruct (c <? 0x10000) eqn:E; cbn [app points].
  - replace (_ && _) with false by lia. f_equal. apply IH. exact Hcs.
  - replace (_ && _) with true by lia. rewrite shl_small by (apply half_small || idtac; try apply half_small; lia).
    f_equal; [lia|]. apply IH. exact Hcs.
Qed.
Lemma write_byte : forall v, 0 <= v < 256 -> writeByte v = [v].
Proof. intros v V. unfold writeByte, wrapu. rewrite Z.mod_small; [reflexivity|lia]. Qed.
Lemma jor_high : forall v x c, 0 <= c <= 7 -> 0 <= v < 2 ^ c -> 0 <= x -> x * 2 ^ c < 256 -> jor v (x * 2 ^ c) = v + x * 2 ^ c.
Proof.
  intros v x c C V X B. assert (2 ^ c <= 2 ^ 7) by (apply Z.pow_le_mono_r; lia).
  apply jor_add; [lia|lia|apply half_small; lia|apply half_small]. split; [|lia]. apply Z.mul_nonneg_nonneg; lia.
Qed.
Lemma write_point : forall c, scalar c -> point_bytes c = utf8_point c.
Proof.
  intros c S. unfold scalar in S. unfold point_bytes, utf8_point.
  destruct (c <? 0x80) eqn:E1; [apply write_byte; lia|].
  assert (H : half c) by (apply half_small; lia).
  assert (M : forall z, 0 <= z < 2 ^ 31 -> jor (jand z 0x3F) 0x80 = 128 + z mod 64).
  { intros z Z0. replace (jand z 0x3F) with (z mod 2 ^ 6) by (symmetry; apply (jand_mask z 6); [lia|apply half_small; lia]).
    change 0x80 with (2 * 2 ^ 6). rewrite jor_high by lia. lia. }
  destruct (c <? 0x800) eqn:E2.
  { rewrite shr_div by (assumption || lia). rewrite M by lia.
    replace (jand (c / 2 ^ 6) 0x1F) with ((c / 2 ^ 6) mod 2 ^ 5) by (symmetry; apply (jand_mask _ 5); [lia|apply half_small; lia]).
    change 0xC0 with (3 * 2 ^ 6). rewrite jor_high by lia. rewrite !write_byte by lia. cbn [app].
    f_equal; lia. }
  destruct (c <? 0x10000) eqn:E3.
  { rewrite !shr_div by (assumption || lia). rewrite !M by lia.
    replace (jand (c / 2 ^ 12) 0x0F) with ((c / 2 ^ 12) mod 2 ^ 4) by (symmetry; apply (jand_mask _ 4); [lia|apply half_small; lia]).
    change 0xE0 with (7 * 2 ^ 5). rewrite jor_high by lia. rewrite !write_byte by lia. cbn [app].
    f_equal; lia. }
  rewrite !shr_div by (assumption || lia). rewrite !M by lia.
  replace (jand (c / 2 ^ 18) 0x07) with ((c / 2 ^ 18) mod 2 ^ 3) by (symmetry; apply (jand_mask _ 3); [lia|apply half_small; lia]).
  change 0xF0 with (15 * 2 ^ 4). rewrite jor_high by lia. rewrite !write_byte by lia. cbn [app].
  f_equal; lia.
Qed.
Lemma point_size_ok : forall c, point_size c = len (utf8_point c).
Proof. intros c. unfold point_size, utf8_point. destruct (c <? 128), (c <? 2048), (c <? 65536); reflexivity. Qed.

(** ** Writing varints *)
Lemma write32_loop : forall k n, (k <= 5)%nat -> 0 <= n < 128 ^ Z.of_nat k -> n < 2 ^ 32 -> (0 < k)%nat ->
  forall k', (k <= k')%nat -> writeVarint32_loop k n = varint_n k' n.
Proof.
  induction k; intros n K N B P k' L; [lia|]. destruct k'; [lia|]. rewrite pow128_S in N.
  cbn [writeVarint32_loop varint_n]. destruct (n <? 128) eqn:E.
  - replace (0x80 <=? n) with false by lia. apply write_byte. lia.
  - replace (0x80 <=? n) with true by lia.
    replace (jand n 0x7f) with (n mod 128).
    + change 0x80 with (1 * 2 ^ 7). rewrite jor_high by lia. rewrite write_byte by lia. cbn [app].
      f_equal; [lia|]. rewrite ushr_div by lia. rewrite (Z.mod_small n) by lia. change (2 ^ 7) with 128.
      apply IHk; [lia|lia|lia|destruct k; [cbn in N; lia|lia]|lia].
    + unfold jand. rewrite (i32_id 0x7f) by (apply half_small; lia). change 0x7f with (Z.ones 7). rewrite Z.land_ones by lia.
      destruct (i32_eqm n) as (q & ->). change (2 ^ 32) with (2 ^ 25 * 2 ^ 7). rewrite Z.mul_assoc, Z_mod_plus_full. reflexivity.
Qed.
Lemma write32 : forall n, 0 <= n < 2 ^ 32 -> writeVarint32 n = varint n.
Proof.
  intros n N. unfold writeVarint32, varint. rewrite ushr_div by lia. change (2 ^ 0) with 1. rewrite Z.div_1_r, Z.mod_small by lia.
  apply write32_loop; [lia| |lia|lia|lia]. change (128 ^ Z.of_nat 5) with (2 ^ 35). lia.
Qed.
Lemma write_text : forall cs, text_ok cs -> writeString (utf16 cs) = varint (len (utf8 cs)) ++ utf8 cs.
Proof.
  intros cs (S & L). unfold writeString. rewrite points_text by exact S.
  assert (A : flat_map point_bytes cs = utf8 cs).
  { clear L. unfold utf8. induction S; [reflexivity|]. cbn [flat_map]. rewrite write_point, IHS by assumption. reflexivity. }
  assert (B : fold_right (fun c n => point_size c + n) 0 cs = len (utf8 cs)).
  { clear. induction cs as [|c cs IH]; [reflexivity|]. cbn [fold_right]. rewrite IH, point_size_ok.
    unfold utf8. cbn [flat_map]. rewrite len_app. reflexivity. }
  rewrite A, B, write32; [reflexivity|]. pose proof (len_nonneg (utf8 cs)). lia.
Qed.

(** ** 64-bit numbers *)
Lemma groups_read : forall k n pre post, (0 < k)%nat -> 0 <= n < 128 ^ Z.of_nat k ->
  exists g, groups k (pre ++ varint_n k n ++ post) (len pre) = Ok (g, len pre + len (varint_n k n)) /\
    forall i, nth i g 0 = n / 128 ^ Z.of_nat i mod 128.
Proof.
  induction k; intros n pre post K N; [lia|]. rewrite pow128_S in N. cbn [varint_n groups]. destruct (n <? 128) eqn:E.
  - cbn [app]. rewrite read_byte_at. cbn [bind]. rewrite hi_bit, E by lia. cbn [negb].
    exists [n]. split; [rewrite low7 by (apply half_small; lia); f_equal; f_equal; f_equal; lia|].
    intros [|i]; cbn [nth]; [change (128 ^ Z.of_nat 0) with 1; rewrite Z.div_1_r; lia|].
    rewrite pow128_S. rewrite Z.div_small; [destruct i; reflexivity|].
    assert (0 < 128 ^ Z.of_nat i) by (apply Z.pow_pos_nonneg; lia). lia.
  - cbn [app]. rewrite read_byte_at. cbn [bind]. rewrite hi_bit by lia.
    replace (128 + n mod 128 <? 128) with false by lia. cbn [negb]. rewrite low7 by (apply half_small; lia).
    destruct (IHk (n / 128) (pre ++ [128 + n mod 128]) post) as (g & G & D).
    + destruct k; [cbn in N; lia|lia].
    + lia.
    + rewrite <- app_assoc in G. cbn [app] in G. rewrite len_app, len_cons in G. change (len []) with 0 in G.
      rewrite Z.add_0_r in G. rewrite G. cbn [bind]. exists ((128 + n mod 128) mod 128 :: g). split.
      * rewrite len_cons. f_equal. f_equal. lia.
      * intros [|i]; cbn [nth]; [change (128 ^ Z.of_nat 0) with 1; rewrite Z.div_1_r; lia|]. rewrite D, pow128_S.
        rewrite Z.div_div by (try apply Z.pow_pos_nonneg; lia). reflexivity.
Qed.
Lemma part_value : forall g i n, (forall j, nth (i + j) g 0 = n / 128 ^ Z.of_nat j mod 128) -> part g i = n mod 2 ^ 28.
Proof.
  intros g i n G. unfold part. pose proof (G 0%nat) as G0. rewrite Nat.add_0_r in G0. rewrite G0, !G. clear G G0.
  change (128 ^ Z.of_nat 0) with 1. change (128 ^ Z.of_nat 1) with 128. change (128 ^ Z.of_nat 2) with 16384.
  change (128 ^ Z.of_nat 3) with 2097152. rewrite Z.div_1_r.
  assert (E : n mod 2 ^ 28 = n mod 128 + n / 128 mod 128 * 2 ^ 7 + n / 16384 mod 128 * 2 ^ 14 + n / 2097152 mod 128 * 2 ^ 21) by lia.
  rewrite E. clear E. set (a := n mod 128). set (b := n / 128 mod 128). set (c := n / 16384 mod 128). set (d := n / 2097152 mod 128).
  assert (A : 0 <= a < 128) by (subst a; lia). assert (B : 0 <= b < 128) by (subst b; lia).
  assert (C : 0 <= c < 128) by (subst c; lia). assert (D : 0 <= d < 128) by (subst d; lia). clearbody a b c d.
  rewrite (jor_shl a b 7) by (try apply half_small; lia). rewrite (i32_id (a + b * 2 ^ 7)) by (apply half_small; lia).
  rewrite (jor_shl _ c 14) by (try apply half_small; lia). rewrite (i32_id (_ + c * 2 ^ 14)) by (apply half_small; lia).
  rewrite (jor_shl _ d 21) by (try apply half_small; lia). apply i32_id, half_small. lia.
Qed.
Lemma read_varint64 : forall pre v post, - 2 ^ 63 <= v < 2 ^ 63 ->
  exists lo hi, readVarint64 (pre ++ varint (v mod 2 ^ 64) ++ post) (len pre) =
    Ok (lo, hi, len pre + len (varint (v mod 2 ^ 64))) /\ half lo /\ half hi /\ long_value lo hi = v.
Proof.
  intros pre v post V. unfold readVarint64. set (n := v mod 2 ^ 64). assert (N : 0 <= n < 2 ^ 64) by (subst n; lia).
  destruct (groups_read 10 n pre post ltac:(lia)) as (g & G & D).
  { change (128 ^ Z.of_nat 10) with (2 ^ 70). lia. }
  unfold varint. rewrite G. cbn [bind]. eexists _, _. split; [reflexivity|].
  assert (P0 : part g 0 = n mod 2 ^ 28) by (apply part_value; intros j; apply D).
  assert (P1 : part g 4 = n / 2 ^ 28 mod 2 ^ 28).
  { apply part_value. intros j. rewrite D. rewrite Nat2Z.inj_add, Z.pow_add_r by lia. change (128 ^ Z.of_nat 4) with (2 ^ 28).
    rewrite Z.div_div by (try apply Z.pow_pos_nonneg; lia). reflexivity. }
  rewrite P0, P1, !D. clear G D P0 P1.
  change (128 ^ Z.of_nat 8) with (2 ^ 56). change (128 ^ Z.of_nat 9) with (2 ^ 63).
  assert (E2 : jor (n / 2 ^ 56 mod 128) (shl (n / 2 ^ 63 mod 128) 7) = n / 2 ^ 56).
  { rewrite jor_shl by (try apply half_small; lia). rewrite i32_id by (apply half_small; lia). lia. }
  rewrite E2.
  rewrite (jor_shl (n mod 2 ^ 28)) by (try apply half_small; lia).
  assert (E3 : ushr (n / 2 ^ 28 mod 2 ^ 28) 4 = n / 2 ^ 32 mod 2 ^ 24) by (rewrite ushr_div by lia; lia).
  rewrite E3. rewrite jor_shl by (try apply half_small; lia).
  split; [apply i32_half|]. split; [apply i32_half|]. unfold long_value. rewrite mod_i32.
  replace ((n mod 2 ^ 28 + n / 2 ^ 28 mod 2 ^ 28 * 2 ^ 28) mod 2 ^ 32) with (n mod 2 ^ 32) by lia.
  replace (n / 2 ^ 32 mod 2 ^ 24 + n / 2 ^ 56 * 2 ^ 24) with (n / 2 ^ 32) by lia.
  destruct (i32_eqm (n / 2 ^ 32)) as (k & K). pose proof (i32_half (n / 2 ^ 32)) as HH. unfold half in HH. rewrite K in *.
  subst n. lia.
Qed.
