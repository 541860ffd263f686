(** Bytes as integers in [0, 256), little-endian encodings, casts.

    This file models no code of /repo by itself: it provides Rust's
    [to_le_bytes]/[from_le_bytes] and the [as] casts between integer types. *)

From Coq Require Import ZArith List Lia.
From Coq Require Import ZifyBool ZifyNat.
Import ListNotations.
Open Scope Z_scope.

Ltac Zify.zify_post_hook ::= Z.div_mod_to_equations.

Definition byte_ok (b : Z) : Prop := 0 <= b < 256.
Definition bytes_ok (l : list Z) : Prop := Forall byte_ok l.

(** [x as uN]: value modulo 2^bits. *)
Definition wrapu (bits : Z) (x : Z) : Z := x mod 2 ^ bits.

(** Two's complement reading of an unsigned [bits]-bit value; [x as iN]. *)
Definition signed (bits : Z) (u : Z) : Z :=
  if u <? 2 ^ (bits - 1) then u else u - 2 ^ bits.
Definition wraps (bits : Z) (x : Z) : Z := signed bits (x mod 2 ^ bits).

(** Little-endian bytes of the low [8 n] bits of [z]. *)
Fixpoint le_bytes (n : nat) (z : Z) : list Z :=
  match n with
  | O => []
  | S n' => z mod 256 :: le_bytes n' (z / 256)
  end.

Fixpoint le_val (l : list Z) : Z :=
  match l with
  | [] => 0
  | b :: l' => b + 256 * le_val l'
  end.

Lemma le_bytes_length : forall n z, length (le_bytes n z) = n.
Proof. induction n; intros; cbn; auto. Qed.

Lemma le_bytes_ok : forall n z, bytes_ok (le_bytes n z).
Proof.
  unfold bytes_ok. induction n; intros; cbn [le_bytes]; constructor; auto.
  unfold byte_ok. lia.
Qed.

Lemma pow256_S : forall n, 256 ^ Z.of_nat (S n) = 256 * 256 ^ Z.of_nat n.
Proof. intros. rewrite Nat2Z.inj_succ, Z.pow_succ_r by lia. reflexivity. Qed.

Lemma le_val_le_bytes : forall n z, le_val (le_bytes n z) = z mod 256 ^ Z.of_nat n.
Proof.
  induction n; intros; cbn [le_bytes le_val].
  - rewrite Z.mod_1_r. reflexivity.
  - rewrite IHn, pow256_S.
    assert (0 < 256 ^ Z.of_nat n) by (apply Z.pow_pos_nonneg; lia).
    rewrite Z.rem_mul_r by lia. reflexivity.
Qed.

Lemma le_val_range : forall l, bytes_ok l -> 0 <= le_val l < 256 ^ Z.of_nat (length l).
Proof.
  induction l; intros H; cbn [le_val length].
  - cbn. lia.
  - inversion H; subst. apply IHl in H3. rewrite pow256_S. unfold byte_ok in *. lia.
Qed.

Lemma le_bytes_le_val : forall l, bytes_ok l -> le_bytes (length l) (le_val l) = l.
Proof.
  induction l; intros H; cbn [le_val length le_bytes]; auto.
  inversion H; subst. unfold byte_ok in *.
  f_equal.
  - lia.
  - replace ((a + 256 * le_val l) / 256) with (le_val l) by lia. auto.
Qed.

Lemma bytes_ok_app : forall a b, bytes_ok (a ++ b) <-> bytes_ok a /\ bytes_ok b.
Proof. intros. unfold bytes_ok. apply Forall_app. Qed.

Lemma signed_range : forall bits u, 0 < bits -> 0 <= u < 2 ^ bits ->
  - 2 ^ (bits - 1) <= signed bits u < 2 ^ (bits - 1).
Proof.
  intros bits u Hb Hu. unfold signed.
  assert (2 ^ bits = 2 * 2 ^ (bits - 1)).
  { rewrite <- Z.pow_succ_r by lia. f_equal. lia. }
  destruct (Z.ltb_spec u (2 ^ (bits - 1))); lia.
Qed.

Lemma wraps_id : forall bits x, 0 < bits ->
  - 2 ^ (bits - 1) <= x < 2 ^ (bits - 1) -> wraps bits x = x.
Proof.
  intros bits x Hb Hx. unfold wraps, signed.
  assert (E : 2 ^ bits = 2 * 2 ^ (bits - 1)).
  { rewrite <- Z.pow_succ_r by lia. f_equal. lia. }
  destruct (Z_lt_le_dec x 0).
  - replace (x mod 2 ^ bits) with (x + 2 ^ bits).
    2:{ apply Zmod_unique with (q := -1); lia. }
    destruct (Z.ltb_spec (x + 2 ^ bits) (2 ^ (bits - 1))); lia.
  - rewrite Z.mod_small by lia.
    destruct (Z.ltb_spec x (2 ^ (bits - 1))); lia.
Qed.

Lemma wrapu_wraps : forall bits x, 0 < bits -> wrapu bits (wraps bits x) = wrapu bits x.
Proof.
  intros bits x Hb. unfold wrapu, wraps, signed.
  assert (0 < 2 ^ bits) by (apply Z.pow_pos_nonneg; lia).
  destruct (Z.ltb_spec (x mod 2 ^ bits) (2 ^ (bits - 1))).
  - apply Z.mod_mod. lia.
  - replace (x mod 2 ^ bits - 2 ^ bits) with (x mod 2 ^ bits + (-1) * 2 ^ bits) by lia.
    rewrite Z.mod_add by lia. apply Z.mod_mod. lia.
Qed.

(** The bytes of a Coq string ([str::as_bytes]). *)
From Coq Require Import String Ascii.
Fixpoint str_bytes (s : string) : list Z :=
  match s with
  | EmptyString => []
  | String c s' => Z.of_N (N_of_ascii c) :: str_bytes s'
  end.

Lemma str_bytes_ok : forall s, bytes_ok (str_bytes s).
Proof.
  unfold bytes_ok. induction s; cbn [str_bytes]; constructor; auto.
  unfold byte_ok. pose proof (N_ascii_bounded a). lia.
Qed.

Lemma str_bytes_inj : forall a b, str_bytes a = str_bytes b -> a = b.
Proof.
  induction a; destruct b; cbn; intros H; try discriminate; auto.
  injection H as H1 H2. f_equal; auto.
  apply (f_equal Z.to_N) in H1. rewrite !N2Z.id in H1.
  rewrite <- (ascii_N_embedding a), <- (ascii_N_embedding a1). congruence.
Qed.
