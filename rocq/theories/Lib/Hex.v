(** Lower-case hexadecimal text ([hex::encode] of the crate hex) and the
    lexicographic order of byte strings ([Ord] of Rust slices and strings).
    Models no code of /repo. *)
From Coq Require Import ZArith List Bool Lia ZifyBool ZifyNat.
From Verif Require Import Lib.Bytes.
Import ListNotations.
Open Scope Z_scope.
Ltac Zify.zify_post_hook ::= Z.div_mod_to_equations.

Definition hex_digit (d : Z) : Z := if d <? 10 then 48 + d else 87 + d.
Definition to_hex (l : list Z) : list Z := flat_map (fun b => [hex_digit (b / 16); hex_digit (b mod 16)]) l.

Fixpoint lex (a b : list Z) : comparison :=
  match a, b with
  | [], [] => Eq
  | [], _ :: _ => Lt
  | _ :: _, [] => Gt
  | x :: a', y :: b' => match x ?= y with Eq => lex a' b' | c => c end
  end.

Lemma lex_eq : forall a b, lex a b = Eq <-> a = b.
Proof.
  induction a as [|x a IH]; intros [|y b]; cbn; split; intros H; try discriminate; auto.
  - destruct (x ?= y) eqn:E; try discriminate. apply Z.compare_eq in E. apply IH in H. congruence.
  - injection H as -> ->. rewrite Z.compare_refl. apply IH. reflexivity.
Qed.
Lemma lex_refl : forall a, lex a a = Eq. Proof. intros. apply lex_eq. reflexivity. Qed.
Lemma lex_opp : forall a b, lex b a = CompOpp (lex a b).
Proof.
  induction a as [|x a IH]; intros [|y b]; cbn; auto. rewrite (Z.compare_antisym x y).
  destruct (x ?= y); cbn; auto.
Qed.
Lemma lex_trans : forall a b c, lex a b = Lt -> lex b c = Lt -> lex a c = Lt.
Proof.
  induction a as [|x a IH]; intros [|y b] [|z c] H1 H2; cbn in *; try discriminate; auto.
  destruct (x ?= y) eqn:E1; try discriminate; destruct (y ?= z) eqn:E2; try discriminate.
  - apply Z.compare_eq in E1, E2. subst. rewrite Z.compare_refl. eauto.
  - apply Z.compare_eq in E1. subst. rewrite E2. reflexivity.
  - apply Z.compare_eq in E2. subst. rewrite E1. reflexivity.
  - change (x < y) in E1. change (y < z) in E2. assert (E : x < z) by lia. rewrite E. reflexivity.
Qed.

Lemma hex_digit_lt : forall a b, 0 <= a < 16 -> 0 <= b < 16 -> (hex_digit a ?= hex_digit b) = (a ?= b).
Proof.
  intros a b Ha Hb. unfold hex_digit.
  destruct (Z.compare_spec a b) as [E|E|E];
    [apply Z.compare_eq_iff|apply Z.compare_lt_iff|apply Z.compare_gt_iff];
    destruct (a <? 10) eqn:A; destruct (b <? 10) eqn:B; lia.
Qed.
(** The order of hex texts is the order of the bytes. *)
Lemma lex_to_hex : forall a b, bytes_ok a -> bytes_ok b -> lex (to_hex a) (to_hex b) = lex a b.
Proof.
  induction a as [|x a IH]; intros [|y b] Ha Hb; cbn [to_hex flat_map app lex]; auto.
  inversion Ha as [|? ? X Ha']; inversion Hb as [|? ? Y Hb']; subst. unfold byte_ok in *.
  rewrite !hex_digit_lt by lia. fold (to_hex a) (to_hex b). rewrite IH by auto.
  destruct (x ?= y) eqn:E.
  - apply Z.compare_eq in E. subst. rewrite !Z.compare_refl. reflexivity.
  - change (x < y) in E. destruct (x / 16 ?= y / 16) eqn:E1; [|reflexivity|].
    + apply Z.compare_eq in E1. assert (E2 : (x mod 16 ?= y mod 16) = Lt) by (apply Z.compare_lt_iff; lia).
      rewrite E2. reflexivity.
    + change (x / 16 > y / 16) in E1. lia.
  - change (x > y) in E. destruct (x / 16 ?= y / 16) eqn:E1; [| |reflexivity].
    + apply Z.compare_eq in E1. assert (E2 : (x mod 16 ?= y mod 16) = Gt) by (apply Z.compare_gt_iff; lia).
      rewrite E2. reflexivity.
    + change (x / 16 < y / 16) in E1. lia.
Qed.
