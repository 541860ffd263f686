(** Decimal rendering of natural numbers as ASCII bytes (Rust's [Display] of
    unsigned integers, and the [{:03}] format).  Models no code of /repo by itself. *)
From Coq Require Import ZArith List Lia Bool ZifyBool ZifyNat.
From Verif Require Import Lib.Bytes.
Import ListNotations.
Open Scope Z_scope.
Ltac Zify.zify_post_hook ::= Z.div_mod_to_equations.

Fixpoint dec_loop (fuel : nat) (n : Z) (acc : list Z) : list Z :=
  match fuel with
  | O => acc
  | S f =>
    let acc' := (48 + n mod 10) :: acc in
    if n / 10 =? 0 then acc' else dec_loop f (n / 10) acc'
  end.
(** At most one digit per bit. *)
Definition dec (n : Z) : list Z := dec_loop (S (Z.to_nat (Z.log2 n))) n [].

Definition is_digit (c : Z) : bool := (48 <=? c) && (c <=? 57).
Definition dec_step (a c : Z) : Z := 10 * a + (c - 48).
(** The number a digit string denotes. *)
Definition dec_val (l : list Z) : Z := fold_left dec_step l 0.

(** [{:0w}]: zeros in front up to width [w]. *)
Definition pad0 (w : nat) (l : list Z) : list Z := repeat 48 (w - length l) ++ l.

Lemma dec_loop_val : forall fuel n acc, 0 <= n < 10 ^ Z.of_nat fuel -> (0 < fuel)%nat ->
  fold_left dec_step (dec_loop fuel n acc) 0 = fold_left dec_step acc n.
Proof.
  induction fuel as [|f IH]; intros n acc H Hf; [lia|]. cbn [dec_loop].
  destruct (n / 10 =? 0) eqn:E.
  - cbn [fold_left]. f_equal. unfold dec_step. lia.
  - replace (Z.of_nat (S f)) with (1 + Z.of_nat f) in H by lia. rewrite Z.pow_add_r in H by lia.
    change (10 ^ 1) with 10 in H.
    destruct f as [|f]; [cbn in H; lia|].
    rewrite IH by lia. cbn [fold_left]. f_equal. unfold dec_step. lia.
Qed.

Lemma log2_fuel : forall n, 0 <= n -> n < 10 ^ Z.of_nat (S (Z.to_nat (Z.log2 n))).
Proof.
  intros n H. pose proof (Z.log2_nonneg n).
  replace (Z.of_nat (S (Z.to_nat (Z.log2 n)))) with (Z.succ (Z.log2 n)) by lia.
  destruct (Z.eq_dec n 0) as [->|N].
  - cbn. lia.
  - pose proof (Z.log2_spec n ltac:(lia)). 
    pose proof (Z.pow_le_mono_l 2 10 (Z.succ (Z.log2 n)) ltac:(lia)). lia.
Qed.

Lemma dec_val_dec : forall n, 0 <= n -> dec_val (dec n) = n.
Proof.
  intros n H. unfold dec_val, dec. rewrite dec_loop_val; [reflexivity| |lia].
  split; [lia|]. apply log2_fuel. exact H.
Qed.

Lemma dec_inj : forall a b, 0 <= a -> 0 <= b -> dec a = dec b -> a = b.
Proof. intros a b Ha Hb E. rewrite <- (dec_val_dec a Ha), <- (dec_val_dec b Hb), E. reflexivity. Qed.

Lemma dec_loop_digits : forall fuel n acc, 0 <= n -> Forall (fun c => is_digit c = true) acc ->
  Forall (fun c => is_digit c = true) (dec_loop fuel n acc).
Proof.
  induction fuel as [|f IH]; intros n acc H F; cbn [dec_loop]; auto.
  assert (is_digit (48 + n mod 10) = true) by (unfold is_digit; lia).
  destruct (n / 10 =? 0); [constructor; auto|]. apply IH; [lia|constructor; auto].
Qed.
Lemma dec_digits : forall n, 0 <= n -> Forall (fun c => is_digit c = true) (dec n).
Proof. intros n H. apply dec_loop_digits; auto. Qed.

Lemma dec_loop_length : forall fuel n acc, (length acc <= length (dec_loop fuel n acc))%nat.
Proof.
  induction fuel as [|f IH]; intros n acc; cbn [dec_loop]; auto.
  destruct (n / 10 =? 0); [cbn; lia|]. specialize (IH (n / 10) ((48 + n mod 10) :: acc)). cbn [length] in IH. eapply Nat.le_trans; [|exact IH]. lia.
Qed.
Lemma dec_nonempty : forall n, dec n <> [].
Proof.
  intros n E. unfold dec in E. cbn [dec_loop] in E. destruct (n / 10 =? 0); [discriminate|].
  pose proof (dec_loop_length (Z.to_nat (Z.log2 n)) (n / 10) [48 + n mod 10]). rewrite E in H. cbn in H. lia.
Qed.

Lemma dec_val_zeros : forall k l, dec_val (repeat 48 k ++ l) = dec_val l.
Proof. intros k l. unfold dec_val. rewrite fold_left_app. f_equal. induction k; [reflexivity|exact IHk]. Qed.
Lemma pad0_inj : forall w a b, dec_val (pad0 w a) = dec_val (pad0 w b) -> dec_val a = dec_val b.
Proof. intros w a b. unfold pad0. rewrite !dec_val_zeros. auto. Qed.

Lemma dec_val_app : forall a b, dec_val (a ++ b) = dec_val a * 10 ^ Z.of_nat (length b) + dec_val b.
Proof.
  intros a b. unfold dec_val. rewrite fold_left_app. generalize (fold_left dec_step a 0) as s.
  assert (G : forall l s, fold_left dec_step l s = s * 10 ^ Z.of_nat (length l) + fold_left dec_step l 0).
  { induction l as [|c l IH]; intros s; [cbn; lia|]. cbn [fold_left length].
    rewrite IH, (IH (dec_step 0 c)). replace (Z.of_nat (S (length l))) with (1 + Z.of_nat (length l)) by lia.
    rewrite Z.pow_add_r by lia. unfold dec_step. change (10 ^ 1) with 10. ring. }
  intros s. apply G.
Qed.
Lemma dec_val_range : forall l, Forall (fun c => is_digit c = true) l -> 0 <= dec_val l < 10 ^ Z.of_nat (length l).
Proof.
  intros l. induction l as [|c l IH] using rev_ind; intros F; [cbn; lia|].
  apply Forall_app in F. destruct F as [F1 F2]. inversion F2 as [|? ? D _]; subst.
  rewrite dec_val_app, app_length. cbn [length]. replace (Z.of_nat (length l + 1)) with (Z.of_nat (length l) + 1) by lia.
  rewrite Z.pow_add_r by lia. change (Z.of_nat 1) with 1. change (10 ^ 1) with 10.
  specialize (IH F1). unfold is_digit in D. unfold dec_val at 2 4. cbn [fold_left]. unfold dec_step. nia.
Qed.
