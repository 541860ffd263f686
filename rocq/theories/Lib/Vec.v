(** Vectors indexed by integers, and [usize] arithmetic.

    [znth v i] is Rust's [v.get(i)]; [zset v i x] is [v[i] = x] for [i] in
    range.  This file models no code of /repo by itself. *)
From Coq Require Import ZArith List Lia Bool ZifyBool ZifyNat.
From Verif Require Import Lib.Res.
Import ListNotations.
Open Scope Z_scope.

Definition zlen {A} (l : list A) : Z := Z.of_nat (length l).

Definition znth {A} (l : list A) (i : Z) : option A :=
  if (0 <=? i) && (i <? zlen l) then nth_error l (Z.to_nat i) else None.

Fixpoint set_nth {A} (l : list A) (n : nat) (x : A) : list A :=
  match l, n with
  | [], _ => []
  | _ :: l', O => x :: l'
  | y :: l', S n' => y :: set_nth l' n' x
  end.
Definition zset {A} (l : list A) (i : Z) (x : A) : list A := set_nth l (Z.to_nat i) x.

(** usize arithmetic on a 64-bit target.  [checked = true] is a build with
    overflow checks (a debug build), [false] one that wraps (a release build). *)
Definition usize_max : Z := 2 ^ 64 - 1.
Definition uadd {E} (checked : bool) (a b : Z) : res E Z :=
  if a + b <=? usize_max then Ok (a + b) else if checked then Panic else Ok (a + b - 2 ^ 64).
Definition usub {E} (checked : bool) (a b : Z) : res E Z :=
  if b <=? a then Ok (a - b) else if checked then Panic else Ok (a - b + 2 ^ 64).

Lemma zlen_nonneg : forall A (l : list A), 0 <= zlen l.
Proof. intros. unfold zlen. lia. Qed.
Lemma zlen_app : forall A (a b : list A), zlen (a ++ b) = zlen a + zlen b.
Proof. intros. unfold zlen. rewrite app_length. lia. Qed.
Lemma zlen_map : forall A B (f : A -> B) l, zlen (map f l) = zlen l.
Proof. intros. unfold zlen. rewrite map_length. reflexivity. Qed.
Lemma zlen_repeat : forall A (x : A) n, zlen (repeat x n) = Z.of_nat n.
Proof. intros. unfold zlen. rewrite repeat_length. reflexivity. Qed.
Lemma zlen_cons : forall A (x : A) l, zlen (x :: l) = 1 + zlen l.
Proof. intros. unfold zlen. cbn [length]. lia. Qed.

Lemma set_nth_length : forall A (l : list A) n x, length (set_nth l n x) = length l.
Proof. induction l as [|y l IH]; intros [|n] x; cbn; auto. Qed.
Lemma zlen_zset : forall A (l : list A) i x, zlen (zset l i x) = zlen l.
Proof. intros. unfold zlen, zset. rewrite set_nth_length. reflexivity. Qed.

Lemma nth_error_set_nth_eq : forall A (l : list A) n x, (n < length l)%nat ->
  nth_error (set_nth l n x) n = Some x.
Proof. induction l as [|y l IH]; intros [|n] x H; cbn in *; try lia; auto. apply IH. lia. Qed.
Lemma nth_error_set_nth_neq : forall A (l : list A) n m x, n <> m ->
  nth_error (set_nth l n x) m = nth_error l m.
Proof. induction l as [|y l IH]; intros [|n] [|m] x H; cbn; try congruence; auto. Qed.

Lemma znth_range : forall A (l : list A) i x, znth l i = Some x -> 0 <= i < zlen l.
Proof. intros A l i x. unfold znth. destruct ((0 <=? i) && (i <? zlen l)) eqn:E; [lia|discriminate]. Qed.
Lemma znth_some : forall A (l : list A) i, 0 <= i < zlen l -> exists x, znth l i = Some x.
Proof.
  intros A l i H. unfold znth. destruct ((0 <=? i) && (i <? zlen l)) eqn:E; [|lia].
  destruct (nth_error l (Z.to_nat i)) eqn:F; eauto.
  apply nth_error_None in F. unfold zlen in H. lia.
Qed.
Lemma znth_none : forall A (l : list A) i, znth l i = None <-> (i < 0 \/ zlen l <= i).
Proof.
  intros A l i. split.
  - intros H. destruct (Z_lt_dec i 0); auto. destruct (Z_lt_dec i (zlen l)); [|lia].
    destruct (@znth_some _ l i) as [x Hx]; [lia|congruence].
  - intros H. unfold znth. destruct ((0 <=? i) && (i <? zlen l)) eqn:E; [lia|reflexivity].
Qed.
Lemma znth_zset_eq : forall A (l : list A) i x, 0 <= i < zlen l -> znth (zset l i x) i = Some x.
Proof.
  intros A l i x H. unfold znth. rewrite zlen_zset.
  destruct ((0 <=? i) && (i <? zlen l)) eqn:E; [|lia]. apply nth_error_set_nth_eq. unfold zlen in H. lia.
Qed.
Lemma znth_zset_neq : forall A (l : list A) i j x, 0 <= i -> i <> j -> znth (zset l i x) j = znth l j.
Proof.
  intros A l i j x Hi H. unfold znth. rewrite zlen_zset.
  destruct ((0 <=? j) && (j <? zlen l)) eqn:E; [|reflexivity].
  apply nth_error_set_nth_neq. lia.
Qed.
Lemma znth_app_l : forall A (a b : list A) i, i < zlen a -> znth (a ++ b) i = znth a i.
Proof.
  intros A a b i H. unfold znth. rewrite zlen_app. pose proof (zlen_nonneg _ b).
  destruct (0 <=? i) eqn:E; [|reflexivity]. replace (i <? zlen a) with true by lia.
  replace (i <? zlen a + zlen b) with true by lia. cbn [andb].
  apply nth_error_app1. unfold zlen in H. lia.
Qed.
Lemma znth_app_r : forall A (a b : list A) i, zlen a <= i -> znth (a ++ b) i = znth b (i - zlen a).
Proof.
  intros A a b i H. unfold znth. rewrite zlen_app. pose proof (zlen_nonneg _ a).
  replace (0 <=? i) with true by lia. replace (0 <=? i - zlen a) with true by lia. cbn [andb].
  destruct (i <? zlen a + zlen b) eqn:E.
  - replace (i - zlen a <? zlen b) with true by lia.
    rewrite nth_error_app2 by (unfold zlen in *; lia). f_equal. unfold zlen in *. lia.
  - replace (i - zlen a <? zlen b) with false by lia. reflexivity.
Qed.
Lemma znth_map : forall A B (f : A -> B) l i, znth (map f l) i = option_map f (znth l i).
Proof.
  intros. unfold znth. rewrite zlen_map. destruct ((0 <=? i) && (i <? zlen l)); [|reflexivity].
  apply nth_error_map.
Qed.
Lemma znth_repeat : forall A (x : A) n i, 0 <= i < Z.of_nat n -> znth (repeat x n) i = Some x.
Proof.
  intros A x n i H. destruct (@znth_some _ (repeat x n) i) as [y Hy].
  - rewrite zlen_repeat. lia.
  - rewrite Hy. f_equal. unfold znth in Hy.
    destruct ((0 <=? i) && (i <? zlen (repeat x n))); [|discriminate].
    apply nth_error_In, repeat_spec in Hy. exact Hy.
Qed.
Lemma zset_same : forall A (l : list A) i x, znth l i = Some x -> zset l i x = l.
Proof.
  intros A l i x H. unfold zset. pose proof (znth_range _ _ _ _ H) as R.
  unfold znth in H. replace ((0 <=? i) && (i <? zlen l)) with true in H by lia.
  revert H. generalize (Z.to_nat i) as n. clear. induction l as [|y l IH]; intros [|n] H; cbn in *; try congruence.
  f_equal. apply IH. exact H.
Qed.
