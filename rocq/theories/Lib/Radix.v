(** Conversion of digit strings between bases, by the schoolbook algorithm
    with a little-endian output buffer, and with one zero digit of output for
    every leading zero digit of input.  This is the algorithm of the bs58
    crate in both directions; the file models no code of /repo. *)

From Coq Require Import ZArith List Lia Bool ZifyBool ZifyNat.
Import ListNotations.
Local Open Scope Z_scope.

(** The digits of a carry, lowest first. *)
Fixpoint push_carry (b2 : Z) (fuel : nat) (c : Z) : list Z :=
  match fuel with
  | O => []
  | S f => if c =? 0 then [] else (c mod b2) :: push_carry b2 f (c / b2)
  end.

(** Multiplies the buffer by [b1] and adds the carry. *)
Fixpoint mul_add (b1 b2 : Z) (out : list Z) (c : Z) : list Z :=
  match out with
  | [] => push_carry b2 (S (Z.to_nat (Z.log2 c))) c
  | d :: out' => let t := c + d * b1 in (t mod b2) :: mul_add b1 b2 out' (t / b2)
  end.

Definition conv_buf (b1 b2 : Z) (l : list Z) : list Z := fold_left (fun out d => mul_add b1 b2 out d) l [].

Fixpoint lead0 (l : list Z) : nat :=
  match l with
  | x :: l' => if x =? 0 then S (lead0 l') else 0%nat
  | [] => 0%nat
  end.

(** Big-endian digits in base [b1] to big-endian digits in base [b2]. *)
Definition convert (b1 b2 : Z) (l : list Z) : list Z := repeat 0 (lead0 l) ++ rev (conv_buf b1 b2 l).

(** ** Facts *)

Definition in_base (b : Z) (l : list Z) : Prop := Forall (fun d => 0 <= d < b) l.
(** little-endian value *)
Definition lval (b : Z) (l : list Z) : Z := fold_right (fun d a => d + b * a) 0 l.
(** the most significant digit, if any, is not zero *)
Definition canon (l : list Z) : Prop := l = [] \/ exists r x, l = r ++ [x] /\ x <> 0.

Lemma log2_fuel2 : forall b c, 2 <= b -> 0 <= c -> c < b ^ Z.of_nat (S (Z.to_nat (Z.log2 c))).
Proof.
  intros b c B C. pose proof (Z.log2_nonneg c).
  rewrite Nat2Z.inj_succ, Z2Nat.id by lia.
  destruct (Z.eq_dec c 0) as [->|N]; [apply Z.pow_pos_nonneg; cbn; lia|].
  pose proof (Z.log2_spec c ltac:(lia)) as [_ H'].
  eapply Z.lt_le_trans; [exact H'|]. apply Z.pow_le_mono_l. lia.
Qed.

Lemma push_val : forall b f c, 2 <= b -> 0 <= c < b ^ Z.of_nat f -> lval b (push_carry b f c) = c.
Proof.
  intros b f. induction f as [|f IH]; intros c B C; cbn [push_carry].
  - change (b ^ Z.of_nat 0) with 1 in C. cbn. lia.
  - destruct (c =? 0) eqn:E; [cbn; lia|]. cbn [lval fold_right]. fold (lval b (push_carry b f (c / b))).
    rewrite IH; [pose proof (Z.div_mod c b); lia|exact B|].
    rewrite Nat2Z.inj_succ, Z.pow_succ_r in C by lia. split; [apply Z.div_pos; lia|].
    apply Z.div_lt_upper_bound; lia.
Qed.

Lemma push_base : forall b f c, 2 <= b -> 0 <= c -> in_base b (push_carry b f c).
Proof.
  intros b f. induction f as [|f IH]; intros c B C; cbn [push_carry]; [constructor|].
  destruct (c =? 0); [constructor|]. constructor; [apply Z.mod_pos_bound; lia|].
  apply IH; [exact B|apply Z.div_pos; lia].
Qed.

Lemma canon_cons : forall x l, canon l -> l <> [] -> canon (x :: l).
Proof.
  intros x l [->|(r & y & -> & N)] H; [easy|]. right. exists (x :: r), y. auto.
Qed.

Lemma push_canon : forall b f c, 2 <= b -> 0 <= c < b ^ Z.of_nat f -> canon (push_carry b f c) /\
  (push_carry b f c = [] -> c = 0).
Proof.
  intros b f. induction f as [|f IH]; intros c B C; cbn [push_carry].
  - change (b ^ Z.of_nat 0) with 1 in C. split; [left; reflexivity|lia].
  - destruct (c =? 0) eqn:E; [split; [left; reflexivity|lia]|]. split; [|discriminate].
    assert (D : 0 <= c / b < b ^ Z.of_nat f).
    { rewrite Nat2Z.inj_succ, Z.pow_succ_r in C by lia. split; [apply Z.div_pos; lia|].
      apply Z.div_lt_upper_bound; lia. }
    destruct (IH (c / b) B D) as [K0 K1].
    destruct (push_carry b f (c / b)) as [|y l] eqn:P.
    + right. exists [], (c mod b). split; [reflexivity|]. specialize (K1 eq_refl).
      pose proof (Z.div_mod c b ltac:(lia)). lia.
    + apply canon_cons; [exact K0|discriminate].
Qed.

Lemma mul_add_val : forall b1 b2 out c, 2 <= b1 -> 2 <= b2 -> in_base b2 out -> 0 <= c ->
  lval b2 (mul_add b1 b2 out c) = c + b1 * lval b2 out.
Proof.
  intros b1 b2 out. induction out as [|d out IH]; intros c B1 B2 R C; cbn [mul_add].
  - rewrite push_val; [cbn; lia|exact B2|]. split; [exact C|apply log2_fuel2; lia].
  - inversion R; subst. cbn [lval fold_right]. fold (lval b2 out).
    set (t := c + d * b1). assert (T : 0 <= t) by (unfold t; nia).
    fold (lval b2 (mul_add b1 b2 out (t / b2))). rewrite IH; [|lia|lia|assumption|apply Z.div_pos; lia].
    pose proof (Z.div_mod t b2 ltac:(lia)). unfold t in *. nia.
Qed.

Lemma mul_add_base : forall b1 b2 out c, 2 <= b1 -> 2 <= b2 -> in_base b2 out -> 0 <= c ->
  in_base b2 (mul_add b1 b2 out c).
Proof.
  intros b1 b2 out. induction out as [|d out IH]; intros c B1 B2 R C; cbn [mul_add].
  - apply push_base; lia.
  - inversion R; subst. constructor; [apply Z.mod_pos_bound; lia|].
    apply IH; auto. apply Z.div_pos; [nia|lia].
Qed.

Lemma mul_add_canon : forall b1 b2 out c, 2 <= b1 -> 2 <= b2 -> in_base b2 out -> 0 <= c -> canon out ->
  canon (mul_add b1 b2 out c).
Proof.
  intros b1 b2 out. induction out as [|d out IH]; intros c B1 B2 R C K; cbn [mul_add].
  - apply push_canon; [lia|]. split; [exact C|apply log2_fuel2; lia].
  - inversion R; subst. set (t := c + d * b1). assert (T : 0 <= t) by (unfold t; nia).
    assert (T' : 0 <= t / b2) by (apply Z.div_pos; lia).
    destruct out as [|d' out].
    + cbn [mul_add]. pose proof (push_canon b2 (S (Z.to_nat (Z.log2 (t / b2)))) (t / b2) B2
        (conj T' (log2_fuel2 b2 (t / b2) B2 T'))) as [P1 P2].
      destruct (push_carry b2 _ (t / b2)) as [|y l] eqn:P.
      * right. exists [], (t mod b2). split; [reflexivity|]. specialize (P2 eq_refl).
        destruct K as [K|(r & x & K & N)]; [discriminate|].
        destruct r as [|z r]; [|destruct r; discriminate]. injection K as ->.
        pose proof (Z.div_mod t b2 ltac:(lia)). unfold t in *. nia.
      * apply canon_cons; [exact P1|discriminate].
    + assert (K' : canon (d' :: out)).
      { destruct K as [K|(r & x & K & N)]; [discriminate|]. destruct r as [|z r]; [discriminate|].
        injection K as -> K. right. exists r, x. auto. }
      apply canon_cons; [apply IH; auto|].
      cbn [mul_add]. discriminate.
Qed.

Lemma conv_buf_spec : forall b1 b2 l, 2 <= b1 -> 2 <= b2 -> in_base b1 l ->
  in_base b2 (conv_buf b1 b2 l) /\ canon (conv_buf b1 b2 l) /\ lval b2 (conv_buf b1 b2 l) = lval b1 (rev l).
Proof.
  intros b1 b2 l B1 B2. unfold conv_buf. induction l as [|d l IH] using rev_ind; intros R.
  - split; [constructor|]. split; [left; reflexivity|reflexivity].
  - apply Forall_app in R. destruct R as [R Rd]. inversion Rd; subst.
    rewrite fold_left_app. cbn [fold_left]. destruct (IH R) as (I & K & V).
    split; [apply mul_add_base; auto; lia|]. split; [apply mul_add_canon; auto; lia|].
    rewrite mul_add_val by (auto; lia). rewrite V, rev_app_distr. reflexivity.
Qed.

Lemma lval_nonneg : forall b l, 0 <= b -> in_base b l -> 0 <= lval b l.
Proof.
  intros b l B R. induction R as [|d l D R IH]; cbn [lval fold_right]; [lia|]. fold (lval b l). nia.
Qed.

Lemma canon_zero : forall b l, 2 <= b -> in_base b l -> canon l -> lval b l = 0 -> l = [].
Proof.
  intros b l B R K V. destruct K as [->|(r & x & -> & N)]; [reflexivity|]. exfalso.
  revert R V. induction r as [|y r IH]; intros R V; inversion R; subst.
  - cbn in V. lia.
  - cbn [app lval fold_right] in V. fold (lval b (r ++ [x])) in V.
    pose proof (lval_nonneg b (r ++ [x]) ltac:(lia) ltac:(assumption)). apply IH; [assumption|nia].
Qed.

Lemma canon_tail : forall x l, canon (x :: l) -> canon l.
Proof.
  intros x l [K|(r & y & K & N)]; [discriminate|]. destruct r as [|z r].
  - injection K as -> ->. left. reflexivity.
  - injection K as -> ->. right. exists r, y. auto.
Qed.

Lemma lval_unique : forall b x y, 2 <= b -> in_base b x -> in_base b y -> canon x -> canon y ->
  lval b x = lval b y -> x = y.
Proof.
  intros b x. induction x as [|d x IH]; intros y B X Y KX KY V.
  - symmetry. apply (canon_zero b); auto.
  - destruct y as [|e y]; [apply (canon_zero b); auto|].
    cbn [lval fold_right] in V. fold (lval b x) in V. fold (lval b y) in V.
    inversion X; subst. inversion Y; subst.
    assert (d = e /\ lval b x = lval b y) as [-> V'].
    { assert (d = e).
      { rewrite <- (Z.mod_small d b), <- (Z.mod_small e b) by lia.
        rewrite <- (Z_mod_plus_full d (lval b x) b), <- (Z_mod_plus_full e (lval b y) b).
        f_equal. lia. }
      split; [assumption|nia]. }
    f_equal. apply IH; auto; eapply canon_tail; eassumption.
Qed.

Lemma lead0_split : forall l, exists r, l = repeat 0 (lead0 l) ++ r /\ canon (rev r) /\ lead0 r = 0%nat.
Proof.
  induction l as [|x l (r & E & K & Z0)]; [exists []; split; [reflexivity|split; [left|]; reflexivity]|].
  cbn [lead0]. destruct (x =? 0) eqn:X.
  - exists r. cbn [repeat app]. rewrite <- E. assert (x = 0) by lia. subst. auto.
  - exists (x :: l). split; [reflexivity|]. split; [|cbn [lead0]; rewrite X; reflexivity].
    right. exists (rev l), x. split; [reflexivity|lia].
Qed.

Lemma lead0_app : forall k r, lead0 r = 0%nat -> lead0 (repeat 0 k ++ r) = k.
Proof. induction k as [|k IH]; intros r Z0; [exact Z0|]. cbn. now rewrite IH. Qed.

Lemma lval_zeros : forall b l k, lval b (l ++ repeat 0 k) = lval b l.
Proof.
  intros b l k. induction l as [|d l IH]; cbn [app].
  - induction k as [|k IHk]; [reflexivity|]. cbn [repeat lval fold_right] in *. fold (lval b (repeat 0 k)) in *. lia.
  - cbn [lval fold_right] in *. fold (lval b (l ++ repeat 0 k)) in *. fold (lval b l) in *. lia.
Qed.

Lemma rev_repeat0 : forall k, rev (repeat 0 k) = repeat 0 k.
Proof.
  intros k. induction k as [|k IH]; [reflexivity|]. cbn [repeat rev]. rewrite IH.
  clear IH. induction k as [|k IH]; [reflexivity|]. cbn [repeat app]. now rewrite IH.
Qed.

Lemma canon_lead0 : forall l, canon l -> lead0 (rev l) = 0%nat.
Proof.
  intros l [->|(r & x & -> & N)]; [reflexivity|]. rewrite rev_app_distr. cbn.
  destruct (x =? 0) eqn:E; [lia|reflexivity].
Qed.

Lemma in_base_rev : forall b l, in_base b l -> in_base b (rev l).
Proof. intros b l H. apply Forall_rev. exact H. Qed.
Lemma in_base_zeros : forall b k, 0 < b -> in_base b (repeat 0 k).
Proof. intros b k B. induction k; constructor; [lia|assumption]. Qed.

Lemma convert_base : forall b1 b2 l, 2 <= b1 -> 2 <= b2 -> in_base b1 l -> in_base b2 (convert b1 b2 l).
Proof.
  intros b1 b2 l B1 B2 R. apply Forall_app. split; [apply in_base_zeros; lia|].
  apply in_base_rev, conv_buf_spec; auto.
Qed.

(** Conversion to any base and back is the identity, leading zeros
    included. *)
Theorem convert_inverse : forall b1 b2 l, 2 <= b1 -> 2 <= b2 -> in_base b1 l ->
  convert b2 b1 (convert b1 b2 l) = l.
Proof.
  intros b1 b2 l B1 B2 R. destruct (conv_buf_spec b1 b2 l B1 B2 R) as (I & K & V).
  pose proof (convert_base b1 b2 l B1 B2 R) as RC.
  destruct (conv_buf_spec b2 b1 (convert b1 b2 l) B2 B1 RC) as (I' & K' & V').
  unfold convert at 1. unfold convert at 1. rewrite lead0_app by (apply canon_lead0; exact K).
  destruct (lead0_split l) as (r & E & KR & _). rewrite E at 3. f_equal.
  rewrite <- (rev_involutive r). f_equal.
  apply (lval_unique b1); auto.
  - apply in_base_rev. rewrite E in R. apply Forall_app in R. tauto.
  - rewrite V'. unfold convert. rewrite rev_app_distr, rev_involutive, rev_repeat0, lval_zeros, V.
    rewrite E at 1. rewrite rev_app_distr, rev_repeat0, lval_zeros. reflexivity.
Qed.

(** The output has no more digits than the input when the new base is at least
    the old one. *)
Lemma lval_bound : forall b l, 2 <= b -> in_base b l -> lval b l < b ^ Z.of_nat (length l).
Proof.
  intros b l B R. induction R as [|d l D R IH]; [cbn; lia|]. cbn [lval fold_right length]. fold (lval b l).
  rewrite Nat2Z.inj_succ, Z.pow_succ_r by lia. nia.
Qed.
Lemma canon_lower : forall b l, 2 <= b -> in_base b l -> canon l -> l <> [] ->
  b ^ Z.of_nat (length l - 1) <= lval b l.
Proof.
  intros b l B R [->|(r & x & -> & N)] NE; [easy|]. clear NE. rewrite app_length. cbn [length].
  replace (length r + 1 - 1)%nat with (length r) by lia.
  induction r as [|y r IH]; inversion R; subst.
  - cbn. lia.
  - cbn [app lval fold_right length]. fold (lval b (r ++ [x])). rewrite Nat2Z.inj_succ, Z.pow_succ_r by lia.
    specialize (IH ltac:(assumption)). nia.
Qed.
Lemma convert_shorter : forall b1 b2 l, 2 <= b1 <= b2 -> in_base b1 l -> (length (convert b1 b2 l) <= length l)%nat.
Proof.
  intros b1 b2 l B R. unfold convert. rewrite app_length, repeat_length, rev_length.
  destruct (conv_buf_spec b1 b2 l ltac:(lia) ltac:(lia) R) as (I & K & V).
  destruct (lead0_split l) as (r & E & KR & _).
  assert (L : length l = (lead0 l + length r)%nat) by (rewrite E at 1; rewrite app_length, repeat_length; reflexivity).
  assert (V' : lval b1 (rev l) = lval b1 (rev r)) by (rewrite E at 1; rewrite rev_app_distr, rev_repeat0, lval_zeros; reflexivity).
  assert (Rr : in_base b1 (rev r)) by (apply in_base_rev; rewrite E in R; apply Forall_app in R; tauto).
  destruct (conv_buf b1 b2 l) as [|d o] eqn:C; [cbn; lia|]. rewrite <- C in *.
  assert (NE : conv_buf b1 b2 l <> []) by (rewrite C; discriminate).
  pose proof (canon_lower b2 _ ltac:(lia) I K NE) as LO.
  pose proof (lval_bound b1 (rev r) ltac:(lia) Rr) as HI. rewrite rev_length in HI.
  rewrite V, V' in LO.
  assert (P : b1 ^ Z.of_nat (length r) <= b2 ^ Z.of_nat (length r)) by (apply Z.pow_le_mono_l; lia).
  assert (Q : b2 ^ Z.of_nat (length (conv_buf b1 b2 l) - 1) < b2 ^ Z.of_nat (length r)) by lia.
  apply Z.pow_lt_mono_r_iff in Q; lia.
Qed.
