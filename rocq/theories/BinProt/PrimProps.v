(** Properties C01, C02, C03, C08: the integer formats. *)
From Coq Require Import ZArith List Bool Lia ZifyBool.
From Verif Require Import Lib.Res Lib.Bytes BinProt.Prim BinProt.PrimProofs BinProt.PrimSpec
  BinProt.PrimSpecProofs.
Import ListNotations.
Open Scope Z_scope.

Definition read_int := bin_read_integer (list Z) slice_read_exact.
Definition read_nat := bin_read_nat0 (list Z) slice_read_exact.

(** ** C01 *)
Theorem C01_integer_round_trip : forall n rest, i64 n ->
  read_int R_i64 (bin_write_integer n ++ rest) = Ok (n, rest).
Proof.
  intros n rest H. unfold i64 in H. apply bin_integer_roundtrip; [lia|].
  unfold in_range, R_i64; cbn [lo hi]; lia.
Qed.
Example C01_ex : i64 (-40000) /\ bin_write_integer (-40000) = [253; 192; 99; 255; 255].
Proof. split; [unfold i64; lia|reflexivity]. Qed.

(** ** C02 *)
Theorem C02_length_round_trip : forall n rest, u64 n ->
  read_nat R_u64 (bin_write_nat0 n ++ rest) = Ok (n, rest).
Proof.
  intros n rest H. unfold u64 in H. apply bin_nat0_roundtrip; [lia|].
  unfold in_range, R_u64; cbn [lo hi]; lia.
Qed.
Example C02_ex : u64 (2 ^ 64 - 1) /\ bin_write_nat0 (2 ^ 64 - 1) = [252; 255; 255; 255; 255; 255; 255; 255; 255].
Proof. split; [unfold u64; lia|reflexivity]. Qed.

(** ** C03 *)
(** The number of bytes written is the tabulated size. *)
Theorem C03_integer_size : forall n, i64 n -> length (bin_write_integer n) = int_size n.
Proof. exact write_integer_length. Qed.
Theorem C03_length_size : forall n, u64 n -> length (bin_write_nat0 n) = nat_size n.
Proof. exact write_nat0_length. Qed.
(** What is written is the shortest accepted byte string, except for 128. *)
Theorem C03_integer_shortest : forall n bs, i64 n -> n <> 128 -> bytes_ok bs ->
  read_int R_i64 bs = Ok (n, []) -> (length (bin_write_integer n) <= length bs)%nat.
Proof.
  intros n bs Hn H128 Hb H. apply read_integer_iff in H; auto.
  destruct H as (pre & -> & F). rewrite app_nil_r. rewrite write_integer_length by auto.
  apply int_form_min; auto.
Qed.
Theorem C03_length_shortest : forall n bs, u64 n -> n <> 128 -> bytes_ok bs ->
  read_nat R_u64 bs = Ok (n, []) -> (length (bin_write_nat0 n) <= length bs)%nat.
Proof.
  intros n bs Hn H128 Hb H. apply read_nat0_iff in H; auto.
  destruct H as (pre & -> & F). rewrite app_nil_r. rewrite write_nat0_length by auto.
  apply nat_form_min; auto.
Qed.
Example C03_ex : i64 300 /\ int_size 300 = 3%nat /\ read_int R_i64 [253; 44; 1; 0; 0] = Ok (300, []).
Proof. repeat split; unfold i64; try lia; reflexivity. Qed.
(** At 128 a shorter string is accepted than the one written. *)
Theorem C03_shortest_refuted : exists n bs, i64 n /\ bytes_ok bs /\
  read_int R_i64 bs = Ok (n, []) /\ (length bs < length (bin_write_integer n))%nat.
Proof.
  exists 128, [128]. repeat split; try (unfold i64; lia); try reflexivity.
  - constructor; [unfold byte_ok; lia|constructor].
  - cbn. lia.
Qed.
(** No encoding is a proper prefix of another, also among the non-canonical
    byte strings the reader accepts. *)
Theorem C03_prefix_free : forall a b x, i64 a -> i64 b ->
  bin_write_integer b = bin_write_integer a ++ x -> a = b /\ x = [].
Proof.
  intros a b x Ha Hb E.
  destruct (int_form_prefix_free _ _ x a b (write_integer_form a Ha) (write_integer_form b Hb) E); auto.
Qed.
Theorem C03_accepted_prefix_free : forall p q x n m r, bytes_ok q -> q = p ++ x ->
  read_int R_i64 p = Ok (n, []) -> read_int R_i64 q = Ok (m, r) -> n = m /\ r = x.
Proof.
  intros p q x n m r Hq E Hp Hr. subst q. apply bytes_ok_app in Hq as Hq'. destruct Hq' as (Hp' & _).
  apply read_integer_iff in Hp; auto. destruct Hp as (p1 & E1 & F1). rewrite app_nil_r in E1. subst p1.
  assert (R : read_int R_i64 (p ++ x) = Ok (n, x)).
  { apply read_integer_iff; auto. eauto. }
  rewrite Hr in R. injection R as -> ->. auto.
Qed.
Example C03_prefix_ex : bin_write_integer 254 = [254; 254; 0] /\ bin_write_integer (-2) = [255; 254].
Proof. split; reflexivity. Qed.

(** ** C08 *)
(** Exactly these byte strings are accepted. *)
Theorem C08_accepted_integers : forall bs n rest, bytes_ok bs ->
  (read_int R_i64 bs = Ok (n, rest) <-> exists pre, bs = pre ++ rest /\ int_form pre n).
Proof. exact read_integer_iff. Qed.
Theorem C08_accepted_lengths : forall bs n rest, bytes_ok bs ->
  (read_nat R_u64 bs = Ok (n, rest) <-> exists pre, bs = pre ++ rest /\ nat_form pre n).
Proof. exact read_nat0_iff. Qed.
(** A string of the tabulated size is the canonical one. *)
Theorem C08_canonical_partial : forall bs n, bytes_ok bs -> n <> 128 ->
  read_int R_i64 bs = Ok (n, []) -> length bs = int_size n -> bs = bin_write_integer n.
Proof.
  intros bs n Hb H128 H L. apply read_integer_iff in H; auto.
  destruct H as (pre & -> & F). rewrite app_nil_r in *.
  destruct F; cbn [length] in L; unfold int_size in L; unfold bin_write_integer.
  - destruct (Z.leb_spec 0 a); [|lia]. destruct (Z.ltb_spec a 128); [|lia].
    cbn [le_bytes]. rewrite Z.mod_small by lia. reflexivity.
  - pose proof (twos_range 8 a ltac:(lia) ltac:(unfold is_byte in *; lia)) as R.
    repeat match type of L with context [if ?b then _ else _] => destruct b eqn:? end; try discriminate.
    destruct (Z.leb_spec 0 (twos 8 a)); [lia|]. destruct (Z.leb_spec (-0x80) (twos 8 a)); [|lia].
    unfold CODE_NEG_INT8. f_equal.
    assert (O : bytes_ok [a]) by (inversion Hb; auto).
    pose proof (proj1 (signed_le_bytes [a] 1 O eq_refl ltac:(lia))) as Q.
    rewrite le_val_1, signed_twos in Q. exact Q.
  - repeat match type of L with context [if ?b then _ else _] => destruct b eqn:? end; try discriminate.
    set (z := twos 16 (le2 a b)) in *.
    assert (Q : [a; b] = le_bytes 2 z).
    { subst z. rewrite <- le_val_2, <- signed_twos.
      apply (signed_le_bytes [a; b] 2); auto; try lia. inversion Hb; auto. }
    rewrite Q. unfold CODE_INT16.
    repeat match goal with |- context [if ?b then _ else _] => destruct b eqn:? end; try lia; reflexivity.
  - repeat match type of L with context [if ?b then _ else _] => destruct b eqn:? end; try discriminate.
    set (z := twos 32 (le4 a b c d)) in *.
    assert (Q : [a; b; c; d] = le_bytes 4 z).
    { subst z. rewrite <- le_val_4, <- signed_twos.
      apply (signed_le_bytes [a; b; c; d] 4); auto; try lia. inversion Hb; auto. }
    rewrite Q. unfold CODE_INT32.
    repeat match goal with |- context [if ?b then _ else _] => destruct b eqn:? end; try lia; reflexivity.
  - repeat match type of L with context [if ?b then _ else _] => destruct b eqn:? end; try discriminate.
    set (z := twos 64 (le8 a b c d e f g h)) in *.
    assert (Q : [a; b; c; d; e; f; g; h] = le_bytes 8 z).
    { subst z. rewrite <- le_val_8, <- signed_twos.
      apply (signed_le_bytes [a; b; c; d; e; f; g; h] 8); auto; try lia. inversion Hb; auto. }
    rewrite Q. unfold CODE_INT64.
    repeat match goal with |- context [if ?b then _ else _] => destruct b eqn:? end; try lia; reflexivity.
Qed.
Theorem C08_refuted : exists bs n, bytes_ok bs /\ read_int R_i64 bs = Ok (n, []) /\
  bin_write_integer n <> bs.
Proof.
  exists [254; 5; 0], 5. repeat split; try reflexivity; try discriminate.
  repeat constructor; unfold byte_ok; lia.
Qed.
(** Every small value has four different accepted byte strings. *)
Theorem C08_malleable : forall n, 0 <= n < 128 -> exists b1 b2 b3 b4,
  NoDup [b1; b2; b3; b4] /\
  Forall (fun b => read_int R_i64 b = Ok (n, [])) [b1; b2; b3; b4].
Proof.
  intros n Hn.
  exists [n], [254; n; 0], [253; n; 0; 0; 0], [252; n; 0; 0; 0; 0; 0; 0; 0].
  split.
  - repeat constructor; cbn; intuition discriminate.
  - assert (T : forall pre, bytes_ok pre -> int_form pre n -> read_int R_i64 pre = Ok (n, [])).
    { intros pre Hb F. apply read_integer_iff; auto. exists pre. rewrite app_nil_r. auto. }
    repeat apply Forall_cons; try apply Forall_nil; (apply T; [repeat constructor; unfold byte_ok; lia|]).
    + constructor; lia.
    + assert (E : n = twos 16 (le2 n 0)) by (unfold twos, le2; change (16 - 1) with 15; destruct (Z.ltb_spec (n + 2 ^ 8 * 0) (2 ^ 15)); lia).
      pose proof (IF_3 n 0 ltac:(unfold is_byte; lia) ltac:(unfold is_byte; lia)) as F. rewrite <- E in F. exact F.
    + assert (E : n = twos 32 (le4 n 0 0 0)) by (unfold twos, le4; change (32 - 1) with 31; match goal with |- context [?a <? ?b] => destruct (Z.ltb_spec a b) end; lia).
      pose proof (IF_5 n 0 0 0 ltac:(unfold is_byte; lia) ltac:(unfold is_byte; lia) ltac:(unfold is_byte; lia) ltac:(unfold is_byte; lia)) as F. rewrite <- E in F. exact F.
    + assert (E : n = twos 64 (le8 n 0 0 0 0 0 0 0)) by (unfold twos, le8, le4; change (64 - 1) with 63; match goal with |- context [?a <? ?b] => destruct (Z.ltb_spec a b) end; lia).
      pose proof (IF_9 n 0 0 0 0 0 0 0 ltac:(unfold is_byte; lia) ltac:(unfold is_byte; lia) ltac:(unfold is_byte; lia) ltac:(unfold is_byte; lia) ltac:(unfold is_byte; lia) ltac:(unfold is_byte; lia) ltac:(unfold is_byte; lia) ltac:(unfold is_byte; lia)) as F. rewrite <- E in F. exact F.
Qed.
Example C08_ex : read_int R_i64 [254; 5; 0] = Ok (5, []) /\ int_form [254; 5; 0] 5.
Proof.
  split; [reflexivity|]. apply (IF_3 5 0); unfold is_byte; lia.
Qed.

Print Assumptions C01_integer_round_trip.
Print Assumptions C02_length_round_trip.
Print Assumptions C03_integer_size.
Print Assumptions C03_length_size.
Print Assumptions C03_integer_shortest.
Print Assumptions C03_length_shortest.
Print Assumptions C03_shortest_refuted.
Print Assumptions C03_prefix_free.
Print Assumptions C03_accepted_prefix_free.
Print Assumptions C08_accepted_integers.
Print Assumptions C08_accepted_lengths.
Print Assumptions C08_canonical_partial.
Print Assumptions C08_refuted.
Print Assumptions C08_malleable.
