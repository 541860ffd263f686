(** The readers and writers against PrimSpec. *)
From Coq Require Import ZArith List Bool Lia ZifyBool.
From Verif Require Import Lib.Res Lib.Bytes BinProt.Prim BinProt.PrimProofs BinProt.PrimSpec.
Import ListNotations.
Open Scope Z_scope.
Ltac Zify.zify_post_hook ::= Z.div_mod_to_equations.

Lemma byte_ok_is : forall b, byte_ok b <-> is_byte b.
Proof. unfold byte_ok, is_byte; intros; lia. Qed.

Lemma bytes_ok_cons : forall b l, bytes_ok (b :: l) <-> is_byte b /\ bytes_ok l.
Proof.
  intros. unfold bytes_ok. rewrite Forall_cons_iff, byte_ok_is. tauto.
Qed.

Lemma le_val_2 : forall a b, le_val [a; b] = le2 a b.
Proof. intros. cbn [le_val]. unfold le2. lia. Qed.
Lemma le_val_4 : forall a b c d, le_val [a; b; c; d] = le4 a b c d.
Proof. intros. cbn [le_val]. unfold le4. lia. Qed.
Lemma le_val_8 : forall a b c d e f g h, le_val [a; b; c; d; e; f; g; h] = le8 a b c d e f g h.
Proof. intros. cbn [le_val]. unfold le8, le4. lia. Qed.
Lemma le_val_1 : forall a, le_val [a] = a.
Proof. intros. cbn [le_val]. lia. Qed.
Lemma signed_twos : forall bits u, signed bits u = twos bits u.
Proof. reflexivity. Qed.

Ltac byteH := repeat match goal with
  | H : bytes_ok (_ :: _) |- _ => apply bytes_ok_cons in H; destruct H end.

Lemma read_sle_app1 : forall a s, read_sle (list Z) sread 1 (a :: s) = Ok (twos 8 a, s).
Proof. intros. exact (eq_trans (read_sle_app 1 [a] s eq_refl) (f_equal (fun x => Ok (signed 8 x, s)) (le_val_1 a))). Qed.
Lemma read_sle_app2 : forall a b s, read_sle (list Z) sread 2 (a :: b :: s) = Ok (twos 16 (le2 a b), s).
Proof. intros. exact (eq_trans (read_sle_app 2 [a;b] s eq_refl) (f_equal (fun x => Ok (signed 16 x, s)) (le_val_2 a b))). Qed.
Lemma read_sle_app4 : forall a b c d s, read_sle (list Z) sread 4 (a :: b :: c :: d :: s) = Ok (twos 32 (le4 a b c d), s).
Proof. intros. exact (eq_trans (read_sle_app 4 [a;b;c;d] s eq_refl) (f_equal (fun x => Ok (signed 32 x, s)) (le_val_4 a b c d))). Qed.
Lemma read_sle_app8 : forall a b c d e f g h s, read_sle (list Z) sread 8 (a::b::c::d::e::f::g::h::s) = Ok (twos 64 (le8 a b c d e f g h), s).
Proof. intros. exact (eq_trans (read_sle_app 8 [a;b;c;d;e;f;g;h] s eq_refl) (f_equal (fun x => Ok (signed 64 x, s)) (le_val_8 a b c d e f g h))). Qed.
Lemma read_ule_app2 : forall a b s, read_ule (list Z) sread 2 (a :: b :: s) = Ok (le2 a b, s).
Proof. intros. exact (eq_trans (read_ule_app 2 [a;b] s eq_refl) (f_equal (fun x => Ok (x, s)) (le_val_2 a b))). Qed.
Lemma read_ule_app4 : forall a b c d s, read_ule (list Z) sread 4 (a :: b :: c :: d :: s) = Ok (le4 a b c d, s).
Proof. intros. exact (eq_trans (read_ule_app 4 [a;b;c;d] s eq_refl) (f_equal (fun x => Ok (x, s)) (le_val_4 a b c d))). Qed.
Lemma read_ule_app8 : forall a b c d e f g h s, read_ule (list Z) sread 8 (a::b::c::d::e::f::g::h::s) = Ok (le8 a b c d e f g h, s).
Proof. intros. exact (eq_trans (read_ule_app 8 [a;b;c;d;e;f;g;h] s eq_refl) (f_equal (fun x => Ok (x, s)) (le_val_8 a b c d e f g h))). Qed.

Lemma le2_range : forall a b, is_byte a -> is_byte b -> 0 <= le2 a b < 2 ^ 16.
Proof. unfold is_byte, le2. lia. Qed.
Lemma le4_range : forall a b c d, is_byte a -> is_byte b -> is_byte c -> is_byte d ->
  0 <= le4 a b c d < 2 ^ 32.
Proof. unfold is_byte, le4. lia. Qed.
Lemma le8_range : forall a b c d e f g h, is_byte a -> is_byte b -> is_byte c -> is_byte d ->
  is_byte e -> is_byte f -> is_byte g -> is_byte h -> 0 <= le8 a b c d e f g h < 2 ^ 64.
Proof.
  intros. unfold le8. pose proof (le4_range a b c d). pose proof (le4_range e f g h). lia.
Qed.
Lemma twos_range : forall bits u, 0 < bits -> 0 <= u < 2 ^ bits ->
  - 2 ^ (bits - 1) <= twos bits u < 2 ^ (bits - 1).
Proof. intros. rewrite <- signed_twos. apply signed_range; auto. Qed.

Ltac list_of_len l := repeat (destruct l as [|? l]; cbn [length] in *; try lia).

Lemma read_integer_iff : forall bs n rest, bytes_ok bs ->
  (bin_read_integer (list Z) sread R_i64 bs = Ok (n, rest) <->
   exists pre, bs = pre ++ rest /\ int_form pre n).
Proof.
  intros bs n rest Hok. split.
  - intros H. unfold bin_read_integer in H.
    apply bind_ok in H. destruct H as ((b & s) & H1 & H2).
    apply read_u8_ok in H1. subst bs. apply bytes_ok_cons in Hok. destruct Hok as (Hb & Hs).
    assert (G : forall k, 0 < k -> (let* (x, s) := read_sle (list Z) sread k s in from_prim (list Z) R_i64 x s) = Ok (n, rest) ->
      exists l, s = l ++ rest /\ Z.of_nat (length l) = k /\ bytes_ok l /\ n = signed (8 * k) (le_val l)).
    { intros k Hk H. apply bind_ok in H. destruct H as ((x & s1) & Ha & Hc).
      apply from_prim_inv in Hc. destruct Hc as (-> & -> & _).
      apply read_sle_ok in Ha; auto. lia. }
    unfold CODE_INT16, CODE_INT32, CODE_INT64, CODE_NEG_INT8 in H2.
    destruct (Z.eqb_spec b 254);
      [|destruct (Z.eqb_spec b 253); [|destruct (Z.eqb_spec b 252);
        [|destruct (Z.eqb_spec b 255); [|destruct (Z.ltb_spec 128 b); [discriminate|]]]]].
    1-4: apply G in H2; [|lia]; destruct H2 as (l & -> & Hl & Hbl & ->); list_of_len l; byteH;
      subst b; eexists; (split; [rewrite app_comm_cons; reflexivity|]).
    + rewrite le_val_2. constructor; auto.
    + rewrite le_val_4. constructor; auto.
    + rewrite le_val_8. constructor; auto.
    + rewrite le_val_1. constructor; auto.
    + apply from_prim_inv in H2. destruct H2 as (-> & -> & _).
      exists [b]. split; auto. constructor. unfold is_byte in Hb. lia.
  - intros (pre & -> & F). unfold bin_read_integer.
    destruct F; cbn [app]; rewrite read_u8_cons; cbn [bind];
      unfold CODE_INT16, CODE_INT32, CODE_INT64, CODE_NEG_INT8.
    + destruct (Z.eqb_spec a 254), (Z.eqb_spec a 253), (Z.eqb_spec a 252), (Z.eqb_spec a 255); try lia.
      destruct (Z.ltb_spec 128 a); [lia|]. apply from_prim_ok.
      unfold in_range, R_i64; cbn [lo hi]. lia.
    + cbn [Z.eqb Pos.eqb]. rewrite read_sle_app1. cbn [bind]. apply from_prim_ok.
      pose proof (twos_range 8 a). unfold in_range, R_i64; cbn [lo hi]. unfold is_byte in *. lia.
    + cbn [Z.eqb Pos.eqb]. rewrite read_sle_app2. cbn [bind]. apply from_prim_ok.
      pose proof (twos_range 16 (le2 a b)). pose proof (le2_range a b). unfold in_range, R_i64; cbn [lo hi]. lia.
    + cbn [Z.eqb Pos.eqb]. rewrite read_sle_app4. cbn [bind]. apply from_prim_ok.
      pose proof (twos_range 32 (le4 a b c d)). pose proof (le4_range a b c d). unfold in_range, R_i64; cbn [lo hi]. lia.
    + cbn [Z.eqb Pos.eqb]. rewrite read_sle_app8. cbn [bind]. apply from_prim_ok.
      pose proof (twos_range 64 (le8 a b c d e f g h)). pose proof (le8_range a b c d e f g h). unfold in_range, R_i64; cbn [lo hi]. lia.
Qed.

Lemma read_nat0_iff : forall bs n rest, bytes_ok bs ->
  (bin_read_nat0 (list Z) sread R_u64 bs = Ok (n, rest) <->
   exists pre, bs = pre ++ rest /\ nat_form pre n).
Proof.
  intros bs n rest Hok. split.
  - intros H. unfold bin_read_nat0 in H.
    apply bind_ok in H. destruct H as ((b & s) & H1 & H2).
    apply read_u8_ok in H1. subst bs. apply bytes_ok_cons in Hok. destruct Hok as (Hb & Hs).
    assert (G : forall k, 0 < k -> (let* (x, s) := read_ule (list Z) sread k s in from_prim (list Z) R_u64 x s) = Ok (n, rest) ->
      exists l, s = l ++ rest /\ Z.of_nat (length l) = k /\ bytes_ok l /\ n = le_val l).
    { intros k Hk H. apply bind_ok in H. destruct H as ((x & s1) & Ha & Hc).
      apply from_prim_inv in Hc. destruct Hc as (-> & -> & _).
      apply read_ule_ok in Ha; auto. lia. }
    unfold CODE_INT16, CODE_INT32, CODE_INT64 in H2.
    destruct (Z.eqb_spec b 254);
      [|destruct (Z.eqb_spec b 253); [|destruct (Z.eqb_spec b 252);
        [|destruct (Z.ltb_spec 128 b); [discriminate|]]]].
    1-3: apply G in H2; [|lia]; destruct H2 as (l & -> & Hl & Hbl & ->); list_of_len l; byteH;
      subst b; eexists; (split; [rewrite app_comm_cons; reflexivity|]).
    + rewrite le_val_2. constructor; auto.
    + rewrite le_val_4. constructor; auto.
    + rewrite le_val_8. constructor; auto.
    + apply from_prim_inv in H2. destruct H2 as (-> & -> & _).
      exists [b]. split; auto. constructor. unfold is_byte in Hb. lia.
  - intros (pre & -> & F). unfold bin_read_nat0.
    destruct F; cbn [app]; rewrite read_u8_cons; cbn [bind];
      unfold CODE_INT16, CODE_INT32, CODE_INT64.
    + destruct (Z.eqb_spec a 254), (Z.eqb_spec a 253), (Z.eqb_spec a 252); try lia.
      destruct (Z.ltb_spec 128 a); [lia|]. apply from_prim_ok.
      unfold in_range, R_u64; cbn [lo hi]. lia.
    + cbn [Z.eqb Pos.eqb]. rewrite read_ule_app2. cbn [bind]. apply from_prim_ok.
      pose proof (le2_range a b). unfold in_range, R_u64; cbn [lo hi]. lia.
    + cbn [Z.eqb Pos.eqb]. rewrite read_ule_app4. cbn [bind]. apply from_prim_ok.
      pose proof (le4_range a b c d). unfold in_range, R_u64; cbn [lo hi]. lia.
    + cbn [Z.eqb Pos.eqb]. rewrite read_ule_app8. cbn [bind]. apply from_prim_ok.
      pose proof (le8_range a b c d e f g h). unfold in_range, R_u64; cbn [lo hi]. lia.
Qed.

Lemma int_form_prefix_free : forall p q r n m,
  int_form p n -> int_form q m -> q = p ++ r -> r = [] /\ n = m.
Proof.
  intros p q r n m Hp Hq E; destruct Hp; destruct Hq; cbn in E; injection E as; subst;
    cbn; auto; lia.
Qed.
Lemma nat_form_prefix_free : forall p q r n m,
  nat_form p n -> nat_form q m -> q = p ++ r -> r = [] /\ n = m.
Proof.
  intros p q r n m Hp Hq E; destruct Hp; destruct Hq; cbn in E; injection E as; subst;
    cbn; auto; lia.
Qed.

Lemma write_integer_form : forall n, i64 n -> int_form (bin_write_integer n) n.
Proof.
  intros n Hn. unfold i64 in Hn.
  destruct (proj1 (read_integer_iff (bin_write_integer n ++ []) n []
    ltac:(rewrite app_nil_r; apply bin_write_integer_ok))) as (pre & E & F).
  - apply bin_integer_roundtrip; [lia|]. unfold in_range, R_i64; cbn [lo hi]; lia.
  - rewrite !app_nil_r in E. subst. auto.
Qed.
Lemma write_nat0_form : forall n, u64 n -> nat_form (bin_write_nat0 n) n.
Proof.
  intros n Hn. unfold u64 in Hn.
  destruct (proj1 (read_nat0_iff (bin_write_nat0 n ++ []) n []
    ltac:(rewrite app_nil_r; apply bin_write_nat0_ok))) as (pre & E & F).
  - apply bin_nat0_roundtrip; [lia|]. unfold in_range, R_u64; cbn [lo hi]; lia.
  - rewrite !app_nil_r in E. subst. auto.
Qed.

Lemma write_integer_length : forall n, i64 n -> length (bin_write_integer n) = int_size n.
Proof.
  intros n Hn. unfold i64 in Hn. unfold bin_write_integer, int_size.
  repeat match goal with |- context [if ?b then _ else _] => destruct b eqn:? end;
    cbn [length]; rewrite ?le_bytes_length; auto; lia.
Qed.
Lemma write_nat0_length : forall n, u64 n -> length (bin_write_nat0 n) = nat_size n.
Proof.
  intros n Hn. unfold u64 in Hn. unfold bin_write_nat0, nat_size.
  repeat match goal with |- context [if ?b then _ else _] => destruct b eqn:? end;
    cbn [length]; rewrite ?le_bytes_length; auto; lia.
Qed.

(** the shortest form, except that the reader also takes 0x80 in one byte *)
Lemma int_form_min : forall p n, int_form p n -> n <> 128 -> (int_size n <= length p)%nat.
Proof.
  intros p n F Hn. destruct F; cbn [length].
  - unfold int_size. repeat match goal with |- context [if ?b then _ else _] => destruct b eqn:? end; lia.
  - pose proof (twos_range 8 a). unfold is_byte, int_size in *.
    repeat match goal with |- context [if ?b then _ else _] => destruct b eqn:? end; lia.
  - pose proof (twos_range 16 (le2 a b)). pose proof (le2_range a b).
    unfold int_size in *.
    repeat match goal with |- context [if ?b then _ else _] => destruct b eqn:? end; lia.
  - pose proof (twos_range 32 (le4 a b c d)). pose proof (le4_range a b c d).
    unfold int_size in *.
    repeat match goal with |- context [if ?b then _ else _] => destruct b eqn:? end; lia.
  - unfold int_size.
    repeat match goal with |- context [if ?b then _ else _] => destruct b eqn:? end; lia.
Qed.
Lemma nat_form_min : forall p n, nat_form p n -> n <> 128 -> (nat_size n <= length p)%nat.
Proof.
  intros p n F Hn. destruct F; cbn [length].
  - unfold nat_size. repeat match goal with |- context [if ?b then _ else _] => destruct b eqn:? end; lia.
  - pose proof (le2_range a b). unfold nat_size in *.
    repeat match goal with |- context [if ?b then _ else _] => destruct b eqn:? end; lia.
  - pose proof (le4_range a b c d). unfold nat_size in *.
    repeat match goal with |- context [if ?b then _ else _] => destruct b eqn:? end; lia.
  - unfold nat_size.
    repeat match goal with |- context [if ?b then _ else _] => destruct b eqn:? end; lia.
Qed.
