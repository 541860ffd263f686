(** Facts about the primitive readers on byte slices. *)
From Coq Require Import ZArith List Bool Lia ZifyBool.
From Verif Require Import Lib.Res Lib.Bytes BinProt.Prim.
Import ListNotations.
Open Scope Z_scope.
Ltac Zify.zify_post_hook ::= Z.div_mod_to_equations.

Notation sread := slice_read_exact.

Lemma sread_app : forall a b n, n = Z.of_nat (length a) ->
  sread n (a ++ b) = Ok (a, b).
Proof.
  intros a b n ->. unfold slice_read_exact.
  rewrite app_length, Nat2Z.inj_add.
  destruct (Z.leb_spec (Z.of_nat (length a)) (Z.of_nat (length a) + Z.of_nat (length b))); [|lia].
  rewrite Nat2Z.id.
  rewrite firstn_app, Nat.sub_diag, firstn_O, app_nil_r, firstn_all.
  rewrite skipn_app, Nat.sub_diag, skipn_O, skipn_all. reflexivity.
Qed.

Lemma sread_ok : forall n s l s', sread n s = Ok (l, s') -> 0 <= n ->
  s = l ++ s' /\ Z.of_nat (length l) = n.
Proof.
  intros n s l s' H Hn. unfold slice_read_exact in H.
  destruct (Z.leb_spec n (Z.of_nat (length s))); [|discriminate].
  injection H as <- <-. rewrite firstn_skipn. split; auto.
  rewrite firstn_length. lia.
Qed.

Lemma sread_no_panic : forall n s, sread n s <> Panic.
Proof. intros n s. unfold slice_read_exact. destruct (_ <=? _); discriminate. Qed.

Lemma read_u8_cons : forall b s, read_u8 (list Z) sread (b :: s) = Ok (b, s).
Proof.
  intros. unfold read_u8. change (b :: s) with ([b] ++ s).
  rewrite sread_app by reflexivity. cbn [bind le_val]. do 2 f_equal. lia.
Qed.
Lemma read_u8_nil : read_u8 (list Z) sread [] = Err EIo.
Proof. reflexivity. Qed.

Lemma read_ule_app : forall n l s, n = Z.of_nat (length l) ->
  read_ule (list Z) sread n (l ++ s) = Ok (le_val l, s).
Proof. intros. unfold read_ule. rewrite sread_app by auto. reflexivity. Qed.

Lemma read_sle_app : forall n l s, n = Z.of_nat (length l) ->
  read_sle (list Z) sread n (l ++ s) = Ok (signed (8 * n) (le_val l), s).
Proof. intros. unfold read_sle. rewrite sread_app by auto. reflexivity. Qed.

Lemma read_ule_le : forall k n z s, n = Z.of_nat k ->
  read_ule (list Z) sread n (le_bytes k z ++ s) = Ok (z mod 256 ^ n, s).
Proof.
  intros k n z s ->. rewrite read_ule_app by (rewrite le_bytes_length; auto).
  rewrite le_val_le_bytes. reflexivity.
Qed.

Lemma read_sle_le : forall k n z s, n = Z.of_nat k -> (0 < k)%nat ->
  - 2 ^ (8 * n - 1) <= z < 2 ^ (8 * n - 1) ->
  read_sle (list Z) sread n (le_bytes k z ++ s) = Ok (z, s).
Proof.
  intros k n z s -> Hk Hz. rewrite read_sle_app by (rewrite le_bytes_length; auto).
  rewrite le_val_le_bytes.
  replace (256 ^ Z.of_nat k) with (2 ^ (8 * Z.of_nat k)).
  2:{ replace 256 with (2 ^ 8) by reflexivity. rewrite <- Z.pow_mul_r by lia. reflexivity. }
  change (signed (8 * Z.of_nat k) (z mod 2 ^ (8 * Z.of_nat k))) with (wraps (8 * Z.of_nat k) z).
  rewrite wraps_id by lia. reflexivity.
Qed.

Lemma from_prim_ok : forall r x (s : list Z), in_range r x = true ->
  from_prim (list Z) r x s = Ok (x, s).
Proof. intros. unfold from_prim. rewrite H. reflexivity. Qed.

Lemma bin_integer_roundtrip : forall r z s,
  - 0x8000000000000000 <= z < 0x8000000000000000 -> in_range r z = true ->
  bin_read_integer (list Z) sread r (bin_write_integer z ++ s) = Ok (z, s).
Proof.
  intros r z s Hz Hr. unfold bin_write_integer.
  destruct (Z.leb_spec 0 z);
    [ destruct (Z.ltb_spec z 0x80);
      [|destruct (Z.ltb_spec z 0x8000); [|destruct (Z.ltb_spec z 0x80000000)]]
    | destruct (Z.leb_spec (-0x80) z);
      [|destruct (Z.leb_spec (-0x8000) z); [|destruct (Z.leb_spec (-0x80000000) z)]] ];
  unfold bin_read_integer.
  1: { cbn [le_bytes app]. rewrite read_u8_cons. cbn [bind].
       rewrite Z.mod_small by lia.
       unfold CODE_INT16, CODE_INT32, CODE_INT64, CODE_NEG_INT8.
       destruct (Z.eqb_spec z 254), (Z.eqb_spec z 253), (Z.eqb_spec z 252), (Z.eqb_spec z 255);
         try lia. destruct (Z.ltb_spec 128 z); [lia|]. apply from_prim_ok; auto. }
  all: rewrite <- app_comm_cons, read_u8_cons; cbn [bind];
    unfold CODE_INT16, CODE_INT32, CODE_INT64, CODE_NEG_INT8; cbn [Z.eqb Pos.eqb];
    (rewrite (read_sle_le 2 2) || rewrite (read_sle_le 4 4) || rewrite (read_sle_le 8 8)
     || rewrite (read_sle_le 1 1)); try reflexivity;
    cbn [bind]; try (apply from_prim_ok; auto); try lia.
Qed.

Lemma bin_nat0_roundtrip : forall r z s,
  0 <= z < 0x10000000000000000 -> in_range r z = true ->
  bin_read_nat0 (list Z) sread r (bin_write_nat0 z ++ s) = Ok (z, s).
Proof.
  intros r z s Hz Hr. unfold bin_write_nat0.
  destruct (Z.ltb_spec z 0x80);
    [|destruct (Z.ltb_spec z 0x10000); [|destruct (Z.ltb_spec z 0x100000000)]];
  unfold bin_read_nat0.
  1: { cbn [le_bytes app]. rewrite read_u8_cons. cbn [bind].
       rewrite Z.mod_small by lia.
       unfold CODE_INT16, CODE_INT32, CODE_INT64.
       destruct (Z.eqb_spec z 254), (Z.eqb_spec z 253), (Z.eqb_spec z 252);
         try lia. destruct (Z.ltb_spec 128 z); [lia|]. apply from_prim_ok; auto. }
  all: rewrite <- app_comm_cons, read_u8_cons; cbn [bind];
    unfold CODE_INT16, CODE_INT32, CODE_INT64; cbn [Z.eqb Pos.eqb];
    (rewrite (read_ule_le 2 2) || rewrite (read_ule_le 4 4) || rewrite (read_ule_le 8 8));
    try reflexivity; cbn [bind]; rewrite Z.mod_small by lia; apply from_prim_ok; auto.
Qed.

Lemma bin_write_integer_ok : forall z, bytes_ok (bin_write_integer z).
Proof.
  intros. unfold bin_write_integer.
  repeat match goal with |- context [if ?b then _ else _] => destruct b end;
    first [ apply le_bytes_ok
          | constructor; [unfold byte_ok, CODE_INT16, CODE_INT32, CODE_INT64, CODE_NEG_INT8; lia | apply le_bytes_ok] ].
Qed.
Lemma bin_write_nat0_ok : forall z, bytes_ok (bin_write_nat0 z).
Proof.
  intros. unfold bin_write_nat0.
  repeat match goal with |- context [if ?b then _ else _] => destruct b end;
    first [ apply le_bytes_ok
          | constructor; [unfold byte_ok, CODE_INT16, CODE_INT32, CODE_INT64, CODE_NEG_INT8; lia | apply le_bytes_ok] ].
Qed.

Lemma bin_bool_roundtrip : forall b s,
  bin_read_bool (list Z) sread (bin_write_bool b ++ s) = Ok (b, s).
Proof. intros [] s; unfold bin_read_bool, bin_write_bool; cbn [app]; rewrite read_u8_cons; reflexivity. Qed.

Lemma bin_unit_roundtrip : forall s,
  bin_read_unit (list Z) sread (bin_write_unit ++ s) = Ok (tt, s).
Proof. intros s; unfold bin_read_unit, bin_write_unit; cbn [app]; rewrite read_u8_cons; reflexivity. Qed.

Lemma bin_polyvar_roundtrip : forall h s, 0 <= h < 2 ^ 31 ->
  bin_read_polyvar_tag (list Z) sread (bin_write_polyvar_tag h ++ s) = Ok (h, s).
Proof.
  intros h s Hh. unfold bin_read_polyvar_tag, bin_write_polyvar_tag.
  rewrite (read_ule_le 4 4) by reflexivity. cbn [bind].
  unfold wrapu. rewrite (Z.mod_small (2 * h)) by lia.
  assert (E : Z.lor (2 * h) 1 = 2 * h + 1) by (destruct h; [reflexivity|reflexivity|lia]).
  rewrite E. rewrite Z.mod_small by lia.
  rewrite Z.shiftr_div_pow2 by lia. change (2 ^ 1) with 2.
  do 2 f_equal. lia.
Qed.

(** Inversion of the readers on slices. *)
Lemma read_u8_ok : forall s b s', read_u8 (list Z) sread s = Ok (b, s') -> s = b :: s'.
Proof.
  intros [|a s] b s' H; [discriminate|]. rewrite read_u8_cons in H. congruence.
Qed.
Lemma read_ule_ok : forall n s z s', 0 <= n -> bytes_ok s ->
  read_ule (list Z) sread n s = Ok (z, s') ->
  exists l, s = l ++ s' /\ Z.of_nat (length l) = n /\ bytes_ok l /\ z = le_val l.
Proof.
  intros n s z s' Hn Hs H. unfold read_ule in H.
  apply bind_ok in H. destruct H as ((l, s1) & H1 & H2).
  injection H2 as <- <-. apply sread_ok in H1; auto. destruct H1 as (-> & ?).
  exists l. repeat split; auto. apply bytes_ok_app in Hs. tauto.
Qed.
Lemma read_sle_ok : forall n s z s', 0 <= n -> bytes_ok s ->
  read_sle (list Z) sread n s = Ok (z, s') ->
  exists l, s = l ++ s' /\ Z.of_nat (length l) = n /\ bytes_ok l /\ z = signed (8 * n) (le_val l).
Proof.
  intros n s z s' Hn Hs H. unfold read_sle in H.
  apply bind_ok in H. destruct H as ((l, s1) & H1 & H2).
  injection H2 as <- <-. apply sread_ok in H1; auto. destruct H1 as (-> & ?).
  exists l. repeat split; auto. apply bytes_ok_app in Hs. tauto.
Qed.
Lemma from_prim_inv : forall S r x (s : S) z s', from_prim S r x s = Ok (z, s') ->
  z = x /\ s' = s /\ in_range r x = true.
Proof.
  intros S r x s z s' H. unfold from_prim in H. destruct (in_range r x); [|discriminate].
  injection H as <- <-. auto.
Qed.

(** The two's complement bytes of a signed value. *)
Lemma signed_le_bytes : forall l n, bytes_ok l -> Z.of_nat (length l) = n -> 0 < n ->
  l = le_bytes (length l) (signed (8 * n) (le_val l)) /\
  - 2 ^ (8 * n - 1) <= signed (8 * n) (le_val l) < 2 ^ (8 * n - 1).
Proof.
  intros l n Hl Hn Hp. pose proof (le_val_range l Hl) as R. rewrite Hn in R.
  assert (P : 256 ^ n = 2 ^ (8 * n)).
  { replace 256 with (2 ^ 8) by reflexivity. rewrite <- Z.pow_mul_r by lia. reflexivity. }
  rewrite P in R. split; [|apply signed_range; lia].
  transitivity (le_bytes (length l) (le_val l)); [symmetry; apply le_bytes_le_val; auto|].
  assert (Q : forall k a b, a mod 256 ^ Z.of_nat k = b mod 256 ^ Z.of_nat k -> le_bytes k a = le_bytes k b).
  { clear. intros k a b H.
    rewrite <- (le_bytes_le_val (le_bytes k a)) by apply le_bytes_ok.
    rewrite <- (le_bytes_le_val (le_bytes k b)) by apply le_bytes_ok.
    rewrite !le_val_le_bytes, !le_bytes_length, H. reflexivity. }
  apply Q. rewrite Hn, P. unfold signed.
  destruct (_ <? _); auto.
  replace (le_val l - 2 ^ (8 * n)) with (le_val l + (-1) * 2 ^ (8 * n)) by lia.
  rewrite Z_mod_plus_full. reflexivity.
Qed.
