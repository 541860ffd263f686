(** Numbers as text: theorems. *)

From Coq Require Import String ZArith List Bool Lia ZifyBool ZifyNat.
From Verif Require Import Lib.Res Lib.Bytes Lib.Decimal Lib.Text BinProt.Prim BinProt.Codec BinProt.CodecSpec
  BinProt.CodecProps Wire.Types Text.Numbers Text.NumbersSpec.
Import ListNotations.
Local Open Scope string_scope.
Local Open Scope list_scope.
Local Open Scope Z_scope.

(** ** Helpers *)

Lemma dec_loop_short : forall fuel n acc k, 0 <= n < 10 ^ Z.of_nat k -> (0 < k)%nat ->
  (length (dec_loop fuel n acc) <= k + length acc)%nat.
Proof.
  induction fuel as [|f IH]; intros n acc k H K; cbn [dec_loop]; [lia|].
  destruct (n / 10 =? 0) eqn:E; [cbn [length]; lia|].
  destruct k as [|[|k]]; [lia| |].
  - change (10 ^ Z.of_nat 1) with 10 in H. rewrite Z.div_small in E by lia. discriminate.
  - etransitivity; [apply (IH _ _ (S k)); [|lia]|cbn [length]; lia].
    rewrite (Nat2Z.inj_succ (S k)), Z.pow_succ_r in H by lia. split; [apply Z.div_pos; lia|].
    apply Z.div_lt_upper_bound; lia.
Qed.

Lemma dec_short : forall n k, 0 <= n < 10 ^ Z.of_nat k -> (0 < k)%nat -> (length (dec n) <= k)%nat.
Proof. intros n k H K. unfold dec. etransitivity; [apply (dec_loop_short _ _ _ k); auto|cbn [length]; lia]. Qed.

Lemma pad0_length : forall w l, (length l <= w)%nat -> length (pad0 w l) = w.
Proof. intros w l H. unfold pad0. rewrite app_length, repeat_length. lia. Qed.

Lemma digit_text_iff : forall l, digit_text l <-> digits l.
Proof.
  intros l. split; intros H; (eapply Forall_impl; [|exact H]); cbv beta; intros c; unfold is_digit; lia.
Qed.

Lemma zeros_digits : forall k, digits (repeat 48 k).
Proof. induction k; constructor; [reflexivity|assumption]. Qed.

Lemma pad0_digits : forall w l, digits l -> digits (pad0 w l).
Proof. intros w l H. apply digits_app. split; [apply zeros_digits|exact H]. Qed.

Lemma dec_val_repeat0 : forall k, dec_val (repeat 48 k) = 0.
Proof. intros k. rewrite <- (app_nil_r (repeat 48 k)), dec_val_zeros. reflexivity. Qed.

Lemma dec_val_padr : forall f k, dec_val (f ++ repeat 48 k) = dec_val f * 10 ^ Z.of_nat k.
Proof. intros f k. rewrite dec_val_app, repeat_length, dec_val_repeat0. lia. Qed.

Lemma pow10_pos : forall k, 0 < 10 ^ Z.of_nat k.
Proof. intros k. apply Z.pow_pos_nonneg; lia. Qed.

(** The fraction digits [f] padded to nine. *)
Lemma parse_fraction : forall f, digits f -> dec_val f * 10 ^ Z.of_nat (9 - length f) < 2 ^ 64 ->
  parse_uint 64 (padr0 9 f) = inr (dec_val f * 10 ^ Z.of_nat (9 - length f)).
Proof.
  intros f D V. unfold padr0. rewrite char_count_digits by exact D. rewrite <- dec_val_padr in V |- *.
  apply parse_uint_digits; [lia| | |exact V].
  - destruct f; cbn [length app repeat Nat.sub]; discriminate.
  - apply digits_app. split; [exact D|apply zeros_digits].
Qed.

Lemma digits_nodot : forall l, digits l -> Forall (fun x => x <> 46) l.
Proof. intros l. apply digits_no. reflexivity. Qed.

(** Both texts forms, read. *)
Lemma from_str_whole : forall c i, i <> [] -> digits i -> dec_val i < 2 ^ 64 ->
  amount_from_str c i = let* m := mul64 c MINA_PRECISION (dec_val i) in add64 c 0 m.
Proof.
  intros c i N D V. unfold amount_from_str. rewrite split_on_none by (apply digits_nodot, D).
  rewrite (parse_uint_digits 64 i) by (assumption || lia). reflexivity.
Qed.

Lemma from_str_fraction : forall c i f, i <> [] -> digits i -> digits f -> dec_val i < 2 ^ 64 ->
  dec_val f * 10 ^ Z.of_nat (9 - length f) < 2 ^ 64 ->
  amount_from_str c (i ++ 46 :: f) =
  let* m := mul64 c MINA_PRECISION (dec_val i) in add64 c (dec_val f * 10 ^ Z.of_nat (9 - length f)) m.
Proof.
  intros c i f N D F V W. unfold amount_from_str.
  rewrite split_on_app by (apply digits_nodot, D). rewrite split_on_none by (apply digits_nodot, F).
  rewrite (parse_uint_digits 64 i) by (assumption || lia). cbn [of_parse bind tl].
  rewrite parse_fraction by assumption. reflexivity.
Qed.

Lemma arith_fits : forall E c q r, 0 <= q -> 0 <= r -> r + MINA_PRECISION * q < 2 ^ 64 ->
  (let* m := mul64 c MINA_PRECISION q in add64 c r m) = (Ok (r + MINA_PRECISION * q) : res E Z).
Proof.
  intros E c q r Q R H. unfold MINA_PRECISION in *. unfold mul64, add64.
  destruct (2 ^ 64 <=? 1000000000 * q) eqn:A; [lia|]. rewrite andb_false_r. cbn [bind].
  unfold wrapu. rewrite (Z.mod_small (1000000000 * q)) by lia.
  destruct (2 ^ 64 <=? r + 1000000000 * q) eqn:B; [lia|]. rewrite andb_false_r.
  rewrite Z.mod_small by lia. reflexivity.
Qed.

Lemma arith_checked : forall E q r a, 0 <= q -> 0 <= r ->
  (let* m := mul64 true MINA_PRECISION q in add64 true r m) = (Ok a : res E Z) -> a = r + MINA_PRECISION * q.
Proof.
  intros E q r a Q R. unfold MINA_PRECISION. unfold mul64, add64.
  destruct (2 ^ 64 <=? 1000000000 * q) eqn:A; [discriminate|]. cbn [andb bind].
  unfold wrapu. rewrite (Z.mod_small (1000000000 * q)) by lia.
  destruct (2 ^ 64 <=? r + 1000000000 * q) eqn:B; [discriminate|]. cbn [andb].
  intros [= <-]. apply Z.mod_small. lia.
Qed.

(** The result of the release build is always the sum modulo 2^64. *)
Lemma arith_wrapped : forall E q r,
  (let* m := mul64 false MINA_PRECISION q in add64 false r m) = (Ok ((r + MINA_PRECISION * q) mod 2 ^ 64) : res E Z).
Proof.
  intros E q r. unfold mul64, add64, wrapu. cbn [andb bind]. rewrite Zplus_mod_idemp_r. reflexivity.
Qed.

Ltac digs := unfold digit_text; cbn; repeat (apply Forall_cons; [lia|]); apply Forall_nil.

(** ** C40 *)

(** The printed text: the whole part without leading zeros, a point, and
    exactly nine digits. *)
Theorem C40_text_denotes : forall a, 0 <= a < 2 ^ 64 ->
  exists m, numeral (amount_display a) m 9 /\ amount_is a m 9.
Proof.
  intros a H. assert (P : 0 < MINA_PRECISION) by reflexivity.
  pose proof (Z.div_pos a MINA_PRECISION ltac:(lia) P).
  pose proof (Z.mod_pos_bound a MINA_PRECISION P).
  assert (L : length (pad0 9 (dec (a mod MINA_PRECISION))) = 9%nat).
  { apply pad0_length, dec_short; [|lia]. change (10 ^ Z.of_nat 9) with MINA_PRECISION. lia. }
  unfold amount_display. cbn [app].
  exists (dec_val (dec (a / MINA_PRECISION) ++ pad0 9 (dec (a mod MINA_PRECISION)))). split.
  - pose proof (N_fraction (dec (a / MINA_PRECISION)) (pad0 9 (dec (a mod MINA_PRECISION)))) as NF.
    rewrite L in NF. apply NF; [apply dec_nonempty|apply digit_text_iff, dec_digits; lia|].
    apply digit_text_iff, pad0_digits, dec_digits. lia.
  - unfold amount_is. rewrite dec_val_app, L. unfold pad0. rewrite dec_val_zeros, !dec_val_dec by lia.
    change (10 ^ Z.of_nat 9) with MINA_PRECISION. change (10 ^ 9) with MINA_PRECISION.
    rewrite Z.mul_comm with (n := a / MINA_PRECISION), <- Z.div_mod by lia. reflexivity.
Qed.

Theorem C40_round_trip : forall checked a, 0 <= a < 2 ^ 64 ->
  amount_from_str checked (amount_display a) = Ok a.
Proof.
  intros c a H. assert (P : 0 < MINA_PRECISION) by reflexivity.
  pose proof (Z.div_pos a MINA_PRECISION ltac:(lia) P).
  pose proof (Z.mod_pos_bound a MINA_PRECISION P).
  pose proof (Z.div_mod a MINA_PRECISION ltac:(lia)).
  assert (L : length (pad0 9 (dec (a mod MINA_PRECISION))) = 9%nat).
  { apply pad0_length, dec_short; [|lia]. change (10 ^ Z.of_nat 9) with MINA_PRECISION. lia. }
  assert (V : dec_val (pad0 9 (dec (a mod MINA_PRECISION))) = a mod MINA_PRECISION).
  { unfold pad0. rewrite dec_val_zeros, dec_val_dec by lia. reflexivity. }
  assert (Q : a / MINA_PRECISION <= a) by (apply Z.div_le_upper_bound; unfold MINA_PRECISION; lia).
  unfold amount_display. cbn [app].
  rewrite from_str_fraction; rewrite ?L, ?V, ?dec_val_dec by lia;
    try (apply dec_nonempty); try (apply dec_digits; lia); try (apply pad0_digits, dec_digits; lia).
  - change (10 ^ Z.of_nat (9 - 9)) with 1. rewrite Z.mul_1_r. rewrite arith_fits by lia. f_equal. lia.
  - lia.
  - change (10 ^ Z.of_nat (9 - 9)) with 1. unfold MINA_PRECISION in *. lia.
Qed.
(** Two amounts with the same text are the same amount. *)
Theorem C40_injective : forall a b, 0 <= a < 2 ^ 64 -> 0 <= b < 2 ^ 64 ->
  amount_display a = amount_display b -> a = b.
Proof.
  intros a b Ha Hb E. pose proof (C40_round_trip false a Ha) as A. rewrite E, C40_round_trip in A by exact Hb.
  now injection A.
Qed.
Example C40_ex : amount_display 1000000030 = str_bytes "1.000000030" /\
  amount_display (2 ^ 64 - 1) = str_bytes "18446744073.709551615" /\
  amount_from_str true (str_bytes "18446744073.709551615") = Ok (2 ^ 64 - 1).
Proof. vm_compute. auto. Qed.

(** ** C41 *)

Lemma numeral_inv : forall s m k, numeral s m k ->
  (k = 0%nat /\ exists i, s = i /\ i <> [] /\ digits i /\ m = dec_val i) \/
  (exists i f, s = i ++ 46 :: f /\ i <> [] /\ digits i /\ digits f /\ k = length f /\
     m = dec_val i * 10 ^ Z.of_nat (length f) + dec_val f).
Proof.
  intros s m k H. destruct H as [i N D|i f N D F].
  - left. split; [reflexivity|]. exists i. rewrite digit_text_iff in D. auto.
  - right. exists i, f. rewrite digit_text_iff in D, F. rewrite dec_val_app. auto 7.
Qed.

(** A numeral with at most nine fraction digits whose value an amount can hold
    is read as its value. *)
Theorem C41_numerals_exact : forall checked s m k, numeral s m k -> (k <= 9)%nat -> amount_fits m k ->
  exists a, amount_from_str checked s = Ok a /\ amount_is a m k /\ 0 <= a < 2 ^ 64.
Proof.
  intros c s m k H K B. unfold amount_fits, amount_is in *. change (10 ^ 9) with MINA_PRECISION in *.
  destruct (numeral_inv s m k H) as [(-> & i & -> & N & D & ->)|(i & f & -> & N & D & F & -> & ->)].
  - pose proof (dec_val_range i D) as [R _]. change (10 ^ Z.of_nat 0) with 1 in *. unfold MINA_PRECISION in B.
    exists (0 + MINA_PRECISION * dec_val i).
    rewrite from_str_whole by (assumption || lia). rewrite arith_fits by (unfold MINA_PRECISION; lia).
    unfold MINA_PRECISION. split; [reflexivity|lia].
  - pose proof (dec_val_range i D) as [R _]. pose proof (dec_val_range f F) as [S1 S2].
    set (t := 10 ^ Z.of_nat (length f)) in *. set (u := 10 ^ Z.of_nat (9 - length f)).
    assert (T : MINA_PRECISION = t * u).
    { unfold t, u. rewrite <- Z.pow_add_r by lia. rewrite <- Nat2Z.inj_add.
      replace (length f + (9 - length f))%nat with 9%nat by lia. reflexivity. }
    assert (Tp : 0 < t) by apply pow10_pos. assert (Up : 0 < u) by apply pow10_pos.
    assert (V : dec_val f * u + MINA_PRECISION * dec_val i < 2 ^ 64).
    { rewrite T in B |- *. assert ((dec_val f * u + t * u * dec_val i) * t < 2 ^ 64 * t) by nia. nia. }
    assert (G : dec_val f * u < 2 ^ 64) by (unfold MINA_PRECISION in *; nia).
    assert (G' : dec_val i < 2 ^ 64) by (unfold MINA_PRECISION in *; nia).
    exists (dec_val f * u + MINA_PRECISION * dec_val i).
    rewrite from_str_fraction by assumption. fold u.
    assert (0 <= dec_val f * u) by nia.
    rewrite arith_fits by assumption.
    split; [reflexivity|]. split; [rewrite T; ring|unfold MINA_PRECISION in *; lia].
Qed.

(** A numeral beyond the range of amounts is never read as its value; with
    overflow checks it is an error or a panic. *)
Theorem C41_out_of_range : forall checked s m k, numeral s m k -> (k <= 9)%nat -> ~ amount_fits m k ->
  (forall a, amount_from_str checked s = Ok a -> ~ amount_is a m k) /\
  (forall a, amount_from_str true s <> Ok a).
Proof.
  intros c s m k H K B. unfold amount_fits, amount_is in *. change (10 ^ 9) with MINA_PRECISION in *.
  assert (Out : forall c a, amount_from_str c s = Ok a -> a < 2 ^ 64).
  { clear. intros c a. unfold amount_from_str. destruct (split_on 46 s) as [|p ps]; [discriminate|].
    intros E. apply bind_ok in E. destruct E as (q & _ & E). apply bind_ok in E. destruct E as (r & _ & E).
    destruct (tl ps); [|discriminate]. apply bind_ok in E. destruct E as (x & _ & E).
    unfold add64, wrapu in E. destruct (c && _); [discriminate|]. injection E as <-.
    apply Z.mod_pos_bound. lia. }
  split.
  - intros a E A. apply Out in E. apply B. rewrite <- A.
    apply Z.mul_lt_mono_pos_r; [apply pow10_pos|exact E].
  - intros a E. pose proof (Out true a E) as O. apply B. clear B.
    destruct (numeral_inv s m k H) as [(-> & i & -> & N & D & ->)|(i & f & -> & N & D & F & -> & ->)].
    + pose proof (dec_val_range i D) as [R _].
      destruct (Z_lt_dec (dec_val i) (2 ^ 64)) as [V|V].
      * rewrite from_str_whole in E by assumption.
        apply arith_checked in E; [|lia|lia]. change (10 ^ Z.of_nat 0) with 1. lia.
      * exfalso. unfold amount_from_str in E. rewrite split_on_none in E by (apply digits_nodot, D).
        apply bind_ok in E. destruct E as (q & E & _). unfold of_parse in E.
        destruct (parse_uint 64 i) as [e|v] eqn:Q; [discriminate|]. injection E as ->.
        apply parse_uint_ok in Q; [|lia]. destruct Q as (d & [->| ->] & _ & _ & Q1 & Q2); [lia|].
        inversion D as [|? ? X _]; discriminate X.
    + pose proof (dec_val_range i D) as [R _]. pose proof (dec_val_range f F) as [S1 S2].
      set (t := 10 ^ Z.of_nat (length f)) in *. set (u := 10 ^ Z.of_nat (9 - length f)) in *.
      assert (T : MINA_PRECISION = t * u).
      { unfold t, u. rewrite <- Z.pow_add_r by lia. rewrite <- Nat2Z.inj_add.
        replace (length f + (9 - length f))%nat with 9%nat by lia. reflexivity. }
      assert (Tp : 0 < t) by apply pow10_pos. assert (Up : 0 < u) by apply pow10_pos.
      assert (G : dec_val f * u < 2 ^ 64).
      { assert (dec_val f * u < t * u) by nia. rewrite <- T in *. unfold MINA_PRECISION in *. lia. }
      destruct (Z_lt_dec (dec_val i) (2 ^ 64)) as [V|V].
      * rewrite from_str_fraction in E by assumption. fold u in E.
        assert (0 <= dec_val f * u) by nia.
        apply arith_checked in E; [|lia|assumption]. subst a. rewrite T in O |- *. nia.
      * exfalso. unfold amount_from_str in E. rewrite split_on_app in E by (apply digits_nodot, D).
        apply bind_ok in E. destruct E as (q & E & _). unfold of_parse in E.
        destruct (parse_uint 64 i) as [e|v] eqn:Q; [discriminate|]. injection E as ->.
        apply parse_uint_ok in Q; [|lia]. destruct Q as (d & [->| ->] & _ & _ & Q1 & Q2); [lia|].
        inversion D as [|? ? X _]; discriminate X.
Qed.
Example C41_ex : numeral (str_bytes "12.5") 125 1 /\ amount_fits 125 1 /\
  amount_from_str true (str_bytes "12.5") = Ok 12500000000 /\
  amount_from_str true (str_bytes "7.") = Ok 7000000000 /\
  amount_from_str true (str_bytes "7") = Ok 7000000000.
Proof.
  split; [apply (N_fraction [49; 50] [53]); [discriminate|digs|digs]|].
  split; [vm_compute; reflexivity|]. vm_compute. auto.
Qed.

(** Without overflow checks an amount out of range is silently wrapped; with
    them the parser panics instead of returning an error. *)
Theorem C41_overflow_refuted : exists s m a, numeral s m 0 /\
  amount_from_str false s = Ok a /\ ~ amount_is a m 0 /\ amount_from_str true s = Panic.
Proof.
  exists (str_bytes "18446744074"), 18446744074, 290448384.
  split; [apply (N_whole (str_bytes "18446744074")); [discriminate|digs]|].
  split; [reflexivity|]. split; [|reflexivity]. unfold amount_is. vm_compute. discriminate.
Qed.

(** With more than nine fraction digits the number read is wrong for every
    numeral whose fraction is not zero. *)
Theorem C41_long_fraction_wrong : forall i f a, i <> [] -> digit_text i -> digit_text f -> (9 < length f)%nat ->
  dec_val f <> 0 -> amount_from_str true (i ++ 46 :: f) = Ok a ->
  ~ amount_is a (dec_val (i ++ f)) (length f) /\ a = MINA_PRECISION * dec_val i + dec_val f.
Proof.
  intros i f a N D F L Z0 E. rewrite digit_text_iff in D, F.
  pose proof (dec_val_range i D) as [R _]. pose proof (dec_val_range f F) as [S1 _].
  assert (A : a = dec_val f + MINA_PRECISION * dec_val i).
  { unfold amount_from_str in E. rewrite split_on_app in E by (apply digits_nodot, D).
    rewrite split_on_none in E by (apply digits_nodot, F).
    apply bind_ok in E. destruct E as (q & Eq & E). apply bind_ok in E. destruct E as (r & Er & E).
    cbn [tl] in E.
    unfold of_parse in Eq, Er. unfold padr0 in Er. rewrite char_count_digits in Er by exact F.
    replace (9 - length f)%nat with 0%nat in Er by lia. cbn [repeat] in Er. rewrite app_nil_r in Er.
    destruct (parse_uint 64 i) as [e|v] eqn:Q; [discriminate|]. injection Eq as ->.
    destruct (parse_uint 64 f) as [e|v] eqn:P; [discriminate|]. injection Er as ->.
    apply parse_uint_ok in Q; [|lia]. apply parse_uint_ok in P; [|lia].
    destruct Q as (d & [->| ->] & _ & _ & Q1 & Q2); [|inversion D as [|? ? X _]; discriminate X].
    destruct P as (g & [->| ->] & _ & _ & P1 & P2); [|inversion F as [|? ? X _]; discriminate X].
    apply arith_checked in E; lia. }
  split; [|lia]. subst a. unfold amount_is. rewrite dec_val_app. change (10 ^ 9) with MINA_PRECISION.
  replace (length f) with (length f - 9 + 9)%nat by lia. rewrite Nat2Z.inj_add, Z.pow_add_r by lia.
  change (10 ^ Z.of_nat 9) with MINA_PRECISION.
  pose proof (Z.pow_gt_1 10 (Z.of_nat (length f - 9)) ltac:(lia)) as G.
  assert (1 < 10 ^ Z.of_nat (length f - 9)) by (apply G; lia). unfold MINA_PRECISION. nia.
Qed.
Theorem C41_long_fraction_refuted : exists s m k a, numeral s m k /\ amount_fits m k /\
  amount_from_str true s = Ok a /\ ~ amount_is a m k.
Proof.
  exists (str_bytes "1.0000000001"), 10000000001, 10%nat, 1000000001.
  split; [apply (N_fraction [49] (str_bytes "0000000001")); [discriminate|digs|digs]|].
  split; [vm_compute; reflexivity|]. split; [reflexivity|]. unfold amount_is. vm_compute. discriminate.
Qed.
(** Texts that are no numerals are accepted: a plus sign is allowed before
    each part, and in the fraction it takes the place of a digit. *)
Theorem C41_plus_refuted : exists s a, (forall m k, ~ numeral s m k) /\ amount_from_str true s = Ok a /\
  s = str_bytes "1.+5" /\ a = 1050000000.
Proof.
  exists (str_bytes "1.+5"), 1050000000. split; [|split; [reflexivity|split; reflexivity]].
  intros m k H.
  assert (X : Forall (fun c => c = 46 \/ 48 <= c <= 57) (str_bytes "1.+5")).
  { revert H. generalize (str_bytes "1.+5") as t. intros t H. destruct H as [i N D|i f N D F].
    - eapply Forall_impl; [|eassumption]. cbv beta. lia.
    - apply Forall_app. split; [eapply Forall_impl; [|eassumption]; cbv beta; lia|].
      constructor; [lia|]. eapply Forall_impl; [|eassumption]. cbv beta. lia. }
  repeat match goal with X : Forall _ _ |- _ => inversion X; clear X; subst end; lia.
Qed.

(** Exactly which texts the parser of the release build accepts, and the
    number it reads. *)
Definition plus_digits (s d : list Z) : Prop := digits d /\ (s = d \/ s = 43 :: d).
Theorem C41_accepts_iff : forall s a, amount_from_str false s = Ok a <->
  (exists i, plus_digits s i /\ i <> [] /\ dec_val i < 2 ^ 64 /\ a = (MINA_PRECISION * dec_val i) mod 2 ^ 64) \/
  (exists p i t f, s = p ++ 46 :: t /\ plus_digits p i /\ i <> [] /\ plus_digits t f /\
     dec_val i < 2 ^ 64 /\ (length f > 0 \/ length t < 9)%nat /\
     dec_val f * 10 ^ Z.of_nat (9 - length t) < 2 ^ 64 /\
     a = (MINA_PRECISION * dec_val i + dec_val f * 10 ^ Z.of_nat (9 - length t)) mod 2 ^ 64).
Proof.
  assert (PD : forall s d, plus_digits s d -> Forall (fun x => x <> 46) s).
  { intros s d [D [->| ->]]; [apply digits_nodot, D|constructor; [lia|apply digits_nodot, D]]. }
  assert (CC : forall s d, plus_digits s d -> char_count s = length s).
  { intros s d [D [->| ->]]; [apply char_count_digits, D|].
    change (char_count (43 :: d)) with (S (char_count d)). cbn [length]. now rewrite char_count_digits. }
  assert (PF : forall t v, parse_uint 64 (padr0 9 t) = inr v <->
    exists f, plus_digits t f /\ (length f > 0 \/ length t < 9)%nat /\
      dec_val f * 10 ^ Z.of_nat (9 - length t) = v /\ v < 2 ^ 64).
  { intros t v. rewrite parse_uint_ok by lia. split.
    - intros (d & L & N & D & E & V). unfold padr0 in L.
      assert (X : exists f, plus_digits t f /\ d = f ++ repeat 48 (9 - char_count t)).
      { destruct t as [|c t].
        - exists []. split; [split; [constructor|auto]|]. cbn [app] in *. destruct L as [L|L]; [auto|].
          exfalso. cbn in L. discriminate.
        - destruct L as [L|L].
          + exists (c :: t). split; [|auto]. split; [|auto]. subst d. now apply digits_app in D.
          + cbn [app] in L. injection L as -> L. exists t. split; [|auto]. split; [|auto].
            subst d. now apply digits_app in D. }
      destruct X as (f & PT & ->). rewrite (CC _ _ PT) in *. exists f. split; [exact PT|]. split.
      + destruct f; [|cbn [length]; lia]. right. cbn [app] in N.
        destruct (9 - length t)%nat eqn:Q; [now destruct N|lia].
      + rewrite dec_val_padr in E. auto.
    - intros (f & PT & NE & E & V). unfold padr0. rewrite (CC _ _ PT). exists (f ++ repeat 48 (9 - length t)).
      destruct PT as [D L]. split.
      { destruct L as [->| ->]; [left|right]; reflexivity. }
      split.
      { intros X. apply (f_equal (@length Z)) in X. rewrite app_length, repeat_length in X. cbn [length] in X. lia. }
      split; [apply digits_app; split; [exact D|apply zeros_digits]|]. rewrite dec_val_padr. auto. }
  intros s a. split.
  - unfold amount_from_str. destruct (split_on_cases 46 s) as [[E F]|(p & t & -> & F & E)]; rewrite E.
    + intros H. left. apply bind_ok in H. destruct H as (q & Q & H). unfold of_parse in Q.
      destruct (parse_uint 64 s) as [e|v] eqn:P; [discriminate|]. injection Q as ->.
      apply parse_uint_ok in P; [|lia]. destruct P as (d & L & N & D & V1 & V2).
      change (parse_uint 64 (padr0 9 [48])) with (@inr perr Z 0) in H. cbn [of_parse bind tl] in H.
      rewrite arith_wrapped in H. injection H as H.
      exists d. split; [split; auto|]. split; [exact N|]. split; [lia|]. rewrite <- H, <- V1. reflexivity.
    + intros H. right. apply bind_ok in H. destruct H as (q & Q & H). unfold of_parse in Q.
      destruct (parse_uint 64 p) as [e|v] eqn:P; [discriminate|]. injection Q as ->.
      apply parse_uint_ok in P; [|lia]. destruct P as (d & L & N & D & V1 & V2).
      destruct (split_on_cases 46 t) as [[E2 F2]|(p2 & t2 & -> & F2 & E2)]; rewrite E2 in H.
      * apply bind_ok in H. destruct H as (r & Q & H). unfold of_parse in Q.
        destruct (parse_uint 64 (padr0 9 t)) as [e|w] eqn:P; [discriminate|]. injection Q as ->.
        apply PF in P. destruct P as (f & PT & NE & W1 & W2). cbn [tl] in H. rewrite arith_wrapped in H.
        injection H as H. exists p, d, t, f. split; [reflexivity|]. split; [split; auto|].
        split; [exact N|]. split; [exact PT|]. split; [lia|]. split; [exact NE|]. split; [lia|].
        rewrite <- H, <- V1, <- W1. rewrite Z.add_comm. reflexivity.
      * exfalso. apply bind_ok in H. destruct H as (r & Q & H). cbn [tl] in H.
        pose proof (split_on_nonempty 46 t2) as NN. destruct (split_on 46 t2); [now apply NN|discriminate].
  - intros [(i & P & N & V & ->)|(p & i & t & f & -> & P & N & PT & V & NE & W & ->)]; unfold amount_from_str.
    + rewrite split_on_none by (eapply PD, P). destruct P as [D L].
      replace (parse_uint 64 s) with (@inr perr Z (dec_val i)) by (symmetry; apply parse_uint_ok; [lia|]; exists i; auto).
      change (parse_uint 64 (padr0 9 [48])) with (@inr perr Z 0). cbn [of_parse bind tl].
      rewrite arith_wrapped. reflexivity.
    + rewrite split_on_app by (eapply PD, P). rewrite split_on_none by (eapply PD, PT). destruct P as [D L].
      replace (parse_uint 64 p) with (@inr perr Z (dec_val i)) by (symmetry; apply parse_uint_ok; [lia|]; exists i; auto).
      replace (parse_uint 64 (padr0 9 t)) with (@inr perr Z (dec_val f * 10 ^ Z.of_nat (9 - length t)))
        by (symmetry; apply PF; exists f; auto).
      cbn [of_parse bind tl]. rewrite arith_wrapped. f_equal. f_equal. apply Z.add_comm.
Qed.

(** ** C42 *)

Lemma decimal_is_amount : forall c s, decimal_json_de c s = amount_from_str c s.
Proof. reflexivity. Qed.

Lemma trim_digits : forall i f, digits i -> i <> [] -> digits f -> exists g k, f = g ++ repeat 48 k /\
  ((g = [] /\ trim_end 46 (trim_end 48 (i ++ 46 :: f)) = i) \/
   (exists h x, g = h ++ [x] /\ x <> 48 /\ trim_end 46 (trim_end 48 (i ++ 46 :: f)) = i ++ 46 :: g)).
Proof.
  intros i f D N F. destruct (trim_end_spec 48 f) as (k & E & H). revert E H. generalize (trim_end 48 f) as g. intros g E H.
  exists g, k. split; [exact E|]. rewrite E in F. apply digits_app in F. destruct F as [G _].
  rewrite E. change (i ++ 46 :: g ++ repeat 48 k) with (i ++ (46 :: g) ++ repeat 48 k).
  rewrite app_assoc, trim_end_repeat.
  destruct H as [Hg|(h & x & Hg & Nx)]; rewrite Hg.
  - left. split; [reflexivity|]. rewrite trim_end_last by lia.
    change [46] with (repeat 46 1). rewrite trim_end_repeat.
    destruct (exists_last N) as (i' & y & ->). apply trim_end_last.
    apply digits_app in D. destruct D as [_ D]. inversion D; subst. unfold is_digit in *. lia.
  - right. exists h, x. split; [reflexivity|]. split; [exact Nx|].
    rewrite Hg in G. apply digits_app in G. destruct G as [_ G].
    change (i ++ 46 :: h ++ [x]) with (i ++ (46 :: h) ++ [x]). rewrite app_assoc.
    rewrite trim_end_last by exact Nx. apply trim_end_last. inversion G; subst. unfold is_digit in *. lia.
Qed.

(** The JSON text of an amount is a numeral with the value of the amount and
    with no superfluous zero or point at the end. *)
Theorem C42_text_denotes : forall a, 0 <= a < 2 ^ 64 -> exists m k,
  numeral (decimal_json_ser a) m k /\ (k <= 9)%nat /\ amount_is a m k /\
  (k = 0%nat /\ digit_text (decimal_json_ser a) \/ exists t x, decimal_json_ser a = t ++ [x] /\ 49 <= x <= 57).
Proof.
  intros a H. assert (P : 0 < MINA_PRECISION) by reflexivity.
  pose proof (Z.div_pos a MINA_PRECISION ltac:(lia) P).
  pose proof (Z.mod_pos_bound a MINA_PRECISION P).
  pose proof (Z.div_mod a MINA_PRECISION ltac:(lia)) as DM.
  set (i := dec (a / MINA_PRECISION)). set (f := pad0 9 (dec (a mod MINA_PRECISION))).
  assert (L : length f = 9%nat).
  { apply pad0_length, dec_short; [|lia]. change (10 ^ Z.of_nat 9) with MINA_PRECISION. lia. }
  assert (Di : digits i) by (apply dec_digits; lia).
  assert (Df : digits f) by (apply pad0_digits, dec_digits; lia).
  assert (Ni : i <> []) by apply dec_nonempty.
  assert (Vi : dec_val i = a / MINA_PRECISION) by (apply dec_val_dec; lia).
  assert (Vf : dec_val f = a mod MINA_PRECISION) by (unfold f, pad0; rewrite dec_val_zeros; apply dec_val_dec; lia).
  assert (ES : decimal_json_ser a = trim_end 46 (trim_end 48 (i ++ 46 :: f))) by reflexivity.
  destruct (trim_digits i f Di Ni Df) as (g & k & E & [[G T]|(h & x & G & Nx & T)]); rewrite ES, T.
  - exists (dec_val i), 0%nat. split; [apply N_whole; [exact Ni|now apply digit_text_iff]|]. split; [lia|].
    split; [|left; split; [reflexivity|now apply digit_text_iff]].
    subst g. cbn [app] in E. rewrite E, dec_val_repeat0 in Vf.
    unfold amount_is. change (10 ^ Z.of_nat 0) with 1. change (10 ^ 9) with MINA_PRECISION. lia.
  - assert (Dg : digits g) by (rewrite E in Df; now apply digits_app in Df).
    assert (Lg : (length g + k = 9)%nat) by (rewrite E, app_length, repeat_length in L; exact L).
    exists (dec_val (i ++ g)), (length g).
    split; [apply N_fraction; [exact Ni|now apply digit_text_iff|now apply digit_text_iff]|].
    split; [lia|]. split.
    + unfold amount_is. rewrite dec_val_app. change (10 ^ 9) with MINA_PRECISION.
      rewrite E, dec_val_padr in Vf. 
      assert (PP : MINA_PRECISION = 10 ^ Z.of_nat (length g) * 10 ^ Z.of_nat k).
      { rewrite <- Z.pow_add_r by lia. rewrite <- Nat2Z.inj_add, Lg. reflexivity. }
      rewrite DM, <- Vf, <- Vi. rewrite PP. ring.
    + right. exists (i ++ 46 :: h), x. split; [subst g; now rewrite <- app_assoc|].
      rewrite G in Dg. apply digits_app in Dg. destruct Dg as [_ Dg]. inversion Dg; subst. unfold is_digit in *. lia.
Qed.

Theorem C42_round_trip : forall checked a, 0 <= a < 2 ^ 64 ->
  decimal_json_de checked (decimal_json_ser a) = Ok a.
Proof.
  intros c a H. destruct (C42_text_denotes a H) as (m & k & N & K & A & _).
  assert (B : amount_fits m k).
  { unfold amount_fits, amount_is in *. rewrite <- A. apply Z.mul_lt_mono_pos_r; [apply pow10_pos|lia]. }
  rewrite decimal_is_amount. destruct (C41_numerals_exact c _ m k N K B) as (a' & E & A' & _).
  rewrite E. f_equal. unfold amount_is in *. pose proof (pow10_pos k). nia.
Qed.

(** The JSON form reads the printed form of amounts, and the other way
    round. *)
Theorem C42_displayed : forall checked a, 0 <= a < 2 ^ 64 ->
  decimal_json_de checked (amount_display a) = Ok a /\ amount_from_str checked (decimal_json_ser a) = Ok a.
Proof. intros c a H. split; [exact (C40_round_trip c a H)|exact (C42_round_trip c a H)]. Qed.
Example C42_ex : decimal_json_ser 1500000000 = str_bytes "1.5" /\ decimal_json_ser 100000000000 = str_bytes "100" /\
  decimal_json_ser 0 = str_bytes "0" /\ decimal_json_ser 10 = str_bytes "0.00000001".
Proof. vm_compute. auto. Qed.
(** A JSON amount crafted out of range crashes a build with overflow checks
    and is wrapped by one without. *)
Theorem C42_overflow_refuted : exists s a, decimal_json_de true s = Panic /\ decimal_json_de false s = Ok a /\ a < 10 ^ 9 /\
  exists m, numeral s m 0 /\ m * 10 ^ 9 >= 2 ^ 64.
Proof.
  exists (str_bytes "18446744074"), 290448384. split; [reflexivity|]. split; [reflexivity|]. split; [lia|].
  exists 18446744074. split; [|lia]. apply (N_whole (str_bytes "18446744074")); [discriminate|digs].
Qed.

(** ** C43 *)

Definition ext_val (z : Z) : val := VTup [VInt 1; VTup [VInt 1; VInt z]].

Lemma ext_fits : forall c z, - 2 ^ 31 <= z < 2 ^ 31 -> fits c ExtendedU32 (ext_val z).
Proof. intros c z H. cbn. unfold byte_ok. repeat split; lia. Qed.

Lemma to_ext_range : forall n, - 2 ^ 31 <= to_extended_u32 n < 2 ^ 31.
Proof.
  intros n. unfold to_extended_u32, wraps. apply (signed_range 32); [lia|]. apply Z.mod_pos_bound. lia.
Qed.

Theorem C43_round_trip : forall checked n, 0 <= n < 2 ^ 32 ->
  exists bs, to_bytes checked ExtendedU32 (ext_val (to_extended_u32 n)) = Ok bs /\
    forall rest, exists z, from_slice checked ExtendedU32 (bs ++ rest) = Ok (ext_val z, rest) /\ of_extended_u32 z = n.
Proof.
  intros c n H. destruct (C04_typed_round_trip c ExtendedU32 _ (ext_fits c _ (to_ext_range n))) as (bs & E & _ & R).
  exists bs. split; [exact E|]. intros rest. exists (to_extended_u32 n). split; [apply R|].
  unfold of_extended_u32, to_extended_u32. rewrite wrapu_wraps by lia. unfold wrapu. apply Z.mod_small. lia.
Qed.
(** Every wire value is the form of a counter. *)
Theorem C43_onto : forall z, - 2 ^ 31 <= z < 2 ^ 31 ->
  0 <= of_extended_u32 z < 2 ^ 32 /\ to_extended_u32 (of_extended_u32 z) = z.
Proof.
  intros z H. unfold of_extended_u32, to_extended_u32, wrapu. split; [apply Z.mod_pos_bound; lia|].
  unfold wraps. rewrite Z.mod_mod by lia. unfold signed.
  destruct (Z_lt_dec z 0).
  - replace (z mod 2 ^ 32) with (z + 2 ^ 32).
    + destruct (z + 2 ^ 32 <? 2 ^ (32 - 1)) eqn:Q; lia.
    + rewrite <- (Z_mod_plus_full z 1), Z.mod_small; lia.
  - rewrite Z.mod_small by lia. destruct (z <? 2 ^ (32 - 1)) eqn:Q; lia.
Qed.
(** As JSON text the counter itself is printed, and read back. *)
Theorem C43_json : forall n, 0 <= n < 2 ^ 32 ->
  digit_text (u32_json_ser n) /\ dec_val (u32_json_ser n) = n /\ u32_json_de (u32_json_ser n) = Ok n.
Proof.
  intros n H. unfold u32_json_ser, u32_json_de. split; [apply digit_text_iff, dec_digits; lia|].
  split; [apply dec_val_dec; lia|].
  rewrite parse_uint_digits; rewrite ?dec_val_dec by lia; try lia; [reflexivity|apply dec_nonempty|apply dec_digits; lia].
Qed.
Theorem C43_json64 : forall n, 0 <= n < 2 ^ 64 ->
  digit_text (u64_json_ser n) /\ dec_val (u64_json_ser n) = n /\ u64_json_de (u64_json_ser n) = Ok n.
Proof.
  intros n H. unfold u64_json_ser, u64_json_de. split; [apply digit_text_iff, dec_digits; lia|].
  split; [apply dec_val_dec; lia|].
  rewrite parse_uint_digits; rewrite ?dec_val_dec by lia; try lia; [reflexivity|apply dec_nonempty|apply dec_digits; lia].
Qed.
(** Reading never crashes and never wraps: a text is read as the number it
    denotes or rejected. *)
Theorem C43_json_exact : forall s,
  (forall v, u32_json_de s = Ok v -> 0 <= v < 2 ^ 32 /\ exists d, (s = d \/ s = 43 :: d) /\ digit_text d /\ dec_val d = v) /\
  (forall v, u64_json_de s = Ok v -> 0 <= v < 2 ^ 64 /\ exists d, (s = d \/ s = 43 :: d) /\ digit_text d /\ dec_val d = v) /\
  u32_json_de s <> Panic /\ u64_json_de s <> Panic.
Proof.
  assert (G : forall bits s v, 0 < bits -> of_parse (parse_uint bits s) = Ok v ->
    0 <= v < 2 ^ bits /\ exists d, (s = d \/ s = 43 :: d) /\ digit_text d /\ dec_val d = v).
  { intros bits s v Hb E. destruct (parse_uint bits s) as [e|w] eqn:P; [discriminate|]. injection E as ->.
    apply parse_uint_ok in P; [|exact Hb]. destruct P as (d & L & N & D & V & B).
    pose proof (dec_val_range d D). split; [lia|]. exists d. rewrite digit_text_iff. auto. }
  intros s. unfold u32_json_de, u64_json_de. split; [|split; [|split]].
  - intros v. apply G. lia.
  - intros v. apply G. lia.
  - unfold of_parse. destruct (parse_uint 32 s); discriminate.
  - unfold of_parse. destruct (parse_uint 64 s); discriminate.
Qed.
Example C43_ex : to_extended_u32 (2 ^ 32 - 1) = -1 /\ of_extended_u32 (-1) = 2 ^ 32 - 1 /\
  to_bytes true ExtendedU32 (ext_val (to_extended_u32 (2 ^ 32 - 1))) = Ok [1; 1; 255; 255] /\
  u32_json_de (str_bytes "4294967295") = Ok (2 ^ 32 - 1) /\ u32_json_de (str_bytes "4294967296") = Err (AInt PPosOverflow).
Proof. vm_compute. auto. Qed.

(** ** C60 *)

(** Below 2^63 ms the calendar time is the block time, or the conversion
    panics because the year is beyond 9999. *)
Theorem C60_exact : forall t, 0 <= t < 2 ^ 63 ->
  (t <= 253402300799999 -> datetime t = Ok t) /\ (253402300799999 < t -> datetime t = Panic).
Proof.
  intros t H. unfold datetime. rewrite (wraps_id 64) by lia.
  rewrite Z.quot_div_nonneg, Z.rem_mod_nonneg by lia.
  pose proof (Z.div_mod t 1000 ltac:(lia)). pose proof (Z.mod_pos_bound t 1000 ltac:(lia)).
  pose proof (Z.div_pos t 1000 ltac:(lia) ltac:(lia)).
  generalize dependent (t / 1000). generalize dependent (t mod 1000). intros r R0 q E Q0.
  unfold from_unix_timestamp, MIN_TIMESTAMP, MAX_TIMESTAMP. split; intros B.
  - destruct (_ && _) eqn:Q; [|exfalso; lia].
    destruct (r =? 0) eqn:R; [apply f_equal; lia|].
    unfold add_millis, instant_ok, MIN_TIMESTAMP, MAX_TIMESTAMP.
    match goal with |- (if ?b then _ else _) = _ => destruct b eqn:S end; [apply f_equal; lia|exfalso; lia].
  - destruct (_ && _) eqn:Q; [exfalso; lia|reflexivity].
Qed.
(** From 2^63 ms on the time is read as a negative number: either a panic, or
    a date before 1970. *)
Theorem C60_large : forall t, 2 ^ 63 <= t < 2 ^ 64 ->
  datetime t = Panic \/ (datetime t = Ok (t - 2 ^ 64) /\ t - 2 ^ 64 < 0).
Proof.
  intros t H. unfold datetime.
  assert (W : wraps 64 t = t - 2 ^ 64).
  { unfold wraps, signed. rewrite Z.mod_small by lia. change (64 - 1) with 63. destruct (t <? 2 ^ 63) eqn:Q; lia. }
  rewrite W. set (i := t - 2 ^ 64) in *.
  pose proof (Z.quot_rem' i 1000) as E. revert E. generalize (Z.quot i 1000), (Z.rem i 1000). intros q r E.
  unfold from_unix_timestamp. destruct (_ && _) eqn:Q; [|auto].
  destruct (r =? 0) eqn:R; [right; split; [f_equal; lia|lia]|].
  unfold add_millis. destruct (instant_ok _); [right; split; [f_equal; lia|lia]|auto].
Qed.
Theorem C60_refuted : exists t d, 0 <= t < 2 ^ 64 /\ datetime t = Ok d /\ d <> t.
Proof. exists (2 ^ 64 - 1), (-1). split; [lia|]. split; [reflexivity|discriminate]. Qed.
(** Seconds: exact when the product fits; otherwise a build with overflow
    checks panics and one without wraps. *)
Theorem C60_seconds : forall checked ts, 0 <= ts ->
  (ts * 1000 < 2 ^ 64 -> from_unix_epoch checked ts = Ok (ts * 1000)) /\
  (2 ^ 64 <= ts * 1000 -> from_unix_epoch true ts = Panic /\ 
     exists w, from_unix_epoch false ts = Ok w /\ w < ts * 1000).
Proof.
  intros c ts H. unfold from_unix_epoch, mul64. split; intros B.
  - destruct (2 ^ 64 <=? ts * 1000) eqn:Q; [lia|]. rewrite andb_false_r. unfold wrapu. rewrite Z.mod_small by lia. reflexivity.
  - destruct (2 ^ 64 <=? ts * 1000) eqn:Q; [|lia]. split; [reflexivity|]. eexists. split; [reflexivity|].
    unfold wrapu. pose proof (Z.mod_pos_bound (ts * 1000) (2 ^ 64) ltac:(lia)). lia.
Qed.
(** Milliseconds in and out are the same number. *)
Theorem C60_millis : forall ts, epoch_millis (from_unix_epoch_millis ts) = ts.
Proof. reflexivity. Qed.
Example C60_ex : datetime 1655755201123 = Ok 1655755201123 /\ datetime 253402300800000 = Panic /\
  datetime (2 ^ 63) = Panic /\ from_unix_epoch true 1655755201 = Ok 1655755201000.
Proof. vm_compute. auto. Qed.

Print Assumptions C40_text_denotes.
Print Assumptions C40_round_trip.
Print Assumptions C40_injective.
Print Assumptions C41_numerals_exact.
Print Assumptions C41_out_of_range.
Print Assumptions C41_overflow_refuted.
Print Assumptions C41_long_fraction_wrong.
Print Assumptions C41_long_fraction_refuted.
Print Assumptions C41_plus_refuted.
Print Assumptions C41_accepts_iff.
Print Assumptions C42_text_denotes.
Print Assumptions C42_round_trip.
Print Assumptions C42_displayed.
Print Assumptions C42_overflow_refuted.
Print Assumptions C43_round_trip.
Print Assumptions C43_onto.
Print Assumptions C43_json.
Print Assumptions C43_json64.
Print Assumptions C43_json_exact.
Print Assumptions C60_exact.
Print Assumptions C60_large.
Print Assumptions C60_refuted.
Print Assumptions C60_seconds.
Print Assumptions C60_millis.
