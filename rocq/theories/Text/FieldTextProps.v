(** Decimal texts of field elements: theorems. *)

From Coq Require Import ZArith List Bool Lia ZifyBool ZifyNat.
From Verif Require Import Lib.Res Lib.Decimal Text.FieldText.
Import ListNotations.
Local Open Scope Z_scope.

(** What a text denotes, independently of the parser: at most one plus sign,
    then digits and underscores beginning with a digit; the number is that of
    the digits. *)
Inductive denotes : list Z -> Z -> Prop :=
| Dn_text : forall p d s, p = [] \/ p = [43] -> 48 <= d <= 57 -> Forall (fun c => 48 <= c <= 57 \/ c = 95) s ->
    denotes (p ++ d :: s) (dec_val (filter (fun c => negb (c =? 95)) (d :: s))).

Lemma big_digits_ok : forall s a n, big_digits s a = Ok n <->
  Forall (fun c => 48 <= c <= 57 \/ c = 95) s /\ n = fold_left dec_step (filter (fun c => negb (c =? 95)) s) a.
Proof.
  induction s as [|c s IH]; intros a n; cbn [big_digits filter].
  - cbn [fold_left]. split; [intros [= <-]; split; [constructor|reflexivity]|intros [_ ->]; reflexivity].
  - unfold is_digit. destruct ((48 <=? c) && (c <=? 57)) eqn:D.
    + destruct (c =? 95) eqn:U; [lia|]. cbn [negb fold_left]. rewrite IH. unfold dec_step at 2.
      split; intros [F E]; split; auto; [constructor; [lia|exact F]|now inversion F].
    + destruct (c =? 95) eqn:U.
      * cbn [negb]. rewrite IH. split; intros [F E]; split; auto; [constructor; [lia|exact F]|now inversion F].
      * split; [discriminate|]. intros [F _]. inversion F; lia.
Qed.
Lemma big_digits_no_panic : forall s a, big_digits s a <> Panic.
Proof.
  induction s as [|c s IH]; intros a; cbn [big_digits]; [discriminate|].
  destruct (is_digit c); [apply IH|]. destruct (c =? 95); [apply IH|discriminate].
Qed.
Lemma parse_no_panic : forall s, biguint_parse s <> Panic.
Proof.
  intros s. unfold biguint_parse. destruct (strip_plus s) as [|c t]; [discriminate|].
  destruct (c =? 95); [discriminate|apply big_digits_no_panic].
Qed.

Lemma strip_plus_spec : forall s, (exists p, (p = [] \/ p = [43]) /\ s = p ++ strip_plus s) /\
  (forall p d t, p = [] \/ p = [43] -> 48 <= d <= 57 -> s = p ++ d :: t -> strip_plus s = d :: t).
Proof.
  intros s. split.
  - unfold strip_plus. destruct s as [|c s]; [exists []; auto|].
    destruct (Z.eq_dec c 43) as [->|N].
    + destruct s as [|c' s]; [exists [43]; auto|].
      destruct (Z.eq_dec c' 43) as [->|N']; [exists []; auto|].
      exists [43]. split; [auto|]. destruct c' as [|q|q]; try reflexivity.
      do 6 (destruct q as [q|q|]; try reflexivity). exfalso; apply N'; reflexivity.
    + exists []. split; [auto|]. destruct c as [|q|q]; try reflexivity.
      do 6 (destruct q as [q|q|]; try reflexivity). exfalso; apply N; reflexivity.
  - intros p d t [-> | ->] D ->; cbn [app].
    + assert (Q : d <> 43) by lia. unfold strip_plus. destruct d as [|q|q]; try reflexivity.
      do 6 (destruct q as [q|q|]; try reflexivity). exfalso; apply Q; reflexivity.
    + assert (Q : d <> 43) by lia. unfold strip_plus. destruct d as [|q|q]; try reflexivity.
      do 6 (destruct q as [q|q|]; try reflexivity). exfalso; apply Q; reflexivity.
Qed.

Lemma parse_ok : forall s n, biguint_parse s = Ok n <-> denotes s n.
Proof.
  intros s n. destruct (strip_plus_spec s) as [(p & P & E) U]. split.
  - unfold biguint_parse. intros H. destruct (strip_plus s) as [|c t]; [discriminate|].
    destruct (c =? 95) eqn:C; [discriminate|]. apply big_digits_ok in H. destruct H as [F ->]. inversion F as [|? ? F1 F2]; subst.
    constructor; [exact P|lia|exact F2].
  - intros D. inversion D as [p' d t P' D' F E']; subst. unfold biguint_parse. rewrite (U p' d t P' D' eq_refl).
    destruct (d =? 95) eqn:C; [lia|]. apply big_digits_ok. split; [constructor; [lia|exact F]|reflexivity].
Qed.

Lemma modulus_fits : FP_MODULUS < 2 ^ 256.
Proof. reflexivity. Qed.

(** ** C80 *)

(** Both readers accept exactly the texts of numbers below the modulus, and
    read the number written. *)
Theorem C80_accepts_iff : forall s x, (fp_from_radix_10 s = Ok x <-> denotes s x /\ x < FP_MODULUS) /\
  (fp_json_de s = Ok x <-> denotes s x /\ x < FP_MODULUS).
Proof.
  intros s x. pose proof modulus_fits as M. unfold fp_from_radix_10, fp_json_de. rewrite <- parse_ok. unfold big256, fp_from_repr.
  split; split.
  - intros H. apply bind_ok in H. destruct H as (n & -> & H). destruct (n <? 2 ^ 256); [|discriminate].
    destruct (n <? FP_MODULUS) eqn:L; [|discriminate]. injection H as <-. split; [reflexivity|lia].
  - intros [-> L]. cbn [bind]. destruct (x <? 2 ^ 256) eqn:A; [|lia]. destruct (x <? FP_MODULUS) eqn:B; [reflexivity|lia].
  - intros H. apply bind_ok in H. destruct H as (n & -> & H). destruct (n <? 2 ^ 256); [|discriminate]. cbn [bind] in H.
    destruct (n <? FP_MODULUS) eqn:L; [|discriminate]. injection H as <-. split; [reflexivity|lia].
  - intros [-> L]. cbn [bind]. destruct (x <? 2 ^ 256) eqn:A; [|lia]. cbn [bind]. destruct (x <? FP_MODULUS) eqn:B; [reflexivity|lia].
Qed.
(** They crash exactly on numbers that are too large: the JSON reader on those
    that still have 256 bits. *)
Theorem C80_panics_iff : forall s, (fp_from_radix_10 s = Panic <-> exists n, denotes s n /\ FP_MODULUS <= n) /\
  (fp_json_de s = Panic <-> exists n, denotes s n /\ FP_MODULUS <= n < 2 ^ 256).
Proof.
  intros s. pose proof modulus_fits as M. unfold fp_from_radix_10, fp_json_de, big256, fp_from_repr. split; split.
  - intros H. apply bind_panic in H. destruct H as [H|(n & E & H)]; [exfalso; exact (parse_no_panic _ H)|].
    exists n. split; [apply parse_ok; exact E|]. destruct (n <? 2 ^ 256) eqn:A; [|lia].
    destruct (n <? FP_MODULUS) eqn:L; [discriminate|lia].
  - intros (n & D & L). apply parse_ok in D. rewrite D. cbn [bind]. destruct (n <? 2 ^ 256); [|reflexivity].
    destruct (n <? FP_MODULUS) eqn:B; [lia|reflexivity].
  - intros H. apply bind_panic in H. destruct H as [H|(n & E & H)]; [exfalso; exact (parse_no_panic _ H)|].
    exists n. split; [apply parse_ok; exact E|]. destruct (n <? 2 ^ 256) eqn:A; [|discriminate]. cbn [bind] in H.
    destruct (n <? FP_MODULUS) eqn:L; [discriminate|lia].
  - intros (n & D & L). apply parse_ok in D. rewrite D. cbn [bind]. destruct (n <? 2 ^ 256) eqn:A; [|lia]. cbn [bind].
    destruct (n <? FP_MODULUS) eqn:B; [lia|reflexivity].
Qed.
Theorem C80_refuted : ~ (forall s, fp_from_radix_10 s <> Panic) /\ ~ (forall s, fp_json_de s <> Panic).
Proof.
  assert (D : denotes (dec FP_MODULUS) FP_MODULUS) by (apply parse_ok; vm_compute; reflexivity).
  revert D. generalize (dec FP_MODULUS) as s. intros s D. destruct (C80_panics_iff s) as [P1 P2]. pose proof modulus_fits as M.
  split; intros H; apply (H s); [apply P1|apply P2]; exists FP_MODULUS; (split; [exact D|lia]).
Qed.
(** A printed field element reads back. *)
Theorem C80_round_trip : forall x, 0 <= x < FP_MODULUS ->
  fp_json_de (fp_json_ser x) = Ok x /\ fp_from_radix_10 (fp_json_ser x) = Ok x.
Proof.
  intros x H. assert (D : denotes (dec x) x).
  { pose proof (dec_digits x ltac:(lia)) as F. pose proof (dec_val_dec x ltac:(lia)) as V. pose proof (dec_nonempty x) as N.
    assert (G : filter (fun c => negb (c =? 95)) (dec x) = dec x).
    { clear N V. induction F as [|c l C F IH]; [reflexivity|]. cbn [filter]. unfold is_digit in C.
      destruct (c =? 95) eqn:U; [lia|]. cbn [negb]. now rewrite IH. }
    destruct (dec x) as [|d s] eqn:E; [easy|]. inversion F as [|? ? F1 F2]. unfold is_digit in F1.
    pose proof (Dn_text [] d s (or_introl eq_refl) ltac:(lia)) as D. cbn [app] in D. rewrite G, V in D. apply D. eapply Forall_impl; [|exact F2]. cbn. intros c C. unfold is_digit in C. lia. }
  destruct (C80_accepts_iff (dec x) x) as [P1 P2]. unfold fp_json_ser.
  split; [apply P2|apply P1]; (split; [exact D|lia]).
Qed.

Example C80_ex : fp_json_ser 255 = [50; 53; 53] /\ fp_from_radix_10 [43; 50; 95; 53; 53; 95] = Ok 255 /\
  fp_json_de [95; 50] = Err FInvalidDigit /\ fp_json_de [43; 43; 50] = Err FInvalidDigit /\ fp_json_de [] = Err FEmpty /\
  fp_json_de (dec (FP_MODULUS - 1)) = Ok (FP_MODULUS - 1) /\ fp_json_de (dec FP_MODULUS) = Panic /\
  fp_json_de (dec (2 ^ 256)) = Err FTooLarge /\ fp_from_radix_10 (dec (2 ^ 256)) = Panic.
Proof. vm_compute. auto 12. Qed.

Print Assumptions C80_accepts_iff.
Print Assumptions C80_panics_iff.
Print Assumptions C80_refuted.
Print Assumptions C80_round_trip.
