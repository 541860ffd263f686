(** C83: base64 texts against RFC 4648. *)

From Coq Require Import String ZArith List Bool Lia ZifyBool ZifyNat.
From Verif Require Import Lib.Bytes Text.Base64 Text.Base64Props.
From Verif Require Import Text.Base64Spec.
Import ListNotations.
Local Open Scope string_scope.
Local Open Scope list_scope.
Local Open Scope Z_scope.
Notation length := List.length.

Lemma six_range : forall c d, six c d -> 0 <= d < 64.
Proof. intros c d H. destruct H; lia. Qed.
Lemma six_inj : forall c c' d, six c d -> six c' d -> c = c'.
Proof. intros c c' d H H'. destruct H; inversion H'; subst; lia. Qed.
Lemma char_six : forall d, 0 <= d < 64 -> six (b64_char d) d.
Proof.
  intros d H.
  assert (A : forallb (fun n => let d := Z.of_nat n in b64_char d =? (if d <? 26 then 65 + d else if d <? 52 then 71 + d else if d <? 62 then d - 4 else if d =? 62 then 45 else 95)) (seq 0 64) = true)
    by (vm_compute; reflexivity).
  rewrite forallb_forall in A. specialize (A (Z.to_nat d) ltac:(apply in_seq; lia)). cbv zeta in A. rewrite Z2Nat.id in A by lia. apply Z.eqb_eq in A. rewrite A.
  destruct (d <? 26) eqn:E1; [apply X_upper; lia|]. destruct (d <? 52) eqn:E2; [apply X_lower; lia|]. destruct (d <? 62) eqn:E3; [apply X_digit; lia|].
  destruct (d =? 62) eqn:E4; [replace d with 62 by lia; apply X_dash|replace d with 63 by lia; apply X_line].
Qed.
Lemma chars_six : forall ds, Forall (fun d => 0 <= d < 64) ds -> Forall2 six (map b64_char ds) ds.
Proof. intros ds F. induction F as [|d ds D F IH]; [constructor|]. cbn [map]. constructor; [apply char_six, D|exact IH]. Qed.
Lemma number_range : forall b l, 0 < b -> Forall (fun d => 0 <= d < b) l -> 0 <= number b l < b ^ Z.of_nat (length l).
Proof.
  intros b l B F. induction F as [|d l D F IH]; [cbn; lia|]. cbn [number length]. rewrite Nat2Z.inj_succ, Z.pow_succ_r by lia. nia.
Qed.
Lemma number_inj : forall b l l', 0 < b -> Forall (fun d => 0 <= d < b) l -> Forall (fun d => 0 <= d < b) l' -> length l = length l' -> number b l = number b l' -> l = l'.
Proof.
  intros b l l' B F. revert l'. induction F as [|d l D F IH]; intros [|d' l'] F' L N; try discriminate; [reflexivity|]. inversion F' as [|? ? D' F2]; subst.
  cbn [length number] in *. injection L as L. rewrite L in N. pose proof (number_range b l B F) as R. pose proof (number_range b l' B F2) as R'. rewrite L in R.
  assert (d = d') by nia. subst d'. f_equal. apply IH; auto. lia.
Qed.
Lemma pow_bits : forall x y k, (6 * x = 8 * y + 2 * k)%nat -> 64 ^ Z.of_nat x = 256 ^ Z.of_nat y * 4 ^ Z.of_nat k.
Proof.
  intros x y k E. change 64 with (2 ^ 6). change 256 with (2 ^ 8). change 4 with (2 ^ 2). rewrite <- !Z.pow_mul_r, <- Z.pow_add_r by lia. f_equal. lia.
Qed.
Lemma syms_number : forall bs, bytes_ok bs -> (6 * length (syms bs) = 8 * length bs + 2 * pad_of (length (syms bs)))%nat /\
  number 64 (syms bs) = number 256 bs * 4 ^ Z.of_nat (pad_of (length (syms bs))) /\ (pad_of (length (syms bs)) <= 2)%nat.
Proof.
  induction bs as [|a|a b|a b c r IH] using list3_ind; intros B.
  - cbn. auto.
  - inversion B as [|? ? A _]; subst. unfold byte_ok in A. cbn. split; [reflexivity|]. split; lia.
  - inversion B as [|? ? A B']; subst. inversion B' as [|? ? A' _]; subst. unfold byte_ok in A, A'. cbn. split; [reflexivity|]. split; lia.
  - inversion B as [|? ? A B']; subst. inversion B' as [|? ? A' B'']; subst. inversion B'' as [|? ? A'' B3]; subst. unfold byte_ok in A, A', A''.
    destruct (IH B3) as (L & N & K). cbn [syms length]. unfold pad_of in *. rewrite mod4_S. set (k := Nat.modulo (4 - Nat.modulo (length (syms r)) 4) 4) in *.
    split; [lia|]. split; [|exact K]. cbn [number length]. rewrite N. pose proof (pow_bits _ _ _ L) as P.
    rewrite !Nat2Z.inj_succ, !Z.pow_succ_r by lia. rewrite P.
    set (p := 256 ^ Z.of_nat (length r)). set (q := 4 ^ Z.of_nat k).
    replace ((a / 4 * (64 * (64 * (64 * (p * q)))) + ((a mod 4 * 16 + b / 16) * (64 * (64 * (p * q))) + ((b mod 16 * 4 + c / 64) * (64 * (p * q)) + (c mod 64 * (p * q) + number 256 r * q)))))
      with (((a / 4 * 262144 + (a mod 4 * 16 + b / 16) * 4096 + (b mod 16 * 4 + c / 64) * 64 + c mod 64) * p + number 256 r) * q) by ring.
    replace (a / 4 * 262144 + (a mod 4 * 16 + b / 16) * 4096 + (b mod 16 * 4 + c / 64) * 64 + c mod 64) with (a * 65536 + b * 256 + c) by lia. ring.
Qed.
Lemma text64_fun : forall s s' bs, text64 s bs -> text64 s' bs -> s = s'.
Proof.
  intros s s' bs (body & ds & k & -> & F & K & (q & Q) & L & N) (body' & ds' & k' & -> & F' & K' & (q' & Q') & L' & N').
  assert (X : forall body ds, Forall2 six body ds -> length body = length ds /\ Forall (fun d => 0 <= d < 64) ds).
  { clear. intros body ds F. induction F as [|c d body ds S F [IH1 IH2]]; [auto|]. cbn [length]. split; [lia|]. constructor; [eapply six_range; eassumption|exact IH2]. }
  destruct (X _ _ F) as [E R]. destruct (X _ _ F') as [E' R']. rewrite app_length, repeat_length in Q, Q'.
  assert (k = k') by lia. subst k'. assert (D : ds = ds') by (apply (number_inj 64); auto; lia). subst ds'. f_equal.
  clear - F F'. revert body' F'. induction F as [|c d body ds S F IH]; intros body' F'; inversion F'; subst; [reflexivity|]. f_equal; [eapply six_inj; eassumption|auto].
Qed.
(** The written text is the one of RFC 4648. *)
Theorem C83_written_iff : forall bs s, bytes_ok bs -> (b64_encode bs = s <-> text64 s bs).
Proof.
  intros bs s B. assert (X : text64 (b64_encode bs) bs).
  { destruct (encode_syms bs B) as (E & R & _). destruct (syms_number bs B) as (L & N & K).
    exists (map b64_char (syms bs)), (syms bs), (pad_of (length (syms bs))). split; [exact E|]. split; [apply chars_six, R|]. split; [exact K|].
    split; [|split; [exact L|exact N]]. exists ((length bs + 2) / 3)%nat. apply C83_text, B. }
  split; [intros <-; exact X|]. intros Y. eapply text64_fun; eassumption.
Qed.
Lemma cut_padding : forall j k s body, s ++ repeat 61 j = body ++ repeat 61 k -> Forall (fun c => c <> 61) body -> s = body ++ repeat 61 (k - j) /\ (j <= k)%nat.
Proof.
  induction j as [|j IH]; intros k s body E F.
  - rewrite app_nil_r in E. rewrite Nat.sub_0_r. split; [exact E|lia].
  - assert (R : forall n, repeat 61 (S n) = repeat 61 n ++ [61]) by (intros n; change (S n) with (1 + n)%nat; rewrite Nat.add_comm; apply repeat_app).
    rewrite R, app_assoc in E. destruct k as [|k].
    + exfalso. cbn [repeat] in E. rewrite app_nil_r in E. rewrite <- E in F. apply Forall_app in F. destruct F as [_ F]. inversion F. congruence.
    + rewrite R, app_assoc in E. apply app_inj_tail in E. destruct E as [E _]. destruct (IH k s body E F) as [-> L]. cbn [Nat.sub]. split; [reflexivity|lia].
Qed.
(** A text is read exactly if it is such a text but for some of the [=] at its
    end. *)
Theorem C83_read_iff : forall s bs, b64_decode s = Some bs <-> bytes_ok bs /\ exists j, text64 (s ++ repeat 61 j) bs.
Proof.
  intros s bs. rewrite C83_accepts_iff. split; intros (B & H); (split; [exact B|]).
  - destruct H as (body & k & E & F & j & J & ->). exists (k - j)%nat.
    rewrite <- app_assoc, <- repeat_app. replace (j + (k - j))%nat with k by lia. apply C83_written_iff; assumption.
  - destruct H as (j & T). apply C83_written_iff in T; [|exact B]. destruct (encode_syms bs B) as (E & R & _). destruct (digits_chars _ R) as [_ F].
    exists (map b64_char (syms bs)), (pad_of (length (syms bs))). split; [exact E|]. split; [exact F|]. rewrite T in E.
    destruct (cut_padding _ _ _ _ E F) as [X L]. eexists. split; [|exact X]. lia.
Qed.
Example C83_ex_text : text64 (str_bytes "-_8=") [251; 255].
Proof. apply C83_written_iff; [repeat constructor; unfold byte_ok; lia|vm_compute; reflexivity]. Qed.
Example C83_ex_read : b64_decode (str_bytes "-_8") = Some [251; 255] /\ forall j, ~ text64 (str_bytes "+/8" ++ repeat 61 j) [251; 255].
Proof.
  assert (B : bytes_ok [251; 255]) by (repeat constructor; unfold byte_ok; lia). split; [reflexivity|]. intros j T.
  apply C83_written_iff in T; [|exact B]. vm_compute in T. discriminate.
Qed.

Print Assumptions C83_written_iff.
Print Assumptions C83_read_iff.
