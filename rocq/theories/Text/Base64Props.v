(** Base64 texts: theorems. *)

From Coq Require Import String ZArith List Bool Lia ZifyBool ZifyNat.
From Verif Require Import Lib.Bytes Text.Base64.
Import ListNotations.
Local Open Scope string_scope.
Local Open Scope list_scope.
Local Open Scope Z_scope.

Lemma b64_index_range : forall c l i d, b64_index c l i = Some d ->
  i <= d < i + Z.of_nat (length l) /\ nth (Z.to_nat (d - i)) l 0 = c.
Proof.
  intros c l. induction l as [|x l IH]; intros i d H; cbn [b64_index] in H; [discriminate|].
  destruct (x =? c) eqn:E.
  - injection H as <-. cbn [length]. rewrite Z.sub_diag. cbn. lia.
  - apply IH in H. cbn [length]. destruct H as [H1 H2]. split; [lia|].
    replace (Z.to_nat (d - i)) with (S (Z.to_nat (d - (i + 1)))) by lia. exact H2.
Qed.
Lemma index_char : forall d, 0 <= d < 64 -> b64_index (b64_char d) b64_alphabet 0 = Some d /\ b64_char d <> 61.
Proof.
  intros d H.
  assert (A : forallb (fun n => match b64_index (b64_char (Z.of_nat n)) b64_alphabet 0 with Some x => x =? Z.of_nat n | _ => false end
     && negb (b64_char (Z.of_nat n) =? 61)) (seq 0 64) = true) by (vm_compute; reflexivity).
  rewrite forallb_forall in A. specialize (A (Z.to_nat d)). rewrite Z2Nat.id in A by lia.
  specialize (A ltac:(apply in_seq; lia)). apply andb_prop in A. destruct A as [A B].
  destruct (b64_index (b64_char d) b64_alphabet 0); [|discriminate]. split; [f_equal|]; lia.
Qed.
Lemma char_index : forall c d, b64_index c b64_alphabet 0 = Some d -> 0 <= d < 64 /\ b64_char d = c.
Proof.
  intros c d E. apply b64_index_range in E. change (Z.of_nat (length b64_alphabet)) with 64 in E. rewrite Z.sub_0_r in E.
  unfold b64_char. split; [lia|tauto].
Qed.

(** Lists by groups of three and of four. *)
Lemma list3_ind : forall (P : list Z -> Prop), P [] -> (forall a, P [a]) -> (forall a b, P [a; b]) ->
  (forall a b c l, P l -> P (a :: b :: c :: l)) -> forall l, P l.
Proof.
  intros P H0 H1 H2 H3. fix F 1. intros [|a [|b [|c l]]]; [exact H0|apply H1|apply H2|]. apply H3, F.
Qed.
Lemma list4_ind : forall (P : list Z -> Prop), P [] -> (forall a, P [a]) -> (forall a b, P [a; b]) -> (forall a b c, P [a; b; c]) ->
  (forall a b c d l, P l -> P (a :: b :: c :: d :: l)) -> forall l, P l.
Proof.
  intros P H0 H1 H2 H3 H4. fix F 1. intros [|a [|b [|c [|d l]]]]; [exact H0|apply H1|apply H2|apply H3|]. apply H4, F.
Qed.

Lemma split_spec : forall s a p, b64_split s = (a, p) ->
  s = a ++ p /\ Forall (fun c => c <> 61) a /\ (p = [] \/ exists q, p = 61 :: q).
Proof.
  induction s as [|c s IH]; intros a p H; cbn [b64_split] in H.
  - injection H as <- <-. auto.
  - destruct (c =? 61) eqn:C.
    + injection H as <- <-. assert (c = 61) by lia. subst c. cbn. split; [reflexivity|]. split; [constructor|]. right. eauto.
    + destruct (b64_split s) as [a' p'] eqn:E. injection H as <- <-. destruct (IH a' p' eq_refl) as (-> & F & G).
      split; [reflexivity|]. split; [constructor; [lia|exact F]|exact G].
Qed.
Lemma split_app : forall a p, Forall (fun c => c <> 61) a -> (p = [] \/ exists q, p = 61 :: q) -> b64_split (a ++ p) = (a, p).
Proof.
  intros a p F G. induction F as [|c a C F IH]; cbn [app b64_split].
  - destruct G as [->|(q & ->)]; reflexivity.
  - destruct (c =? 61) eqn:E; [lia|]. rewrite IH. reflexivity.
Qed.
Lemma digits_chars : forall ds, Forall (fun d => 0 <= d < 64) ds -> b64_digits (map b64_char ds) = Some ds /\
  Forall (fun c => c <> 61) (map b64_char ds).
Proof.
  intros ds F. induction F as [|d ds D F [I J]]; [split; [reflexivity|constructor]|]. cbn [map b64_digits].
  destruct (index_char d D) as [E N]. rewrite E, I. split; [reflexivity|constructor; assumption].
Qed.
Lemma chars_digits : forall s ds, b64_digits s = Some ds -> Forall (fun d => 0 <= d < 64) ds /\ map b64_char ds = s.
Proof.
  induction s as [|c s IH]; intros ds H; cbn [b64_digits] in H; [injection H as <-; split; [constructor|reflexivity]|].
  destruct (b64_index c b64_alphabet 0) as [d|] eqn:E; [|discriminate]. destruct (b64_digits s) as [ds'|]; [|discriminate].
  injection H as <-. destruct (IH ds' eq_refl) as [F <-]. apply char_index in E. destruct E as [D <-].
  split; [constructor; assumption|reflexivity].
Qed.

(** The symbols of an encoding, and its padding. *)
Fixpoint syms (bs : list Z) : list Z :=
  match bs with
  | a :: b :: c :: r => (a / 4) :: (a mod 4 * 16 + b / 16) :: (b mod 16 * 4 + c / 64) :: (c mod 64) :: syms r
  | [a; b] => [a / 4; a mod 4 * 16 + b / 16; b mod 16 * 4]
  | [a] => [a / 4; a mod 4 * 16]
  | [] => []
  end.
Definition pad_of (n : nat) : nat := Nat.modulo (4 - Nat.modulo n 4) 4.

Lemma mod4_S : forall n, Nat.modulo (S (S (S (S n)))) 4 = Nat.modulo n 4.
Proof. intros n. replace (S (S (S (S n)))) with (n + 1 * 4)%nat by lia. apply Nat.mod_add. lia. Qed.
Lemma encode_syms : forall bs, bytes_ok bs -> b64_encode bs = map b64_char (syms bs) ++ repeat 61 (pad_of (length (syms bs))) /\
  Forall (fun d => 0 <= d < 64) (syms bs) /\ b64_groups (syms bs) = Some bs.
Proof.
  induction bs as [|a|a b|a b c r IH] using list3_ind; intros B.
  - repeat split. constructor.
  - inversion B as [|? ? A _]; subst. unfold byte_ok in A. cbn [syms b64_encode map b64_groups length]. split; [reflexivity|].
    split; [repeat (constructor; [lia|]); constructor|]. replace (a mod 4 * 16 mod 16) with 0 by lia.
    cbn [Z.eqb]. repeat f_equal. lia.
  - inversion B as [|? ? A B']; subst. inversion B' as [|? ? A' _]; subst. unfold byte_ok in A, A'.
    cbn [syms b64_encode map b64_groups length]. split; [reflexivity|].
    split; [repeat (constructor; [lia|]); constructor|]. replace (b mod 16 * 4 mod 4) with 0 by lia.
    cbn [Z.eqb]. f_equal. f_equal; [lia|]. f_equal. lia.
  - inversion B as [|? ? A B']; subst. inversion B' as [|? ? A' B'']; subst. inversion B'' as [|? ? A'' B3]; subst.
    unfold byte_ok in A, A', A''. destruct (IH B3) as (E & F & G).
    cbn [syms b64_encode map b64_groups length]. rewrite E. split.
    + unfold pad_of. rewrite mod4_S. reflexivity.
    + split; [repeat (constructor; [lia|]); exact F|]. rewrite G. f_equal. f_equal; [lia|]. f_equal; [lia|]. f_equal. lia.
Qed.
Lemma groups_syms : forall ds bs, Forall (fun d => 0 <= d < 64) ds -> b64_groups ds = Some bs -> bytes_ok bs /\ syms bs = ds.
Proof.
  induction ds as [|a|a b|a b c|a b c d r IH] using list4_ind; intros bs F H; cbn [b64_groups] in H; try discriminate.
  - injection H as <-. split; [constructor|reflexivity].
  - destruct (b mod 16 =? 0) eqn:E; [|discriminate]. injection H as <-. inversion F as [|? ? A F']; subst. inversion F' as [|? ? A' _]; subst.
    cbn [syms]. split; [constructor; [unfold byte_ok; lia|constructor]|]. f_equal; [lia|]. f_equal. lia.
  - destruct (c mod 4 =? 0) eqn:E; [|discriminate]. injection H as <-. inversion F as [|? ? A F']; subst. inversion F' as [|? ? A' F'']; subst.
    inversion F'' as [|? ? A'' _]; subst. cbn [syms]. split; [repeat (constructor; [unfold byte_ok; lia|]); constructor|].
    f_equal; [lia|]. f_equal; [lia|]. f_equal. lia.
  - destruct (b64_groups r) as [bs'|]; [|discriminate]. injection H as <-.
    inversion F as [|? ? A F']; subst. inversion F' as [|? ? A' F'']; subst. inversion F'' as [|? ? A'' F3]; subst.
    inversion F3 as [|? ? A3 F4]; subst. destruct (IH bs' F4 eq_refl) as [B S]. cbn [syms]. rewrite S.
    split; [repeat (constructor; [unfold byte_ok; lia|]); exact B|].
    f_equal; [lia|]. f_equal; [lia|]. f_equal; [lia|]. f_equal. lia.
Qed.

Lemma all_pad : forall p, forallb (fun c => c =? 61) p = true <-> p = repeat 61 (length p).
Proof.
  induction p as [|c p IH]; [cbn; tauto|]. cbn [forallb length repeat]. rewrite andb_true_iff, IH. split.
  - intros [C ->]. rewrite repeat_length. f_equal. lia.
  - intros E. injection E as -> E. split; [reflexivity|exact E].
Qed.

(** ** C83 *)

(** The accepted texts of a byte string: its text, with some or all of the
    padding possibly missing. *)
Theorem C83_accepts_iff : forall s bs, b64_decode s = Some bs <->
  bytes_ok bs /\ exists body k, b64_encode bs = body ++ repeat 61 k /\ Forall (fun c => c <> 61) body /\
    exists j, (j <= k)%nat /\ s = body ++ repeat 61 j.
Proof.
  intros s bs. unfold b64_decode. split.
  - destruct (b64_split s) as [body p] eqn:S. destruct (_ && _) eqn:C; [|discriminate]. apply andb_prop in C. destruct C as [C1 C2].
    destruct (b64_digits body) as [ds|] eqn:D; [|discriminate]. intros G.
    apply split_spec in S. destruct S as (-> & F & _). apply chars_digits in D. destruct D as [R D].
    destruct (groups_syms _ _ R G) as [B Y]. split; [exact B|]. destruct (encode_syms bs B) as (E & _ & _).
    exists body, (pad_of (length (syms bs))). rewrite E, Y, D. split; [reflexivity|]. split; [exact F|].
    exists (length p). apply all_pad in C1. split; [|congruence]. unfold pad_of. rewrite <- D, map_length in C2. lia.
  - intros (B & body & k & E & F & j & L & ->). destruct (encode_syms bs B) as (E' & R & G).
    destruct (digits_chars _ R) as [D N]. rewrite E in E'.
    assert (EE : body = map b64_char (syms bs) /\ k = pad_of (length (syms bs))).
    { assert (P : forall n, repeat 61 n = [] \/ exists q, repeat 61 n = 61 :: q) by (destruct n; cbn; eauto).
      pose proof (split_app body (repeat 61 k) F (P k)) as S1.
      pose proof (split_app _ (repeat 61 (pad_of (length (syms bs)))) N (P _)) as S2.
      rewrite E' in S1. rewrite S1 in S2. injection S2 as -> Q. split; [reflexivity|].
      apply (f_equal (@length Z)) in Q. rewrite !repeat_length in Q. exact Q. }
    destruct EE as [-> ->]. rewrite split_app; [|exact F|destruct j; cbn; eauto].
    rewrite D, map_length, repeat_length. unfold pad_of in L. replace (Nat.leb j _) with true by lia.
    replace (forallb _ _) with true; [exact G|]. symmetry. apply all_pad. now rewrite repeat_length.
Qed.
Theorem C83_round_trip : forall bs, bytes_ok bs -> b64_decode (b64_encode bs) = Some bs.
Proof.
  intros bs B. apply C83_accepts_iff. split; [exact B|]. destruct (encode_syms bs B) as (E & R & _).
  exists (map b64_char (syms bs)), (pad_of (length (syms bs))). split; [exact E|]. split; [apply digits_chars; exact R|].
  exists (pad_of (length (syms bs))). auto.
Qed.
(** The length of a text, and its characters. *)
Theorem C83_text : forall bs, bytes_ok bs -> length (b64_encode bs) = (4 * ((length bs + 2) / 3))%nat /\
  Forall (fun c => In c b64_alphabet \/ c = 61) (b64_encode bs).
Proof.
  intros bs B. split.
  - clear B. induction bs as [|a|a b|a b c r IH] using list3_ind; try reflexivity. cbn [b64_encode length]. rewrite IH.
    replace (S (S (S (length r))) + 2)%nat with (length r + 2 + 1 * 3)%nat by lia. rewrite Nat.div_add by lia. lia.
  - destruct (encode_syms bs B) as (E & R & _). rewrite E. apply Forall_app. split.
    + apply Forall_forall. intros c I. apply in_map_iff in I. destruct I as (d & <- & I). left.
      rewrite Forall_forall in R. specialize (R d I). unfold b64_char. apply nth_In. change (length b64_alphabet) with 64%nat. lia.
    + apply Forall_forall. intros c I. apply repeat_spec in I. auto.
Qed.

Example C83_ex : b64_encode (str_bytes "Hello!!") = str_bytes "SGVsbG8hIQ==" /\
  b64_decode (str_bytes "SGVsbG8hIQ") = Some (str_bytes "Hello!!") /\ b64_decode (str_bytes "SGVsbG8hIR==") = None /\
  b64_encode [251; 255] = str_bytes "-_8=" /\ b64_decode (str_bytes "-_8=") = Some [251; 255] /\
  b64_decode (str_bytes "+/8=") = None /\ b64_decode (str_bytes "AAAA=") = None.
Proof. vm_compute. auto 10. Qed.

Print Assumptions C83_accepts_iff.
Print Assumptions C83_round_trip.
Print Assumptions C83_text.
