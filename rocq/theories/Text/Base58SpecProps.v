(** C53: base58 texts against the Bitcoin alphabet and the numbers they denote. *)

From Coq Require Import String ZArith List Bool Lia ZifyBool ZifyNat.
From Verif Require Import Lib.Res Lib.Bytes Lib.Radix Lib.Sha256 Text.Base58 Text.Base58Props Text.FieldText Text.Checksum Text.ChecksumProps.
From Verif Require Import Text.Base64Spec.
From Verif Require Import Text.Base58Spec.
Import ListNotations.
Local Open Scope string_scope.
Local Open Scope list_scope.
Local Open Scope Z_scope.
Notation length := List.length.
Notation hd := List.hd.

Lemma rank_range : forall c d, rank c d -> 0 <= d < 58.
Proof. intros c d H. destruct H; lia. Qed.
Lemma rank_inj : forall c c' d, rank c d -> rank c' d -> c = c'.
Proof. intros c c' d H H'. destruct H; inversion H'; subst; lia. Qed.
Lemma rank_fun : forall c d d', rank c d -> rank c d' -> d = d'.
Proof. intros c d d' H H'. inversion H; inversion H'; lia. Qed.
Lemma char_rank : forall d, 0 <= d < 58 -> rank (char_of d) d.
Proof.
  intros d H.
  assert (A : forallb (fun n => let d := Z.of_nat n in char_of d =? (if d <? 9 then 49 + d else if d <? 17 then 56 + d else if d <? 22 then 57 + d else if d <? 33 then 58 + d else if d <? 44 then 64 + d else 65 + d)) (seq 0 58) = true)
    by (vm_compute; reflexivity).
  rewrite forallb_forall in A. specialize (A (Z.to_nat d) ltac:(apply in_seq; lia)). cbv zeta in A. rewrite Z2Nat.id in A by lia. apply Z.eqb_eq in A. rewrite A.
  destruct (d <? 9) eqn:E1; [apply R_digit; lia|]. destruct (d <? 17) eqn:E2; [apply R_A_H; lia|]. destruct (d <? 22) eqn:E3; [apply R_J_N; lia|].
  destruct (d <? 33) eqn:E4; [apply R_P_Z; lia|]. destruct (d <? 44) eqn:E5; [apply R_a_k; lia|apply R_m_z; lia].
Qed.
Lemma chars_rank : forall ds, in_base 58 ds -> Forall2 rank (map char_of ds) ds.
Proof. intros ds F. induction F as [|d ds D F IH]; [constructor|]. cbn [map]. constructor; [apply char_rank, D|exact IH]. Qed.
Lemma ranks_chars : forall s ds, Forall2 rank s ds -> in_base 58 ds /\ s = map char_of ds.
Proof.
  intros s ds F. induction F as [|c d s ds R F [I E]]; [split; [constructor|reflexivity]|]. pose proof (rank_range _ _ R) as B.
  split; [constructor; assumption|]. cbn [map]. f_equal; [|exact E]. eapply rank_inj; [exact R|apply char_rank, B].
Qed.
Lemma lval_snoc : forall b l d, 0 <= b -> lval b (l ++ [d]) = lval b l + d * b ^ Z.of_nat (length l).
Proof.
  intros b l d B. induction l as [|x l IH]; [cbn; lia|]. cbn [app lval fold_right length]. fold (lval b (l ++ [d])). fold (lval b l).
  rewrite IH, Nat2Z.inj_succ, Z.pow_succ_r by lia. ring.
Qed.
Lemma number_lval : forall b l, 0 <= b -> number b l = lval b (rev l).
Proof.
  intros b l B. induction l as [|d l IH]; [reflexivity|]. cbn [number rev]. rewrite lval_snoc, rev_length, IH by lia. ring.
Qed.
Lemma hd_canon : forall l, hd 1 l <> 0 <-> canon (rev l).
Proof.
  intros [|x l]; cbn [List.hd rev]; [split; [left; reflexivity|lia]|]. split.
  - intros N. right. exists (rev l), x. auto.
  - intros [K|(r & y & K & N)]; [destruct (rev l); discriminate|]. apply app_inj_tail in K. destruct K as [_ ->]. exact N.
Qed.
Lemma zeros_split : forall n n' r r', hd 1 r <> 0 -> hd 1 r' <> 0 -> repeat 0 n ++ r = repeat 0 n' ++ r' -> n = n' /\ r = r'.
Proof.
  induction n as [|n IH]; intros [|n'] r r' H H' E; cbn [repeat app] in E.
  - auto.
  - subst r. cbn in H. easy.
  - subst r'. cbn in H'. easy.
  - injection E as E. destruct (IH _ _ _ H H' E). auto.
Qed.
Lemma text58_fun : forall s s' bs, text58 s bs -> text58 s' bs -> s = s'.
Proof.
  intros s s' bs (n & ds & r & -> & R & D & F & N) (n' & ds' & r' & E & R' & D' & F' & N').
  destruct (zeros_split _ _ _ _ R R' E) as [<- <-]. apply ranks_chars in F. apply ranks_chars in F'. destruct F as [I ->]. destruct F' as [I' ->].
  f_equal. f_equal. apply Forall_app in I. apply Forall_app in I'. destruct I as [_ I]. destruct I' as [_ I'].
  rewrite <- (rev_involutive ds), <- (rev_involutive ds'). f_equal.
  apply (lval_unique 58); [lia|apply in_base_rev; assumption|apply in_base_rev; assumption|apply hd_canon; assumption|apply hd_canon; assumption|].
  rewrite <- !number_lval by lia. congruence.
Qed.
Lemma encode_text58 : forall bs, bytes_ok bs -> text58 (b58_encode bs) bs.
Proof.
  intros bs B. destruct (lead0_split bs) as (r & E & K & _).
  destruct (conv_buf_spec 256 58 bs ltac:(lia) ltac:(lia) B) as (I & C & V).
  exists (lead0 bs), (rev (conv_buf 256 58 bs)), r.
  split; [exact E|]. split; [apply hd_canon, K|]. split; [apply hd_canon; rewrite rev_involutive; exact C|].
  split; [apply chars_rank, (convert_base 256 58); [lia|lia|exact B]|].
  rewrite !number_lval, rev_involutive, V by lia. rewrite E at 1. rewrite rev_app_distr, rev_repeat0. apply lval_zeros.
Qed.

(** The written text is the base58 form of the bytes. *)
Theorem C53_written_iff : forall bs s, bytes_ok bs -> (b58_encode bs = s <-> text58 s bs).
Proof.
  intros bs s B. pose proof (encode_text58 bs B) as X. split; [intros <-; exact X|]. intros H. eapply text58_fun; eassumption.
Qed.

(** A text is read as bytes exactly if it is their base58 form. *)
Theorem C53_read_iff : forall s bs, b58_decode s = Ok bs <-> bytes_ok bs /\ text58 s bs.
Proof.
  intros s bs. split.
  - intros H. apply encode_decode in H. destruct H as [B <-]. split; [exact B|apply encode_text58, B].
  - intros [B T]. apply (C53_written_iff bs s B) in T. subst s. apply decode_encode, B.
Qed.

(** Every text of the 58 characters is read, and no other. *)
Theorem C53_read_exists : forall s, (exists bs, b58_decode s = Ok bs) <-> Forall (fun c => exists d, rank c d) s.
Proof.
  intros s. split.
  - intros [bs H]. apply C53_read_iff in H. destruct H as [_ (n & ds & r & _ & _ & _ & F & _)].
    induction F as [|c d s l R F IH]; constructor; [eauto|exact IH].
  - intros F. assert (X : exists ds, Forall2 rank s ds).
    { induction F as [|c s [d R] F [ds IH]]; [exists []; constructor|exists (d :: ds); constructor; assumption]. }
    destruct X as [ds X]. apply ranks_chars in X. destruct X as [I ->]. unfold b58_decode. rewrite digits_of_chars by exact I. cbn [bind]. eauto.
Qed.

(** ** Texts with a version byte and a checksum *)

Lemma checked_bytes : forall bs, bytes_ok bs -> bytes_ok (bs ++ firstn 4 (sha256 (sha256 bs))).
Proof. intros bs B. apply Forall_app. split; [exact B|apply (sha_checksum_bytes bs)]. Qed.

(** The text of a hash: the base58 form of the version byte, the bytes and the
    first four bytes of their SHA-256, taken twice. *)
Theorem C53_hash_text_iff : forall ver data s, byte_ok ver -> bytes_ok data ->
  (to_base58_string sha_checksum ver data = s <-> text58 s ((ver :: data) ++ firstn 4 (sha256 (sha256 (ver :: data))))).
Proof.
  intros ver data s V D. apply (C53_written_iff ((ver :: data) ++ firstn 4 (sha256 (sha256 (ver :: data))))).
  apply checked_bytes. constructor; assumption.
Qed.

(** These texts and no others are read. *)
Theorem C53_hash_read_iff : forall ver data s, byte_ok ver ->
  (from_base58 sha_checksum ver s = Ok data <->
   bytes_ok data /\ text58 s ((ver :: data) ++ firstn 4 (sha256 (sha256 (ver :: data))))).
Proof.
  intros ver data s V. split.
  - intros H. apply C53_sha_canonical in H. destruct H as [D E]. split; [exact D|]. apply C53_hash_text_iff; auto.
  - intros [D T]. apply C53_hash_text_iff in T; auto. subst s. apply C53_sha_round_trip; assumption.
Qed.

(** Addresses: version bytes cb, 1 and 1, the x coordinate with the lowest byte
    first, the parity. *)
Theorem C53_address_iff : forall s x odd, from_address sha_checksum s = Some (x, odd) <->
  bytes_ok x /\ length x = 32%nat /\ le_val x < FP_MODULUS /\
  exists payload, payload = [203; 1; 1] ++ x ++ [if odd then 1 else 0] /\ text58 s (payload ++ firstn 4 (sha256 (sha256 payload))).
Proof.
  intros s x odd.
  assert (P : bytes_ok x -> bytes_ok (203 :: 1 :: 1 :: x ++ [if odd then 1 else 0])).
  { intros B. unfold bytes_ok, byte_ok in *. do 3 (constructor; [lia|]). apply Forall_app. split; [exact B|]. constructor; [destruct odd; lia|constructor]. }
  split.
  - intros H. apply (C53_address_canonical sha_checksum sha_checksum_len sha_checksum_bytes) in H. destruct H as (B & L & M & ->).
    split; [exact B|]. split; [exact L|]. split; [exact M|]. exists (203 :: 1 :: 1 :: x ++ [if odd then 1 else 0]). split; [reflexivity|].
    apply C53_written_iff; [apply checked_bytes, P, B|reflexivity].
  - intros (B & L & M & payload & -> & T). apply C53_written_iff in T; [|apply checked_bytes, P, B]. subst s.
    apply (C53_address_round_trip sha_checksum sha_checksum_len sha_checksum_bytes); assumption.
Qed.

(** Memos have the version byte 14. *)
Theorem C53_memo_iff : forall s m, memo_json_de sha_checksum s = Ok m <->
  bytes_ok m /\ text58 s ((20 :: m) ++ firstn 4 (sha256 (sha256 (20 :: m)))).
Proof.
  intros s m. assert (V : byte_ok 20) by (unfold byte_ok; lia). split.
  - intros H. unfold memo_json_de in H. apply bind_ok in H. destruct H as (bs & D & H). injection H as <-.
    destruct (check_decode sha_checksum sha_checksum_len sha_checksum_bytes _ _ _ D) as [(data & -> & B & ->)|(_ & _ & N)];
      [|rewrite sha_checksum_empty in N; discriminate].
    inversion B as [|? ? _ B']; subst. cbn [skipn]. split; [exact B'|]. apply (C53_hash_text_iff 20 data _ V B'). reflexivity.
  - intros [B T]. apply (C53_hash_text_iff 20 m s V B) in T. subst s. apply (C53_memo_round_trip sha_checksum sha_checksum_len sha_checksum_bytes m B).
Qed.

(** VRF outputs have the version byte 15 and one more byte, which is their length
    when they are written and is not looked at when they are read; it may be
    missing in front of nothing. *)
Theorem C53_vrf_written_iff : forall v s, bytes_ok v -> (length v < 256)%nat ->
  (vrf58_ser sha_checksum v = s <->
   exists payload, payload = [21; Z.of_nat (length v)] ++ v /\ text58 s (payload ++ firstn 4 (sha256 (sha256 payload)))).
Proof.
  intros v s B L. assert (V : byte_ok 21) by (unfold byte_ok; lia).
  assert (N : byte_ok (Z.of_nat (length v))) by (unfold byte_ok; lia).
  assert (B' : bytes_ok (Z.of_nat (length v) :: v)) by (constructor; assumption).
  pose proof (C53_hash_text_iff 21 _ s V B') as I. unfold vrf58_ser, wrapu. rewrite Z.mod_small by lia.
  split; [intros H; exists (21 :: Z.of_nat (length v) :: v); split; [reflexivity|]; apply I; exact H|intros (p & -> & T); apply I; exact T].
Qed.
Theorem C53_vrf_read_iff : forall s v, vrf58_de sha_checksum s = Ok v <->
  bytes_ok v /\ exists payload, ((exists n, byte_ok n /\ payload = [21; n] ++ v) \/ (payload = [21] /\ v = [])) /\
    text58 s (payload ++ firstn 4 (sha256 (sha256 payload))).
Proof.
  intros s v. assert (V : byte_ok 21) by (unfold byte_ok; lia). split.
  - intros H. unfold vrf58_de in H. apply bind_ok in H. destruct H as (bs & D & H). injection H as <-.
    destruct (check_decode sha_checksum sha_checksum_len sha_checksum_bytes _ _ _ D) as [(data & -> & B & ->)|(_ & _ & N)];
      [|rewrite sha_checksum_empty in N; discriminate].
    inversion B as [|? ? _ B']; subst. destruct data as [|n v]; cbn [skipn].
    + split; [constructor|]. exists [21]. split; [right; auto|]. apply (C53_hash_text_iff 21 [] _ V B'). reflexivity.
    + inversion B' as [|? ? Bn Bv]; subst. split; [exact Bv|]. exists (21 :: n :: v). split; [left; exists n; auto|]. apply (C53_hash_text_iff 21 (n :: v) _ V B'). reflexivity.
  - intros (B & payload & [(n & Bn & ->)|[-> ->]] & T).
    + assert (B' : bytes_ok (n :: v)) by (constructor; assumption). apply (C53_hash_text_iff 21 _ s V B') in T. subst s.
      unfold vrf58_de, to_base58_string. rewrite (check_encode sha_checksum sha_checksum_len sha_checksum_bytes) by assumption. reflexivity.
    + assert (B' : bytes_ok []) by constructor. apply (C53_hash_text_iff 21 _ s V B') in T. subst s.
      unfold vrf58_de, to_base58_string. rewrite (check_encode sha_checksum sha_checksum_len sha_checksum_bytes) by assumption. reflexivity.
Qed.

Example C53_ex_text : text58 (str_bytes "2NEpo7TZRRrLZSi2U") (str_bytes "Hello World!") /\
  text58 (str_bytes "112") [0; 0; 1] /\ ~ text58 (str_bytes "12") [0; 0; 1] /\ ~ (exists d, rank 108 d).
Proof.
  assert (B : bytes_ok [0; 0; 1]) by (unfold bytes_ok, byte_ok; repeat constructor; lia).
  split; [|split; [|split]].
  - apply C53_read_iff. vm_compute. reflexivity.
  - apply C53_written_iff; [exact B|]. vm_compute. reflexivity.
  - intros H. apply C53_written_iff in H; [|exact B]. vm_compute in H. discriminate.
  - intros [d H]. remember 108 as c eqn:E. destruct H; lia.
Qed.
Example C53_ex_hash_text : byte_ok LEDGER_HASH /\ bytes_ok [1; 2; 3] /\
  from_base58 sha_checksum LEDGER_HASH (to_base58_string sha_checksum LEDGER_HASH [1; 2; 3]) = Ok [1; 2; 3].
Proof.
  assert (V : byte_ok LEDGER_HASH) by (unfold byte_ok, LEDGER_HASH; lia).
  assert (B : bytes_ok [1; 2; 3]) by (unfold bytes_ok, byte_ok; repeat constructor; lia).
  split; [exact V|]. split; [exact B|]. apply C53_hash_read_iff; [exact V|]. split; [exact B|]. apply C53_hash_text_iff; auto.
Qed.
Example C53_ex_memo_text : memo_json_de sha_checksum (memo_json_ser sha_checksum [1; 2; 104; 105]) = Ok [1; 2; 104; 105] /\
  vrf58_de sha_checksum (to_base58_string sha_checksum 21 []) = Ok [] /\
  vrf58_de sha_checksum (to_base58_string sha_checksum 21 [9; 7; 8]) = Ok [7; 8].
Proof.
  assert (V : byte_ok 21) by (unfold byte_ok; lia).
  split; [|split].
  - apply C53_memo_iff. assert (B : bytes_ok [1; 2; 104; 105]) by (unfold bytes_ok, byte_ok; repeat constructor; lia).
    split; [exact B|]. apply C53_hash_text_iff; [unfold byte_ok; lia|exact B|reflexivity].
  - apply C53_vrf_read_iff. split; [constructor|]. exists [21]. split; [right; auto|]. apply C53_hash_text_iff; [exact V|constructor|reflexivity].
  - apply C53_vrf_read_iff. assert (B : bytes_ok [9; 7; 8]) by (unfold bytes_ok, byte_ok; repeat constructor; lia).
    split; [inversion B; assumption|]. exists [21; 9; 7; 8]. split; [left; exists 9; split; [unfold byte_ok; lia|reflexivity]|].
    apply C53_hash_text_iff; [exact V|exact B|reflexivity].
Qed.

Print Assumptions C53_written_iff.
Print Assumptions C53_read_iff.
Print Assumptions C53_read_exists.
Print Assumptions C53_hash_text_iff.
Print Assumptions C53_hash_read_iff.
Print Assumptions C53_address_iff.
Print Assumptions C53_memo_iff.
Print Assumptions C53_vrf_written_iff.
Print Assumptions C53_vrf_read_iff.
