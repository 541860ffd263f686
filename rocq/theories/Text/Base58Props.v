(** Base58 texts: theorems. *)

From Coq Require Import String ZArith List Bool Lia ZifyBool ZifyNat.
From Verif Require Import Lib.Res Lib.Bytes Lib.Radix BinProt.Prim BinProt.Codec BinProt.CodecSpec BinProt.BufRead
  BinProt.BufReadProofs BinProt.CodecProofs Wire.Types Text.Base58.
Import ListNotations.
Local Open Scope string_scope.
Local Open Scope list_scope.
Local Open Scope Z_scope.

(** ** The alphabet *)

Lemma index_of_range : forall c l i d, index_of c l i = Some d ->
  i <= d < i + Z.of_nat (length l) /\ nth (Z.to_nat (d - i)) l 0 = c.
Proof.
  intros c l. induction l as [|x l IH]; intros i d H; cbn [index_of] in H; [discriminate|].
  destruct (x =? c) eqn:E.
  - injection H as <-. cbn [length]. rewrite Z.sub_diag. cbn. lia.
  - apply IH in H. cbn [length]. destruct H as [H1 H2]. split; [lia|].
    replace (Z.to_nat (d - i)) with (S (Z.to_nat (d - (i + 1)))) by lia. exact H2.
Qed.

Lemma digit_of_char : forall d, 0 <= d < 58 -> digit_of (char_of d) = Ok d.
Proof.
  intros d H.
  assert (A : forallb (fun n => match digit_of (char_of (Z.of_nat n)) with Ok x => x =? Z.of_nat n | _ => false end) (seq 0 58) = true)
    by (vm_compute; reflexivity).
  rewrite forallb_forall in A. specialize (A (Z.to_nat d)). rewrite Z2Nat.id in A by lia.
  specialize (A ltac:(apply in_seq; lia)). destruct (digit_of (char_of d)) as [x| |]; try discriminate. f_equal. lia.
Qed.

Lemma char_of_digit : forall c d, digit_of c = Ok d -> 0 <= d < 58 /\ char_of d = c.
Proof.
  intros c d. unfold digit_of. destruct (127 <? c); [discriminate|].
  destruct (index_of c alphabet 0) as [x|] eqn:E; [|discriminate]. intros [= <-].
  apply index_of_range in E. change (Z.of_nat (length alphabet)) with 58 in E. rewrite Z.sub_0_r in E.
  unfold char_of. split; [lia|tauto].
Qed.

Lemma digits_of_chars : forall ds, in_base 58 ds -> digits_of (map char_of ds) = Ok ds.
Proof.
  intros ds H. induction H as [|d ds D H IH]; [reflexivity|]. cbn [map digits_of].
  rewrite digit_of_char by exact D. cbn [bind]. rewrite IH. reflexivity.
Qed.

Lemma chars_of_digits : forall s ds, digits_of s = Ok ds -> in_base 58 ds /\ map char_of ds = s.
Proof.
  induction s as [|c s IH]; intros ds H; cbn [digits_of] in H.
  - injection H as <-. split; [constructor|reflexivity].
  - apply bind_ok in H. destruct H as (d & D & H). apply bind_ok in H. destruct H as (ds' & E & H).
    injection H as <-. apply IH in E. apply char_of_digit in D. destruct D, E. split; [constructor; assumption|].
    cbn [map]. congruence.
Qed.

Lemma digits_of_no_panic : forall s, digits_of s <> Panic.
Proof.
  induction s as [|c s IH]; cbn [digits_of]; [discriminate|]. unfold digit_of.
  destruct (127 <? c); [discriminate|]. destruct (index_of c alphabet 0); [|discriminate]. cbn [bind].
  destruct (digits_of s); [discriminate|discriminate|easy].
Qed.

(** ** Plain base58 *)

Lemma decode_encode : forall data, bytes_ok data -> b58_decode (b58_encode data) = Ok data.
Proof.
  intros data H. unfold b58_decode, b58_encode.
  rewrite digits_of_chars by (apply convert_base; [lia|lia|exact H]). cbn [bind].
  rewrite convert_inverse by (lia || exact H). reflexivity.
Qed.

Lemma encode_decode : forall s data, b58_decode s = Ok data -> bytes_ok data /\ b58_encode data = s.
Proof.
  intros s data H. unfold b58_decode in H. apply bind_ok in H. destruct H as (ds & D & H). injection H as <-.
  apply chars_of_digits in D. destruct D as [R D]. split; [apply (convert_base 58 256); [lia|lia|exact R]|].
  unfold b58_encode. rewrite convert_inverse by (lia || exact R). exact D.
Qed.

Lemma decode_fits : forall s data, b58_decode s = Ok data -> (length data <= length s)%nat.
Proof.
  intros s data H. unfold b58_decode in H. apply bind_ok in H. destruct H as (ds & D & H). injection H as <-.
  apply chars_of_digits in D. destruct D as [R D]. rewrite <- D, map_length. apply convert_shorter; [lia|exact R].
Qed.

Lemma list_eqb_iff : forall a b, list_eqb a b = true <-> a = b.
Proof. intros a b. unfold list_eqb. destruct (list_eq_dec Z.eq_dec a b); split; congruence. Qed.

(** ** Strict reading of one value *)

Lemma strict_whole : forall checked t v bs, from_slice checked t bs = Ok (v, []) ->
  from_reader_strict BUF_CAP checked t (chunks_of bs) = Ok v.
Proof.
  intros c t v bs E.
  assert (Hi : Forall (fun ch => ch <> []) (chunks_of bs)).
  { destruct bs; cbn [chunks_of]; constructor; [discriminate|constructor]. }
  assert (Hc : List.concat (chunks_of bs) = bs) by (destruct bs; cbn; [reflexivity|now rewrite app_nil_r]).
  pose proof (buf_de BUF_CAP ltac:(unfold BUF_CAP; lia) c t (chunks_of bs) Hi) as B. rewrite Hc, E in B.
  destruct B as ((buf, i') & E' & C & _). unfold from_reader_strict. rewrite E'. cbn [bind fst].
  unfold content in C. cbn in C. apply app_eq_nil in C. destruct C as (-> & _). reflexivity.
Qed.

Section Check.
  Variable checksum : list Z -> list Z.
  (** What the theorems need to know about the checksum function: it returns
      four bytes. *)
  Hypothesis checksum_len : forall l, length (checksum l) = 4%nat.
  Hypothesis checksum_bytes : forall l, bytes_ok (checksum l).

  Notation dec_ := (b58c_decode checksum).
  Notation enc_ := (b58c_encode checksum).

  Lemma check_encode : forall ver ver' data, byte_ok ver -> bytes_ok data ->
    dec_ ver' (enc_ ver data) = if ver =? ver' then Ok (ver :: data) else Err (BInvalidVersion ver ver').
  Proof.
    intros ver ver' data V D. unfold b58c_decode, b58c_encode.
    assert (B : bytes_ok (ver :: data)) by (constructor; assumption).
    rewrite decode_encode.
    - cbn [bind]. change (ver :: data ++ checksum (ver :: data)) with ((ver :: data) ++ checksum (ver :: data)).
      change (nth 0 ((ver :: data) ++ checksum (ver :: data)) 0) with ver.
      revert B. generalize (ver :: data) as l. intros l _.
      rewrite app_length, checksum_len. destruct (Nat.ltb _ _) eqn:L; [unfold CHECKSUM_LEN in L; lia|].
      unfold CHECKSUM_LEN. replace (length l + 4 - 4)%nat with (length l) by lia.
      rewrite firstn_app, skipn_app, Nat.sub_diag, firstn_all, skipn_all. cbn [firstn skipn app].
      rewrite app_nil_r. replace (list_eqb _ _) with true by (symmetry; apply list_eqb_iff; reflexivity). reflexivity.
    - constructor; [exact V|]. apply bytes_ok_app. split; [exact D|apply checksum_bytes].
  Qed.

  Lemma check_decode : forall ver s bytes, dec_ ver s = Ok bytes ->
    (exists data, bytes = ver :: data /\ bytes_ok (ver :: data) /\ s = enc_ ver data) \/
    (bytes = [] /\ s = b58_encode (checksum []) /\ nth 0 (checksum []) 0 = ver).
  Proof.
    intros ver s bytes H. unfold b58c_decode in H. apply bind_ok in H. destruct H as (out & O & H).
    apply encode_decode in O. destruct O as [B O].
    destruct (Nat.ltb (length out) CHECKSUM_LEN) eqn:L; [discriminate|]. unfold CHECKSUM_LEN in *.
    destruct (list_eqb _ _) eqn:E; [|discriminate]. apply list_eqb_iff in E.
    destruct (nth 0 out 0 =? ver) eqn:N; [|discriminate]. injection H as <-.
    assert (N' : nth 0 out 0 = ver) by lia. clear N L. rewrite <- O. clear O.
    pose proof (firstn_skipn (length out - 4) out) as FS. rewrite <- E in FS. clear E.
    revert FS. generalize (firstn (length out - 4) out) as f. intros f <-.
    destruct f as [|x data].
    - right. cbn [app] in N'. auto.
    - left. cbn [app nth] in N'. subst x. exists data. apply bytes_ok_app in B. split; [reflexivity|]. split; [tauto|reflexivity].
  Qed.

  (** ** C53 *)

  (** The text of a value reads back as the value. *)
  Theorem C53_round_trip : forall ver data, byte_ok ver -> bytes_ok data ->
    from_base58 checksum ver (to_base58_string checksum ver data) = Ok data.
  Proof.
    intros ver data V D. unfold from_base58, to_base58_string. rewrite check_encode by assumption.
    rewrite Z.eqb_refl. reflexivity.
  Qed.

  Theorem C53_versioned_round_trip : forall checked ver t v, byte_ok ver -> fits checked t v ->
    exists s, to_base58_versioned checksum checked ver t v = Ok s /\
      from_base58_versioned checksum checked ver t s = Ok v.
  Proof.
    intros c ver t v V F. destruct (round_trip c t v F) as (bs & S & B & D).
    exists (enc_ ver bs). unfold to_base58_versioned, from_base58_versioned, to_bytes. rewrite S. split; [reflexivity|].
    rewrite check_encode by assumption. rewrite Z.eqb_refl. cbn [bind].
    specialize (D []). rewrite app_nil_r in D. rewrite (strict_whole c t v bs D). reflexivity.
  Qed.

  (** The text of one kind is rejected by another kind. *)
  Theorem C53_separated : forall ver ver' data, byte_ok ver -> bytes_ok data -> ver <> ver' ->
    from_base58 checksum ver' (to_base58_string checksum ver data) = Err (BInvalidVersion ver ver').
  Proof.
    intros ver ver' data V D N. unfold from_base58, to_base58_string. rewrite check_encode by assumption.
    destruct (ver =? ver') eqn:E; [lia|reflexivity].
  Qed.
  Theorem C53_versioned_separated : forall checked checked' ver ver' t t' v s, byte_ok ver -> fits checked t v -> ver <> ver' ->
    to_base58_versioned checksum checked ver t v = Ok s ->
    from_base58_versioned checksum checked' ver' t' s = Err (BInvalidVersion ver ver') /\
    from_base58 checksum ver' s = Err (BInvalidVersion ver ver').
  Proof.
    intros c c' ver ver' t t' v s V F N S. destruct (round_trip c t v F) as (bs & S' & B & _).
    unfold to_base58_versioned, to_bytes in S. rewrite S' in S. cbn [lift_bin bind] in S. injection S as <-.
    unfold from_base58_versioned, from_base58. rewrite check_encode by assumption.
    destruct (ver =? ver') eqn:E; [lia|]. split; reflexivity.
  Qed.
  (** The kinds of the project have different version bytes. *)
  Theorem C53_kinds_distinct : forall n1 n2 v1 v2, In (n1, v1) hash_kinds -> In (n2, v2) hash_kinds -> n1 <> n2 ->
    v1 <> v2 /\ byte_ok v1.
  Proof.
    assert (ND : NoDup (map snd hash_kinds)).
    { vm_compute. repeat (apply NoDup_cons; [cbn; intuition discriminate|]). apply NoDup_nil. }
    assert (OK : Forall byte_ok (map snd hash_kinds)) 
      by (unfold byte_ok; vm_compute; repeat (apply Forall_cons; [split; [discriminate|reflexivity]|]); apply Forall_nil).
    intros n1 n2 v1 v2 I1 I2 N. split.
    - intros ->. apply N. clear N. revert ND I1 I2. generalize hash_kinds as l.
      induction l as [|[n v] l IH]; intros ND I1 I2; [destruct I1|]. cbn [map snd] in ND. inversion ND; subst.
      destruct I1 as [I1|I1], I2 as [I2|I2].
      + congruence.
      + injection I1 as -> ->. exfalso. apply H1. apply in_map_iff. exists (n2, v2). auto.
      + injection I2 as -> ->. exfalso. apply H1. apply in_map_iff. exists (n1, v2). auto.
      + auto.
    - rewrite Forall_forall in OK. apply OK. apply in_map_iff. exists (n1, v1). auto.
  Qed.

  (** An accepted text is the text of the value read: there is one text for
      each value of each kind, and any other text is rejected. *)
  Theorem C53_canonical : forall ver s data, from_base58 checksum ver s = Ok data ->
    bytes_ok data /\ s = to_base58_string checksum ver data.
  Proof.
    intros ver s data H. unfold from_base58 in H. apply bind_ok in H. destruct H as (bytes & E & H).
    apply check_decode in E. destruct E as [(d & -> & B & ->)|(-> & _)]; [|discriminate].
    injection H as ->. inversion B; subst. split; [assumption|reflexivity].
  Qed.
  (** Reading crashes on one text at most: the bare checksum of nothing, and
      only if that checksum starts with the version byte. *)
  Theorem C53_panics_iff : forall ver s, from_base58 checksum ver s = Panic <->
    s = b58_encode (checksum []) /\ nth 0 (checksum []) 0 = ver.
  Proof.
    intros ver s. split.
    - intros H. unfold from_base58 in H. apply bind_panic in H. destruct H as [H|(bytes & E & H)].
      + exfalso. unfold b58c_decode in H. apply bind_panic in H. destruct H as [H|(out & _ & H)].
        * unfold b58_decode in H. apply bind_panic in H. destruct H as [H|(ds & _ & H)]; [|discriminate].
          exact (digits_of_no_panic _ H).
        * destruct (Nat.ltb _ _); [discriminate|]. destruct (list_eqb _ _); [|discriminate].
          destruct (_ =? _); discriminate.
      + apply check_decode in E. destruct E as [(d & -> & _)|(-> & E)]; [discriminate|exact E].
    - intros [-> N]. unfold from_base58, b58c_decode. rewrite decode_encode by apply checksum_bytes. cbn [bind].
      rewrite checksum_len. cbn [Nat.ltb Nat.leb CHECKSUM_LEN Nat.sub firstn skipn].
      replace (list_eqb _ _) with true by (symmetry; apply list_eqb_iff; reflexivity).
      rewrite N, Z.eqb_refl. reflexivity.
  Qed.

  (** Memos and VRF outputs. *)
  Theorem C53_memo_round_trip : forall m, bytes_ok m -> memo_json_de checksum (memo_json_ser checksum m) = Ok m.
  Proof. intros m B. unfold memo_json_de, memo_json_ser. rewrite check_encode; [reflexivity|unfold byte_ok, USER_COMMAND_MEMO; lia|exact B]. Qed.
  Theorem C53_vrf_round_trip : forall v, bytes_ok v -> vrf58_de checksum (vrf58_ser checksum v) = Ok v.
  Proof.
    intros v B. unfold vrf58_de, vrf58_ser. rewrite check_encode; [reflexivity|unfold byte_ok, VRF_TRUNCATED_OUTPUT; lia|].
    constructor; [|exact B]. unfold byte_ok, wrapu. apply Z.mod_pos_bound. lia.
  Qed.
  (** The length byte of a VRF text is not looked at: for every value of at
      most 255 bytes there are 255 other texts that are read as the same
      value. *)
  Theorem C53_vrf_length_unchecked : forall v n, bytes_ok v -> byte_ok n -> n <> wrapu 8 (Z.of_nat (length v)) ->
    vrf58_de checksum (b58c_encode checksum VRF_TRUNCATED_OUTPUT (n :: v)) = Ok v /\
    b58c_encode checksum VRF_TRUNCATED_OUTPUT (n :: v) <> vrf58_ser checksum v.
  Proof.
    intros v n B N NE. assert (V : byte_ok VRF_TRUNCATED_OUTPUT) by (unfold byte_ok, VRF_TRUNCATED_OUTPUT; lia).
    split.
    - unfold vrf58_de. rewrite check_encode; [reflexivity|exact V|constructor; assumption].
    - intros E. apply (f_equal (dec_ VRF_TRUNCATED_OUTPUT)) in E. unfold vrf58_ser in E.
      rewrite !check_encode in E; try exact V; try (constructor; [|exact B]); try exact N.
      + rewrite Z.eqb_refl in E. injection E as E. auto.
      + unfold byte_ok, wrapu. apply Z.mod_pos_bound. lia.
  Qed.
End Check.

(** The digits of a text are those of the number the bytes denote, with one
    leading [1] for each leading zero byte. *)
Theorem C53_text_denotes : forall data, bytes_ok data -> exists ds,
  b58_encode data = map char_of ds /\ in_base 58 ds /\ lval 58 (rev ds) = lval 256 (rev data) /\ lead0 ds = lead0 data.
Proof.
  intros data B. destruct (conv_buf_spec 256 58 data ltac:(lia) ltac:(lia) B) as (I & K & V).
  exists (convert 256 58 data). split; [reflexivity|]. split; [apply convert_base; [lia|lia|exact B]|].
  unfold convert. split; [|apply lead0_app, canon_lead0; exact K].
  rewrite rev_app_distr, rev_involutive, rev_repeat0, lval_zeros. exact V.
Qed.

(** ** Examples *)

(** A checksum function for the examples: it has the type of a real one. *)
Definition toy_sum (l : list Z) : list Z := [fold_left Z.add l 0 mod 256; Z.of_nat (length l) mod 256; 7; 9].
Example toy_len : forall l, length (toy_sum l) = 4%nat /\ bytes_ok (toy_sum l).
Proof.
  intros l. split; [reflexivity|]. repeat constructor; try lia; apply Z.mod_pos_bound; lia.
Qed.
Example C53_ex : b58_encode (str_bytes "Hello World!") = str_bytes "2NEpo7TZRRrLZSi2U" /\
  b58_decode (str_bytes "2NEpo7TZRRrLZSi2U") = Ok (str_bytes "Hello World!") /\
  from_base58 toy_sum 5 (to_base58_string toy_sum 5 [0; 1; 2]) = Ok [0; 1; 2] /\
  from_base58 toy_sum 16 (to_base58_string toy_sum 5 [0; 1; 2]) = Err (BInvalidVersion 5 16) /\
  from_base58 toy_sum 5 (str_bytes "0OIl") = Err BInvalidCharacter.
Proof. vm_compute. auto 6. Qed.
Example C53_ex_hash : exists s, to_base58_versioned toy_sum true LEDGER_HASH HashV1
    (VTup [VInt 1; VTup (repeat (VInt 200) 32)]) = Ok s /\
  from_base58_versioned toy_sum true LEDGER_HASH HashV1 s = Ok (VTup [VInt 1; VTup (repeat (VInt 200) 32)]).
Proof.
  apply C53_versioned_round_trip; [apply toy_len|apply toy_len|unfold byte_ok, LEDGER_HASH; lia|].
  cbn. unfold byte_ok. repeat split; lia.
Qed.

Print Assumptions C53_text_denotes.
Print Assumptions C53_round_trip.
Print Assumptions C53_versioned_round_trip.
Print Assumptions C53_separated.
Print Assumptions C53_versioned_separated.
Print Assumptions C53_kinds_distinct.
Print Assumptions C53_canonical.
Print Assumptions C53_panics_iff.
Print Assumptions C53_memo_round_trip.
Print Assumptions C53_vrf_round_trip.
Print Assumptions C53_vrf_length_unchecked.
