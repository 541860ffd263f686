(** What the theorems assume of the checksum and of addresses holds of the real
    functions. *)

From Coq Require Import String ZArith List Bool Lia ZifyBool ZifyNat.
From Verif Require Import Lib.Res Lib.Bytes Lib.Sha256 BinProt.Codec BinProt.CodecSpec Text.Base58 Text.Base58Props Text.FieldText
  Text.Checksum.
Import ListNotations.
Local Open Scope Z_scope.
Notation length := List.length.

Lemma sha_checksum_len : forall l, length (sha_checksum l) = 4%nat.
Proof. intros l. unfold sha_checksum. rewrite firstn_length, sha256_len. reflexivity. Qed.
Lemma sha_checksum_bytes : forall l, bytes_ok (sha_checksum l).
Proof.
  intros l. unfold sha_checksum. apply Forall_forall. intros b I.
  pose proof (sha256_bytes (sha256 l)) as B. unfold bytes_ok in B. rewrite Forall_forall in B. apply B.
  rewrite <- (firstn_skipn 4 (sha256 (sha256 l))). apply in_or_app. left. exact I.
Qed.
Lemma sha_checksum_empty : sha_checksum [] = [0x5d; 0xf6; 0xe0; 0xe2].
Proof. vm_compute. reflexivity. Qed.

(** ** Addresses *)
Section Address.
  Variable checksum : list Z -> list Z.
  Hypothesis checksum_len : forall l, length (checksum l) = 4%nat.
  Hypothesis checksum_bytes : forall l, bytes_ok (checksum l).

  (** C53: an address reads back as its key. *)
  Theorem C53_address_round_trip : forall x odd, bytes_ok x -> length x = 32%nat -> le_val x < FP_MODULUS ->
    from_address checksum (into_address checksum x odd) = Some (x, odd).
  Proof.
    intros x odd B L M. unfold from_address, into_address. rewrite (check_encode checksum checksum_len checksum_bytes).
    - cbn [Z.eqb Pos.eqb]. rewrite app_length, L. cbn [length Nat.add Nat.eqb andb].
      rewrite firstn_app, L, Nat.sub_diag, firstn_O, app_nil_r, firstn_all2 by lia.
      rewrite app_nth2, L, Nat.sub_diag by lia. cbn [nth].
      replace (le_val x <? FP_MODULUS) with true by lia. destruct odd; reflexivity.
    - unfold byte_ok. lia.
    - constructor; [unfold byte_ok; lia|]. constructor; [unfold byte_ok; lia|]. apply bytes_ok_app. split; [exact B|].
      constructor; [unfold byte_ok; destruct odd; lia|constructor].
  Qed.
  (** A text that is read is the address of the key, so there is one for each
      key. *)
  Theorem C53_address_canonical : forall s x odd, from_address checksum s = Some (x, odd) ->
    bytes_ok x /\ length x = 32%nat /\ le_val x < FP_MODULUS /\ s = into_address checksum x odd.
  Proof.
    intros s x odd H. unfold from_address in H. destruct (b58c_decode checksum 203 s) as [bs|e|] eqn:D; try discriminate.
    destruct (check_decode checksum checksum_len checksum_bytes 203 s bs D) as [(data & -> & B & ->)|(-> & _)]; [|discriminate].
    destruct data as [|a [|b rest]]; try discriminate.
    destruct ((length rest =? 33)%nat && (a =? 1) && (b =? 1)) eqn:C; [|discriminate].
    cbv zeta in H. set (y := firstn 32 rest) in *. set (p := nth 32 rest 0) in *.
    destruct ((le_val y <? FP_MODULUS) && _) eqn:E; [|discriminate]. injection H as <- <-.
    assert (R : rest = y ++ [p]).
    { unfold y, p. rewrite <- (firstn_skipn 32 rest) at 1. f_equal.
      destruct (skipn 32 rest) as [|q [|q' r]] eqn:K.
      - apply (f_equal (@length Z)) in K. rewrite skipn_length in K. cbn in K. lia.
      - f_equal. rewrite <- (firstn_skipn 32 rest), K, app_nth2; rewrite firstn_length_le by lia; [|lia]. reflexivity.
      - apply (f_equal (@length Z)) in K. rewrite skipn_length in K. cbn [length] in K. lia. }
    do 3 apply Forall_inv_tail in B. rewrite R in B. apply bytes_ok_app in B. destruct B as (By & _).
    split; [exact By|]. split; [unfold y; rewrite firstn_length; lia|]. split; [lia|].
    unfold into_address. rewrite R. replace a with 1 by lia. replace b with 1 by lia.
    replace (if p =? 1 then 1 else 0) with p by (destruct (p =? 1) eqn:Q; lia). reflexivity.
  Qed.
End Address.

(** ** With the real checksum *)

Theorem C53_sha_round_trip : forall ver data, byte_ok ver -> bytes_ok data ->
  from_base58 sha_checksum ver (to_base58_string sha_checksum ver data) = Ok data.
Proof. exact (C53_round_trip sha_checksum sha_checksum_len sha_checksum_bytes). Qed.
Theorem C53_sha_canonical : forall ver s data, from_base58 sha_checksum ver s = Ok data ->
  bytes_ok data /\ s = to_base58_string sha_checksum ver data.
Proof. exact (C53_canonical sha_checksum sha_checksum_len sha_checksum_bytes). Qed.
(** Of the kinds of hash texts of the project none can crash the reader. *)
Theorem C53_sha_no_crash : forall nm ver s, In (nm, ver) hash_kinds -> from_base58 sha_checksum ver s <> Panic.
Proof.
  intros nm ver s I H. apply (C53_panics_iff sha_checksum sha_checksum_len sha_checksum_bytes) in H. destruct H as (_ & H).
  rewrite sha_checksum_empty in H. cbn [nth] in H. subst ver. cbn in I.
  repeat (destruct I as [E|I]; [injection E as _ E; vm_compute in E; discriminate|]). exact I.
Qed.
(** A text of the version that the checksum of nothing begins with does. *)
Example C53_sha_crash : from_base58 sha_checksum 0x5d (str_bytes "3QJmnh") = Panic.
Proof. vm_compute. reflexivity. Qed.
(** Texts of the project: the genesis state hash (base/src/protocol_state.rs
    227), an empty ledger hash (blockchain_state_registers.rs 86) and an
    address (consensus/src/genesis/genesis_impl.rs 164). *)
Example C53_sha_case : from_base58 sha_checksum STATE_HASH (str_bytes "3NLUmnTBMCeExeWErijZ2GeLnjLtBgsDjN3qM8M8gcJDtk8k89xf") =
  Ok [1; 190; 117; 143; 59; 188; 82; 193; 122; 243; 231; 140; 96; 23; 80; 98; 12; 149; 101; 129; 171; 32; 140; 250; 173; 180;
      213; 162; 79; 72; 113; 65; 45].
Proof. vm_compute. reflexivity. Qed.
Example C53_sha_case_ledger :
  from_base58 sha_checksum LEDGER_HASH (str_bytes "jw6bz2wud1N6itRUHZ5ypo3267stk4UgzkiuWtAMPRZo9g4Udyd") = Ok (1 :: repeat 0 32).
Proof. vm_compute. reflexivity. Qed.
Example C53_address_case : exists x, from_address sha_checksum (str_bytes "B62qiy32p8kAKnny8ZFwoMhYpBppM1DWVCqAPBYNcXnsAHhnfAAuXgg") = Some (x, false) /\
  firstn 3 x = [15; 72; 198].
Proof. eexists. split; vm_compute; reflexivity. Qed.

Print Assumptions C53_address_round_trip.
Print Assumptions C53_address_canonical.
Print Assumptions C53_sha_round_trip.
Print Assumptions C53_sha_canonical.
Print Assumptions C53_sha_no_crash.
