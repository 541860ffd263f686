(** Property C97: accounts and their wire values. *)

From Coq Require Import String ZArith List Bool Lia ZifyBool ZifyNat.
From Verif Require Import Lib.Res Lib.Bytes BinProt.Codec BinProt.CodecSpec Wire.Types Text.FieldText
  Hashing.ROInput Hashing.Command Hashing.Account Hashing.AccountProps
  Ledger.AccountWire Ledger.AccountWireSpec Ledger.AccountWireFacts.
Import ListNotations.
Local Open Scope list_scope.
Local Open Scope Z_scope.

(** Converting a wire value gives the account it describes... *)
Theorem C97_read_iff : forall v a, rust_val AccountV0 v -> account_of v = Ok a <-> wire_account v a.
Proof.
  intros v a T. destruct fine_account as (F1 & _ & F3 & _). split; [|apply F1]. intros E.
  destruct (F3 v T) as [(b & B)|(_ & P)]; [|congruence]. rewrite (F1 _ _ B) in E. injection E as <-. exact B.
Qed.
(** ... except that it crashes on exactly the values with a public key or a
    delegate that is no field element (the code says that this cannot happen:
    signatures.rs 118). *)
Theorem C97_crashes_iff : forall v, rust_val AccountV0 v -> account_of v = Panic <-> big_account v.
Proof.
  intros v T. destruct fine_account as (F1 & _ & F3 & F4). destruct (F3 v T) as [(b & B)|(G & P)].
  - rewrite (F1 _ _ B). split; [discriminate|]. intros G. destruct (F4 _ _ B G).
  - tauto.
Qed.
(** An account of the program converted to its wire value and back is the same
    account, and the value describes it. *)
Theorem C97_written : forall a, account_ok a -> key_ok (public_key a) -> option_ok key_ok (delegate a) ->
  rust_val AccountV0 (account_to a) /\ wire_account (account_to a) a /\ account_of (account_to a) = Ok a.
Proof.
  intros a (T & B & N & (S & S') & (R & R') & (V & V') & M) K D.
  assert (W : wire_account (account_to a) a).
  { unfold account_to. do 13 eexists. split; [reflexivity|]. split; [apply w_key_ex, K|]. split; [split; [reflexivity|exact T]|].
    split; [apply w_tp_ex|]. split; [apply w_bytes_ex; assumption|]. split; [split; [reflexivity|exact B]|]. split; [split; [reflexivity|exact N]|].
    split; [apply w_bytes_ex; assumption|]. split; [apply (w_option_ex _ _ _ key_ok); [apply w_key_ex|exact D]|].
    split; [apply w_bytes_ex; assumption|]. split.
    { destruct (a_timing a) as [|d]; [reflexivity|]. destruct M as (M1 & M2 & M3 & M4 & M5). do 5 eexists. split; [reflexivity|].
      repeat split; try apply M1; try apply M2; try apply M3; try apply M4; try apply M5. }
    split; [apply w_permissions_ex|]. split; apply w_unit_ex. }
  destruct fine_account as (F1 & F2 & _). split; [exact (F2 _ _ W)|]. split; [exact W|exact (F1 _ _ W)].
Qed.
(** A wire value that is converted without a crash, and back, is the same. *)
Theorem C97_wire_round_trip : forall v a, rust_val AccountV0 v -> account_of v = Ok a -> account_to a = v.
Proof. intros v a T E. apply account_to_w. apply C97_read_iff; assumption. Qed.
(** Different accounts have different values, and a value describes one. *)
Theorem C97_unique : forall v w a b, wire_account v a -> wire_account w b -> (v = w <-> a = b).
Proof.
  intros v w a b A B. split; intros ->.
  - destruct fine_account as (F1 & _). apply F1 in A, B. congruence.
  - apply account_to_w in A, B. congruence.
Qed.

(** The older accounts: the same, but for the version numbers, which are not
    kept. *)
Theorem C97_legacy_read_iff : forall v a, rust_val AccountV1 v -> legacy_of v = Ok a <-> wire_legacy v a.
Proof.
  intros v a T. destruct fine_legacy as (F1 & _ & F3 & _). split; [|apply F1]. intros E.
  destruct (F3 v T) as [(b & B)|(_ & P)]; [|congruence]. rewrite (F1 _ _ B) in E. injection E as <-. exact B.
Qed.
Theorem C97_legacy_crashes_iff : forall v, rust_val AccountV1 v -> legacy_of v = Panic <-> big_legacy v.
Proof.
  intros v T. destruct fine_legacy as (F1 & _ & F3 & F4). destruct (F3 v T) as [(b & B)|(G & P)].
  - rewrite (F1 _ _ B). split; [discriminate|]. intros G. destruct (F4 _ _ B G).
  - tauto.
Qed.
Definition legacy_ok (l : legacy) : Prop :=
  let a := l_account l in
  key_ok (al_public_key a) /\ u64 (al_token_id a) /\ u64 (al_balance a) /\ u32 (al_nonce a) /\ bytes32 (al_receipt_chain_hash a) /\
  option_ok key_ok (al_delegate a) /\ bytes32 (al_voting_for a) /\ timing_ok (al_timing a).
Theorem C97_legacy_written : forall l, legacy_ok l ->
  rust_val AccountV1 (legacy_to l) /\ wire_legacy (legacy_to l) l /\ legacy_of (legacy_to l) = Ok l.
Proof.
  intros l (K & T & B & N & (R & R') & D & (V & V') & M).
  assert (W : wire_legacy (legacy_to l) l).
  { unfold wire_legacy, legacy_to, ver3. do 3 apply w_ver_ex. do 11 eexists. split; [reflexivity|].
    split; [do 3 apply w_ver_ex; apply w_key_ex, K|]. split; [do 3 apply w_ver_ex; split; [reflexivity|exact T]|].
    split; [do 2 apply w_ver_ex; apply w_tp_ex|]. split; [do 2 apply w_ver_ex; split; [reflexivity|exact B]|].
    split; [do 2 apply w_ver_ex; split; [reflexivity|exact N]|]. split; [apply w_ver_ex, w_bytes_ex; assumption|].
    split; [apply (w_option_ex _ _ _ key_ok); [intros k Q; do 2 apply w_ver_ex; apply w_key_ex, Q|exact D]|].
    split; [apply w_ver_ex, w_bytes_ex; assumption|]. split.
    { do 2 apply w_ver_ex. destruct (al_timing (l_account l)) as [|d]; [reflexivity|]. destruct M as (M1 & M2 & M3 & M4 & M5).
      eexists. split; [reflexivity|]. apply w_ver_ex. do 5 eexists. split; [reflexivity|].
      repeat split; (do 2 apply w_ver_ex); (split; [reflexivity|assumption]). }
    split; [|apply w_unit_ex]. do 2 apply w_ver_ex. unfold legacy_permissions_to. cbn [map]. do 6 eexists. split; [reflexivity|].
    repeat split; apply w_ver_ex; reflexivity. }
  destruct fine_legacy as (F1 & F2 & _). split; [exact (F2 _ _ W)|]. split; [exact W|exact (F1 _ _ W)].
Qed.

(** Cases: an account with everything in it, and one that crashes. *)
Definition sample : account :=
  mk_account (mk_pk 5 true) 1 1000 (TokenOwned true) (repeat 65 32) 7 (repeat 3 32) (Some (mk_pk 9 false)) (repeat 4 32)
    (Timed (mk_timed 1 2 3 4 5)) (mk_perms ANone AEither AProof ASignature ABoth AImpossible ANone AEither AProof ASignature ABoth) (Some tt) None.
Lemma bytes32_repeat : forall b, 0 <= b < 256 -> bytes32 (repeat b 32).
Proof. intros b H. split; [reflexivity|]. apply Forall_forall. intros x I. apply repeat_spec in I. subst x. exact H. Qed.
Lemma sample_ok : account_ok sample /\ key_ok (public_key sample) /\ option_ok key_ok (delegate sample).
Proof.
  assert (P : 9 < FP_MODULUS) by reflexivity. unfold account_ok, key_ok, timing_ok, timed_ok, u64, u32, sample.
  cbn [public_key token_id balance a_nonce token_symbol receipt_chain_hash voting_for a_timing delegate option_ok pk_x
    initial_minimum_balance cliff_time cliff_amount vesting_period vesting_increment].
  repeat match goal with |- _ /\ _ => split end; try lia; apply bytes32_repeat; lia.
Qed.
Example C97_ex : wire_account (account_to sample) sample /\ account_of (account_to sample) = Ok sample.
Proof. destruct sample_ok as (A & K & D). apply (C97_written sample A K D). Qed.
Definition big_sample : val :=
  match account_to sample with VTup (_ :: l) => VTup (VTup [bytes_to (repeat 255 32); VBool true] :: l) | v => v end.
Theorem C97_refuted : rust_val AccountV0 big_sample /\ account_of big_sample = Panic.
Proof.
  assert (R : rust_val AccountV0 big_sample).
  { destruct sample_ok as (A & K & D). destruct (C97_written sample A K D) as ((_ & X) & _). split; [exact I|]. destruct X as (_ & X).
    split; [|exact X]. split; [exact I|]. split; [apply bytes32_iff; eexists; apply w_bytes_ex; apply bytes32_repeat; lia|].
    split; [split; exact I|exact I]. }
  split; [exact R|]. apply C97_crashes_iff; [exact R|]. eexists. split; [reflexivity|]. left. eexists. split; [reflexivity|].
  do 3 eexists. split; [reflexivity|]. split; [apply w_bytes_ex; apply bytes32_repeat; lia|]. vm_compute. discriminate.
Qed.
Example C97_legacy_ex : exists l, legacy_ok l /\ al_balance (l_account l) = 1000 /\ al_delegate (l_account l) = Some (mk_pk 9 false).
Proof.
  exists (mk_legacy (mk_account_legacy (mk_pk 5 true) 1 (NotOwned false) 1000 7 (repeat 3 32) (Some (mk_pk 9 false)) (repeat 4 32) (Timed (mk_timed 1 2 3 4 5)))
    (mk_perms_legacy true ANone AEither AProof ASignature ABoth AImpossible) None).
  split; [|split; reflexivity].
  assert (P : 9 < FP_MODULUS) by reflexivity. unfold legacy_ok, key_ok, timing_ok, timed_ok, u64, u32.
  cbn [l_account al_public_key al_token_id al_balance al_nonce al_receipt_chain_hash al_voting_for al_timing al_delegate option_ok pk_x
    initial_minimum_balance cliff_time cliff_amount vesting_period vesting_increment].
  repeat match goal with |- _ /\ _ => split end; try lia; apply bytes32_repeat; lia.
Qed.

Print Assumptions C97_read_iff.
Print Assumptions C97_crashes_iff.
Print Assumptions C97_written.
Print Assumptions C97_wire_round_trip.
Print Assumptions C97_unique.
Print Assumptions C97_legacy_read_iff.
Print Assumptions C97_legacy_crashes_iff.
Print Assumptions C97_legacy_written.
Print Assumptions C97_refuted.
