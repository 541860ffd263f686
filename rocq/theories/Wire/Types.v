(** The wire types of protocol/serialization-types/src, as type descriptors of
    the codec model.  A Rust struct or tuple struct is a [TTup] of its fields in
    declaration order, a newtype struct is its content, [Vec] is [TSeq],
    [Option] is [TOpt], [Box] is transparent, an enum is a [TEnum] of the
    payloads of its variants, and an enum renamed to "Polyvar" is a [TPoly] with
    the variant names.  File names are relative to that directory. *)
From Coq Require Import ZArith List String.
From Verif Require Import BinProt.Prim BinProt.Codec.
Import ListNotations.
Open Scope Z_scope.
Open Scope string_scope.

(** protocol/versioned/src/lib.rs:20-26: struct of [version: u16] and [t: T] *)
Definition V (t : ty) : ty := TTup [TInt U16; t].
Definition V2 (t : ty) : ty := V (V t).
Definition V3 (t : ty) : ty := V (V (V t)).
Definition V4 (t : ty) : ty := V (V (V (V t))).
(** serde's fixed-size arrays are tuples *)
Definition Bytes32 : ty := TTup (List.repeat TU8 32).

(** common.rs:15 *)
Definition HashV1 := V Bytes32.
(** common.rs:18 *)
Definition Hash2V1 := V HashV1.
(** common.rs:21 *)
Definition TokenIdV1 := V3 TU64.
(** common.rs:25 *)
Definition BlockTimeV1 := V2 TU64.
(** common.rs:28 *)
Definition AccountNonceV1 := V2 (TInt U32).
(** common.rs:137 *)
Definition LengthV1 := V2 (TInt U32).
(** common.rs:141 *)
Definition DeltaV1 := V2 (TInt U32).
(** common.rs:144 *)
Definition GlobalSlotNumberV1 := V2 (TInt U32).
(** common.rs:147 *)
Definition AmountV1 := V2 TU64.
(** common.rs:155 *)
Definition ExtendedU32 := V2 (TInt I32).
(** common.rs:169 *)
Definition ExtendedU64 := V TU64.
(** common.rs:172 *)
Definition ExtendedU64_2 := V ExtendedU64.
(** common.rs:175 *)
Definition ExtendedU64_3 := V ExtendedU64_2.
(** common.rs:178 *)
Definition Hex64V1 := V (TInt I64).
(** common.rs:182 *)
Definition CharV1 := V TU8.
(** common.rs:210 *)
Definition BigInt256 := Bytes32.
(** common.rs:214, 245 *)
Definition ByteVecV1 := V (TSeq TU8).

(** field_and_curve_elements.rs:15 *)
Definition FieldElement := BigInt256.
(** field_and_curve_elements.rs:18 *)
Definition InnerCurveScalar := BigInt256.
(** field_and_curve_elements.rs:22-25 *)
Definition FieldElementVecV1 := V (TSeq FieldElement).
(** field_and_curve_elements.rs:35 *)
Definition FiniteECPoint := TTup [FieldElement; FieldElement].
(** field_and_curve_elements.rs:44-47 *)
Definition FiniteECPointVecV1 := V (TSeq FiniteECPoint).
(** field_and_curve_elements.rs:56 *)
Definition FiniteECPointPair := TTup [FiniteECPoint; FiniteECPoint].
(** field_and_curve_elements.rs:65-68 *)
Definition FiniteECPointPairVecV1 := V (TSeq FiniteECPointPair).
(** field_and_curve_elements.rs:78-88 *)
Definition ECPointV1 := V (TEnum [[]; [FiniteECPoint]]).
(** field_and_curve_elements.rs:118-121 *)
Definition ECPointVecV1 := V (TSeq ECPointV1).

(** signatures.rs:17-22 *)
Definition CompressedCurvePoint := TTup [FieldElement; TBool].
(** signatures.rs:65 *)
Definition PublicKeyV1 := V2 CompressedCurvePoint.
(** signatures.rs:69 *)
Definition PublicKey2V1 := V PublicKeyV1.
(** signatures.rs:73 *)
Definition SignatureV1 := V2 (TTup [FieldElement; InnerCurveScalar]).

(** bulletproof_challenges.rs:177-179 *)
Definition ScalarChallengeVector2V1 := V (TTup [Hex64V1; Hex64V1; TUnit]).
(** bulletproof_challenges.rs:152-156 *)
Definition BulletproofPreChallengeV1 := V (TEnum [[ScalarChallengeVector2V1]]).
(** bulletproof_challenges.rs:14-18 *)
Definition BulletproofChallengeV1 := V (TTup [BulletproofPreChallengeV1]).
(** bulletproof_challenges.rs:54-76 *)
Definition BulletproofChallengeTuple17V1 :=
  V3 (TTup (List.repeat BulletproofChallengeV1 17 ++ [TUnit])).
(** bulletproof_challenges.rs:103-125 *)
Definition BulletproofChallengeTuple18V1 :=
  V2 (TTup (List.repeat BulletproofChallengeV1 18 ++ [TUnit])).
(** bulletproof_challenges.rs:27-29 *)
Definition BulletproofChallengesV1 := V (TSeq BulletproofChallengeTuple18V1).
(** bulletproof_challenges.rs:36-42 *)
Definition ProofStateBulletproofChallengesV1 :=
  V (TTup [BulletproofChallengeTuple17V1; BulletproofChallengeTuple17V1; TUnit]).

(** opening_proof.rs:18-26 *)
Definition OpeningProofV1 :=
  V (TTup [FiniteECPointPairVecV1; FieldElement; FieldElement; FiniteECPoint; FiniteECPoint]).
(** proof_evaluations.rs:14-25 *)
Definition ProofEvaluationsV1 := V (TTup (List.repeat FieldElementVecV1 8)).
(** proof_messages.rs:35-38 *)
Definition ProofMessageWithoutDegreeBoundListV1 := V2 (TSeq FiniteECPoint).
(** proof_messages.rs:45-50 *)
Definition ProofMessageWithDegreeBoundV1 := V (TTup [ECPointVecV1; ECPointV1]).
(** proof_messages.rs:14-22 *)
Definition ProofMessagesV1 :=
  V (TTup (List.repeat ProofMessageWithoutDegreeBoundListV1 4 ++ [ProofMessageWithDegreeBoundV1])).

(** protocol_state_proof.rs:143-147 *)
Definition ShiftedValueV1 := V (TEnum [[BigInt256]]).
(** protocol_state_proof.rs:124-131 *)
Definition PlonkV1 :=
  V (TTup [BulletproofPreChallengeV1; ScalarChallengeVector2V1; ScalarChallengeVector2V1; BulletproofPreChallengeV1]).
(** protocol_state_proof.rs:101-110 *)
Definition ProofStateDeferredValuesV1 :=
  V (TTup [PlonkV1; ShiftedValueV1; ShiftedValueV1; BulletproofPreChallengeV1;
           BulletproofChallengeTuple18V1; CharV1]).
(** protocol_state_proof.rs:164-173 *)
Definition SpongeDigestBeforeEvaluationsV1 := V2 (TTup (List.repeat Hex64V1 4 ++ [TUnit])).
(** protocol_state_proof.rs:186-191 *)
Definition ProofStatePairingBasedV1 := V (TTup [FiniteECPoint; ProofStateBulletproofChallengesV1]).
(** protocol_state_proof.rs:201-207 *)
Definition PairingBasedV1 := V (TTup [TUnit; FiniteECPointVecV1; BulletproofChallengesV1]).
(** protocol_state_proof.rs:84-90 *)
Definition ProofStateV1 :=
  V (TTup [ProofStateDeferredValuesV1; SpongeDigestBeforeEvaluationsV1; ProofStatePairingBasedV1]).
(** protocol_state_proof.rs:69-74 *)
Definition ProofStatementV1 := V2 (TTup [ProofStateV1; PairingBasedV1]).
(** protocol_state_proof.rs:218-220 *)
Definition PrevEvalsV1 := V (TTup [ProofEvaluationsV1; ProofEvaluationsV1]).
(** protocol_state_proof.rs:227-229 *)
Definition PrevXHatV1 := V FiniteECPoint.
(** protocol_state_proof.rs:251 *)
Definition ProofOpeningsEvals := TTup [ProofEvaluationsV1; ProofEvaluationsV1].
(** protocol_state_proof.rs:258-263 *)
Definition ProofOpeningsV1 := V (TTup [OpeningProofV1; ProofOpeningsEvals]).
(** protocol_state_proof.rs:236-241 *)
Definition ProofV1 := V2 (TTup [ProofMessagesV1; ProofOpeningsV1]).
(** protocol_state_proof.rs:16-25 *)
Definition ProtocolStateProofV1 := V4 (TTup [ProofStatementV1; PrevEvalsV1; PrevXHatV1; ProofV1]).

(** blockchain_state.rs:67-74 *)
Definition NonSnarkStagedLedgerHashV1 := V (TTup [HashV1; ByteVecV1; ByteVecV1]).
(** blockchain_state.rs:49-55 *)
Definition StagedLedgerHashV1 := V2 (TTup [NonSnarkStagedLedgerHashV1; Hash2V1]).
(** blockchain_state.rs:15-29 *)
Definition BlockchainStateV1 := V2 (TTup [StagedLedgerHashV1; HashV1; HashV1; TokenIdV1; BlockTimeV1]).
(** consensus_state.rs:20-23 *)
Definition VrfOutputTruncatedV1 := V (TSeq TU8).
(** global_slot.rs:17-25 *)
Definition GlobalSlotV1 := V2 (TTup [GlobalSlotNumberV1; LengthV1]).
(** epoch_data.rs:18-26 *)
Definition EpochLedgerV1 := V2 (TTup [HashV1; AmountV1]).
(** epoch_data.rs:40-54 *)
Definition EpochDataV1 := V2 (TTup [EpochLedgerV1; HashV1; HashV1; HashV1; LengthV1]).
(** consensus_state.rs:97-131 *)
Definition ConsensusStateV1 :=
  V2 (TTup [LengthV1; LengthV1; LengthV1; TSeq LengthV1; VrfOutputTruncatedV1; AmountV1;
            GlobalSlotV1; GlobalSlotNumberV1; EpochDataV1; EpochDataV1; TBool;
            PublicKeyV1; PublicKeyV1; PublicKeyV1; TBool]).
(** protocol_constants.rs:18-32 *)
Definition ProtocolConstantsV1 := V2 (TTup [LengthV1; LengthV1; LengthV1; LengthV1; BlockTimeV1]).
(** protocol_state_body.rs:13-25 *)
Definition ProtocolStateBodyV1 := V2 (TTup [HashV1; BlockchainStateV1; ConsensusStateV1; ProtocolConstantsV1]).
(** protocol_state.rs:13-21 *)
Definition ProtocolStateV1 := V2 (TTup [HashV1; ProtocolStateBodyV1]).
(** protocol_version.rs:12-25 *)
Definition ProtocolVersionV1 := V (TTup [TInt U32; TInt U32; TInt U32]).
(** delta_transition_chain_proof.rs:12 *)
Definition DeltaTransitionChainProof := TTup [HashV1; TSeq HashV1].

(** snark_work.rs:199-205 *)
Definition SgnTypeV1 := V (TEnum [[]; []]).
(** snark_work.rs:182-188 *)
Definition SignedV1 := V (TTup [AmountV1; SgnTypeV1]).
(** snark_work.rs:160-163 *)
Definition FeeExcess := TTup [TokenIdV1; SignedV1].
(** snark_work.rs:173-175 *)
Definition FeeExcessPairV1 := V2 (TTup [FeeExcess; FeeExcess]).
(** snark_work.rs:143-149 *)
Definition StateStackV1 := V2 (TTup [HashV1; HashV1]).
(** snark_work.rs:125-131 *)
Definition PendingCoinbaseV1 := V2 (TTup [HashV1; StateStackV1]).
(** snark_work.rs:108-114 *)
Definition PendingCoinbaseStackStateV1 := V2 (TTup [PendingCoinbaseV1; PendingCoinbaseV1]).
(** snark_work.rs:79-91 *)
Definition StatementV1 :=
  V2 (TTup [HashV1; HashV1; AmountV1; PendingCoinbaseStackStateV1; FeeExcessPairV1;
            TokenIdV1; TokenIdV1; ByteVecV1]).
(** snark_work.rs:62-67 *)
Definition TransactionSnarkV1 := V (TTup [StatementV1; ProtocolStateProofV1]).
(** snark_work.rs:59 *)
Definition LedgerProofV1 := V TransactionSnarkV1.
(** snark_work.rs:31-41 *)
Definition OneORTwoV1 :=
  V (TPoly [("One", [LedgerProofV1]); ("Two", [LedgerProofV1; LedgerProofV1])]).
(** snark_work.rs:13-20 *)
Definition TransactionSnarkWorkV1 := V (TTup [AmountV1; OneORTwoV1; PublicKeyV1]).

(** staged_ledger_diff.rs:237 *)
Definition SignedCommandFeeTokenV1 := V3 TU64.
(** staged_ledger_diff.rs:240-242 *)
Definition SignedCommandMemoV1 := V (TSeq TU8).
(** staged_ledger_diff.rs:133-143 *)
Definition SignedCommandPayloadCommonV1 :=
  V3 (TTup [AmountV1; SignedCommandFeeTokenV1; PublicKeyV1; ExtendedU32; ExtendedU32; SignedCommandMemoV1]).
(** staged_ledger_diff.rs:188-195 *)
Definition PaymentPayloadV1 := V2 (TTup [PublicKeyV1; PublicKeyV1; ExtendedU64_3; AmountV1]).
(** staged_ledger_diff.rs:207-214 *)
Definition StakeDelegationV1 := V (TEnum [[PublicKeyV1; PublicKeyV1]]).
(** staged_ledger_diff.rs:157-163 *)
Definition SignedCommandPayloadBodyV1 := V2 (TEnum [[PaymentPayloadV1]; [StakeDelegationV1]]).
(** staged_ledger_diff.rs:118-123 *)
Definition SignedCommandPayloadV1 := V2 (TTup [SignedCommandPayloadCommonV1; SignedCommandPayloadBodyV1]).
(** staged_ledger_diff.rs:101-107 *)
Definition SignedCommandV1 := V2 (TTup [SignedCommandPayloadV1; PublicKey2V1; SignatureV1]).
(** staged_ledger_diff.rs:78-83 *)
Definition UserCommandV1 := V2 (TEnum [[SignedCommandV1]]).
(** staged_ledger_diff.rs:321-327 *)
Definition TransactionStatusAuxiliaryDataV1 := V (TTup [TOpt AmountV1; TOpt AmountV1; TOpt ExtendedU64_3]).
(** staged_ledger_diff.rs:443-449 *)
Definition TransactionStatusBalanceDataV1 :=
  V (TTup [TOpt ExtendedU64_3; TOpt ExtendedU64_3; TOpt ExtendedU64_3]).
(** staged_ledger_diff.rs:338-370, fifteen constant variants *)
Definition TransactionStatusFailedTypeV1 := V (TEnum (List.repeat [] 15)).
(** staged_ledger_diff.rs:279-290 *)
Definition TransactionStatusV1 :=
  V (TEnum [[TransactionStatusAuxiliaryDataV1; TransactionStatusBalanceDataV1];
            [TSeq TransactionStatusFailedTypeV1; TransactionStatusBalanceDataV1]]).
(** staged_ledger_diff.rs:63-68 *)
Definition UserCommandWithStatusV1 := V (TTup [UserCommandV1; TransactionStatusV1]).
(** staged_ledger_diff.rs:496-501 *)
Definition CoinBaseFeeTransferV1 := V2 (TTup [PublicKeyV1; ExtendedU64_2]).
(** staged_ledger_diff.rs:460-467 *)
Definition CoinBaseV1 :=
  V (TEnum [[]; [TOpt CoinBaseFeeTransferV1]; [TOpt CoinBaseFeeTransferV1; TOpt CoinBaseFeeTransferV1]]).
(** staged_ledger_diff.rs:540-546 *)
Definition CoinBaseBalanceDataV1 := V (TTup [ExtendedU64_3; TOpt ExtendedU64_3]).
(** staged_ledger_diff.rs:556-562 *)
Definition FeeTransferBalanceDataV1 := V (TTup [ExtendedU64_3; TOpt ExtendedU64_3]).
(** staged_ledger_diff.rs:511-516 *)
Definition InternalCommandBalanceDataV1 := V (TEnum [[CoinBaseBalanceDataV1]; [FeeTransferBalanceDataV1]]).
(** staged_ledger_diff.rs:44-51 *)
Definition StagedLedgerPreDiffV1 :=
  V2 (TTup [TSeq TransactionSnarkWorkV1; TSeq UserCommandWithStatusV1; CoinBaseV1;
            TSeq InternalCommandBalanceDataV1]).
(** staged_ledger_diff.rs:32-34 *)
Definition StagedLedgerDiffTupleV1 := V (TTup [StagedLedgerPreDiffV1; TOpt StagedLedgerPreDiffV1]).
(** staged_ledger_diff.rs:17-22 *)
Definition StagedLedgerDiffV1 := V (TTup [StagedLedgerDiffTupleV1]).

(** external_transition.rs:24-44 *)
Definition ExternalTransitionV1 :=
  V (TTup [ProtocolStateV1; ProtocolStateProofV1; StagedLedgerDiffV1; DeltaTransitionChainProof;
           ProtocolVersionV1; TOpt ProtocolVersionV1; TUnit]).

(** account.rs:80-91 *)
Definition TokenPermissions := TEnum [[TBool]; [TBool]].
(** account.rs:94 *)
Definition TokenPermissionsV1 := V2 TokenPermissions.
(** account.rs:147-161 *)
Definition AuthRequired := TEnum (List.repeat [] 6).
(** account.rs:164 *)
Definition AuthRequiredV1 := V AuthRequired.
(** account.rs:98-113, 143 *)
Definition PermissionsV1 := V2 (TTup (TBool :: List.repeat AuthRequiredV1 6)).
(** account.rs:117-140 *)
Definition Permissions := TTup (List.repeat AuthRequired 11).
(** account.rs:188-199, 218 *)
Definition TimedDataV1 := V (TTup [AmountV1; BlockTimeV1; AmountV1; AmountV1; BlockTimeV1]).
(** account.rs:203-214 *)
Definition TimedDataV0 := TTup [TU64; TU64; TU64; TU64; TU64].
(** account.rs:169-174, 221 *)
Definition TimingV1 := V2 (TEnum [[]; [TimedDataV1]]).
(** account.rs:178-183 *)
Definition TimingV0 := TEnum [[]; [TimedDataV0]].
(** account.rs:17-44 *)
Definition AccountV1 :=
  V3 (TTup [PublicKey2V1; TokenIdV1; TokenPermissionsV1; AmountV1; AccountNonceV1; HashV1;
            TOpt PublicKeyV1; HashV1; TimingV1; PermissionsV1; TOpt TUnit]).
(** account.rs:48-76 *)
Definition AccountV0 :=
  TTup [CompressedCurvePoint; TU64; TokenPermissions; Bytes32; TU64; TInt U32; Bytes32;
        TOpt CompressedCurvePoint; Bytes32; TimingV0; Permissions; TOpt TUnit; TOpt TUnit].
