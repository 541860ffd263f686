(** The JSON types of /repo/protocol/serialization-types/src beside their wire
    types.  File names are relative to that directory; the lines are those of
    the JSON type. *)

From Coq Require Import String ZArith List Bool.
From Verif Require Import BinProt.Prim BinProt.Codec Wire.Types Text.Base58 Json.Json.
Import ListNotations.
Local Open Scope string_scope.
Local Open Scope Z_scope.

Fixpoint fl (l : list (string * dty)) : flds :=
  match l with
  | [] => FNil
  | (nm, d) :: l' => FCons nm None d (fl l')
  end.
Fixpoint unnamed (l : list dty) (last : flds) : flds :=
  match l with
  | [] => last
  | d :: l' => FCons "" None d (unnamed l' last)
  end.
(** a tuple struct, and one with a skipped [()] at the end *)
Definition tup (l : list dty) : dty := DTup (unnamed l FNil).
Definition tup_unit (l : list dty) : dty := DTup (unnamed l (FCons "" (Some VUnit) DUnit FNil)).
Definition struct (l : list (string * dty)) : dty := DStruct (fl l).
Fixpoint enum_vars (l : list (string * shape * list (string * dty))) : vars :=
  match l with
  | [] => WNil
  | (nm, sh, fs) :: l' => WCons nm sh (fl fs) (enum_vars l')
  end.
Definition D2 (d : dty) := DV (DV d).
Definition D3 (d : dty) := DV (DV (DV d)).
Definition D4 (d : dty) := DV (DV (DV (DV d))).

(** common.rs 399-451 *)
Definition jLedgerHash := DLeaf (LHash LEDGER_HASH).
Definition jCoinBaseHash := DLeaf (LHash COINBASE_HASH).
Definition jEpochSeed := DLeaf (LHash EPOCH_SEED).
Definition jStateHash := DLeaf (LHash STATE_HASH).
Definition jStackData := DLeaf (LHash COINBASE_STACK_DATA).
Definition jStackHash := DLeaf (LHash COINBASE_STACK_HASH).
(** common.rs 434, 438; the [Versioned] around the bytes is dropped (455-468) *)
Definition jAuxHash := DV (DLeaf (LAux STAGED_LEDGER_HASH_AUX_HASH)).
Definition jPendingAux := DV (DLeaf (LAux STAGED_LEDGER_HASH_PENDING_COINBASE_AUX)).
(** [U32Json], [U64Json], [DecimalJson] for the numbers of common.rs 21-175 *)
Definition jU32 := D2 (DLeaf LU32).
Definition jX32 := D2 (DLeaf LX32).
Definition jU64_2 := D2 (DLeaf LU64).
Definition jU64_3 := D3 (DLeaf LU64).
Definition jDec := D2 (DLeaf LDec).
(** common.rs 86-90 with 178 *)
Definition jHex64 := DV DI64.
(** common.rs 182-204 *)
Definition jChar := DV (DLeaf LChar).
(** common.rs 217-245 *)
Definition jByteVec := DV (DLeaf LBytes).
(** signatures.rs 24-31 with the conversions 188-213 *)
Definition jPub := D2 (DLeaf LPub).
Definition jPub2 := D3 (DLeaf LPub).
(** signatures.rs 77-79 with the conversions 281-290: one wrapper is dropped *)
Definition jSig := DV (DLeaf LSig).

(** field_and_curve_elements.rs 125-127 *)
Definition jField := DLeaf LField.
(** 27-30 *)
Definition jFieldVec := DV (DVec jField).
(** 37-40 *)
Definition jPoint := tup [jField; jField].
(** 49-52 *)
Definition jPointVec := DV (DVec jPoint).
(** 58-61 *)
Definition jPointPair := tup [jPoint; jPoint].
(** 70-73 *)
Definition jPointPairVec := DV (DVec jPointPair).
(** 90-114 *)
Definition jECPoint := DV (DEnum (Listed false) false
  (enum_vars [("Infinite", SUnit, []); ("Finite", SNew, [("", jPoint)])])).
(** 122-125 *)
Definition jECPointVec := DV (DVec jECPoint).

(** bulletproof_challenges.rs 181-183 *)
Definition jScalarChallenge := DV (tup_unit [jHex64; jHex64]).
(** 158-175 *)
Definition jPreChallenge := DV (DEnum (Listed false) false
  (enum_vars [("Scalar_challenge", SNew, [("", jScalarChallenge)])])).
(** 20-24 *)
Definition jChallenge := DV (struct [("prechallenge", jPreChallenge)]).
(** 78-100 *)
Definition jChallenge17 := D3 (tup_unit (List.repeat jChallenge 17)).
(** 127-149 *)
Definition jChallenge18 := D2 (tup_unit (List.repeat jChallenge 18)).
(** 31-33 *)
Definition jChallenges := DV (DVec jChallenge18).
(** 44-50 *)
Definition jOldChallenges := DV (tup_unit [jChallenge17; jChallenge17]).

(** opening_proof.rs 28-36 *)
Definition jOpeningProof := DV (struct
  [("lr", jPointPairVec); ("z_1", jField); ("z_2", jField); ("delta", jPoint); ("sg", jPoint)]).
(** proof_evaluations.rs 27-38 *)
Definition jProofEvaluations := DV (struct
  [("l", jFieldVec); ("r", jFieldVec); ("o", jFieldVec); ("z", jFieldVec); ("t", jFieldVec); ("f", jFieldVec);
   ("sigma1", jFieldVec); ("sigma2", jFieldVec)]).
(** proof_messages.rs 40-42 *)
Definition jMessageList := D2 (DVec jPoint).
(** proof_messages.rs 52-57 *)
Definition jMessageBound := DV (struct [("unshifted", jECPointVec); ("shifted", jECPoint)]).
(** proof_messages.rs 24-32 *)
Definition jProofMessages := DV (struct
  [("l_comm", jMessageList); ("r_comm", jMessageList); ("o_comm", jMessageList); ("z_comm", jMessageList);
   ("t_comm", jMessageBound)]).

(** protocol_state_proof.rs 149-161 *)
Definition jShifted := DV (DEnum (Listed true) false (enum_vars [("Shifted_value", SNew, [("", jField)])])).
(** 133-140 *)
Definition jPlonk := DV (struct
  [("alpha", jPreChallenge); ("beta", jScalarChallenge); ("gamma", jScalarChallenge); ("zeta", jPreChallenge)]).
(** 112-121 *)
Definition jDeferred := DV (struct
  [("plonk", jPlonk); ("combined_inner_product", jShifted); ("b", jShifted); ("xi", jPreChallenge);
   ("bulletproof_challenges", jChallenge18); ("which_branch", jChar)]).
(** 175-183 *)
Definition jSponge := D2 (tup_unit [jHex64; jHex64; jHex64; jHex64]).
(** 193-198 *)
Definition jMeOnly := DV (struct [("sg", jPoint); ("old_bulletproof_challenges", jOldChallenges)]).
(** 209-215; [app_state] is not skipped *)
Definition jPairing := DV (struct
  [("app_state", DUnit); ("sg", jPointVec); ("old_bulletproof_challenges", jChallenges)]).
(** 92-98 *)
Definition jProofState := DV (struct
  [("deferred_values", jDeferred); ("sponge_digest_before_evaluations", jSponge); ("me_only", jMeOnly)]).
(** 76-81 *)
Definition jProofStatement := D2 (struct [("proof_state", jProofState); ("pass_through", jPairing)]).
(** 222-224 *)
Definition jPrevEvals := DV (tup [jProofEvaluations; jProofEvaluations]).
(** 231-233, a newtype struct *)
Definition jPrevXHat := DV jPoint.
(** 254-256 *)
Definition jOpeningsEvals := tup [jProofEvaluations; jProofEvaluations].
(** 265-270 *)
Definition jOpenings := DV (struct [("proof", jOpeningProof); ("evals", jOpeningsEvals)]).
(** 243-248 *)
Definition jProof := D2 (struct [("messages", jProofMessages); ("openings", jOpenings)]).
(** 27-35 *)
Definition jProtocolStateProof := D4 (struct
  [("statement", jProofStatement); ("prev_evals", jPrevEvals); ("prev_x_hat", jPrevXHat); ("proof", jProof)]).
(** 37-67 *)
Definition jProtocolStateProof64 := DLeaf LProof64.

(** blockchain_state.rs 76-83 *)
Definition jNonSnark := DV (struct
  [("ledger_hash", jLedgerHash); ("aux_hash", jAuxHash); ("pending_coinbase_aux", jPendingAux)]).
(** 57-63; [Hash2V1] loses one wrapper (common.rs 389-407) *)
Definition jStagedLedgerHash := D2 (struct
  [("non_snark", jNonSnark); ("pending_coinbase_hash", DV jCoinBaseHash)]).
(** 31-45 *)
Definition jBlockchainState := D2 (struct
  [("staged_ledger_hash", jStagedLedgerHash); ("snarked_ledger_hash", jLedgerHash);
   ("genesis_ledger_hash", jLedgerHash); ("snarked_next_available_token", jU64_3); ("timestamp", jU64_2)]).
(** consensus_state.rs 25-51 *)
Definition jVrf := DV (DLeaf LVrf64).
(** global_slot.rs 27-35 *)
Definition jGlobalSlot := D2 (struct [("slot_number", jU32); ("slots_per_epoch", jU32)]).
(** epoch_data.rs 28-36 *)
Definition jEpochLedger := D2 (struct [("hash", jLedgerHash); ("total_currency", jU64_2)]).
(** epoch_data.rs 56-70 *)
Definition jEpochData := D2 (struct
  [("ledger", jEpochLedger); ("seed", jEpochSeed); ("start_checkpoint", jStateHash);
   ("lock_checkpoint", jStateHash); ("epoch_length", jU32)]).
(** consensus_state.rs 133-168 *)
Definition jConsensusState := D2 (struct
  [("blockchain_length", jU32); ("epoch_count", jU32); ("min_window_density", jU32);
   ("sub_window_densities", DVec jU32); ("last_vrf_output", jVrf); ("total_currency", jU64_2);
   ("curr_global_slot", jGlobalSlot); ("global_slot_since_genesis", jU32);
   ("staking_epoch_data", jEpochData); ("next_epoch_data", jEpochData);
   ("has_ancestor_in_same_checkpoint_window", DBool); ("block_stake_winner", jPub); ("block_creator", jPub);
   ("coinbase_receiver", jPub); ("supercharge_coinbase", DBool)]).
(** protocol_constants.rs 34-48 *)
Definition jProtocolConstants := D2 (struct
  [("k", jU32); ("slots_per_epoch", jU32); ("slots_per_sub_window", jU32); ("delta", jU32);
   ("genesis_state_timestamp", jU64_2)]).
(** protocol_state_body.rs 27-39 *)
Definition jProtocolStateBody := D2 (struct
  [("genesis_state_hash", jStateHash); ("blockchain_state", jBlockchainState);
   ("consensus_state", jConsensusState); ("constants", jProtocolConstants)]).
(** protocol_state.rs 23-31 *)
Definition jProtocolState := D2 (struct [("previous_state_hash", jStateHash); ("body", jProtocolStateBody)]).
(** delta_transition_chain_proof.rs 14-17 *)
Definition jDeltaProof := tup [jLedgerHash; DVec jLedgerHash].

(** snark_work.rs 207-221 *)
Definition jSgn := DV (DEnum (Listed true) false (enum_vars [("Pos", SUnit, []); ("Neg", SUnit, [])])).
(** 190-196 *)
Definition jSigned := DV (struct [("magnitude", jDec); ("sgn", jSgn)]).
(** 165-170 *)
Definition jFeeExcess := struct [("token", jU64_3); ("amount", jSigned)].
(** 177-179 *)
Definition jFeeExcessPair := D2 (tup [jFeeExcess; jFeeExcess]).
(** 151-157 *)
Definition jStateStack := D2 (struct [("init", jStackHash); ("curr", jStackHash)]).
(** 133-140 *)
Definition jPendingCoinbase := D2 (struct [("data", jStackData); ("state", jStateStack)]).
(** 116-122 *)
Definition jStackState := D2 (struct [("source", jPendingCoinbase); ("target", jPendingCoinbase)]).
(** 93-105 *)
Definition jStatement := D2 (struct
  [("source", jLedgerHash); ("target", jLedgerHash); ("supply_increase", jU64_2);
   ("pending_coinbase_stack_state", jStackState); ("fee_excess", jFeeExcessPair);
   ("next_available_token_before", jU64_3); ("next_available_token_after", jU64_3); ("sok_digest", jByteVec)]).
(** 69-76 *)
Definition jTransactionSnark := DV (struct [("statement", jStatement); ("proof", jProtocolStateProof)]).
(** 43-57; both wrappers of the ledger proof are dropped *)
Definition jOneOrTwo := DV (DEnum (Listed true) true
  (enum_vars [("One", SNew, [("", DV jTransactionSnark)]);
              ("Two", STup, [("", DV jTransactionSnark); ("", DV jTransactionSnark)])])).
(** 22-29 *)
Definition jSnarkWork := DV (struct [("fee", jDec); ("proofs", jOneOrTwo); ("prover", jPub)]).

(** staged_ledger_diff.rs 244-274 *)
Definition jMemo := DV (DLeaf LMemo).
(** 145-154 *)
Definition jPayloadCommon := D3 (struct
  [("fee", jDec); ("fee_token", jU64_3); ("fee_payer_pk", jPub); ("nonce", jX32); ("valid_until", jX32);
   ("memo", jMemo)]).
(** 197-204 *)
Definition jPayment := D2 (struct
  [("source_pk", jPub); ("receiver_pk", jPub); ("token_id", jU64_3); ("amount", jU64_2)]).
(** 216-235 *)
Definition jStakeDelegation := DV (DEnum (Listed true) false
  (enum_vars [("Set_delegate", SStruct, [("delegator", jPub); ("new_delegate", jPub)])])).
(** 165-185 *)
Definition jPayloadBody := D2 (DEnum (Listed false) false
  (enum_vars [("Payment", SNew, [("", jPayment)]); ("Stake_delegation", SNew, [("", jStakeDelegation)])])).
(** 125-130 *)
Definition jPayload := D2 (struct [("common", jPayloadCommon); ("body", jPayloadBody)]).
(** 109-115 *)
Definition jSignedCommand := D2 (struct [("payload", jPayload); ("signer", jPub2); ("signature", jSig)]).
(** 85-98 *)
Definition jUserCommand := D2 (DEnum (Listed true) false
  (enum_vars [("Signed_command", SNew, [("", jSignedCommand)])])).
(** 329-335 *)
Definition jAuxiliaryData := DV (struct
  [("fee_payer_account_creation_fee_paid", DOpt jU64_2); ("receiver_account_creation_fee_paid", DOpt jU64_2);
   ("created_token", DOpt jU64_3)]).
(** 451-457 *)
Definition jBalanceData := DV (struct
  [("fee_payer_balance", DOpt jU64_3); ("source_balance", DOpt jU64_3); ("receiver_balance", DOpt jU64_3)]).
(** 406-441: a derived enum, externally tagged *)
Definition jFailedType := DV (DEnum External false
  (enum_vars [("Predicate", SUnit, []); ("Source_not_present", SUnit, []); ("Receiver_not_present", SUnit, []);
    ("Amount_insufficient_to_create_account", SUnit, []); ("Cannot_pay_creation_fee_in_token", SUnit, []);
    ("Source_insufficient_balance", SUnit, []); ("Source_minimum_balance_violation", SUnit, []);
    ("Receiver_already_exists", SUnit, []); ("Not_token_owner", SUnit, []);
    ("Mismatched_token_permissions", SUnit, []); ("Overflow", SUnit, []);
    ("Signed_command_on_snapp_account", SUnit, []); ("Snapp_account_not_present", SUnit, []);
    ("Update_not_permitted", SUnit, []); ("Incorrect_nonce", SUnit, [])])).
(** 292-319 *)
Definition jStatus := DV (DEnum (Listed true) false
  (enum_vars [("Applied", STup, [("", jAuxiliaryData); ("", jBalanceData)]);
              ("Failed", STup, [("", DVec jFailedType); ("", jBalanceData)])])).
(** 70-75 *)
Definition jCommandWithStatus := DV (struct [("data", jUserCommand); ("status", jStatus)]).
(** 503-508 *)
Definition jFeeTransfer := D2 (struct [("receiver_pk", jPub); ("fee", jDec)]).
(** 469-493 *)
Definition jCoinBase := DV (DEnum (Listed true) false
  (enum_vars [("Zero", SUnit, []); ("One", SNew, [("", DOpt jFeeTransfer)]);
              ("Two", STup, [("", DOpt jFeeTransfer); ("", DOpt jFeeTransfer)])])).
(** 548-553 *)
Definition jCoinBaseBalance := DV (struct
  [("coinbase_receiver_balance", jU64_3); ("fee_transfer_receiver_balance", DOpt jU64_3)]).
(** 564-569 *)
Definition jFeeTransferBalance := DV (struct
  [("receiver1_balance", jU64_3); ("receiver2_balance", DOpt jU64_3)]).
(** 518-537 *)
Definition jInternalBalance := DV (DEnum (Listed true) false
  (enum_vars [("Coinbase", SNew, [("", jCoinBaseBalance)]); ("Fee_transfer", SNew, [("", jFeeTransferBalance)])])).
(** 53-60 *)
Definition jPreDiff := D2 (struct
  [("completed_works", DVec jSnarkWork); ("commands", DVec jCommandWithStatus); ("coinbase", jCoinBase);
   ("internal_command_balances", DVec jInternalBalance)]).
(** 36-41 *)
Definition jDiffTuple := DV (tup [jPreDiff; DOpt jPreDiff]).
(** 24-29 *)
Definition jDiff := DV (struct [("diff", jDiffTuple)]).

(** protocol_version.rs 12-33: the default 2.0.0, converted to the wire type *)
Definition DEFAULT_PROTOCOL_VERSION : val := VTup [VInt 1; VTup [VInt 2; VInt 0; VInt 0]].
(** a stand-in for the JSON type of protocol versions, which is only ever
    skipped (derived, with numbers as JSON numbers) *)
Definition jProtocolVersion := DV (struct [("major", DLeaf LU32); ("minor", DLeaf LU32); ("patch", DLeaf LU32)]).
(** external_transition.rs 46-70: three fields are skipped *)
Definition jExternalTransition := DV (DStruct
  (FCons "protocol_state" None jProtocolState
  (FCons "protocol_state_proof" None jProtocolStateProof64
  (FCons "staged_ledger_diff" None jDiff
  (FCons "delta_transition_chain_proof" None jDeltaProof
  (FCons "current_protocol_version" (Some DEFAULT_PROTOCOL_VERSION) jProtocolVersion
  (FCons "proposed_protocol_version_opt" (Some VNone) (DOpt jProtocolVersion)
  (FCons "validation_callback" (Some VUnit) DUnit FNil)))))))).

(** Every JSON type with its name and the wire type it converts from and to. *)
Definition json_types : list (string * dty * ty) :=
  [("ExternalTransition", jExternalTransition, ExternalTransitionV1);
   ("ProtocolState", jProtocolState, ProtocolStateV1);
   ("ProtocolStateBody", jProtocolStateBody, ProtocolStateBodyV1);
   ("BlockchainState", jBlockchainState, BlockchainStateV1);
   ("StagedLedgerHash", jStagedLedgerHash, StagedLedgerHashV1);
   ("NonSnarkStagedLedgerHash", jNonSnark, NonSnarkStagedLedgerHashV1);
   ("ConsensusState", jConsensusState, ConsensusStateV1);
   ("VrfOutputTruncated", jVrf, VrfOutputTruncatedV1);
   ("GlobalSlot", jGlobalSlot, GlobalSlotV1);
   ("EpochData", jEpochData, EpochDataV1);
   ("EpochLedger", jEpochLedger, EpochLedgerV1);
   ("ProtocolConstants", jProtocolConstants, ProtocolConstantsV1);
   ("ProtocolStateProof", jProtocolStateProof, ProtocolStateProofV1);
   ("ProtocolStateProofBase64", jProtocolStateProof64, ProtocolStateProofV1);
   ("ProofStatement", jProofStatement, ProofStatementV1);
   ("ProofState", jProofState, ProofStateV1);
   ("ProofStateDeferredValues", jDeferred, ProofStateDeferredValuesV1);
   ("Plonk", jPlonk, PlonkV1);
   ("ShiftedValue", jShifted, ShiftedValueV1);
   ("SpongeDigestBeforeEvaluations", jSponge, SpongeDigestBeforeEvaluationsV1);
   ("ProofStatePairingBased", jMeOnly, ProofStatePairingBasedV1);
   ("PairingBased", jPairing, PairingBasedV1);
   ("PrevEvals", jPrevEvals, PrevEvalsV1);
   ("PrevXHat", jPrevXHat, PrevXHatV1);
   ("Proof", jProof, ProofV1);
   ("ProofOpenings", jOpenings, ProofOpeningsV1);
   ("OpeningProof", jOpeningProof, OpeningProofV1);
   ("ProofEvaluations", jProofEvaluations, ProofEvaluationsV1);
   ("ProofMessages", jProofMessages, ProofMessagesV1);
   ("ECPoint", jECPoint, ECPointV1);
   ("BulletproofChallenge", jChallenge, BulletproofChallengeV1);
   ("BulletproofChallenges", jChallenges, BulletproofChallengesV1);
   ("BulletproofChallengeTuple17", jChallenge17, BulletproofChallengeTuple17V1);
   ("BulletproofChallengeTuple18", jChallenge18, BulletproofChallengeTuple18V1);
   ("BulletproofPreChallenge", jPreChallenge, BulletproofPreChallengeV1);
   ("DeltaTransitionChainProof", jDeltaProof, DeltaTransitionChainProof);
   ("TransactionSnarkWork", jSnarkWork, TransactionSnarkWorkV1);
   ("OneORTwo", jOneOrTwo, OneORTwoV1);
   ("TransactionSnark", jTransactionSnark, TransactionSnarkV1);
   ("Statement", jStatement, StatementV1);
   ("Signed", jSigned, SignedV1);
   ("SgnType", jSgn, SgnTypeV1);
   ("FeeExcess", jFeeExcess, FeeExcess);
   ("StagedLedgerDiff", jDiff, StagedLedgerDiffV1);
   ("StagedLedgerPreDiff", jPreDiff, StagedLedgerPreDiffV1);
   ("UserCommandWithStatus", jCommandWithStatus, UserCommandWithStatusV1);
   ("UserCommand", jUserCommand, UserCommandV1);
   ("SignedCommand", jSignedCommand, SignedCommandV1);
   ("SignedCommandPayload", jPayload, SignedCommandPayloadV1);
   ("SignedCommandPayloadCommon", jPayloadCommon, SignedCommandPayloadCommonV1);
   ("SignedCommandPayloadBody", jPayloadBody, SignedCommandPayloadBodyV1);
   ("PaymentPayload", jPayment, PaymentPayloadV1);
   ("StakeDelegation", jStakeDelegation, StakeDelegationV1);
   ("TransactionStatus", jStatus, TransactionStatusV1);
   ("TransactionStatusFailedType", jFailedType, TransactionStatusFailedTypeV1);
   ("CoinBase", jCoinBase, CoinBaseV1);
   ("CoinBaseFeeTransfer", jFeeTransfer, CoinBaseFeeTransferV1);
   ("InternalCommandBalanceData", jInternalBalance, InternalCommandBalanceDataV1);
   ("PublicKey", jPub, PublicKeyV1);
   ("PublicKey2", jPub2, PublicKey2V1);
   ("Signature", jSig, SignatureV1)].

(** The descriptors give the wire types of Wire/Types.v. *)
Lemma json_wire_types : Forall (fun p => wire_ty (snd (fst p)) = snd p) json_types.
Proof. repeat (apply Forall_cons; [vm_compute; reflexivity|]). apply Forall_nil. Qed.
