(** The conversions of the parts of a block.  Base types are in /repo/base/src
    unless another directory is named, wire types in
    /repo/protocol/serialization-types/src.  A newtype struct is its content;
    [Box] is transparent.  The conversions of the hashes and numbers
    (/repo/crypto/src/hash/types.rs 115-139,
    /repo/base/src/serialization_type_conversions/numbers.rs) keep the bytes or
    the number, that of the staged ledger hash
    (/repo/crypto/src/serialization_type_conversions.rs) goes field by field. *)

From Coq Require Import List String.
From Verif Require Import Convert.Conv.
Import ListNotations.
Local Open Scope string_scope.
Local Open Scope list_scope.

(** crypto/src/hash/types.rs 397-401; the wire type is in blockchain_state.rs 67-71 *)
Definition C_NonSnarkStagedLedgerHash : conv :=
  Struct ["ledger_hash"; "aux_hash"; "pending_coinbase_aux"]
    [("ledger_hash", Ver Same);
     ("aux_hash", Ver Same);
     ("pending_coinbase_aux", Ver Same)].
(** crypto/src/hash/types.rs 369-372; the wire type is in blockchain_state.rs 49-52 *)
Definition C_StagedLedgerHash : conv :=
  Struct ["non_snark"; "pending_coinbase_hash"]
    [("non_snark", Ver C_NonSnarkStagedLedgerHash);
     ("pending_coinbase_hash", Ver (Ver Same))].
(** blockchain_state.rs 25-36; the wire type is in blockchain_state.rs 15-26 *)
Definition C_BlockchainState : conv :=
  Struct ["staged_ledger_hash"; "snarked_ledger_hash"; "genesis_ledger_hash"; "snarked_next_available_token"; "timestamp"]
    [("staged_ledger_hash", Ver (Ver C_StagedLedgerHash));
     ("snarked_ledger_hash", Ver Same);
     ("genesis_ledger_hash", Ver Same);
     ("snarked_next_available_token", Ver (Ver (Ver Same)));
     ("timestamp", Ver (Ver Same))].
(** consensus_state.rs 34-34; the wire type is in consensus_state.rs 20-20 *)
Definition C_VrfOutputTruncated : conv :=
  Same.
(** global_slot.rs 16-21; the wire type is in global_slot.rs 17-22 *)
Definition C_GlobalSlot : conv :=
  Struct ["slot_number"; "slots_per_epoch"]
    [("slot_number", Ver (Ver Same));
     ("slots_per_epoch", Ver (Ver Same))].
(** epoch_data.rs 20-25; the wire type is in epoch_data.rs 18-23 *)
Definition C_EpochLedger : conv :=
  Struct ["hash"; "total_currency"]
    [("hash", Ver Same);
     ("total_currency", Ver (Ver Same))].
(** epoch_data.rs 65-76; the wire type is in epoch_data.rs 40-51 *)
Definition C_EpochData : conv :=
  Struct ["ledger"; "seed"; "start_checkpoint"; "lock_checkpoint"; "epoch_length"]
    [("ledger", Ver (Ver C_EpochLedger));
     ("seed", Ver Same);
     ("start_checkpoint", Ver Same);
     ("lock_checkpoint", Ver Same);
     ("epoch_length", Ver (Ver Same))].
(** consensus_state.rs 134-168; the wire type is in consensus_state.rs 97-128 *)
Definition C_ConsensusState : conv :=
  Struct ["blockchain_length"; "epoch_count"; "min_window_density"; "sub_window_densities"; "last_vrf_output"; "total_currency"; "curr_global_slot"; "global_slot_since_genesis"; "staking_epoch_data"; "next_epoch_data"; "has_ancestor_in_same_checkpoint_window"; "block_stake_winner"; "block_creator"; "coinbase_receiver"; "supercharge_coinbase"]
    [("blockchain_length", Ver (Ver Same));
     ("epoch_count", Ver (Ver Same));
     ("min_window_density", Ver (Ver Same));
     ("sub_window_densities", Seq (Ver (Ver Same)));
     ("last_vrf_output", Ver C_VrfOutputTruncated);
     ("total_currency", Ver (Ver Same));
     ("curr_global_slot", Ver (Ver C_GlobalSlot));
     ("global_slot_since_genesis", Ver (Ver Same));
     ("staking_epoch_data", Ver (Ver C_EpochData));
     ("next_epoch_data", Ver (Ver C_EpochData));
     ("has_ancestor_in_same_checkpoint_window", Same);
     ("block_stake_winner", Ver (Ver Key));
     ("block_creator", Ver (Ver Key));
     ("coinbase_receiver", Ver (Ver Key));
     ("supercharge_coinbase", Same)].
(** protocol_state.rs 26-37; the wire type is in protocol_constants.rs 18-29 *)
Definition C_ProtocolConstants : conv :=
  Struct ["k"; "slots_per_epoch"; "slots_per_sub_window"; "delta"; "genesis_state_timestamp"]
    [("k", Ver (Ver Same));
     ("slots_per_epoch", Ver (Ver Same));
     ("slots_per_sub_window", Ver (Ver Same));
     ("delta", Ver (Ver Same));
     ("genesis_state_timestamp", Ver (Ver Same))].
(** protocol_state.rs 135-144; the wire type is in protocol_state_body.rs 13-22 *)
Definition C_ProtocolStateBody : conv :=
  Struct ["genesis_state_hash"; "blockchain_state"; "consensus_state"; "constants"]
    [("genesis_state_hash", Ver Same);
     ("blockchain_state", Ver (Ver C_BlockchainState));
     ("consensus_state", Ver (Ver C_ConsensusState));
     ("constants", Ver (Ver C_ProtocolConstants))].
(** protocol_state.rs 88-93; the wire type is in protocol_state.rs 13-18 *)
Definition C_ProtocolState : conv :=
  Struct ["previous_state_hash"; "body"]
    [("previous_state_hash", Ver Same);
     ("body", Ver (Ver C_ProtocolStateBody))].
(** protocol_state_proof/bulletproof_challenges.rs 145-145; the wire type is in bulletproof_challenges.rs 177-177 *)
Definition C_ScalarChallengeVector2 : conv :=
  Tuple [Ver Same; Ver Same; Same].
(** protocol_state_proof/bulletproof_challenges.rs 133-135; the wire type is in bulletproof_challenges.rs 152-154 *)
Definition C_BulletproofPreChallenge : conv :=
  Enum ["ScalarChallenge"]
    [("ScalarChallenge", [Ver C_ScalarChallengeVector2])].
(** protocol_state_proof/mod.rs 86-91; the wire type is in protocol_state_proof.rs 124-129 *)
Definition C_Plonk : conv :=
  Struct ["alpha"; "beta"; "gamma"; "zeta"]
    [("alpha", Ver C_BulletproofPreChallenge);
     ("beta", Ver C_ScalarChallengeVector2);
     ("gamma", Ver C_ScalarChallengeVector2);
     ("zeta", Ver C_BulletproofPreChallenge)].
(** protocol_state_proof/mod.rs 95-97; the wire type is in protocol_state_proof.rs 143-145 *)
Definition C_ShiftedValue : conv :=
  Enum ["ShiftedValue"]
    [("ShiftedValue", [Same])].
(** protocol_state_proof/bulletproof_challenges.rs 9-11; the wire type is in bulletproof_challenges.rs 14-16 *)
Definition C_BulletproofChallenge : conv :=
  Struct ["prechallenge"]
    [("prechallenge", Ver C_BulletproofPreChallenge)].
(** protocol_state_proof/bulletproof_challenges.rs 83-103; the wire type is in bulletproof_challenges.rs 103-123 *)
Definition C_BulletproofChallengeTuple18 : conv :=
  Tuple (List.repeat (Ver C_BulletproofChallenge) 18 ++ [Same]).
(** protocol_state_proof/mod.rs 75-82; the wire type is in protocol_state_proof.rs 101-108 *)
Definition C_ProofStateDeferredValues : conv :=
  Struct ["plonk"; "combined_inner_product"; "b"; "xi"; "bulletproof_challenges"; "which_branch"]
    [("plonk", Ver C_Plonk);
     ("combined_inner_product", Ver C_ShiftedValue);
     ("b", Ver C_ShiftedValue);
     ("xi", Ver C_BulletproofPreChallenge);
     ("bulletproof_challenges", Ver (Ver C_BulletproofChallengeTuple18));
     ("which_branch", Ver Same)].
(** protocol_state_proof/mod.rs 107-107; the wire type is in protocol_state_proof.rs 164-170 *)
Definition C_SpongeDigestBeforeEvaluations : conv :=
  Tuple (List.repeat (Ver Same) 4 ++ [Same]).
(** protocol_state_proof/field_and_curve_elements.rs 63-63; the wire type is in field_and_curve_elements.rs 35-35 *)
Definition C_FiniteECPoint : conv :=
  Tuple [Same; Same].
(** protocol_state_proof/bulletproof_challenges.rs 35-54; the wire type is in bulletproof_challenges.rs 54-73 *)
Definition C_BulletproofChallengeTuple17 : conv :=
  Tuple (List.repeat (Ver C_BulletproofChallenge) 17 ++ [Same]).
(** protocol_state_proof/bulletproof_challenges.rs 27-31; the wire type is in bulletproof_challenges.rs 36-40 *)
Definition C_ProofStateBulletproofChallenges : conv :=
  Tuple [Ver (Ver (Ver C_BulletproofChallengeTuple17)); Ver (Ver (Ver C_BulletproofChallengeTuple17)); Same].
(** protocol_state_proof/mod.rs 111-114; the wire type is in protocol_state_proof.rs 186-189 *)
Definition C_ProofStatePairingBased : conv :=
  Struct ["sg"; "old_bulletproof_challenges"]
    [("sg", C_FiniteECPoint);
     ("old_bulletproof_challenges", Ver C_ProofStateBulletproofChallenges)].
(** protocol_state_proof/mod.rs 67-71; the wire type is in protocol_state_proof.rs 84-88 *)
Definition C_ProofState : conv :=
  Struct ["deferred_values"; "sponge_digest_before_evaluations"; "me_only"]
    [("deferred_values", Ver C_ProofStateDeferredValues);
     ("sponge_digest_before_evaluations", Ver (Ver C_SpongeDigestBeforeEvaluations));
     ("me_only", Ver C_ProofStatePairingBased)].
(** protocol_state_proof/field_and_curve_elements.rs 94-94; the wire type is in field_and_curve_elements.rs 44-44 *)
Definition C_FiniteECPointVec : conv :=
  Seq C_FiniteECPoint.
(** protocol_state_proof/bulletproof_challenges.rs 23-23; the wire type is in bulletproof_challenges.rs 27-27 *)
Definition C_BulletproofChallenges : conv :=
  Seq (Ver (Ver C_BulletproofChallengeTuple18)).
(** protocol_state_proof/mod.rs 118-122; the wire type is in protocol_state_proof.rs 201-205 *)
Definition C_PairingBased : conv :=
  Struct ["app_state"; "sg"; "old_bulletproof_challenges"]
    [("app_state", Same);
     ("sg", Ver C_FiniteECPointVec);
     ("old_bulletproof_challenges", Ver C_BulletproofChallenges)].
(** protocol_state_proof/mod.rs 59-62; the wire type is in protocol_state_proof.rs 69-72 *)
Definition C_ProofStatement : conv :=
  Struct ["proof_state"; "pass_through"]
    [("proof_state", Ver C_ProofState);
     ("pass_through", Ver C_PairingBased)].
(** protocol_state_proof/field_and_curve_elements.rs 20-20; the wire type is in field_and_curve_elements.rs 22-22 *)
Definition C_FieldElementVec : conv :=
  Seq Same.
(** protocol_state_proof/proof_evaluations.rs 10-19; the wire type is in proof_evaluations.rs 14-23 *)
Definition C_ProofEvaluations : conv :=
  Struct ["l"; "r"; "o"; "z"; "t"; "f"; "sigma1"; "sigma2"]
    [("l", Ver C_FieldElementVec);
     ("r", Ver C_FieldElementVec);
     ("o", Ver C_FieldElementVec);
     ("z", Ver C_FieldElementVec);
     ("t", Ver C_FieldElementVec);
     ("f", Ver C_FieldElementVec);
     ("sigma1", Ver C_FieldElementVec);
     ("sigma2", Ver C_FieldElementVec)].
(** protocol_state_proof/mod.rs 126-126; the wire type is in protocol_state_proof.rs 218-218 *)
Definition C_PrevEvals : conv :=
  Tuple [Ver C_ProofEvaluations; Ver C_ProofEvaluations].
(** protocol_state_proof/mod.rs 130-130; the wire type is in protocol_state_proof.rs 227-227 *)
Definition C_PrevXHat : conv :=
  C_FiniteECPoint.
(** protocol_state_proof/proof_messages.rs 20-20; the wire type is in proof_messages.rs 35-35 *)
Definition C_ProofMessageWithoutDegreeBoundList : conv :=
  Seq C_FiniteECPoint.
(** protocol_state_proof/field_and_curve_elements.rs 145-150; the wire type is in field_and_curve_elements.rs 78-84 *)
Definition C_ECPoint : conv :=
  Enum ["Infinite"; "Finite"]
    [("Infinite", []); ("Finite", [C_FiniteECPoint])].
(** protocol_state_proof/field_and_curve_elements.rs 172-172; the wire type is in field_and_curve_elements.rs 118-118 *)
Definition C_ECPointVec : conv :=
  Seq (Ver C_ECPoint).
(** protocol_state_proof/proof_messages.rs 24-27; the wire type is in proof_messages.rs 45-48 *)
Definition C_ProofMessageWithDegreeBound : conv :=
  Struct ["unshifted"; "shifted"]
    [("unshifted", Ver C_ECPointVec);
     ("shifted", Ver C_ECPoint)].
(** protocol_state_proof/proof_messages.rs 10-16; the wire type is in proof_messages.rs 14-20 *)
Definition C_ProofMessages : conv :=
  Struct ["l_comm"; "r_comm"; "o_comm"; "z_comm"; "t_comm"]
    [("l_comm", Ver (Ver C_ProofMessageWithoutDegreeBoundList));
     ("r_comm", Ver (Ver C_ProofMessageWithoutDegreeBoundList));
     ("o_comm", Ver (Ver C_ProofMessageWithoutDegreeBoundList));
     ("z_comm", Ver (Ver C_ProofMessageWithoutDegreeBoundList));
     ("t_comm", Ver C_ProofMessageWithDegreeBound)].
(** protocol_state_proof/field_and_curve_elements.rs 108-108; the wire type is in field_and_curve_elements.rs 56-56 *)
Definition C_FiniteECPointPair : conv :=
  Tuple [C_FiniteECPoint; C_FiniteECPoint].
(** protocol_state_proof/field_and_curve_elements.rs 127-127; the wire type is in field_and_curve_elements.rs 65-65 *)
Definition C_FiniteECPointPairVec : conv :=
  Seq C_FiniteECPointPair.
(** protocol_state_proof/opening_proof.rs 10-16; the wire type is in opening_proof.rs 18-24 *)
Definition C_OpeningProof : conv :=
  Struct ["lr"; "z_1"; "z_2"; "delta"; "sg"]
    [("lr", Ver C_FiniteECPointPairVec);
     ("z_1", Same);
     ("z_2", Same);
     ("delta", C_FiniteECPoint);
     ("sg", C_FiniteECPoint)].
(** protocol_state_proof/mod.rs 141-141; the wire type is in protocol_state_proof.rs 251-251 *)
Definition C_ProofOpeningsEvals : conv :=
  Tuple [Ver C_ProofEvaluations; Ver C_ProofEvaluations].
(** protocol_state_proof/mod.rs 145-148; the wire type is in protocol_state_proof.rs 258-261 *)
Definition C_ProofOpenings : conv :=
  Struct ["proof"; "evals"]
    [("proof", Ver C_OpeningProof);
     ("evals", C_ProofOpeningsEvals)].
(** protocol_state_proof/mod.rs 134-137; the wire type is in protocol_state_proof.rs 236-239 *)
Definition C_Proof : conv :=
  Struct ["messages"; "openings"]
    [("messages", Ver C_ProofMessages);
     ("openings", Ver C_ProofOpenings)].
(** protocol_state_proof/mod.rs 40-45; the wire type is in protocol_state_proof.rs 16-21 *)
Definition C_ProtocolStateProof : conv :=
  Struct ["statement"; "prev_evals"; "prev_x_hat"; "proof"]
    [("statement", Ver (Ver C_ProofStatement));
     ("prev_evals", Ver C_PrevEvals);
     ("prev_x_hat", Ver C_PrevXHat);
     ("proof", Ver (Ver C_Proof))].
(** snark_work.rs 78-81; the wire type is in snark_work.rs 143-147 *)
Definition C_StateStack : conv :=
  Struct ["init"; "curr"]
    [("init", Ver Same);
     ("curr", Ver Same)].
(** snark_work.rs 71-74; the wire type is in snark_work.rs 125-129 *)
Definition C_PendingCoinbase : conv :=
  Struct ["data_stack"; "state_stack"]
    [("data_stack", Ver Same);
     ("state_stack", Ver (Ver C_StateStack))].
(** snark_work.rs 64-67; the wire type is in snark_work.rs 108-112 *)
Definition C_PendingCoinbaseStackState : conv :=
  Struct ["source"; "target"]
    [("source", Ver (Ver C_PendingCoinbase));
     ("target", Ver (Ver C_PendingCoinbase))].
(** snark_work.rs 103-106; the wire type is in snark_work.rs 199-203 *)
Definition C_SgnType : conv :=
  Enum ["Pos"; "Neg"]
    [("Pos", []); ("Neg", [])].
(** snark_work.rs 96-99; the wire type is in snark_work.rs 182-186 *)
Definition C_Signed : conv :=
  Struct ["magnitude"; "sgn"]
    [("magnitude", Ver (Ver Same));
     ("sgn", Ver C_SgnType)].
(** snark_work.rs 89-92; the wire type is in snark_work.rs 160-163 *)
Definition C_FeeExcess : conv :=
  Struct ["token"; "amount"]
    [("token", Ver (Ver (Ver Same)));
     ("amount", Ver C_Signed)].
(** snark_work.rs 85-85; the wire type is in snark_work.rs 173-173 *)
Definition C_FeeExcessPair : conv :=
  Tuple [C_FeeExcess; C_FeeExcess].
(** snark_work.rs 45-54; the wire type is in snark_work.rs 79-89 *)
Definition C_Statement : conv :=
  Struct ["source"; "target"; "supply_increase"; "pending_coinbase_stack_state"; "fee_excess"; "next_available_token_before"; "next_available_token_after"; "sok_digest"]
    [("source", Ver Same);
     ("target", Ver Same);
     ("supply_increase", Ver (Ver Same));
     ("pending_coinbase_stack_state", Ver (Ver C_PendingCoinbaseStackState));
     ("fee_excess", Ver (Ver C_FeeExcessPair));
     ("next_available_token_before", Ver (Ver (Ver Same)));
     ("next_available_token_after", Ver (Ver (Ver Same)));
     ("sok_digest", Ver Same)].
(** snark_work.rs 38-41; the wire type is in snark_work.rs 62-65 *)
Definition C_TransactionSnark : conv :=
  Struct ["statement"; "transaction_snark_proof"]
    [("statement", Ver (Ver C_Statement));
     ("transaction_snark_proof", Ver (Ver (Ver (Ver C_ProtocolStateProof))))].
(** snark_work.rs 30-34; the wire type is in snark_work.rs 33-39 *)
Definition C_OneORTwo : conv :=
  Enum ["One"; "Two"]
    [("One", [Ver (Ver C_TransactionSnark)]); ("Two", [Ver (Ver C_TransactionSnark); Ver (Ver C_TransactionSnark)])].
(** snark_work.rs 16-20; the wire type is in snark_work.rs 13-18 *)
Definition C_TransactionSnarkWork : conv :=
  Struct ["fee"; "proofs"; "prover"]
    [("fee", Ver (Ver Same));
     ("proofs", Ver C_OneORTwo);
     ("prover", Ver (Ver Key))].
(** user_commands/memo.rs 15-15; the wire type is in staged_ledger_diff.rs 240-240 *)
Definition C_SignedCommandMemo : conv :=
  Same.
(** user_commands/signed_command/mod.rs 152-165; the wire type is in staged_ledger_diff.rs 133-140 *)
Definition C_SignedCommandPayloadCommon : conv :=
  Struct ["fee"; "fee_token"; "fee_payer_pk"; "nonce"; "valid_until"; "memo"]
    [("fee", Ver (Ver Same));
     ("fee_token", Ver (Ver (Ver Same)));
     ("fee_payer_pk", Ver (Ver Key));
     ("nonce", Ver (Ver Cast));
     ("valid_until", Ver (Ver Cast));
     ("memo", Ver C_SignedCommandMemo)].
(** user_commands/payment.rs 14-23; the wire type is in staged_ledger_diff.rs 188-193 *)
Definition C_PaymentPayload : conv :=
  Struct ["source_pk"; "receiver_pk"; "token_id"; "amount"]
    [("source_pk", Ver (Ver Key));
     ("receiver_pk", Ver (Ver Key));
     ("token_id", Ver (Ver (Ver Same)));
     ("amount", Ver (Ver Same))].
(** user_commands/signed_command/mod.rs 181-189; the wire type is in staged_ledger_diff.rs 207-212 *)
Definition C_StakeDelegation : conv :=
  Enum ["SetDelegate"]
    [("SetDelegate", [Ver (Ver Key); Ver (Ver Key)])].
(** user_commands/signed_command/mod.rs 170-176; the wire type is in staged_ledger_diff.rs 157-161 *)
Definition C_SignedCommandPayloadBody : conv :=
  Enum ["PaymentPayload"; "StakeDelegation"]
    [("PaymentPayload", [Ver (Ver C_PaymentPayload)]); ("StakeDelegation", [Ver C_StakeDelegation])].
(** user_commands/signed_command/mod.rs 67-72; the wire type is in staged_ledger_diff.rs 118-121 *)
Definition C_SignedCommandPayload : conv :=
  Struct ["common"; "body"]
    [("common", Ver (Ver (Ver C_SignedCommandPayloadCommon)));
     ("body", Ver (Ver C_SignedCommandPayloadBody))].
(** user_commands/signed_command/mod.rs 24-31; the wire type is in staged_ledger_diff.rs 101-105 *)
Definition C_SignedCommand : conv :=
  Struct ["payload"; "signer"; "signature"]
    [("payload", Ver (Ver C_SignedCommandPayload));
     ("signer", Ver (Ver (Ver Key)));
     ("signature", Sig)].
(** user_commands/mod.rs 28-32; the wire type is in staged_ledger_diff.rs 78-81 *)
Definition C_UserCommand : conv :=
  Enum ["SignedCommand"]
    [("SignedCommand", [Ver (Ver C_SignedCommand)])].
(** staged_ledger_diff.rs 115-119; the wire type is in staged_ledger_diff.rs 321-325 *)
Definition C_TransactionStatusAuxiliaryData : conv :=
  Struct ["fee_payer_account_creation_fee_paid"; "receiver_account_creation_fee_paid"; "created_token"]
    [("fee_payer_account_creation_fee_paid", Opt (Ver (Ver Same)));
     ("receiver_account_creation_fee_paid", Opt (Ver (Ver Same)));
     ("created_token", Opt (Ver (Ver (Ver Same))))].
(** staged_ledger_diff.rs 123-127; the wire type is in staged_ledger_diff.rs 443-447 *)
Definition C_TransactionStatusBalanceData : conv :=
  Struct ["fee_payer_balance"; "source_balance"; "receiver_balance"]
    [("fee_payer_balance", Opt (Ver (Ver (Ver Same))));
     ("source_balance", Opt (Ver (Ver (Ver Same))));
     ("receiver_balance", Opt (Ver (Ver (Ver Same))))].
(** staged_ledger_diff.rs 131-147; the wire type is in staged_ledger_diff.rs 338-369 *)
Definition C_TransactionStatusFailedType : conv :=
  Enum ["Predicate"; "SourceNotPresent"; "ReceiverNotPresent"; "AmountInsufficientToCreateAccount"; "CannotPayCreationFeeInToken"; "SourceInsufficientBalance"; "SourceMinimumBalanceViolation"; "ReceiverAlreadyExists"; "NotTokenOwner"; "MismatchedTokenPermissions"; "Overflow"; "SignedCommandOnSnappAccount"; "SnappAccountNotPresent"; "UpdateNotPermitted"; "IncorrectNonce"]
    [("Predicate", []); ("SourceNotPresent", []); ("ReceiverNotPresent", []); ("AmountInsufficientToCreateAccount", []); ("CannotPayCreationFeeInToken", []); ("SourceInsufficientBalance", []); ("SourceMinimumBalanceViolation", []); ("ReceiverAlreadyExists", []); ("NotTokenOwner", []); ("MismatchedTokenPermissions", []); ("Overflow", []); ("SignedCommandOnSnappAccount", []); ("SnappAccountNotPresent", []); ("UpdateNotPermitted", []); ("IncorrectNonce", [])].
(** staged_ledger_diff.rs 99-105; the wire type is in staged_ledger_diff.rs 279-288 *)
Definition C_TransactionStatus : conv :=
  Enum ["Applied"; "Failed"]
    [("Applied", [Ver C_TransactionStatusAuxiliaryData; Ver C_TransactionStatusBalanceData]); ("Failed", [Seq (Ver C_TransactionStatusFailedType); Ver C_TransactionStatusBalanceData])].
(** staged_ledger_diff.rs 86-89; the wire type is in staged_ledger_diff.rs 63-66 *)
Definition C_UserCommandWithStatus : conv :=
  Struct ["data"; "status"]
    [("data", Ver (Ver C_UserCommand));
     ("status", Ver C_TransactionStatus)].
(** staged_ledger_diff.rs 172-175; the wire type is in staged_ledger_diff.rs 496-499 *)
Definition C_CoinBaseFeeTransfer : conv :=
  Struct ["receiver_pk"; "fee"]
    [("receiver_pk", Ver (Ver Key));
     ("fee", Ver (Ver Same))].
(** staged_ledger_diff.rs 157-162; the wire type is in staged_ledger_diff.rs 460-465 *)
Definition C_CoinBase : conv :=
  Enum ["Zero"; "One"; "Two"]
    [("Zero", []); ("One", [Opt (Ver (Ver C_CoinBaseFeeTransfer))]); ("Two", [Opt (Ver (Ver C_CoinBaseFeeTransfer)); Opt (Ver (Ver C_CoinBaseFeeTransfer))])].
(** staged_ledger_diff.rs 192-196; the wire type is in staged_ledger_diff.rs 540-544 *)
Definition C_CoinBaseBalanceData : conv :=
  Struct ["coinbase_receiver_balance"; "fee_transfer_receiver_balance"]
    [("coinbase_receiver_balance", Ver (Ver (Ver Same)));
     ("fee_transfer_receiver_balance", Opt (Ver (Ver (Ver Same))))].
(** staged_ledger_diff.rs 200-204; the wire type is in staged_ledger_diff.rs 556-560 *)
Definition C_FeeTransferBalanceData : conv :=
  Struct ["receiver1_balance"; "receiver2_balance"]
    [("receiver1_balance", Ver (Ver (Ver Same)));
     ("receiver2_balance", Opt (Ver (Ver (Ver Same))))].
(** staged_ledger_diff.rs 179-182; the wire type is in staged_ledger_diff.rs 511-514 *)
Definition C_InternalCommandBalanceData : conv :=
  Enum ["CoinBase"; "FeeTransfer"]
    [("CoinBase", [Ver C_CoinBaseBalanceData]); ("FeeTransfer", [Ver C_FeeTransferBalanceData])].
(** staged_ledger_diff.rs 64-69; the wire type is in staged_ledger_diff.rs 44-49 *)
Definition C_StagedLedgerPreDiff : conv :=
  Struct ["completed_works"; "commands"; "coinbase"; "internal_command_balances"]
    [("completed_works", Seq (Ver C_TransactionSnarkWork));
     ("commands", Seq (Ver C_UserCommandWithStatus));
     ("coinbase", Ver C_CoinBase);
     ("internal_command_balances", Seq (Ver C_InternalCommandBalanceData))].
(** staged_ledger_diff.rs 47-50; the wire type is in staged_ledger_diff.rs 32-32 *)
Definition C_StagedLedgerDiffTuple : conv :=
  Tuple [Ver (Ver C_StagedLedgerPreDiff); Opt (Ver (Ver C_StagedLedgerPreDiff))].
(** staged_ledger_diff.rs 24-26; the wire type is in staged_ledger_diff.rs 17-19 *)
Definition C_StagedLedgerDiff : conv :=
  Struct ["diff"]
    [("diff", Ver C_StagedLedgerDiffTuple)].
(** delta_transition_chain_proof.rs 14-14; the wire type is in delta_transition_chain_proof.rs 12-12 *)
Definition C_DeltaTransitionChainProof : conv :=
  Tuple [Ver Same; Seq (Ver Same)].
(** protocol_version.rs 11-18; the wire type is in protocol_version.rs 12-22 *)
Definition C_ProtocolVersion : conv :=
  Struct ["major"; "minor"; "patch"]
    [("major", Same);
     ("minor", Same);
     ("patch", Same)].
(** external_transition.rs 17-32; the wire type is in external_transition.rs 24-41 *)
Definition C_ExternalTransition : conv :=
  Struct ["protocol_state"; "protocol_state_proof"; "staged_ledger_diff"; "delta_transition_chain_proof"; "current_protocol_version"; "proposed_protocol_version_opt"; "validation_callback"]
    [("protocol_state", Ver (Ver C_ProtocolState));
     ("protocol_state_proof", Ver (Ver (Ver (Ver C_ProtocolStateProof))));
     ("staged_ledger_diff", Ver C_StagedLedgerDiff);
     ("delta_transition_chain_proof", C_DeltaTransitionChainProof);
     ("current_protocol_version", Ver C_ProtocolVersion);
     ("proposed_protocol_version_opt", Opt (Ver C_ProtocolVersion));
     ("validation_callback", Same)].
(** [ExternalTransitionV1]: external_transition.rs 44 *)
Definition C_block : conv := Ver C_ExternalTransition.
(** [ProtocolStateV1], [SignedCommandV1]: protocol_state.rs 21, staged_ledger_diff.rs 107 *)
Definition C_state : conv := Ver (Ver C_ProtocolState).
Definition C_command : conv := Ver (Ver C_SignedCommand).
