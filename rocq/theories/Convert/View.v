(** Base values of Convert/Conv.v as the records that the other parts of the
    model use (Hashing/State.v, Hashing/Command.v).  No code of its own: every
    member is the field of the base value with the name that it has in Rust. *)

From Coq Require Import String ZArith List Bool.
From Verif Require Import Lib.Res Lib.Bytes BinProt.Codec Hashing.ROInput Hashing.Command Hashing.State Ledger.AccountWire
  Convert.Conv Convert.BlockConv.
Import ListNotations.
Local Open Scope string_scope.
Local Open Scope list_scope.
Local Open Scope Z_scope.

Fixpoint names_of (c : conv) : list string :=
  match c with Ver c => names_of c | Struct _ fields => map fst fields | _ => [] end.
(** the field of a struct *)
Definition field (c : conv) (n : string) (b : val) : val :=
  match b with VTup bs => match at_name n (names_of c) bs with Some x => x | None => VUnit end | _ => VUnit end.
Definition list_of (b : val) : list val := match b with VSeq l => l | VTup l => l | _ => [] end.
Definition vec_of (b : val) : list Z := map int_of (list_of b).
Definition key_of (b : val) : pubkey := match b with VTup [VInt x; VBool o] => mk_pk x o | _ => mk_pk 0 false end.

(** ** Protocol states *)
Definition constants_of (b : val) : constants :=
  let f n := int_of (field C_ProtocolConstants n b) in
  mk_constants (f "k") (f "slots_per_epoch") (f "slots_per_sub_window") (f "delta") (f "genesis_state_timestamp").
Definition staged_of (b : val) : staged :=
  let ns := field C_StagedLedgerHash "non_snark" b in
  let f n := vec_of (field C_NonSnarkStagedLedgerHash n ns) in
  mk_staged (f "ledger_hash") (f "aux_hash") (f "pending_coinbase_aux") (vec_of (field C_StagedLedgerHash "pending_coinbase_hash" b)).
Definition blockchain_of (b : val) : blockchain_legacy :=
  let f n := field C_BlockchainState n b in
  mk_bl (staged_of (f "staged_ledger_hash")) (vec_of (f "snarked_ledger_hash")) (vec_of (f "genesis_ledger_hash"))
    (int_of (f "snarked_next_available_token")) (int_of (f "timestamp")).
Definition epoch_of (b : val) : epoch_data :=
  let f n := field C_EpochData n b in
  let l n := field C_EpochLedger n (f "ledger") in
  mk_epoch (vec_of (l "hash")) (int_of (l "total_currency")) (vec_of (f "seed")) (vec_of (f "start_checkpoint"))
    (vec_of (f "lock_checkpoint")) (int_of (f "epoch_length")).
Definition consensus_of (b : val) : consensus :=
  let f n := field C_ConsensusState n b in
  let s n := int_of (field C_GlobalSlot n (f "curr_global_slot")) in
  mk_consensus (int_of (f "blockchain_length")) (int_of (f "epoch_count")) (int_of (f "min_window_density"))
    (map int_of (list_of (f "sub_window_densities"))) (vec_of (f "last_vrf_output")) (int_of (f "total_currency"))
    (s "slot_number") (s "slots_per_epoch") (int_of (f "global_slot_since_genesis"))
    (epoch_of (f "staking_epoch_data")) (epoch_of (f "next_epoch_data")) (bool_of (f "has_ancestor_in_same_checkpoint_window"))
    (key_of (f "block_stake_winner")) (key_of (f "block_creator")) (key_of (f "coinbase_receiver")) (bool_of (f "supercharge_coinbase")).
Definition body_of (b : val) : body_legacy :=
  let f n := field C_ProtocolStateBody n b in
  mk_body_legacy (vec_of (f "genesis_state_hash")) (blockchain_of (f "blockchain_state")) (consensus_of (f "consensus_state"))
    (constants_of (f "constants")).
Definition state_of (b : val) : state_legacy :=
  let f n := field C_ProtocolState n b in
  mk_state_legacy (vec_of (f "previous_state_hash")) (body_of (f "body")).

(** ** Commands *)
Definition common_of (b : val) : common :=
  let f n := field C_SignedCommandPayloadCommon n b in
  mk_common (int_of (f "fee")) (int_of (f "fee_token")) (key_of (f "fee_payer_pk")) (int_of (f "nonce")) (int_of (f "valid_until"))
    (vec_of (f "memo")).
(** the variants of [SignedCommandPayloadBody] in order: [PaymentPayload], [StakeDelegation] *)
Definition command_body_of (b : val) : Command.body :=
  match b with
  | VEnum O [p] =>
      let f n := field C_PaymentPayload n p in
      Payment (key_of (f "source_pk")) (key_of (f "receiver_pk")) (int_of (f "token_id")) (int_of (f "amount"))
  | VEnum (S O) [VEnum O [d; n]] => SetDelegate (key_of d) (key_of n)
  | _ => SetDelegate (mk_pk 0 false) (mk_pk 0 false)
  end.
Definition payload_of (b : val) : payload :=
  let f n := field C_SignedCommandPayload n b in
  mk_payload (common_of (f "common")) (command_body_of (f "body")).
(** a signature: [rx] and [s] *)
Definition sig_of (b : val) : Z * Z := match b with VTup [VInt r; VInt s] => (r, s) | _ => (0, 0) end.
Definition command_of (b : val) : signed_command (Z * Z) :=
  let f n := field C_SignedCommand n b in
  mk_command _ (payload_of (f "payload")) (key_of (f "signer")) (sig_of (f "signature")).
Definition user_command_of (b : val) : user_command (Z * Z) :=
  SignedCommand _ match b with VEnum _ [c] => command_of c | _ => command_of VUnit end.

(** ** Blocks *)
Definition with_status_of (b : val) : with_status (Z * Z) val :=
  let f n := field C_UserCommandWithStatus n b in
  mk_ws _ _ (user_command_of (f "data")) (f "status").
Definition prediff_of (b : val) : prediff (Z * Z) val val :=
  let f n := field C_StagedLedgerPreDiff n b in
  mk_prediff _ _ _ (map with_status_of (list_of (f "commands"))) (f "completed_works").
Definition diff_of (b : val) : diff (Z * Z) val val :=
  match field C_StagedLedgerDiff "diff" b with
  | VTup [two; VSome one] => mk_diff _ _ _ (prediff_of two) (Some (prediff_of one))
  | VTup [two; _] => mk_diff _ _ _ (prediff_of two) None
  | _ => mk_diff _ _ _ (prediff_of VUnit) None
  end.
(** a block: the commands, and the protocol state *)
Definition block_of (b : val) : transition (Z * Z) val val state_legacy :=
  let f n := field C_ExternalTransition n b in
  mk_transition _ _ _ _ (diff_of (f "staged_ledger_diff")) (state_of (f "protocol_state")).
