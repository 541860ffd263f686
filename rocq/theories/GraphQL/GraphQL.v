(** Protocol states and accounts from the JSON answers of a GraphQL server:
    the implementations of [FromGraphQLJson] in /repo/base/src
    (from_graphql_json.rs 6-12).

    The kinds of errors are not distinguished.  The values are those of the
    hashing model (Hashing/Account.v, Hashing/State.v). *)

From Coq Require Import String ZArith List Bool.
From Verif Require Import Lib.Res Lib.Bytes Lib.Text BinProt.Prim BinProt.Codec Wire.Types Text.Base58 Text.Hex Text.Checksum
  Json.Json Hashing.Command Hashing.Account Hashing.State.
Import ListNotations.
Local Open Scope string_scope.
Local Open Scope list_scope.
Local Open Scope Z_scope.
Notation length := List.length.

(** [json["k"]]: [serde_json::Value::index] with a string gives null for a
    missing member and for what is no object. *)
Fixpoint find_member (k : list Z) (m : list (list Z * json)) : json :=
  match m with
  | [] => JNull
  | (k', j) :: m' => if key_eqb k' k then j else find_member k m'
  end.
Definition index (j : json) (k : string) : json :=
  match j with JObj m => find_member (str_bytes k) m | _ => JNull end.
(** [.as_str().unwrap_or_default()], [.as_bool().unwrap_or_default()] *)
Definition as_str (j : json) : list Z := match j with JStr s => s | _ => [] end.
Definition as_bool (j : json) : bool := match j with JBool b => b | _ => false end.
(** [.parse::<uN>()] *)
Definition number (bits : Z) (j : json) : res jerr Z :=
  match parse_uint bits (as_str j) with inr n => Ok n | inl _ => Err JE end.

(** ** Permissions *)

(** account/permissions.rs 15-28: the derived [strum::EnumString] *)
Definition auth_names : list (string * auth) :=
  [("None", ANone); ("Either", AEither); ("Proof", AProof); ("Signature", ASignature); ("Both", ABoth); ("Impossible", AImpossible)].
Fixpoint auth_find (l : list (string * auth)) (s : list Z) : res jerr auth :=
  match l with
  | [] => Err JE
  | (nm, a) :: l' => if key_eqb (str_bytes nm) s then Ok a else auth_find l' s
  end.
Definition auth_of (j : json) : res jerr auth := auth_find auth_names (as_str j).
(** 110-143; [increment_nonce] at 135-137 *)
Definition permissions_of (j : json) : res jerr permissions :=
  let* edit_state := auth_of (index j "editState") in
  let* send := auth_of (index j "send") in
  let* receive := auth_of (index j "receive") in
  let* set_delegate := auth_of (index j "setDelegate") in
  let* set_permissions := auth_of (index j "setPermissions") in
  let* set_verification_key := auth_of (index j "setVerificationKey") in
  let* set_zkapp_uri := auth_of (index j "setZkappUri") in
  let* edit_sequence_state := auth_of (index j "editSequenceState") in
  let* set_token_symbol := auth_of (index j "setTokenSymbol") in
  let* increment_nonce := auth_of (index j "editState") in
  let* set_voting_for := auth_of (index j "setVotingFor") in
  Ok (mk_perms edit_state send receive set_delegate set_permissions set_verification_key set_zkapp_uri
        edit_sequence_state set_token_symbol increment_nonce set_voting_for).

(** ** Timing *)

(** account/timing.rs 56-79 *)
Definition timed_of (j : json) : res jerr timed_data :=
  let* initial_minimum_balance := number 64 (index j "initialMinimumBalance") in
  let* cliff_time := number 64 (index j "cliffTime") in
  let* cliff_amount := number 64 (index j "cliffAmount") in
  let* vesting_period := number 64 (index j "vestingPeriod") in
  let* vesting_increment := number 64 (index j "vestingIncrement") in
  Ok (mk_timed initial_minimum_balance cliff_time cliff_amount vesting_period vesting_increment).
(** 94-104 *)
Definition timing_of (j : json) : res jerr timing :=
  match timed_of j with Ok data => Ok (Timed data) | Err _ => Ok Untimed | Panic => Panic end.

(** ** Hard-coded values *)

(** consensus_state.rs 199-211, 225 *)
Definition HARD_DENSITIES : list Z := [1; 7; 7; 7; 7; 7; 7; 7; 7; 7; 7].
Definition HARD_SLOTS_PER_EPOCH : Z := 7140.
(** protocol_state.rs 45-55 *)
Definition default_constants : constants := mk_constants 290 7140 7 0 1655755201000.
(** protocol_state.rs 227-229 *)
Definition GENESIS_STATE_HASH_TEXT : string := "3NLUmnTBMCeExeWErijZ2GeLnjLtBgsDjN3qM8M8gcJDtk8k89xf".
(** blockchain_state_registers.rs 81; 60-63.  [Field::from_str_radix]
    (crypto/src/hash/types.rs 28-32) gives the bytes of the number, least
    significant first. *)
Definition DEFAULT_LEDGER_TEXT : string := "jw6bz2wud1N6itRUHZ5ypo3267stk4UgzkiuWtAMPRZo9g4Udyd".
Definition DEFAULT_STACK_FRAME : Z := 0x02F99BCFB0AA7F48C1888DA5A67196A2410FB084CD2DB1AF5216C5122AEBC054.

Section Read.
  Variable checksum : list Z -> list Z.
  Variable checked : bool.

  (** The bytes of a value of type [HashV1]; its version number is dropped by
      the conversion (crypto/src/hash/types.rs 112-131). *)
  Definition hash_bytes (v : val) : list Z :=
    match v with
    | VTup [_; VTup bs] => map (fun b => match b with VInt z => z | _ => 0 end) bs
    | _ => []
    end.
  (** [LedgerHash::from_str] and the others: macros.rs 15-29 with the base58
      form of the type (crypto/src/hash/types.rs 172-343) *)
  Definition hash_of (ver : Z) (s : list Z) : res jerr (list Z) :=
    let* v := conv (from_base58_versioned checksum checked ver HashV1 s) in Ok (hash_bytes v).
  (** crypto/src/hash/types.rs 133-150 *)
  Definition hash_value (ver : Z) (j : json) : res jerr (list Z) :=
    match j with JStr s => hash_of ver s | _ => Err JE end.
  (** 433-455: byte vectors *)
  Definition aux_value (ver : Z) (j : json) : res jerr (list Z) :=
    match j with JStr s => conv (from_base58 checksum ver s) | _ => Err JE end.
  (** [CompressedPubKey::from_address] *)
  Definition key_of (s : list Z) : res jerr pubkey :=
    let* k := conv_opt (from_address checksum s) in Ok (mk_pk (le_val (fst k)) (snd k)).
  (** [VrfOutputTruncated::from_base58_str], consensus_state.rs 58-64 *)
  Definition vrf_of (s : list Z) : res jerr (list Z) := conv (vrf58_de checksum s).

  (** blockchain_state_registers.rs 57-88 *)
  Definition default_local : res jerr local_state :=
    let* ledger := match hash_of LEDGER_HASH (str_bytes DEFAULT_LEDGER_TEXT) with Ok h => Ok h | _ => Panic end in
    Ok (mk_local (le_bytes 32 DEFAULT_STACK_FRAME) (le_bytes 32 0) (le_bytes 32 0) (le_bytes 32 0) 1 0 true ledger true 0 0).

  (** blockchain_state.rs 76-100 *)
  Definition blockchain_of (j : json) : res jerr blockchain :=
    let* ledger_hash := hash_value LEDGER_HASH (index j "stagedLedgerHash") in
    let* aux_hash := aux_value STAGED_LEDGER_HASH_AUX_HASH (index j "stagedLedgerAuxHash") in
    let* pending_coinbase_aux := aux_value STAGED_LEDGER_HASH_PENDING_COINBASE_AUX (index j "stagedLedgerPendingCoinbaseAux") in
    let* pending_coinbase_hash := hash_value COINBASE_HASH (index j "stagedLedgerPendingCoinbaseHash") in
    let* genesis_ledger_hash := hash_value LEDGER_HASH (index j "genesisLedgerHash") in
    let* ledger := hash_value LEDGER_HASH (index j "snarkedLedgerHash") in
    let* local := default_local in
    let* timestamp := number 64 (index j "utcDate") in
    let* body_reference := conv (body_from_hex (as_str (index j "bodyReference"))) in
    Ok (mk_blockchain (mk_staged ledger_hash aux_hash pending_coinbase_aux pending_coinbase_hash)
          genesis_ledger_hash ledger local timestamp body_reference).

  (** epoch_data.rs 27-38 and 78-97 *)
  Definition epoch_of (j : json) : res jerr epoch_data :=
    let* hash := hash_of LEDGER_HASH (as_str (index (index j "ledger") "hash")) in
    let* total_currency := number 64 (index (index j "ledger") "totalCurrency") in
    let* seed := hash_of EPOCH_SEED (as_str (index j "seed")) in
    let* start_checkpoint := hash_of STATE_HASH (as_str (index j "startCheckpoint")) in
    let* lock_checkpoint := hash_of STATE_HASH (as_str (index j "lockCheckpoint")) in
    let* epoch_length := number 32 (index j "epochLength") in
    Ok (mk_epoch hash total_currency seed start_checkpoint lock_checkpoint epoch_length).

  (** consensus_state.rs 179-250; the key of the coinbase receiver at 246 *)
  Definition consensus_of (j : json) : res jerr consensus :=
    let* blockchain_length := number 32 (index j "blockHeight") in
    let* epoch_count := number 32 (index j "epochCount") in
    let* min_window_density := number 32 (index j "minWindowDensity") in
    let* last_vrf_output := vrf_of (as_str (index j "lastVrfOutput")) in
    let* total_currency := number 64 (index j "totalCurrency") in
    let* slot_number := number 32 (index j "slot") in
    let* global_slot_since_genesis := number 32 (index j "slotSinceGenesis") in
    let* staking_epoch_data := epoch_of (index j "stakingEpochData") in
    let* next_epoch_data := epoch_of (index j "nextEpochData") in
    let has_ancestor := as_bool (index j "hasAncestorInSameCheckpointWindow") in
    let* block_stake_winner := key_of (as_str (index j "blockStakeWinner")) in
    let* block_creator := key_of (as_str (index j "blockCreator")) in
    let* coinbase_receiver := key_of (as_str (index j "coinbaseReceiever")) in
    let supercharge_coinbase := as_bool (index j "superchargedCoinbase") in
    Ok (mk_consensus blockchain_length epoch_count min_window_density HARD_DENSITIES last_vrf_output total_currency slot_number
          HARD_SLOTS_PER_EPOCH global_slot_since_genesis staking_epoch_data next_epoch_data has_ancestor block_stake_winner
          block_creator coinbase_receiver supercharge_coinbase).

  (** protocol_state.rs 223-236; 295-304 *)
  Definition body_of (j : json) : res jerr body :=
    let* genesis_state_hash := hash_of STATE_HASH (str_bytes GENESIS_STATE_HASH_TEXT) in
    let* blockchain_state := blockchain_of (index j "blockchainState") in
    let* consensus_state := consensus_of (index j "consensusState") in
    Ok (mk_body genesis_state_hash blockchain_state consensus_state default_constants).
  Definition state_of (j : json) : res jerr state :=
    let* previous_state_hash := hash_of STATE_HASH (as_str (index j "previousStateHash")) in
    let* body := body_of j in
    Ok (mk_state previous_state_hash body).

  (** account/mod.rs 158-211.  A delegate that is no string is none. *)
  Definition delegate_of (j : json) : res jerr (option pubkey) :=
    match j with JStr s => let* k := key_of s in Ok (Some k) | _ => Ok None end.
  Definition account_of (j : json) : res jerr account :=
    let is_disabled := as_bool (index j "isDisabled") in
    let is_token_owner := as_bool (index j "isTokenOwner") in
    let* public_key := key_of (as_str (index j "publicKey")) in
    let* token_id := number 64 (index j "token") in
    let* balance := number 64 (index (index j "balance") "total") in
    let token_permissions := if is_token_owner then TokenOwned is_disabled else NotOwned is_disabled in
    let* nonce := number 32 (index j "nonce") in
    let* receipt_chain_hash := hash_of LEDGER_HASH (as_str (index j "receiptChainHash")) in
    let* delegate := delegate_of (index j "delegate") in
    let* voting_for := hash_of STATE_HASH (as_str (index j "votingFor")) in
    let* timing := timing_of (index j "timing") in
    let* permissions := permissions_of (index j "permissions") in
    Ok (mk_account public_key token_id balance token_permissions (repeat 0 32) nonce receipt_chain_hash delegate voting_for
          timing permissions None None).
End Read.
