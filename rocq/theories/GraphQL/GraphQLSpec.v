(** What the answers of a GraphQL server say, written down independently of
    the parser.  Base58 texts are those of Text/Base58.v (C53 says what they
    denote); numbers and hex digits are specified in Lib/Decimal.v and
    Text/HexSpec.v, the version number of a hash in BinProt/PrimSpec.v. *)

From Coq Require Import String ZArith List.
From Verif Require Import Lib.Bytes Lib.Decimal Lib.Text BinProt.PrimSpec Text.Base58 Text.HexSpec Text.FieldText Json.Json
  Hashing.Command Hashing.Account Hashing.State.
Import ListNotations.
Local Open Scope string_scope.
Local Open Scope list_scope.
Local Open Scope Z_scope.
Notation length := List.length.

(** [has j k v]: the object [j] has a member [k] with the value [v], the first
    of that name (the names are distinct). *)
Definition has (j : json) (k : string) (v : json) : Prop :=
  exists a b, j = JObj (a ++ (str_bytes k, v) :: b) /\ ~ In (str_bytes k) (map fst a).
(** A decimal number, possibly with a plus sign and leading zeros. *)
Definition number_text (s : list Z) (n : Z) : Prop :=
  exists d, (s = d \/ s = 43 :: d) /\ d <> [] /\ digits d /\ dec_val d = n.
Definition num_member (j : json) (k : string) (bits n : Z) : Prop :=
  exists s, has j k (JStr s) /\ number_text s n /\ n < 2 ^ bits.
Definition flag (j : json) (k : string) (b : bool) : Prop := b = true <-> has j k (JBool true).
Definition bytes32 (l : list Z) : Prop := length l = 32%nat /\ bytes_ok l.

(** ** Permissions *)
Definition auth_name (a : auth) : string :=
  match a with
  | ANone => "None" | AEither => "Either" | AProof => "Proof" | ASignature => "Signature" | ABoth => "Both"
  | AImpossible => "Impossible"
  end.
Definition auth_member (j : json) (k : string) (a : auth) : Prop := has j k (JStr (str_bytes (auth_name a))).
(** All but [incrementNonce]. *)
Definition other_permissions (j : json) (p : permissions) : Prop :=
  auth_member j "editState" (edit_state p) /\ auth_member j "send" (send p) /\ auth_member j "receive" (receive p) /\
  auth_member j "setDelegate" (set_delegate p) /\ auth_member j "setPermissions" (set_permissions p) /\
  auth_member j "setVerificationKey" (set_verification_key p) /\ auth_member j "setZkappUri" (set_zkapp_uri p) /\
  auth_member j "editSequenceState" (edit_sequence_state p) /\ auth_member j "setTokenSymbol" (set_token_symbol p) /\
  auth_member j "setVotingFor" (set_voting_for p).
Definition permissions_answer (j : json) (p : permissions) : Prop :=
  other_permissions j p /\ auth_member j "incrementNonce" (increment_nonce p).

(** ** Timing *)
Definition timed_answer (j : json) (d : timed_data) : Prop :=
  num_member j "initialMinimumBalance" 64 (initial_minimum_balance d) /\ num_member j "cliffTime" 64 (cliff_time d) /\
  num_member j "cliffAmount" 64 (cliff_amount d) /\ num_member j "vestingPeriod" 64 (vesting_period d) /\
  num_member j "vestingIncrement" 64 (vesting_increment d).

Section Answer.
  Variable checksum : list Z -> list Z.

  (** A version number of 16 bits in any integer form, and 32 bytes. *)
  Definition hash_text (ver : Z) (s h : list Z) : Prop :=
    bytes32 h /\ exists w n, int_form w n /\ 0 <= n < 2 ^ 16 /\ s = b58c_encode checksum ver (w ++ h).
  Definition hash_member (j : json) (k : string) (ver : Z) (h : list Z) : Prop :=
    exists s, has j k (JStr s) /\ hash_text ver s h.
  Definition aux_member (j : json) (k : string) (ver : Z) (l : list Z) : Prop :=
    bytes_ok l /\ has j k (JStr (b58c_encode checksum ver l)).
  (** Three version bytes, the coordinate, the parity. *)
  Definition key_text (s : list Z) (p : pubkey) : Prop :=
    0 <= pk_x p < FP_MODULUS /\
    s = b58c_encode checksum 0xcb (1 :: 1 :: le_bytes 32 (pk_x p) ++ [if pk_odd p then 1 else 0]).
  Definition key_member (j : json) (k : string) (p : pubkey) : Prop := exists s, has j k (JStr s) /\ key_text s p.
  (** A length byte, which may be anything, and the output; or nothing. *)
  Definition vrf_member (j : json) (k : string) (v : list Z) : Prop :=
    (bytes_ok v /\ exists n, byte_ok n /\ has j k (JStr (b58c_encode checksum 0x15 (n :: v)))) \/
    (v = [] /\ has j k (JStr (b58c_encode checksum 0x15 []))).
  Definition hex_member (j : json) (k : string) (l : list Z) : Prop :=
    exists s, has j k (JStr s) /\ hexes s l /\ length l = 32%nat.

  Definition epoch_answer (j : json) (e : epoch_data) : Prop :=
    (exists l, has j "ledger" l /\ hash_member l "hash" 0x05 (e_ledger_hash e) /\ num_member l "totalCurrency" 64 (e_total_currency e)) /\
    hash_member j "seed" 0x0d (seed e) /\ hash_member j "startCheckpoint" 0x10 (start_checkpoint e) /\
    hash_member j "lockCheckpoint" 0x10 (lock_checkpoint e) /\ num_member j "epochLength" 32 (epoch_length e).

  (** Everything of a consensus state but the sub-window densities and the
      slots per epoch. *)
  Definition consensus_answer (j : json) (c : consensus) : Prop :=
    num_member j "blockHeight" 32 (blockchain_length c) /\ num_member j "epochCount" 32 (epoch_count c) /\
    num_member j "minWindowDensity" 32 (min_window_density c) /\ vrf_member j "lastVrfOutput" (last_vrf_output c) /\
    num_member j "totalCurrency" 64 (total_currency c) /\ num_member j "slot" 32 (slot_number c) /\
    num_member j "slotSinceGenesis" 32 (global_slot_since_genesis c) /\
    (exists e, has j "stakingEpochData" e /\ epoch_answer e (staking_epoch_data c)) /\
    (exists e, has j "nextEpochData" e /\ epoch_answer e (next_epoch_data c)) /\
    flag j "hasAncestorInSameCheckpointWindow" (has_ancestor c) /\
    key_member j "blockStakeWinner" (block_stake_winner c) /\ key_member j "blockCreator" (block_creator c) /\
    key_member j "coinbaseReceiever" (coinbase_receiver c) /\ flag j "superchargedCoinbase" (supercharge_coinbase c).

  (** Everything of a blockchain state but the local state. *)
  Definition blockchain_answer (j : json) (b : blockchain) : Prop :=
    hash_member j "stagedLedgerHash" 0x05 (ledger_hash (b_staged b)) /\
    aux_member j "stagedLedgerAuxHash" 0x0e (aux_hash (b_staged b)) /\
    aux_member j "stagedLedgerPendingCoinbaseAux" 0x0f (pending_coinbase_aux (b_staged b)) /\
    hash_member j "stagedLedgerPendingCoinbaseHash" 0x0c (pending_coinbase_hash (b_staged b)) /\
    hash_member j "genesisLedgerHash" 0x05 (b_genesis_ledger_hash b) /\
    hash_member j "snarkedLedgerHash" 0x05 (registers_ledger b) /\
    num_member j "utcDate" 64 (b_timestamp b) /\ hex_member j "bodyReference" (body_reference b).

  (** Everything of a protocol state but these, the genesis state hash and the
      constants. *)
  Definition state_answer (j : json) (s : state) : Prop :=
    hash_member j "previousStateHash" 0x10 (s_previous s) /\
    (exists b, has j "blockchainState" b /\ blockchain_answer b (body_blockchain (s_body s))) /\
    (exists c, has j "consensusState" c /\ consensus_answer c (body_consensus (s_body s))).

  (** ** Accounts *)
  Definition delegate_answer (j : json) (d : option pubkey) : Prop :=
    match d with
    | Some p => key_member j "delegate" p
    | None => forall s, ~ has j "delegate" (JStr s)
    end.
  Definition timing_answer (j : json) (t : timing) : Prop :=
    match t with
    | Timed d => exists t, has j "timing" t /\ timed_answer t d
    | Untimed => forall t d, has j "timing" t -> ~ timed_answer t d
    end.
  (** Everything of an account but the token symbol, the zkapp, its uri and
      the permissions. *)
  Definition account_answer (j : json) (a : account) : Prop :=
    key_member j "publicKey" (public_key a) /\ num_member j "token" 64 (token_id a) /\
    (exists b, has j "balance" b /\ num_member b "total" 64 (balance a)) /\
    match a_token_permissions a with
    | TokenOwned d => has j "isTokenOwner" (JBool true) /\ flag j "isDisabled" d
    | NotOwned d => ~ has j "isTokenOwner" (JBool true) /\ flag j "isDisabled" d
    end /\
    num_member j "nonce" 32 (a_nonce a) /\ hash_member j "receiptChainHash" 0x05 (receipt_chain_hash a) /\
    delegate_answer j (delegate a) /\ hash_member j "votingFor" 0x10 (voting_for a) /\ timing_answer j (a_timing a).
End Answer.

(** ** The values that are not read *)

(** The genesis state hash of the literal, and the default local state. *)
Definition GENESIS_HASH : list Z :=
  [190; 117; 143; 59; 188; 82; 193; 122; 243; 231; 140; 96; 23; 80; 98; 12; 149; 101; 129; 171; 32; 140; 250; 173; 180; 213; 162; 79; 72; 113; 65; 45].
Definition DEFAULT_LOCAL : local_state :=
  mk_local (le_bytes 32 0x02F99BCFB0AA7F48C1888DA5A67196A2410FB084CD2DB1AF5216C5122AEBC054) (repeat 0 32) (repeat 0 32) (repeat 0 32)
    1 0 true (repeat 0 32) true 0 0.
Definition fixed_consensus (c : consensus) : Prop :=
  sub_window_densities c = 1 :: repeat 7 10 /\ cs_slots_per_epoch c = 7140.
Definition fixed_state (s : state) : Prop :=
  body_genesis_state_hash (s_body s) = GENESIS_HASH /\ registers_local (body_blockchain (s_body s)) = DEFAULT_LOCAL /\
  fixed_consensus (body_consensus (s_body s)) /\ body_constants (s_body s) = mk_constants 290 7140 7 0 1655755201000.
Definition fixed_account (a : account) : Prop :=
  token_symbol a = repeat 0 32 /\ zkapp a = None /\ zkapp_uri a = None.
(** The state with these values put in, the rest as it was. *)
Definition fix_state (s : state) : state :=
  let b := body_blockchain (s_body s) in
  let c := body_consensus (s_body s) in
  mk_state (s_previous s) (mk_body GENESIS_HASH
    (mk_blockchain (b_staged b) (b_genesis_ledger_hash b) (registers_ledger b) DEFAULT_LOCAL (b_timestamp b) (body_reference b))
    (mk_consensus (blockchain_length c) (epoch_count c) (min_window_density c) (1 :: repeat 7 10) (last_vrf_output c) (total_currency c)
       (slot_number c) 7140 (global_slot_since_genesis c) (staking_epoch_data c) (next_epoch_data c) (has_ancestor c)
       (block_stake_winner c) (block_creator c) (coinbase_receiver c) (supercharge_coinbase c))
    (mk_constants 290 7140 7 0 1655755201000)).
Definition fix_account (a : account) : account :=
  let p := a_permissions a in
  mk_account (public_key a) (token_id a) (balance a) (a_token_permissions a) (repeat 0 32) (a_nonce a) (receipt_chain_hash a)
    (delegate a) (voting_for a) (a_timing a)
    (mk_perms (edit_state p) (send p) (receive p) (set_delegate p) (set_permissions p) (set_verification_key p) (set_zkapp_uri p)
       (edit_sequence_state p) (set_token_symbol p) (edit_state p) (set_voting_for p)) None None.
