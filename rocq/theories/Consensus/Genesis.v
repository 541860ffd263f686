(** Model of /repo/consensus/src/genesis/{mod,config,genesis_impl}.rs: the
    first block of a chain, made from a configuration.

    A member of the configuration that is only copied is a base value
    (Convert/Conv.v); numbers that the code computes with are integers.
    Simplification: in the configuration of mainnet the hashes and keys are the
    bytes and field elements that the texts in config.rs stand for (the readers
    of those texts are in Text/; Conformance/GenesisTests.v compares them), and
    its proof is a parameter: GenesisProof.v has the one of config.rs. *)

From Coq Require Import String ZArith List Bool.
From Verif Require Import Lib.Res Lib.Bytes BinProt.Codec Hashing.ROInput Hashing.Command Ledger.AccountWire
  Consensus.Chain Convert.Conv Convert.BlockConv Convert.View.
Import ListNotations.
Local Open Scope string_scope.
Local Open Scope list_scope.
Local Open Scope Z_scope.

(** config.rs 27-44 *)
Record config := mk_config {
  g_constants : val;
  g_sub_windows_per_window : Z;
  g_last_vrf_output : val;
  g_total_currency : Z;
  g_sub_window_densities : list Z;
  g_staking_epoch_data : val;
  g_next_epoch_data : val;
  g_block_stake_winner : val;
  g_block_creator : val;
  g_coinbase_receiver : val;
  g_genesis_state_hash : val;
  g_previous_state_hash : val;
  g_blockchain_state : val;
  g_protocol_state_proof : val;
  g_delta_transition_chain_proof : val }.

(** A struct expression [Name { field: value, .. }]: the fields in any order. *)
Definition lit (c : conv) (fs : list (string * val)) : val :=
  VTup (map (fun n => match at_name n (map fst fs) (map snd fs) with Some v => v | None => VUnit end) (names_of c)).

(** u32 multiplication: panics or wraps. *)
Definition mul32 (checked : bool) (a b : Z) : res unit Z :=
  if a * b <=? u32_max then Ok (a * b) else if checked then Panic else Ok ((a * b) mod 2 ^ 32).

(** /repo/base/src/staged_ledger_diff.rs 21-69, 155-162: the defaults *)
Definition default_prediff : val :=
  lit C_StagedLedgerPreDiff
    [("completed_works", VSeq []); ("commands", VSeq []); ("coinbase", VEnum 0 []); ("internal_command_balances", VSeq [])].
Definition default_diff : val := lit C_StagedLedgerDiff [("diff", VTup [default_prediff; VNone])].
(** /repo/base/src/protocol_version.rs 20-28 *)
Definition default_version : val := lit C_ProtocolVersion [("major", VInt 2); ("minor", VInt 0); ("patch", VInt 0)].

(** genesis_impl.rs 18-42: the consensus state *)
Definition genesis_consensus (g : config) (density : Z) : val :=
  lit C_ConsensusState
    [("block_creator", g_block_creator g);
     ("block_stake_winner", g_block_stake_winner g);
     ("blockchain_length", VInt 1);
     ("epoch_count", VInt 0);
     ("coinbase_receiver", g_coinbase_receiver g);
     ("curr_global_slot", lit C_GlobalSlot
        [("slot_number", VInt 0); ("slots_per_epoch", field C_ProtocolConstants "slots_per_epoch" (g_constants g))]);
     ("global_slot_since_genesis", VInt 0);
     ("has_ancestor_in_same_checkpoint_window", VBool true);
     ("last_vrf_output", g_last_vrf_output g);
     ("min_window_density", VInt density);
     ("next_epoch_data", g_next_epoch_data g);
     ("staking_epoch_data", g_staking_epoch_data g);
     ("sub_window_densities", VSeq (map VInt (g_sub_window_densities g)));
     ("supercharge_coinbase", VBool true);
     ("total_currency", VInt (g_total_currency g))].
(** 14-46 *)
Definition genesis_state (g : config) (density : Z) : val :=
  lit C_ProtocolState
    [("body", lit C_ProtocolStateBody
        [("blockchain_state", g_blockchain_state g);
         ("constants", g_constants g);
         ("consensus_state", genesis_consensus g density);
         ("genesis_state_hash", g_genesis_state_hash g)]);
     ("previous_state_hash", g_previous_state_hash g)].
(** 13-57 *)
Definition from_genesis_config (checked : bool) (g : config) : res unit val :=
  let* density := mul32 checked (g_sub_windows_per_window g)
                    (int_of (field C_ProtocolConstants "slots_per_sub_window" (g_constants g))) in
  Ok (lit C_ExternalTransition
    [("staged_ledger_diff", default_diff);
     ("protocol_state", genesis_state g density);
     ("protocol_state_proof", g_protocol_state_proof g);
     ("delta_transition_chain_proof", g_delta_transition_chain_proof g);
     ("current_protocol_version", default_version);
     ("proposed_protocol_version_opt", VNone);
     ("validation_callback", VUnit)]).

(** What Consensus/Chain.v reads of a protocol state: /repo/base/src/
    protocol_state.rs 169-182. *)
Definition cstate_of (b : val) : cstate :=
  let f n := field C_ConsensusState n
    (field C_ProtocolStateBody "consensus_state" (field C_ProtocolState "body" b)) in
  let s n := int_of (field C_GlobalSlot n (f "curr_global_slot")) in
  {| blockchain_length := int_of (f "blockchain_length");
     epoch_count := int_of (f "epoch_count");
     min_window_density := int_of (f "min_window_density");
     sub_window_densities := map int_of (list_of (f "sub_window_densities"));
     last_vrf_output := vec_of (f "last_vrf_output");
     slot_number := s "slot_number";
     slots_per_epoch := s "slots_per_epoch";
     staking_lock := vec_of (field C_EpochData "lock_checkpoint" (f "staking_epoch_data"));
     next_lock := vec_of (field C_EpochData "lock_checkpoint" (f "next_epoch_data")) |}.
(** the protocol state of a block *)
Definition state_val (b : val) : val := field C_ExternalTransition "protocol_state" b.

(** ** The configuration of mainnet: config.rs 47-134, 478-529 *)
Definition bytesv (bs : list Z) : val := VSeq (map VInt bs).
Definition arrayv (bs : list Z) : val := VTup (map VInt bs).
Definition keyv (x : Z) (odd : bool) : val := VTup [VInt x; VBool odd].
Section Mainnet.
Variable proof : val.
(** the texts in config.rs, by their bytes: *)
(** [jx7buQVWFLsXTtzRgSxbYcT8EYLS8KCZbLrfDcJxMtyy4thw2Ee] *)
Definition ledger_hash : val := arrayv
  [133; 246; 174; 16; 42; 48; 61; 19; 82; 234; 190; 184; 70; 31; 98; 164; 122; 104; 123; 109; 205; 231; 98; 51;
   185; 32; 113; 104; 160; 172; 247; 44].
(** [2va9BGv9JrLTtrzZttiEMDYw1Zj6a6EHzXjmP9evHDTG3oEquURA] *)
Definition staking_seed : val := arrayv
  [0; 0; 0; 0; 0; 0; 0; 0; 0; 0; 0; 0; 0; 0; 0; 0; 0; 0; 0; 0; 0; 0; 0; 0; 0; 0; 0; 0; 0; 0; 0; 0].
(** [2vaRh7FQ5wSzmpFReF9gcRKjv48CcJvHs25aqb3SSZiPgHQBy5Dt] *)
Definition next_seed : val := arrayv
  [37; 127; 117; 208; 167; 148; 99; 11; 218; 242; 217; 7; 37; 244; 201; 93; 161; 26; 189; 134; 47; 184; 162; 248;
   138; 185; 76; 65; 250; 11; 141; 53].
(** [3NK2tkzqqK5spR2sZ7tujjqPksL45M3UUrcA4WhCkeiPtnugyE2x] *)
Definition null_hash : val := arrayv
  [0; 0; 0; 0; 0; 0; 0; 0; 0; 0; 0; 0; 0; 0; 0; 0; 0; 0; 0; 0; 0; 0; 0; 0; 0; 0; 0; 0; 0; 0; 0; 0].
(** [3NLoKn22eMnyQ7rxh5pxB6vBA3XhSAhhrf7akdqS6HbAKD14Dh1d] *)
Definition previous_hash : val := arrayv
  [232; 149; 55; 214; 162; 25; 166; 75; 189; 7; 127; 231; 219; 235; 171; 161; 183; 9; 227; 123; 211; 166; 117;
   103; 24; 130; 127; 33; 8; 154; 124; 2].
(** [UDRUFHSvxUAtV8sh7gzMVPqpbd46roG1wzWR6dYvB6RunPihom] *)
Definition aux_hash : val := bytesv
  [0; 0; 0; 0; 0; 0; 0; 0; 0; 0; 0; 0; 0; 0; 0; 0; 0; 0; 0; 0; 0; 0; 0; 0; 0; 0; 0; 0; 0; 0; 0; 0].
(** [WAAeUjUnP9Q2JiabhJzJozcjiEmkZe8ob4cfFKSuq6pQSNmHh7] *)
Definition pending_coinbase_aux : val := bytesv
  [0; 0; 0; 0; 0; 0; 0; 0; 0; 0; 0; 0; 0; 0; 0; 0; 0; 0; 0; 0; 0; 0; 0; 0; 0; 0; 0; 0; 0; 0; 0; 0].
(** [2n1tLdP2gkifmyVmrmzYXTS4ohPbZPJn6Qq4x55ywrbRWB4543cC] *)
Definition pending_coinbase_hash : val := arrayv
  [181; 11; 37; 86; 222; 164; 71; 87; 148; 33; 179; 28; 45; 105; 84; 101; 213; 139; 62; 8; 151; 254; 200; 87;
   145; 171; 231; 120; 24; 23; 162; 33].
(** [NfThG1r1GxQuhaGLSJWGxcpv24SudtXG4etB0TnGqwg=] *)
Definition vrf_output : val := bytesv
  [53; 244; 225; 27; 90; 245; 27; 20; 46; 133; 161; 139; 72; 149; 134; 197; 202; 111; 219; 132; 174; 118; 213;
   198; 225; 235; 65; 209; 57; 198; 171; 8].
(** [B62qiy32p8kAKnny8ZFwoMhYpBppM1DWVCqAPBYNcXnsAHhnfAAuXgg] *)
Definition genesis_key : val := keyv 0x31d36bb7985684ad4e4be03b6043d77b795bb7befe4eeae4f3855fd25bc6480f false.

(** 49-56; /repo/base/src/numbers.rs 248-257: seconds become milliseconds *)
Definition mainnet_constants : val :=
  lit C_ProtocolConstants
    [("k", VInt 290); ("slots_per_epoch", VInt 7140); ("slots_per_sub_window", VInt 7); ("delta", VInt 0);
     ("genesis_state_timestamp", VInt (1615939200 * 1000))].
(** 57 *)
Definition mainnet_currency : Z := 805385692840039233.
(** 59-92 *)
Definition mainnet_epoch (length : Z) (seed lock : val) : val :=
  lit C_EpochData
    [("epoch_length", VInt length);
     ("ledger", lit C_EpochLedger [("hash", ledger_hash); ("total_currency", VInt mainnet_currency)]);
     ("seed", seed);
     ("start_checkpoint", null_hash);
     ("lock_checkpoint", lock)].
(** 94-125 *)
Definition mainnet_blockchain : val :=
  lit C_BlockchainState
    [("timestamp", VInt (1615939200 * 1000));
     ("snarked_next_available_token", VInt 2);
     ("snarked_ledger_hash", ledger_hash);
     ("genesis_ledger_hash", ledger_hash);
     ("staged_ledger_hash", lit C_StagedLedgerHash
        [("non_snark", lit C_NonSnarkStagedLedgerHash
            [("ledger_hash", ledger_hash); ("aux_hash", aux_hash); ("pending_coinbase_aux", pending_coinbase_aux)]);
         ("pending_coinbase_hash", pending_coinbase_hash)])].
(** 478-529 *)
Definition mainnet : config := {|
  g_sub_windows_per_window := 11;
  g_last_vrf_output := vrf_output;
  g_total_currency := mainnet_currency;
  g_sub_window_densities := [1; 7; 7; 7; 7; 7; 7; 7; 7; 7; 7];
  g_constants := mainnet_constants;
  g_staking_epoch_data := mainnet_epoch 1 staking_seed null_hash;
  g_next_epoch_data := mainnet_epoch 2 next_seed previous_hash;
  g_block_stake_winner := genesis_key;
  g_block_creator := genesis_key;
  g_coinbase_receiver := genesis_key;
  g_genesis_state_hash := previous_hash;
  g_previous_state_hash := previous_hash;
  g_blockchain_state := mainnet_blockchain;
  g_protocol_state_proof := proof;
  g_delta_transition_chain_proof := VTup [previous_hash; VSeq []] |}.
(** 532-535 *)
Definition devnet : config := mainnet.
End Mainnet.
