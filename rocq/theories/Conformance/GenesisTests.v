(** The texts of the configuration of mainnet, and the test of its first block
    (/repo/consensus/tests/genesis.rs), run on the model. *)
From Coq Require Import String ZArith List Bool.
From Verif Require Import Lib.Res Lib.Bytes Text.Base58 Text.Base64 Text.Checksum Text.Numbers BinProt.Codec Wire.Types
  Hashing.ROInput Hashing.Command Ledger.AccountWire Convert.Conv Convert.BlockConv Convert.View Consensus.Chain Consensus.Genesis.
Import ListNotations.
Local Open Scope string_scope.
Local Open Scope list_scope.
Local Open Scope Z_scope.

Ltac tables := repeat match goal with |- _ /\ _ => split end; vm_compute; reflexivity.

(** The texts of consensus/src/genesis/config.rs 62-124, 480-516 stand for the
    bytes that Consensus/Genesis.v has. *)
Definition hash_text (ver : Z) (s : string) : option val :=
  match from_base58_versioned sha_checksum true ver HashV1 (str_bytes s) with Ok (VTup [VInt 1; v]) => Some v | _ => None end.
Definition aux_text (ver : Z) (s : string) : option val :=
  match from_base58 sha_checksum ver (str_bytes s) with Ok v => Some (bytesv v) | _ => None end.
Example mainnet_texts :
  hash_text LEDGER_HASH "jx7buQVWFLsXTtzRgSxbYcT8EYLS8KCZbLrfDcJxMtyy4thw2Ee" = Some ledger_hash /\
  hash_text EPOCH_SEED "2va9BGv9JrLTtrzZttiEMDYw1Zj6a6EHzXjmP9evHDTG3oEquURA" = Some staking_seed /\
  hash_text EPOCH_SEED "2vaRh7FQ5wSzmpFReF9gcRKjv48CcJvHs25aqb3SSZiPgHQBy5Dt" = Some next_seed /\
  hash_text STATE_HASH "3NK2tkzqqK5spR2sZ7tujjqPksL45M3UUrcA4WhCkeiPtnugyE2x" = Some null_hash /\
  hash_text STATE_HASH "3NLoKn22eMnyQ7rxh5pxB6vBA3XhSAhhrf7akdqS6HbAKD14Dh1d" = Some previous_hash /\
  hash_text COINBASE_HASH "2n1tLdP2gkifmyVmrmzYXTS4ohPbZPJn6Qq4x55ywrbRWB4543cC" = Some pending_coinbase_hash /\
  aux_text STAGED_LEDGER_HASH_AUX_HASH "UDRUFHSvxUAtV8sh7gzMVPqpbd46roG1wzWR6dYvB6RunPihom" = Some aux_hash /\
  aux_text STAGED_LEDGER_HASH_PENDING_COINBASE_AUX "WAAeUjUnP9Q2JiabhJzJozcjiEmkZe8ob4cfFKSuq6pQSNmHh7" = Some pending_coinbase_aux /\
  option_map bytesv (b64_decode (str_bytes "NfThG1r1GxQuhaGLSJWGxcpv24SudtXG4etB0TnGqwg=")) = Some vrf_output /\
  option_map (fun k => keyv (le_val (fst k)) (snd k)) (from_address sha_checksum (str_bytes "B62qiy32p8kAKnny8ZFwoMhYpBppM1DWVCqAPBYNcXnsAHhnfAAuXgg")) = Some genesis_key.
Proof. tables. Qed.

(** consensus/tests/genesis.rs 18-120: the currency and the time of the first
    block, as texts and as an instant (2021-03-17 00:00:00 UTC) *)
Example test_genesis_mainnet :
  amount_display mainnet_currency = str_bytes "805385692.840039233" /\
  field C_BlockchainState "timestamp" mainnet_blockchain = VInt 1615939200000 /\
  datetime 1615939200000 = Ok 1615939200000 /\
  cstate_of (state_val (match from_genesis_config true (mainnet VUnit) with Ok b => b | _ => VUnit end)) =
    {| blockchain_length := 1; epoch_count := 0; min_window_density := 77;
       sub_window_densities := [1; 7; 7; 7; 7; 7; 7; 7; 7; 7; 7];
       last_vrf_output := vec_of vrf_output; slot_number := 0; slots_per_epoch := 7140;
       staking_lock := vec_of null_hash; next_lock := vec_of previous_hash |}.
Proof. tables. Qed.
