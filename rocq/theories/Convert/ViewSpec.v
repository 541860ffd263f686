(** What a wire value says about a protocol state, a command, a block, member
    by member, by the positions of the wire format.  Models no code. *)

From Coq Require Import String ZArith List Bool.
From Verif Require Import Lib.Bytes BinProt.Codec Text.FieldText Hashing.Command Hashing.State Ledger.AccountWireSpec Convert.Conv.
Import ListNotations.
Local Open Scope list_scope.
Local Open Scope Z_scope.

Definition w_ver2 {A : Type} (R : val -> A -> Prop) := w_ver (w_ver R).
Definition w_ver3 {A : Type} (R : val -> A -> Prop) := w_ver (w_ver2 R).
(** a vector of bytes *)
Definition w_vec (v : val) (l : list Z) : Prop := v = VSeq (map VInt l) /\ bytes_ok l /\ Z.of_nat (List.length l) < 2 ^ 64.
Definition w_list {A : Type} (R : val -> A -> Prop) (v : val) (l : list A) : Prop := exists vs, v = VSeq vs /\ Forall2 R vs l.
Definition w_bool (v : val) (b : bool) : Prop := v = VBool b.
Definition n32 := w_ver2 (w_num (2 ^ 32)).
Definition n64 := w_ver2 (w_num (2 ^ 64)).
Definition key2 := w_ver2 w_key.
(** a number that is [i32] on the wire: modulo 2^32 *)
Definition w_cast (v : val) (z : Z) : Prop := exists y, v = VInt y /\ - 2 ^ 31 <= y < 2 ^ 31 /\ 0 <= z < 2 ^ 32 /\ (2 ^ 32 | z - y).

(** ** Protocol states *)
Definition w_constants (v : val) (c : constants) : Prop :=
  exists a b d e f, v = VTup [a; b; d; e; f] /\ n32 a (k c) /\ n32 b (slots_per_epoch c) /\ n32 d (slots_per_sub_window c) /\
    n32 e (delta c) /\ n64 f (genesis_state_timestamp c).
Definition w_staged (v : val) (s : staged) : Prop :=
  exists m a b c d, v = VTup [VTup [VInt m; VTup [a; b; c]]; d] /\ w_ver w_bytes a (ledger_hash s) /\ w_ver w_vec b (aux_hash s) /\
    w_ver w_vec c (pending_coinbase_aux s) /\ w_ver2 w_bytes d (pending_coinbase_hash s).
Definition w_blockchain (v : val) (s : blockchain_legacy) : Prop :=
  exists a b c d e, v = VTup [a; b; c; d; e] /\ w_ver2 w_staged a (bl_staged s) /\ w_ver w_bytes b (bl_snarked_ledger_hash s) /\
    w_ver w_bytes c (bl_genesis_ledger_hash s) /\ w_ver3 (w_num (2 ^ 64)) d (bl_token s) /\ n64 e (bl_timestamp s).
Definition w_epoch (v : val) (s : epoch_data) : Prop :=
  exists m n a b c d e f, v = VTup [VTup [VInt m; VTup [VInt n; VTup [a; b]]]; c; d; e; f] /\ w_ver w_bytes a (e_ledger_hash s) /\
    n64 b (e_total_currency s) /\ w_ver w_bytes c (seed s) /\ w_ver w_bytes d (start_checkpoint s) /\ w_ver w_bytes e (lock_checkpoint s) /\
    n32 f (epoch_length s).
Definition w_consensus (v : val) (s : consensus) : Prop :=
  exists m n a b c d e f g1 g2 h i j k l m' o p, v =
    VTup [a; b; c; d; e; f; VTup [VInt m; VTup [VInt n; VTup [g1; g2]]]; h; i; j; k; l; m'; o; p] /\
    n32 a (blockchain_length s) /\ n32 b (epoch_count s) /\ n32 c (min_window_density s) /\ w_list n32 d (sub_window_densities s) /\
    w_ver w_vec e (last_vrf_output s) /\ n64 f (total_currency s) /\ n32 g1 (slot_number s) /\ n32 g2 (cs_slots_per_epoch s) /\
    n32 h (global_slot_since_genesis s) /\ w_ver2 w_epoch i (staking_epoch_data s) /\ w_ver2 w_epoch j (next_epoch_data s) /\
    w_bool k (has_ancestor s) /\ key2 l (block_stake_winner s) /\ key2 m' (block_creator s) /\ key2 o (coinbase_receiver s) /\
    w_bool p (supercharge_coinbase s).
Definition w_body (v : val) (s : body_legacy) : Prop :=
  exists a b c d, v = VTup [a; b; c; d] /\ w_ver w_bytes a (bodyl_genesis_state_hash s) /\ w_ver2 w_blockchain b (bodyl_blockchain s) /\
    w_ver2 w_consensus c (bodyl_consensus s) /\ w_ver2 w_constants d (bodyl_constants s).
Definition w_state_body (v : val) (s : state_legacy) : Prop :=
  exists a b, v = VTup [a; b] /\ w_ver w_bytes a (sl_previous s) /\ w_ver2 w_body b (sl_body s).
Definition w_state := w_ver2 w_state_body.

(** ** Commands *)
Definition w_common (v : val) (c : common) : Prop :=
  exists a b d e f g, v = VTup [a; b; d; e; f; g] /\ n64 a (fee c) /\ w_ver3 (w_num (2 ^ 64)) b (fee_token c) /\ key2 d (fee_payer_pk c) /\
    w_ver2 w_cast e (nonce c) /\ w_ver2 w_cast f (valid_until c) /\ w_ver w_vec g (memo c).
Definition w_command_body (v : val) (b : Command.body) : Prop :=
  match b with
  | Payment source receiver token amount =>
      exists m n a c d e, v = VEnum 0 [VTup [VInt m; VTup [VInt n; VTup [a; c; d; e]]]] /\ key2 a source /\ key2 c receiver /\
        w_ver3 (w_num (2 ^ 64)) d token /\ n64 e amount
  | SetDelegate delegator new => exists m a c, v = VEnum 1 [VTup [VInt m; VEnum 0 [a; c]]] /\ key2 a delegator /\ key2 c new
  end.
Definition w_payload (v : val) (p : payload) : Prop :=
  exists a b, v = VTup [a; b] /\ w_ver3 w_common a (p_common p) /\ w_ver2 w_command_body b (p_body p).
(** both parts are elements of their fields *)
Definition w_sig (v : val) (s : Z * Z) : Prop :=
  exists a b k l, v = VTup [a; b] /\ w_bytes a k /\ w_bytes b l /\ le_val k = fst s /\ fst s < FP_MODULUS /\ le_val l = snd s /\ snd s < FQ_MODULUS.
Definition w_command_inner (v : val) (c : signed_command (Z * Z)) : Prop :=
  exists a b d, v = VTup [a; b; d] /\ w_ver2 w_payload a (c_payload _ c) /\ w_ver3 w_key b (c_signer _ c) /\
    w_ver2 w_sig d (c_signature _ c).
Definition w_command := w_ver2 w_command_inner.
Definition w_user_command_inner (v : val) (u : user_command (Z * Z)) : Prop :=
  match u with SignedCommand _ c => exists a, v = VEnum 0 [a] /\ w_command a c end.

(** ** The commands of a block: nothing is said about the rest of a pre-diff *)
Definition w_with_status (v : val) (c : with_status (Z * Z) val) : Prop :=
  exists a b, v = VTup [a; b] /\ w_ver2 w_user_command_inner a (data _ _ c).
Definition w_prediff (v : val) (d : prediff (Z * Z) val val) : Prop :=
  exists a b c e, v = VTup [a; b; c; e] /\ w_list (w_ver w_with_status) b (commands _ _ _ d).
Definition w_diff (v : val) (d : diff (Z * Z) val val) : Prop :=
  exists m a b, v = VTup [VTup [VInt m; VTup [a; b]]] /\ w_ver2 w_prediff a (diff_two _ _ _ d) /\ w_option (w_ver2 w_prediff) b (diff_one _ _ _ d).
Definition w_block_inner (v : val) (t : transition (Z * Z) val val state_legacy) : Prop :=
  exists a b c d e f g, v = VTup [a; b; c; d; e; f; g] /\ w_state a (rest _ _ _ _ t) /\ w_ver w_diff c (staged_ledger_diff _ _ _ _ t).
Definition w_block := w_ver w_block_inner.
