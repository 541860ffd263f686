(** What a JSON document says about a protocol state, a command, a block,
    member by member, by the names of the members.  Models no code.  The
    texts of numbers, hashes and keys are those of GraphQL/GraphQLSpec.v,
    decimal amounts those of Text/NumbersSpec.v.

    The first argument of the relations says whether the other forms that the
    reader takes are allowed: a struct as the list of its members in order,
    and a variant with its name in an object. *)

From Coq Require Import String ZArith List.
From Verif Require Import Lib.Bytes Lib.Text BinProt.Codec BinProt.PrimSpec Text.Base58 Text.Base64 Text.FieldText Text.NumbersSpec Json.Json
  GraphQL.GraphQLSpec Hashing.Command Hashing.State Convert.Conv.
Import ListNotations.
Local Open Scope string_scope.
Local Open Scope list_scope.
Local Open Scope Z_scope.

(** Every object of a document has every name once. *)
Fixpoint distinct (j : json) : Prop :=
  match j with
  | JArr l => (fix all (l : list json) : Prop := match l with [] => True | j :: l => distinct j /\ all l end) l
  | JObj m => NoDup (map fst m) /\
    (fix all (m : list (list Z * json)) : Prop := match m with [] => True | (_, j) :: m => distinct j /\ all m end) m
  | _ => True
  end.
(** [parts]: the members with these names. *)
Definition parts (any : bool) (names : list string) (j : json) (xs : list json) : Prop :=
  Forall2 (has j) names xs \/ (any = true /\ j = JArr xs).
(** [tagged]: the content of a variant. *)
Definition tagged (any : bool) (name : string) (j x : json) : Prop :=
  j = JArr [JStr (str_bytes name); x] \/
  (any = true /\ (j = JArr [JObj [(str_bytes name, x)]] \/
     exists a b l, j = JArr (JStr (str_bytes name) :: a :: b :: l) /\ x = JArr (a :: b :: l))).

Definition d_num (bits : Z) (any : bool) (j : json) (n : Z) : Prop := exists s, j = JStr s /\ number_text s n /\ n < 2 ^ bits.
Definition d_bool (any : bool) (j : json) (b : bool) : Prop := j = JBool b.
Definition d_list {A : Type} (R : bool -> json -> A -> Prop) (any : bool) (j : json) (l : list A) : Prop :=
  exists js, j = JArr js /\ Forall2 (R any) js l.
(** padded base64, where padding characters may be missing *)
Definition d_base64 (any : bool) (j : json) (l : list Z) : Prop :=
  bytes_ok l /\ exists body k i, b64_encode l = body ++ List.repeat 61 k /\ Forall (fun c => c <> 61) body /\ (i <= k)%nat /\
    j = JStr (body ++ List.repeat 61 i).

Section Texts.
  Variable checksum : list Z -> list Z.
  Definition d_hash (ver : Z) (any : bool) (j : json) (h : list Z) : Prop := exists s, j = JStr s /\ hash_text checksum ver s h.
  Definition d_check (ver : Z) (any : bool) (j : json) (l : list Z) : Prop := bytes_ok l /\ j = JStr (b58c_encode checksum ver l).
  Definition d_key (any : bool) (j : json) (p : pubkey) : Prop := exists s, j = JStr s /\ key_text checksum s p.
  (** a version number and the two parts, each 32 bytes of a field element *)
  Definition d_sig (any : bool) (j : json) (s : Z * Z) : Prop :=
    0 <= fst s < FP_MODULUS /\ 0 <= snd s < FQ_MODULUS /\ exists w n, int_form w n /\ 0 <= n < 2 ^ 16 /\
      j = JStr (b58c_encode checksum 0x9a (w ++ le_bytes 32 (fst s) ++ le_bytes 32 (snd s))).

  (** ** Protocol states *)
  Definition d_constants (any : bool) (j : json) (c : constants) : Prop :=
    exists a b d e f, parts any ["k"; "slots_per_epoch"; "slots_per_sub_window"; "delta"; "genesis_state_timestamp"] j [a; b; d; e; f] /\
      d_num 32 any a (k c) /\ d_num 32 any b (slots_per_epoch c) /\ d_num 32 any d (slots_per_sub_window c) /\
      d_num 32 any e (delta c) /\ d_num 64 any f (genesis_state_timestamp c).
  Definition d_staged (any : bool) (j : json) (s : staged) : Prop :=
    exists x d, parts any ["non_snark"; "pending_coinbase_hash"] j [x; d] /\
      (exists a b c, parts any ["ledger_hash"; "aux_hash"; "pending_coinbase_aux"] x [a; b; c] /\
        d_hash 0x05 any a (ledger_hash s) /\ d_check 0x0e any b (aux_hash s) /\ d_check 0x0f any c (pending_coinbase_aux s)) /\
      d_hash 0x0c any d (pending_coinbase_hash s).
  Definition d_blockchain (any : bool) (j : json) (s : blockchain_legacy) : Prop :=
    exists a b c d e, parts any ["staged_ledger_hash"; "snarked_ledger_hash"; "genesis_ledger_hash"; "snarked_next_available_token"; "timestamp"] j
        [a; b; c; d; e] /\
      d_staged any a (bl_staged s) /\ d_hash 0x05 any b (bl_snarked_ledger_hash s) /\ d_hash 0x05 any c (bl_genesis_ledger_hash s) /\
      d_num 64 any d (bl_token s) /\ d_num 64 any e (bl_timestamp s).
  Definition d_epoch (any : bool) (j : json) (s : epoch_data) : Prop :=
    exists x c d e f, parts any ["ledger"; "seed"; "start_checkpoint"; "lock_checkpoint"; "epoch_length"] j [x; c; d; e; f] /\
      (exists a b, parts any ["hash"; "total_currency"] x [a; b] /\ d_hash 0x05 any a (e_ledger_hash s) /\ d_num 64 any b (e_total_currency s)) /\
      d_hash 0x0d any c (seed s) /\ d_hash 0x10 any d (start_checkpoint s) /\ d_hash 0x10 any e (lock_checkpoint s) /\
      d_num 32 any f (epoch_length s).
  Definition d_consensus (any : bool) (j : json) (s : consensus) : Prop :=
    exists a b c d e f g h i l k m n o p, parts any
        ["blockchain_length"; "epoch_count"; "min_window_density"; "sub_window_densities"; "last_vrf_output"; "total_currency";
         "curr_global_slot"; "global_slot_since_genesis"; "staking_epoch_data"; "next_epoch_data"; "has_ancestor_in_same_checkpoint_window";
         "block_stake_winner"; "block_creator"; "coinbase_receiver"; "supercharge_coinbase"] j [a; b; c; d; e; f; g; h; i; l; k; m; n; o; p] /\
      d_num 32 any a (blockchain_length s) /\ d_num 32 any b (epoch_count s) /\ d_num 32 any c (min_window_density s) /\
      d_list (d_num 32) any d (sub_window_densities s) /\ d_base64 any e (last_vrf_output s) /\ d_num 64 any f (total_currency s) /\
      (exists x y, parts any ["slot_number"; "slots_per_epoch"] g [x; y] /\ d_num 32 any x (slot_number s) /\ d_num 32 any y (cs_slots_per_epoch s)) /\
      d_num 32 any h (global_slot_since_genesis s) /\ d_epoch any i (staking_epoch_data s) /\ d_epoch any l (next_epoch_data s) /\
      d_bool any k (has_ancestor s) /\ d_key any m (block_stake_winner s) /\ d_key any n (block_creator s) /\ d_key any o (coinbase_receiver s) /\
      d_bool any p (supercharge_coinbase s).
  Definition d_body (any : bool) (j : json) (s : body_legacy) : Prop :=
    exists a b c d, parts any ["genesis_state_hash"; "blockchain_state"; "consensus_state"; "constants"] j [a; b; c; d] /\
      d_hash 0x10 any a (bodyl_genesis_state_hash s) /\ d_blockchain any b (bodyl_blockchain s) /\ d_consensus any c (bodyl_consensus s) /\
      d_constants any d (bodyl_constants s).
  Definition d_state (any : bool) (j : json) (s : state_legacy) : Prop :=
    exists a b, parts any ["previous_state_hash"; "body"] j [a; b] /\ d_hash 0x10 any a (sl_previous s) /\ d_body any b (sl_body s).

  (** ** Commands *)

  (** how the texts of fees are understood *)
  Variable amount : list Z -> Z -> Prop.
  Definition d_fee (any : bool) (j : json) (n : Z) : Prop := exists s, j = JStr s /\ amount s n.
  Definition d_common (any : bool) (j : json) (c : common) : Prop :=
    exists a b d e f g, parts any ["fee"; "fee_token"; "fee_payer_pk"; "nonce"; "valid_until"; "memo"] j [a; b; d; e; f; g] /\
      d_fee any a (fee c) /\ d_num 64 any b (fee_token c) /\ d_key any d (fee_payer_pk c) /\ d_num 32 any e (nonce c) /\
      d_num 32 any f (valid_until c) /\ d_check 0x14 any g (memo c).
  Definition d_command_body (any : bool) (j : json) (b : Command.body) : Prop :=
    match b with
    | Payment source receiver token amt =>
        exists x a b c d, tagged any "Payment" j x /\ parts any ["source_pk"; "receiver_pk"; "token_id"; "amount"] x [a; b; c; d] /\
          d_key any a source /\ d_key any b receiver /\ d_num 64 any c token /\ d_num 64 any d amt
    | SetDelegate delegator new =>
        exists x y a b, tagged any "Stake_delegation" j x /\ tagged any "Set_delegate" x y /\
          parts false ["delegator"; "new_delegate"] y [a; b] /\ d_key any a delegator /\ d_key any b new
    end.
  Definition d_payload (any : bool) (j : json) (p : payload) : Prop :=
    exists a b, parts any ["common"; "body"] j [a; b] /\ d_common any a (p_common p) /\ d_command_body any b (p_body p).
  Definition d_command (any : bool) (j : json) (c : signed_command (Z * Z)) : Prop :=
    exists a b d, parts any ["payload"; "signer"; "signature"] j [a; b; d] /\ d_payload any a (c_payload _ c) /\ d_key any b (c_signer _ c) /\
      d_sig any d (c_signature _ c).

  (** ** Blocks: the protocol state and the commands *)
  Definition d_user_command (any : bool) (j : json) (u : user_command (Z * Z)) : Prop :=
    match u with SignedCommand _ c => exists x, tagged any "Signed_command" j x /\ d_command any x c end.
  Definition d_with_status (any : bool) (j : json) (c : with_status (Z * Z) val) : Prop :=
    exists a b, parts any ["data"; "status"] j [a; b] /\ d_user_command any a (data _ _ c).
  Definition d_prediff (any : bool) (j : json) (d : prediff (Z * Z) val val) : Prop :=
    exists a b c e, parts any ["completed_works"; "commands"; "coinbase"; "internal_command_balances"] j [a; b; c; e] /\
      d_list d_with_status any b (commands _ _ _ d).
  Definition d_diff (any : bool) (j : json) (d : diff (Z * Z) val val) : Prop :=
    exists x a b, parts any ["diff"] j [x] /\ x = JArr [a; b] /\ d_prediff any a (diff_two _ _ _ d) /\
      match diff_one _ _ _ d with None => b = JNull | Some e => d_prediff any b e end.
  Definition d_block (any : bool) (j : json) (t : transition (Z * Z) val val state_legacy) : Prop :=
    exists a b c d, parts any ["protocol_state"; "protocol_state_proof"; "staged_ledger_diff"; "delta_transition_chain_proof"] j [a; b; c; d] /\
      d_state any a (rest _ _ _ _ t) /\ d_diff any c (staged_ledger_diff _ _ _ _ t).
End Texts.

(** A decimal number with at most nine digits behind the point. *)
Definition plain_amount (s : list Z) (n : Z) : Prop := 0 <= n < 2 ^ 64 /\ exists m k, numeral s m k /\ (k <= 9)%nat /\ amount_is n m k.
(** Right on those texts. *)
Definition sane_amount (s : list Z) (n : Z) : Prop := forall z, plain_amount s z -> n = z.
