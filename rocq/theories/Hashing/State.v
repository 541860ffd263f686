(** The hash inputs of a protocol state.
    /repo/base/src/protocol_state.rs, blockchain_state.rs,
    blockchain_state_registers.rs, consensus_state.rs, epoch_data.rs,
    global_slot.rs, and /repo/crypto/src/hash/types.rs 366-430.

    SHA-256 and the two Poseidon hashes (legacy and kimchi) are parameters. *)

From Coq Require Import ZArith List Bool String.
From Verif Require Import Lib.Res Lib.Bytes Hashing.ROInput Hashing.Command Hashing.Account.
Import ListNotations.
Local Open Scope string_scope.
Local Open Scope list_scope.
Local Open Scope Z_scope.

(** protocol_state.rs 26-37 *)
Record constants : Set := mk_constants {
  k : Z; slots_per_epoch : Z; slots_per_sub_window : Z; delta : Z; genesis_state_timestamp : Z }.
(** types.rs 366-370 and 395-399 *)
Record staged : Set := mk_staged {
  ledger_hash : list Z; aux_hash : list Z; pending_coinbase_aux : list Z; pending_coinbase_hash : list Z }.
(** blockchain_state.rs 25-36 *)
Record blockchain_legacy : Set := mk_bl {
  bl_staged : staged; bl_snarked_ledger_hash : list Z; bl_genesis_ledger_hash : list Z; bl_token : Z; bl_timestamp : Z }.
(** blockchain_state_registers.rs 33-56; of [failure_status_tbl : Vec<()>]
    only the length; [SignedAmount] is a magnitude and a sign. *)
Record local_state : Set := mk_local {
  stack_frame : list Z; call_stack : list Z; transaction_commitment : list Z; full_transaction_commitment : list Z;
  ls_token_id : Z; excess : Z; excess_sign : bool; ls_ledger : list Z; success : bool; party_index : Z;
  failure_status_tbl : nat }.
(** blockchain_state.rs 62-74 with blockchain_state_registers.rs 12-20 *)
Record blockchain : Set := mk_blockchain {
  b_staged : staged; b_genesis_ledger_hash : list Z; registers_ledger : list Z; registers_local : local_state;
  b_timestamp : Z; body_reference : list Z }.
(** epoch_data.rs 17-26 and 63-76 *)
Record epoch_data : Set := mk_epoch {
  e_ledger_hash : list Z; e_total_currency : Z; seed : list Z; start_checkpoint : list Z; lock_checkpoint : list Z;
  epoch_length : Z }.
(** consensus_state.rs 128-167, global_slot.rs 13-21 *)
Record consensus : Set := mk_consensus {
  blockchain_length : Z; epoch_count : Z; min_window_density : Z; sub_window_densities : list Z; last_vrf_output : list Z;
  total_currency : Z; slot_number : Z; cs_slots_per_epoch : Z; global_slot_since_genesis : Z;
  staking_epoch_data : epoch_data; next_epoch_data : epoch_data; has_ancestor : bool;
  block_stake_winner : pubkey; block_creator : pubkey; coinbase_receiver : pubkey; supercharge_coinbase : bool }.
(** protocol_state.rs 131-142; 207-216 *)
Record body_legacy : Set := mk_body_legacy {
  bodyl_genesis_state_hash : list Z; bodyl_blockchain : blockchain_legacy; bodyl_consensus : consensus; bodyl_constants : constants }.
Record body : Set := mk_body {
  body_genesis_state_hash : list Z; body_blockchain : blockchain; body_consensus : consensus; body_constants : constants }.
(** 84-92; 260-268 *)
Record state_legacy : Set := mk_state_legacy { sl_previous : list Z; sl_body : body_legacy }.
Record state : Set := mk_state { s_previous : list Z; s_body : body }.

(** ** Parts without a digest *)

(** protocol_state.rs 57-71; 74-82 *)
Definition constants_legacy (c : constants) : res unit lroi :=
  l_append_all l_new [u32_legacy (k c); u32_legacy (delta c); u32_legacy (slots_per_epoch c); u32_legacy (slots_per_sub_window c);
                      u64_legacy (genesis_state_timestamp c)].
Definition constants_chunked (c : constants) : res unit croi :=
  append_all c_new [u32_chunked (k c); u32_chunked (delta c); u32_chunked (slots_per_epoch c); u32_chunked (slots_per_sub_window c);
                    u64_chunked (genesis_state_timestamp c)].

(** consensus_state.rs 77-101; 103-121: [last & 0b1 > 0] and so on are bits *)
Definition vrf_legacy (v : list Z) : res unit lroi :=
  if (List.length v <=? 31)%nat then Ok (l_append_bytes l_new v)
  else
    let roi := l_append_bytes l_new (firstn 31 v) in
    if (31 <? List.length v)%nat then
      let last := nth 31 v 0 in
      Ok (l_append_bool (l_append_bool (l_append_bool (l_append_bool (l_append_bool roi
            (Z.testbit last 0)) (Z.testbit last 1)) (Z.testbit last 2)) (Z.testbit last 3)) (Z.testbit last 4))
    else Ok roi.
Definition vrf_chunked (v : list Z) : res unit croi :=
  if (List.length v <=? 31)%nat then c_append_bytes c_new v
  else
    let* roi := c_append_bytes c_new (firstn 31 v) in
    if (31 <? List.length v)%nat then
      let last := nth 31 v 0 in
      let* roi := c_append_bool roi (Z.testbit last 0) in
      let* roi := c_append_bool roi (Z.testbit last 1) in
      let* roi := c_append_bool roi (Z.testbit last 2) in
      let* roi := c_append_bool roi (Z.testbit last 3) in
      c_append_bool roi (Z.testbit last 4)
    else Ok roi.

(** epoch_data.rs 40-52, 54-60; 98-113, 115-124 *)
Definition epoch_ledger_legacy (e : epoch_data) : res unit lroi :=
  l_append_all l_new [hash_legacy (e_ledger_hash e); u64_legacy (e_total_currency e)].
Definition epoch_ledger_chunked (e : epoch_data) : res unit croi :=
  append_all c_new [hash_chunked (e_ledger_hash e); u64_chunked (e_total_currency e)].
Definition epoch_legacy (e : epoch_data) : res unit lroi :=
  l_append_all l_new [hash_legacy (seed e); hash_legacy (start_checkpoint e); u32_legacy (epoch_length e); epoch_ledger_legacy e;
                      hash_legacy (lock_checkpoint e)].
Definition epoch_chunked (e : epoch_data) : res unit croi :=
  append_all c_new [hash_chunked (seed e); hash_chunked (start_checkpoint e); u32_chunked (epoch_length e); epoch_ledger_chunked e;
                    hash_chunked (lock_checkpoint e)].

(** global_slot.rs 23-35; 37-43 *)
Definition slot_legacy (c : consensus) : res unit lroi := l_append_all l_new [u32_legacy (slot_number c); u32_legacy (cs_slots_per_epoch c)].
Definition slot_chunked (c : consensus) : res unit croi := append_all c_new [u32_chunked (slot_number c); u32_chunked (cs_slots_per_epoch c)].

(** consensus_state.rs 252-282 *)
Definition consensus_legacy (c : consensus) : res unit lroi :=
  let* roi := l_append_all l_new [u32_legacy (blockchain_length c); u32_legacy (epoch_count c); u32_legacy (min_window_density c)] in
  let* roi := l_append_all roi (map u32_legacy (sub_window_densities c)) in
  let* roi := l_append_all roi [vrf_legacy (last_vrf_output c); u64_legacy (total_currency c); slot_legacy c; u32_legacy (global_slot_since_genesis c)] in
  let roi := l_append_bool roi (has_ancestor c) in
  let roi := l_append_bool roi (supercharge_coinbase c) in
  let* roi := l_append_all roi [epoch_legacy (staking_epoch_data c); epoch_legacy (next_epoch_data c)] in
  let roi := l_append_bool (l_append_field roi (pk_x (block_stake_winner c))) (pk_odd (block_stake_winner c)) in
  let roi := l_append_bool (l_append_field roi (pk_x (block_creator c))) (pk_odd (block_creator c)) in
  Ok (l_append_bool (l_append_field roi (pk_x (coinbase_receiver c))) (pk_odd (coinbase_receiver c))).
(** 284-306 *)
Definition consensus_chunked (c : consensus) : res unit croi :=
  let* roi := append_all c_new [u32_chunked (blockchain_length c); u32_chunked (epoch_count c); u32_chunked (min_window_density c)] in
  let* roi := append_all roi (map u32_chunked (sub_window_densities c)) in
  let* roi := append_all roi [vrf_chunked (last_vrf_output c); u64_chunked (total_currency c); slot_chunked c; u32_chunked (global_slot_since_genesis c)] in
  let* roi := c_append_bool roi (has_ancestor c) in
  let* roi := c_append_bool roi (supercharge_coinbase c) in
  append_all roi [epoch_chunked (staking_epoch_data c); epoch_chunked (next_epoch_data c); pubkey_chunked (block_stake_winner c);
                  pubkey_chunked (block_creator c); pubkey_chunked (coinbase_receiver c)].

(** blockchain_state_registers.rs 90-103, numbers.rs 82-86; 22-28 *)
Definition local_chunked (l : local_state) : res unit croi :=
  let* roi := append_all c_new
    [hash_chunked (stack_frame l); hash_chunked (call_stack l); hash_chunked (transaction_commitment l);
     hash_chunked (full_transaction_commitment l); token_id_chunked (ls_token_id l);
     (let* e := u64_chunked (excess l) in c_append_bool e (excess_sign l));
     hash_chunked (ls_ledger l); u32_chunked (party_index l)] in
  c_append_bool roi (success l).
Definition registers_chunked (b : blockchain) : res unit croi :=
  append_all c_new [hash_chunked (registers_ledger b); local_chunked (registers_local b)].

Section Hash.
  Variable sha256 : list Z -> list Z.
  (** [create_legacy(()).hash(..)] and [create_kimchi(()).hash(..)] *)
  Variables legacy kimchi : string -> list Z -> Z.
  Variable checked : bool.

  (** types.rs 402-411; 414-430; 374-393 *)
  Definition digest (s : staged) : list Z := sha256 (rev (ledger_hash s) ++ aux_hash s ++ pending_coinbase_aux s).
  Definition staged_legacy (s : staged) : res unit lroi :=
    l_append_all l_new [Ok (l_append_bytes l_new (digest s)); hash_legacy (pending_coinbase_hash s)].
  Definition staged_chunked (s : staged) : res unit croi :=
    append_all c_new [c_append_bytes c_new (digest s); hash_chunked (pending_coinbase_hash s)].

  (** blockchain_state.rs 44-60; 102-111 *)
  Definition blockchain_legacy_roinput (b : blockchain_legacy) : res unit lroi :=
    l_append_all l_new [staged_legacy (bl_staged b); hash_legacy (bl_snarked_ledger_hash b); hash_legacy (bl_genesis_ledger_hash b);
                        u64_legacy (bl_token b); u64_legacy (bl_timestamp b)].
  Definition blockchain_chunked (b : blockchain) : res unit croi :=
    append_all c_new [staged_chunked (b_staged b); hash_chunked (b_genesis_ledger_hash b); registers_chunked b;
                      u64_chunked (b_timestamp b); c_append_bytes c_new (body_reference b)].

  (** protocol_state.rs 152-165; 250-258 *)
  Definition body_legacy_roinput (b : body_legacy) : res unit lroi :=
    l_append_all l_new [constants_legacy (bodyl_constants b); hash_legacy (bodyl_genesis_state_hash b);
                        blockchain_legacy_roinput (bodyl_blockchain b); consensus_legacy (bodyl_consensus b)].
  Definition body_chunked (b : body) : res unit croi :=
    append_all c_new [constants_chunked (body_constants b); hash_chunked (body_genesis_state_hash b);
                      blockchain_chunked (body_blockchain b); consensus_chunked (body_consensus b)].

  (** 97-111, 119-122 *)
  Definition state_hash_legacy (s : state_legacy) : res unit Z :=
    let* b := body_legacy_roinput (sl_body s) in
    let h := legacy "CodaProtoStateBody" (l_to_fields b) in
    let* r := l_append_hashable l_new (hash_legacy (sl_previous s)) in
    Ok (legacy "CodaProtoState" (l_to_fields (l_append_field r h))).
  (** 306-326, 330-333 *)
  Definition state_hash (s : state) : res unit Z :=
    let* c := body_chunked (s_body s) in
    let* b := roinput_of_chunked checked c in
    let h := kimchi "CodaProtoStateBody" (l_to_fields b) in
    let* c := c_append_chunked c_new (hash_chunked (s_previous s)) in
    let* r := roinput_of_chunked checked (c_append_field c h) in
    Ok (kimchi "CodaProtoState" (l_to_fields r)).
End Hash.
