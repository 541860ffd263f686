(** The first state of the Berkeley network:
    /repo/consensus/src/genesis/genesis_impl.rs 57-181.

    The readers of the texts are those of GraphQL/GraphQL.v and Text/.
    [OnceCell::get_or_init] gives the same reference at every call, so the
    state is a constant; [expect] is not reached if the texts are read. *)

From Coq Require Import String ZArith List Bool.
From Verif Require Import Lib.Res Lib.Bytes Text.Hex Text.Base58 Text.Base64 Text.Checksum Json.Json Hashing.ROInput Hashing.Account Hashing.State GraphQL.GraphQL.
Import ListNotations.
Local Open Scope string_scope.
Local Open Scope list_scope.
Local Open Scope Z_scope.

Definition hash_str (ver : Z) (s : string) : res jerr (list Z) := hash_of sha_checksum true ver (str_bytes s).
(** [VecU8]-like hashes (crypto/src/hash/types.rs): any length *)
Definition aux_str (ver : Z) (s : string) : res jerr (list Z) := conv (from_base58 sha_checksum ver (str_bytes s)).
(** the text of a VRF output is base64 (base/src/consensus_state.rs 75) *)
Definition vrf_str (s : string) : res jerr (list Z) := conv_opt (b64_decode (str_bytes s)).
(** [BodyReference::from_hex] *)
Definition body_str (s : string) : res jerr (list Z) := conv (body_from_hex (str_bytes s)).

Definition LEDGER_TEXT : string := "jwNYQU34Jb9FD6ZbKnWRALZqVDKbMrjZBKWFYZwAw8ZPMgv9Ld4".
Definition GENESIS_TEXT : string := "3NLUmnTBMCeExeWErijZ2GeLnjLtBgsDjN3qM8M8gcJDtk8k89xf".
Definition NULL_TEXT : string := "3NK2tkzqqK5spR2sZ7tujjqPksL45M3UUrcA4WhCkeiPtnugyE2x".
Definition KEY_TEXT : string := "B62qiy32p8kAKnny8ZFwoMhYpBppM1DWVCqAPBYNcXnsAHhnfAAuXgg".
Definition CURRENCY : Z := 1013238001000001000.

(** 125-160 *)
Definition epoch_str (seed_text lock_text : string) (len : Z) : res jerr epoch_data :=
  let* ledger := hash_str LEDGER_HASH LEDGER_TEXT in
  let* sd := hash_str EPOCH_SEED seed_text in
  let* start := hash_str STATE_HASH NULL_TEXT in
  let* lock := hash_str STATE_HASH lock_text in
  Ok (mk_epoch ledger CURRENCY sd start lock len).
(** 65-98 *)
Definition blockchain_str : res jerr blockchain :=
  let* ledger := hash_str LEDGER_HASH LEDGER_TEXT in
  let* aux := aux_str STAGED_LEDGER_HASH_AUX_HASH "UDRUFHSvxUAtV8sh7gzMVPqpbd46roG1wzWR6dYvB6RunPihom" in
  let* pca := aux_str STAGED_LEDGER_HASH_PENDING_COINBASE_AUX "WAAeUjUnP9Q2JiabhJzJozcjiEmkZe8ob4cfFKSuq6pQSNmHh7" in
  let* pch := hash_str COINBASE_HASH "2n27mUhCEctJbiZQdrk3kxYc7DVHvJVDErjXrjNs7jnP3HMLKtuN" in
  let* genesis := hash_str LEDGER_HASH LEDGER_TEXT in
  let* registers := hash_str LEDGER_HASH LEDGER_TEXT in
  let* local := default_local sha_checksum true in
  let* body := body_str "36bda176656cc3be96c3d317db7b4ac06fdbc7f4eedcd6efdd20e28143d67421" in
  Ok (mk_blockchain (mk_staged ledger aux pca pch) genesis registers local 1655755201000 body).
(** 99-172 *)
Definition consensus_str : res jerr consensus :=
  let* vrf := vrf_str "OruOTtGM3tJL3jM0GHtCzKyugvWT0ZP7VckspHX8_g8=" in
  let* staking := epoch_str "2va9BGv9JrLTtrzZttiEMDYw1Zj6a6EHzXjmP9evHDTG3oEquURA" NULL_TEXT 1 in
  let* next := epoch_str "2vc1zQHJx2xN72vaR4YDH31KwFSr5WHSEH2dzcfcq8jxBPcGiJJA" GENESIS_TEXT 2 in
  let* winner := key_of sha_checksum (str_bytes KEY_TEXT) in
  let* creator := key_of sha_checksum (str_bytes KEY_TEXT) in
  let* receiver := key_of sha_checksum (str_bytes KEY_TEXT) in
  Ok (mk_consensus 1 0 77 [1; 7; 7; 7; 7; 7; 7; 7; 7; 7; 7] vrf CURRENCY 0 7140 0 staking next true winner creator receiver true).
(** 57-181; protocol_state.rs 45-55: the default constants *)
Definition berkeley : res jerr state :=
  let* previous := hash_str STATE_HASH GENESIS_TEXT in
  let* genesis := hash_str STATE_HASH GENESIS_TEXT in
  let* blockchain := blockchain_str in
  let* consensus := consensus_str in
  Ok (mk_state previous (mk_body genesis blockchain consensus default_constants)).
