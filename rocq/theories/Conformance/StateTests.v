(** The test of the Berkeley genesis state (/repo/consensus/tests/berkeley.rs),
    run on the model: the hash inputs, whose expected values come from the
    OCaml node.  The state is the one of [ProtocolState::berkeley()]
    (/repo/consensus/src/genesis/genesis_impl.rs 57-178), which is also the one
    in the GraphQL answer of base/src/protocol_state.rs 348-399
    ([C93_fixture], [C93_berkeley]).  The two Poseidon hashes that the test ends with are left
    out. *)
From Coq Require Import String ZArith List Bool.
From Verif Require Import Lib.Res Lib.Bytes Lib.Sha256 Text.Hex Text.Base58 Text.Checksum Json.Json Hashing.ROInput Hashing.Account Hashing.State
  GraphQL.GraphQL GraphQL.GraphQLProps Text.Base64.
Import ListNotations.
Local Open Scope list_scope.
Local Open Scope Z_scope.

Definition state_body : body := s_body C93_state.
Ltac tables := repeat match goal with |- _ /\ _ => split end; vm_compute; reflexivity.

(** 14-22, 205-225 *)
Definition staged_bits : list Z :=
  [1; 1; 1; 0; 1; 1; 0; 0; 1; 1; 0; 1; 0; 0; 0; 0; 1; 0; 0; 0; 1; 1; 1; 0; 1; 0; 0; 0; 1; 1; 0; 0; 1; 1; 0; 0; 0;
   1; 0; 0; 0; 1; 1; 1; 0; 0; 0; 1; 0; 1; 0; 0; 0; 1; 1; 1; 0; 1; 0; 1; 1; 0; 1; 1; 0; 0; 1; 0; 1; 0; 1; 1; 1; 0;
   1; 0; 0; 0; 0; 0; 1; 0; 1; 1; 0; 1; 1; 0; 0; 0; 0; 0; 1; 1; 0; 0; 1; 1; 1; 1; 0; 0; 0; 0; 1; 0; 1; 1; 1; 1; 0;
   1; 1; 1; 0; 0; 0; 0; 0; 1; 1; 0; 0; 0; 1; 1; 1; 1; 1; 0; 0; 0; 0; 1; 0; 1; 1; 0; 1; 0; 0; 1; 0; 0; 1; 0; 1; 0;
   1; 0; 0; 1; 1; 0; 1; 0; 0; 1; 0; 0; 0; 0; 1; 0; 0; 0; 0; 1; 1; 0; 1; 1; 0; 1; 1; 1; 0; 0; 0; 1; 1; 1; 1; 0; 0;
   1; 1; 1; 0; 1; 0; 0; 1; 1; 0; 0; 1; 1; 0; 0; 0; 1; 1; 0; 0; 1; 0; 0; 1; 0; 1; 1; 1; 1; 1; 0; 0; 0; 1; 1; 1; 1;
   0; 1; 0; 1; 0; 0; 1; 1; 0; 0; 1; 0; 1; 1; 0; 0; 1; 1; 1; 0; 0; 1; 1; 1; 1; 0; 0; 0; 1; 0; 0; 1; 1; 0].
Example staged_ledger_hash :
  staged_chunked sha256 (b_staged (body_blockchain state_body)) =
  Ok (mk_croi [18312982411155638834795952767307088331002783393569971720271219236025400527059] (map (fun b => (b, 1)) staged_bits)).
Proof. tables. Qed.

(** 33-45, 236-251 and 265-283 *)
Definition STACK_FRAME : Z := 1345645986294164927562966675279626510497288257949713170124140298300287598676.
Definition LEDGER : Z := 20038089104619582172254839672519820202817728273163650761198500757943363448868.
Example local_state :
  local_chunked (registers_local (body_blockchain state_body)) =
  Ok (mk_croi [STACK_FRAME; 0; 0; 0; 1; 0] [(0, 64); (1, 1); (0, 32); (1, 1)]).
Proof. tables. Qed.
Example registers :
  registers_chunked (body_blockchain state_body) =
  Ok (mk_croi [LEDGER; STACK_FRAME; 0; 0; 0; 1; 0] [(0, 64); (1, 1); (0, 32); (1, 1)]).
Proof. tables. Qed.

(** 47-59: the timestamp and the body reference *)
Definition roinput (c : res unit croi) : res unit lroi := let* c := c in roinput_of_chunked true c.
Example timestamp_and_body_reference :
  u64_chunked (b_timestamp (body_blockchain state_body)) = Ok (mk_croi [] [(1655755201000, 64)]) /\
  roinput (c_append_bytes c_new (body_reference (body_blockchain state_body))) =
  Ok (mk_lroi [12296160664399627495704595388410991961901558829692462701693435696947689868193; 0] []).
Proof. tables. Qed.

(** 67-88 *)
Definition state_consensus : consensus := body_consensus state_body.
Example vrf_and_slot :
  roinput (vrf_chunked (last_vrf_output state_consensus)) =
  Ok (mk_lroi [5250504782050800269768049800766857209688182666876398046583012356259366563838] []) /\
  slot_chunked state_consensus = Ok (mk_croi [] [(0, 32); (7140, 32)]) /\
  roinput (slot_chunked state_consensus) = Ok (mk_lroi [7140] []).
Proof. tables. Qed.

(** 89-125 *)
Example epochs :
  epoch_chunked (staking_epoch_data state_consensus) = Ok (mk_croi [0; 0; LEDGER; 0] [(1, 32); (1013238001000001000, 64)]) /\
  epoch_chunked (next_epoch_data state_consensus) =
  Ok (mk_croi [14681961814697422253233195325942500722138391379385252796689294365564545340151; 0; LEDGER;
               20469705092297587215111758345826930216920373655705023788336254043669748741566] [(2, 32); (1013238001000001000, 64)]).
Proof. tables. Qed.

(** 131-145 *)
Example protocol_constants :
  constants_chunked (body_constants state_body) = Ok (mk_croi [] [(290, 32); (0, 32); (7140, 32); (7, 32); (1655755201000, 64)]) /\
  roinput (constants_chunked (body_constants state_body)) = Ok (mk_lroi [423835474825961846844757681839698573328295964924392] []).
Proof. tables. Qed.

(** base/src/consensus_state.rs 354-365: the two texts of the same output *)
Definition vrf64 : list Z := str_bytes "OruOTtGM3tJL3jM0GHtCzKyugvWT0ZP7VckspHX8_g8=".
Definition vrf58 : list Z := str_bytes "48FthHHNE1y3YmoS4UvKaM6UyGd9nCJXTPVFQUGak7YtonTDUuEd".
Example vrf_output_truncated_serde_roundtrip :
  exists v, b64_decode vrf64 = Some v /\ vrf58_de sha_checksum vrf58 = Ok v /\ b64_encode v = vrf64 /\ vrf58_ser sha_checksum v = vrf58.
Proof. eexists. repeat split; vm_compute; reflexivity. Qed.
