(** Reading and writing base types in JSON.
    /repo/protocol/serialization-types/src/type_annotations.rs 31-51

    The text is read and written by [serde_json]; here a document is a value
    ([json]), as with [from_value] and [to_value], which the crawler and the
    tests use. *)

From Coq Require Import ZArith List.
From Verif Require Import Lib.Res BinProt.Codec Wire.Types Json.Json Json.JsonTypes Convert.Conv Convert.BlockConv.
Import ListNotations.
Local Open Scope Z_scope.

Section JsonBlock.
  Variable checked : bool.
  (** the checksum of base58 texts, and the addresses of public keys *)
  Variable checksum : list Z -> list Z.
  Variable addr : list Z -> bool -> list Z.
  Variable unaddr : list Z -> option (list Z * bool).

  (** 39-42, protocol/versioned/src/macros.rs 65-70: the document is read, made
      the wire value and then the base value; apps/tools/blocks-crawler/src/
      blocks.rs 109-113 does the same.  [From] has no error. *)
  Definition try_from_json (d : dty) (c : conv) (j : json) : res jerr val :=
    let* v := jde checked checksum unaddr d j in
    match down c v with Ok b => Ok b | _ => Panic end.
  (** 45-48, macros.rs 58-63 *)
  Definition try_into_json (d : dty) (c : conv) (b : val) : res jerr json :=
    jser checked checksum addr d (up c b).
End JsonBlock.

(** The base types with a JSON form, a conversion and a wire type: base/src/
    external_transition.rs 34-46, protocol_state.rs 85-100, user_commands/
    signed_command/mod.rs. *)
Definition json_forms : list (dty * conv * ty) :=
  [(jExternalTransition, C_block, ExternalTransitionV1); (jProtocolState, C_state, ProtocolStateV1);
   (jSignedCommand, C_command, SignedCommandV1)].
