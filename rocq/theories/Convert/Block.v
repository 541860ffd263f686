(** Reading and writing base types in bin-prot.
    /repo/protocol/serialization-types/src/type_annotations.rs 9-29 *)

From Coq Require Import ZArith List.
From Verif Require Import Lib.Res BinProt.Prim BinProt.Codec BinProt.BufRead Wire.Types Convert.Conv Convert.BlockConv.
Import ListNotations.
Local Open Scope Z_scope.

(** [binprot.into()]: [From] has no error *)
Definition lift (r : res unit val) : res err val := match r with Ok b => Ok b | _ => Panic end.
(** 16-19, the type [T] and its conversion given as [t] and [c]; [cap] is the
    size of the reader's buffer *)
Definition try_from_binprot (cap : Z) (checked : bool) (c : conv) (t : ty) (rdr : inner) : res err val :=
  let* binprot := from_reader_strict cap checked t rdr in
  lift (down c binprot).
(** 22-27 *)
Definition try_into_binprot (checked : bool) (c : conv) (t : ty) (b : val) : res err (list Z) :=
  to_bytes checked t (up c b).

(** The base types treated here with their wire types: base/src/
    external_transition.rs 34-42, protocol_state.rs 85-95, user_commands/
    signed_command/mod.rs. *)
Definition converted : list (conv * ty) :=
  [(C_block, ExternalTransitionV1); (C_state, ProtocolStateV1); (C_command, SignedCommandV1)].
