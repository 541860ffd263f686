(** [try_from_json] and [try_into_json] of the base types
    (/repo/protocol/serialization-types/src/type_annotations.rs 39-48), on
    texts.  As in Convert/JsonBlock.v, an error of the conversion is a crash
    ([into] has no error). *)

From Coq Require Import ZArith List.
From Verif Require Import Lib.Res BinProt.Codec Json.Json Convert.Conv.
From Verif Require Import Json.JsonText.

Section BlockText.
  Variable checked : bool.
  Variable checksum : list Z -> list Z.
  Variable addr : list Z -> bool -> list Z.
  Variable unaddr : list Z -> option (list Z * bool).
  Variable float_of : list Z -> option Z.
  Variable float_text : Z -> list Z.
  (** 39-42 *)
  Definition try_from_text (d : dty) (c : conv) (s : list Z) : res jerr val :=
    let* v := from_text checked checksum unaddr float_of d s in
    match down c v with Ok b => Ok b | _ => Panic end.
  (** 45-48 *)
  Definition try_into_text (d : dty) (c : conv) (b : val) : res jerr (list Z) :=
    to_text checked checksum addr float_text d (up c b).
End BlockText.
