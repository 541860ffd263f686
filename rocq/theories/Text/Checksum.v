(** The checksum of base58 texts, and addresses.

    [bs58] with the feature "check" appends the first four bytes of SHA-256
    applied twice.  [CompressedPubKey::into_address] and [from_address] are
    functions of the dependency mina_signer, which /repo/base uses for public
    keys (serialization-types/src/signatures.rs 36-62, base/src/account/mod.rs
    166, consensus/src/genesis/genesis_impl.rs); they are written here from
    their published description: version bytes cb 01 01, the 32 bytes of the x
    coordinate, a byte for the parity, four bytes of checksum.  [from_address]
    also wants 55 characters, which 40 bytes beginning with cb always give. *)

From Coq Require Import ZArith List Bool.
From Verif Require Import Lib.Res Lib.Bytes Lib.Sha256 Text.Base58 Text.FieldText.
Import ListNotations.
Local Open Scope Z_scope.
Notation length := List.length.

Definition sha_checksum (l : list Z) : list Z := firstn 4 (sha256 (sha256 l)).

Section Address.
  Variable checksum : list Z -> list Z.
  Definition into_address (x : list Z) (odd : bool) : list Z :=
    b58c_encode checksum 0xcb (1 :: 1 :: x ++ [if odd then 1 else 0]).
  Definition from_address (s : list Z) : option (list Z * bool) :=
    match b58c_decode checksum 0xcb s with
    | Ok (_ :: a :: b :: rest) =>
      if (length rest =? 33)%nat && (a =? 1) && (b =? 1) then
        let x := firstn 32 rest in
        let p := nth 32 rest 0 in
        if (le_val x <? FP_MODULUS) && ((p =? 0) || (p =? 1)) then Some (x, p =? 1) else None
      else None
    | _ => None
    end.
End Address.
