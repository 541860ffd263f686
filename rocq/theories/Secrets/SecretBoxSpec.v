(** The wallet files that mina-keypair-gen writes, described independently of
    the code: the members of the document, and what is sealed in it. *)

From Coq Require Import String ZArith List.
From Verif Require Import Lib.Bytes Text.Base58 Json.Json GraphQL.GraphQLSpec Text.HexSpec.
Import ListNotations.
Local Open Scope string_scope.
Local Open Scope list_scope.
Local Open Scope Z_scope.
Notation length := List.length.

(** [text58 checksum s b]: [s] is the base58 text of the bytes [b] with version
    byte 2 in front and the checksum behind. *)
Definition text58 (checksum : list Z -> list Z) (s b : list Z) : Prop :=
  bytes_ok b /\ s = b58_encode (2 :: b ++ checksum (2 :: b)).
Definition i64 (z : Z) : Prop := - 2 ^ 63 <= z < 2 ^ 63.

(** The six members by name, or as a list. *)
Definition members (j a b c d e f : json) : Prop :=
  j = JArr [a; b; c; d; e; f] \/
  (has j "box_primitive" a /\ has j "pw_primitive" b /\ has j "nonce" c /\ has j "pwsalt" d /\ has j "pwdiff" e /\ has j "ciphertext" f).

(** A wallet with a nonce, a salt, a memory limit in bytes, a number of passes
    and a ciphertext. *)
Definition wallet (checksum : list Z -> list Z) (j : json) (nonce salt : list Z) (mem ops : Z) (ct : list Z) : Prop :=
  exists ns ss cs,
    members j (JStr (str_bytes "xsalsa20poly1305")) (JStr (str_bytes "argon2i")) (JStr ns) (JStr ss) (JArr [JNum mem; JNum ops]) (JStr cs) /\
    text58 checksum ns nonce /\ text58 checksum ss salt /\ text58 checksum cs ct /\ mem < 2 ^ 63 /\ ops < 2 ^ 63.

(** The number that hex digits denote, most significant first. *)
Definition hex_number (s : list Z) (n : Z) : Prop :=
  exists bs, hexes s bs /\ n = fold_left (fun a b => 256 * a + b) bs 0.
