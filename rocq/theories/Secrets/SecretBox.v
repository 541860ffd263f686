(** Wallet files: /repo/secrets/src/secret_box.

    A wallet document is a [serde_json::Value] (Json/Json.v); its text is in
    WalletText.v.  The functions of other crates are parameters: the checksum of
    base58 texts, the key derivation of argon2 with the checks of its
    parameters, the decryption of XSalsa20-Poly1305 and [Keypair::from_hex].
    A [SaltString] is represented by the bytes it encodes; it has at most 64
    characters, that is 48 bytes.  [salt_view] is what [SaltString::as_salt]
    makes of one: the crate wants at least four characters, that is three
    bytes. *)

From Coq Require Import String ZArith List Bool.
From Verif Require Import Lib.Res Lib.Bytes Text.Base58 Text.Hex Json.Json GraphQL.GraphQL.
Import ListNotations.
Local Open Scope string_scope.
Local Open Scope list_scope.
Local Open Scope Z_scope.
Notation length := List.length.

(** errors.rs 6-41 *)
Inductive serr : Set :=
| InvalidSecretBoxPrimitive | InvalidPasswordHashPrimitive | JsonSerde | Base58Decode | Argon2Error | PasswordHash
| AeadError | KeypairError.

(** constants.rs 4-5 *)
Definition SECRET_BOX_PRIMITIVE : list Z := str_bytes "xsalsa20poly1305".
Definition PASSWORD_HASH_PRIMITIVE : list Z := str_bytes "argon2i".
(** utils.rs 6 *)
Definition VERSION_CHECK_BYTE : Z := 0x02.

(** types.rs 8-16 *)
Record box_json : Type := mk_box_json {
  j_box_primitive : list Z; j_pw_primitive : list Z; j_nonce : list Z; j_pwsalt : list Z;
  j_pwdiff0 : Z; j_pwdiff1 : Z; j_ciphertext : list Z }.
(** types.rs 20-29 *)
Record secret_box : Type := mk_box {
  box_primitive : list Z; pw_primitive : list Z; nonce : list Z; pwsalt : list Z;
  pw_mem_limit_bytes : Z; pw_ops_limit : Z; ciphertext : list Z }.

(** types.rs 7: the derived [Deserialize].  Null and a missing member are both
    errors; a list of six is read as the members in order. *)
Definition string_of (j : json) : res serr (list Z) := match j with JStr s => Ok s | _ => Err JsonSerde end.
Definition i64_of (j : json) : res serr Z :=
  match j with JNum z => if z <? 2 ^ 63 then Ok z else Err JsonSerde | _ => Err JsonSerde end.
Definition six (a b c d e f : json) : res serr box_json :=
  let* a := string_of a in
  let* b := string_of b in
  let* c := string_of c in
  let* d := string_of d in
  match e with
  | JArr [x; y] => let* x := i64_of x in let* y := i64_of y in let* f := string_of f in Ok (mk_box_json a b c d x y f)
  | _ => Err JsonSerde
  end.
Definition box_json_of (j : json) : res serr box_json :=
  match j with
  | JObj _ =>
    six (index j "box_primitive") (index j "pw_primitive") (index j "nonce") (index j "pwsalt") (index j "pwdiff") (index j "ciphertext")
  | JArr [a; b; c; d; e; f] => six a b c d e f
  | _ => Err JsonSerde
  end.
(** the derived [Serialize] *)
Definition box_json_to (b : box_json) : json :=
  JObj [(str_bytes "box_primitive", JStr (j_box_primitive b)); (str_bytes "pw_primitive", JStr (j_pw_primitive b));
        (str_bytes "nonce", JStr (j_nonce b)); (str_bytes "pwsalt", JStr (j_pwsalt b));
        (str_bytes "pwdiff", JArr [JNum (j_pwdiff0 b); JNum (j_pwdiff1 b)]); (str_bytes "ciphertext", JStr (j_ciphertext b))].

Section Box.
  Variable checksum : list Z -> list Z.
  Variable salt_view : list Z -> res serr (list Z).
  (** memory in KiB, passes, salt, password *)
  Variable kdf : Z -> Z -> list Z -> list Z -> res serr (list Z).
  (** key, nonce, ciphertext *)
  Variable decrypt : list Z -> list Z -> list Z -> option (list Z).
  Variable keypair : Type.
  Variable keypair_from_hex : list Z -> option keypair.

  (** utils.rs 8-16; [v.remove(0)] panics on an empty vector *)
  Definition base58_decode (s : list Z) : res serr (list Z) :=
    match from_base58 checksum VERSION_CHECK_BYTE s with Ok v => Ok v | Err _ => Err Base58Decode | Panic => Panic end.
  (** utils.rs 18-22 *)
  Definition base58_encode (bs : list Z) : list Z := to_base58_string checksum VERSION_CHECK_BYTE bs.

  (** types_impls.rs 11-36 *)
  Definition of_box_json (j : box_json) : res serr secret_box :=
    if negb (key_eqb (j_box_primitive j) SECRET_BOX_PRIMITIVE) then Err InvalidSecretBoxPrimitive
    else if negb (key_eqb (j_pw_primitive j) PASSWORD_HASH_PRIMITIVE) then Err InvalidPasswordHashPrimitive
    else
      let* salt := base58_decode (j_pwsalt j) in
      let* salt := (if (48 <? length salt)%nat then Err PasswordHash else Ok salt) in
      let* n := base58_decode (j_nonce j) in
      let* c := base58_decode (j_ciphertext j) in
      Ok (mk_box (j_box_primitive j) (j_pw_primitive j) n salt (j_pwdiff0 j) (wrapu 32 (j_pwdiff1 j)) c).
  (** 38-44, after parsing the text *)
  Definition box_of (j : json) : res serr secret_box := let* b := box_json_of j in of_box_json b.

  (** 46-67: the salt is decoded into 16 bytes *)
  Definition to_box_json (b : secret_box) : res serr box_json :=
    let* salt := salt_view (pwsalt b) in
    let* salt := (if (16 <? length salt)%nat then Err PasswordHash else Ok salt) in
    Ok (mk_box_json (box_primitive b) (pw_primitive b) (base58_encode (nonce b)) (base58_encode salt)
          (pw_mem_limit_bytes b) (pw_ops_limit b) (base58_encode (ciphertext b))).
  (** 69-83, before printing the text *)
  Definition box_to (b : secret_box) : res serr json := let* j := to_box_json b in Ok (box_json_to j).

  (** 86-108; the division of [i64] rounds towards zero *)
  Definition gen_secret (b : secret_box) (password : list Z) : res serr (list Z) :=
    kdf (wrapu 32 (Z.quot (pw_mem_limit_bytes b) 1024)) (pw_ops_limit b) (pwsalt b) password.
  (** 111-123; [GenericArray::from_slice] panics on another length,
      [bytes.remove(0)] on an empty vector *)
  Definition private_key_bytes (b : secret_box) (password : list Z) : res serr (list Z) :=
    let* secret := gen_secret b password in
    if negb (length secret =? 32)%nat then Panic
    else if negb (length (nonce b) =? 24)%nat then Panic
    else
      match decrypt secret (nonce b) (ciphertext b) with
      | None => Err AeadError
      | Some [] => Panic
      | Some (_ :: bytes) => Ok bytes
      end.
  (** 126-131 *)
  Definition get_keypair (b : secret_box) (password : list Z) : res serr keypair :=
    let* bytes := private_key_bytes b password in
    match keypair_from_hex (hex_encode (rev bytes)) with Some k => Ok k | None => Err KeypairError end.
End Box.
