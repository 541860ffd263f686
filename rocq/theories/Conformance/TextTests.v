(** The expected values of the repository's own tests of texts, run on the
    model with the real checksum: base/tests/numbers.rs, the test modules of
    base/src/user_commands/memo.rs, crypto/src/hash/types.rs and
    proof-systems-shim/src/fp.rs, and
    protocol/serialization-types/tests/public_key.rs. *)
From Coq Require Import String ZArith List Bool.
From Verif Require Import Lib.Res Lib.Bytes Text.Numbers Text.Base58 Text.Checksum Text.Memo Text.FieldText.
Import ListNotations.
Local Open Scope list_scope.
Local Open Scope Z_scope.
Ltac tables := repeat match goal with |- _ /\ _ => split end; vm_compute; reflexivity.

(** base/tests/numbers.rs 15-43 *)
Definition amounts : list (Z * string) :=
  [(0, "0.000000000"%string); (3, "0.000000003"%string); (1000000003, "1.000000003"%string);
   (1000000030, "1.000000030"%string); (1300000000, "1.300000000"%string); (1000000000, "1.000000000"%string)].
Example test_amount_to_string :
  map (fun c => amount_display (fst c)) amounts = map (fun c => str_bytes (snd c)) amounts.
Proof. tables. Qed.
Example test_amount_from_string :
  map (fun c => amount_from_str true (str_bytes (snd c))) amounts = map (fun c => Ok (fst c)) amounts /\
  amount_from_str true (str_bytes "1.00000003") = Ok 1000000030 /\
  amount_from_str true (str_bytes "0.000000000.0") = Err (AFormat (str_bytes "0.000000000.0")) /\
  amount_from_str true (str_bytes "000000000") = Ok 0.
Proof. tables. Qed.

(** base/src/user_commands/memo.rs 56-74 *)
Definition memo58 : list Z := str_bytes "E4Yd7qwaRCHR6t7i6ToM98eSUy5eKKadQUPZX7Vpw4CWBvWyd8fzK".
Example memo_roundtrip :
  exists m, try_from_text (str_bytes "FPayment") = Ok m /\ memo_json_de sha_checksum memo58 = Ok m /\
    memo_json_ser sha_checksum m = memo58 /\ to_text m = Ok (str_bytes "FPayment").
Proof. eexists. repeat split; vm_compute; reflexivity. Qed.

(** crypto/src/hash/types.rs 459-560: a text read and written again *)
Definition text_back (ver : Z) (s : string) : bool :=
  match from_base58 sha_checksum ver (str_bytes s) with
  | Ok bytes => list_eqb (to_base58_string sha_checksum ver bytes) (str_bytes s)
  | _ => false
  end.
Example hash_texts :
  text_back LEDGER_HASH "jxV4SS44wHUVrGEucCsfxLisZyUC5QddsiokGH3kz5xm2hJWZ25" = true /\
  text_back COINBASE_HASH "2n1tLdP2gkifmyVmrmzYXTS4ohPbZPJn6Qq4x55ywrbRWB4543cC" = true /\
  text_back EPOCH_SEED "2va9BGv9JrLTtrzZttiEMDYw1Zj6a6EHzXjmP9evHDTG3oEquURA" = true /\
  text_back LEDGER_HASH "jx7buQVWFLsXTtzRgSxbYcT8EYLS8KCZbLrfDcJxMtyy4thw2Ee" = true.
Proof. tables. Qed.

(** proof-systems-shim/src/fp.rs 49-62 *)
Definition fp_text : list Z := str_bytes "15955265048676495861308121109313805689802008176208259245703497109342504292532".
Example fp_json_serde_roundtrip :
  exists x, fp_json_de fp_text = Ok x /\ fp_json_ser x = fp_text.
Proof. eexists. split; vm_compute; reflexivity. Qed.

(** protocol/serialization-types/tests/public_key.rs 8-25 *)
Definition address_back (s : string) : bool :=
  match from_address sha_checksum (str_bytes s) with
  | Some (x, odd) => list_eqb (into_address sha_checksum x odd) (str_bytes s)
  | None => false
  end.
Example public_key_texts :
  address_back "B62qjCuPisQjLW7YkB22BR9KieSmUZTyApftqxsAuB3U21r3vj1YnaG" = true /\
  address_back "B62qr1Nx2tDVE2dtq87HCbCRcCEN87gdRLLK5nU2JgammUqbHgB8B2f" = true.
Proof. tables. Qed.
