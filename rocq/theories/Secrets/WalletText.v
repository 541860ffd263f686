(** Wallet files as texts: the conversions of [SecretBox] from and to strings
    and to [serde_json::Value], /repo/secrets/src/secret_box/types_impls.rs. *)

From Coq Require Import String ZArith List Bool.
From Verif Require Import Lib.Res Lib.Bytes Text.Base58 Json.Json Json.Grammar Json.Parse Json.JsonText GraphQL.GraphQL Secrets.SecretBox.
From Verif Require Import Json.Pretty.
Import ListNotations.
Local Open Scope string_scope.
Local Open Scope list_scope.
Local Open Scope Z_scope.

(** types.rs 7: the derived [Deserialize] on a text.  Members with other names
    are skipped; a field that is missing or comes again is an error. *)
Definition text_string (r : raw) : res serr (list Z) := match r with RStr s => Ok s | _ => Err JsonSerde end.
Definition text_i64 (r : raw) : res serr Z :=
  match r with
  | RNum t => match num_of (fun _ => None) t with Some (JNum z) => if z <? 2 ^ 63 then Ok z else Err JsonSerde | _ => Err JsonSerde end
  | _ => Err JsonSerde
  end.
Definition text_six (a b c d e f : raw) : res serr box_json :=
  let* a := text_string a in
  let* b := text_string b in
  let* c := text_string c in
  let* d := text_string d in
  match e with
  | RArr [x; y] => let* x := text_i64 x in let* y := text_i64 y in let* f := text_string f in Ok (mk_box_json a b c d x y f)
  | _ => Err JsonSerde
  end.
Definition field (m : list (list Z * raw)) (k : string) : res serr raw :=
  match filter (fun p => key_eqb (str_bytes k) (fst p)) m with [(_, r)] => Ok r | _ => Err JsonSerde end.
Definition text_box_json (r : raw) : res serr box_json :=
  match r with
  | RObj m =>
    let* a := field m "box_primitive" in
    let* b := field m "pw_primitive" in
    let* c := field m "nonce" in
    let* d := field m "pwsalt" in
    let* e := field m "pwdiff" in
    let* f := field m "ciphertext" in
    text_six a b c d e f
  | RArr [a; b; c; d; e; f] => text_six a b c d e f
  | _ => Err JsonSerde
  end.

Section Wallet.
  Variable checksum : list Z -> list Z.
  Variable salt_view : list Z -> res serr (list Z).
  Variable float_of : list Z -> option Z.
  Variable float_text : Z -> list Z.
  (** 38-44 *)
  Definition wallet_of_text (s : list Z) : res serr secret_box :=
    match parse s with Some r => let* b := text_box_json r in of_box_json checksum b | None => Err JsonSerde end.
  (** 69-75 *)
  Definition wallet_to_text (b : secret_box) : res serr (list Z) :=
    let* j := box_to checksum salt_view b in Ok (pretty float_text 0 j).
  (** 77-83 *)
  Definition wallet_to_value (b : secret_box) : res serr json :=
    let* s := wallet_to_text b in
    match parse s with
    | Some r => match value_of float_of r with Some j => if (depth r <=? MAX_DEPTH)%nat then Ok j else Err JsonSerde | None => Err JsonSerde end
    | None => Err JsonSerde
    end.
End Wallet.
