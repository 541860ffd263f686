(** Model of the calls of the wasm clients that send requests:
    - /repo/apps/wasm/mvp/src/payment.rs and
      /repo/apps/wasm/mina-berkeley/src/payment.rs (the same [Payment])
    - /repo/apps/wasm/mina-berkeley/src/js_exports.rs:75-135
    - /repo/apps/wasm/mvp/src/utils.rs:33-48 ([js_to_string], [map_js_err])

    The server is a function from requests to replies.  The calls of mvp differ
    from those modelled by a fixed endpoint.  The text of an error and the text of
    the returned JSON value ([resp.to_string()]) are not modelled; the value
    itself is returned. *)
From Coq Require Import ZArith List Bool String.
From Verif Require Import Lib.Res Lib.Bytes Lib.Decimal Lib.Text Json.Json Client.Query.
Import ListNotations.
Local Open Scope Z_scope.

(** JavaScript values.  [JsInt] is a number that is an integer of at most 53 bits;
    every other value is represented by what [`${v}`] makes of it. *)
Inductive js : Type :=
| JsUndefined
| JsNull
| JsString (s : list Z)
| JsBigInt (z : Z)
| JsInt (z : Z)
| JsOther (text : list Z).

Definition signed_dec (z : Z) : list Z := if z <? 0 then 45 :: dec (- z) else dec z.

(** utils.rs:37-48 *)
Definition js_to_string (v : js) : list Z :=
  match v with
  | JsUndefined => str_bytes "undefined"
  | JsNull => str_bytes "null"
  | JsString s => s
  | JsBigInt z => signed_dec z
  | JsInt z => signed_dec z
  | JsOther t => t
  end.

(** payment.rs:19-48: the getters of the object *)
Record payment := {
  p_to : list Z;
  p_from : list Z;
  p_fee : js;
  p_amount : js;
  p_nonce : option Z;
  p_memo : option (list Z);
  p_valid_until : js }.

(** utils.rs:33-35 *)
Inductive jserr : Set := JsError.
Definition map_js_err (r : perr + Z) : res jserr Z :=
  match r with inl _ => Err JsError | inr v => Ok v end.

(** payment.rs:51-53 *)
Definition fee_u64 (p : payment) : res jserr Z := map_js_err (parse_uint 64 (js_to_string (p_fee p))).
(** payment.rs:55-57 *)
Definition amount_u64 (p : payment) : res jserr Z := map_js_err (parse_uint 64 (js_to_string (p_amount p))).
(** payment.rs:59-72 *)
Definition valid_until_u32 (p : payment) : res jserr (option Z) :=
  match p_valid_until p with
  | JsNull => Ok None
  | JsUndefined => Ok None
  | v =>
    match js_to_string v with
    | [] => Ok None
    | s => rmap Some (map_js_err (parse_uint 32 s))
    end
  end.

(** The body [json!({ "query": query })]. *)
Record request := { r_endpoint : list Z; r_body : json }.
Definition graphql (endpoint query : list Z) : request :=
  {| r_endpoint := endpoint; r_body := JObj [(str_bytes "query", JStr query)] |}.

(** What comes back: no answer or one whose text cannot be received, a text that
    is not JSON, or JSON. *)
Inductive reply : Type := NoReply | NotJson | Reply (j : json).

Section Calls.
  Variable server : request -> reply.
  Variable endpoint : list Z.

  (** js_exports.rs:84-92 and its copies: three [unwrap]s *)
  Definition post (query : list Z) : list request * res jserr json :=
    let r := graphql endpoint query in
    ([r], match server r with Reply j => Ok j | _ => Panic end).

  (** payment.rs:76-94 *)
  Definition account_info (pub_key : list Z) := post (account_info_query pub_key).
  (** js_exports.rs:75-93; payment.rs:96-114 *)
  Definition lock_account (pub_key : list Z) := post (lock_account_query pub_key).
  (** js_exports.rs:95-116; payment.rs:116-133 *)
  Definition unlock_account (pub_key password : list Z) := post (unlock_account_query pub_key password).
  (** js_exports.rs:118-135; payment.rs:135-151: the requests sent and the result *)
  Definition send_payment (p : payment) : list request * res jserr json :=
    match fee_u64 p with
    | Ok fee =>
      match amount_u64 p with
      | Ok amount => post (send_payment_query fee amount (p_to p) (p_from p))
      | Err e => ([], Err e)
      | Panic => ([], Panic)
      end
    | Err e => ([], Err e)
    | Panic => ([], Panic)
    end.
End Calls.
