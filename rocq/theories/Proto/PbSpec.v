(** Unicode texts and the format of protocol buffers, by arithmetic.

    The writer of the Rust side is the protobuf crate (version 3) with the code
    generated from /repo/apps/wasm/mvp/proto by build.rs; it is not part of the
    repository and stands here as the format it implements. *)

From Coq Require Import ZArith List Bool.
From Verif Require Import Lib.Bytes.
Import ListNotations.
Local Open Scope Z_scope.

(** Unicode scalar values, and their UTF-8 and UTF-16 forms. *)
Definition scalar (c : Z) : Prop := 0 <= c < 0xD800 \/ 0xE000 <= c < 0x110000.
Definition utf8_point (c : Z) : list Z :=
  if c <? 0x80 then [c]
  else if c <? 0x800 then [192 + c / 64; 128 + c mod 64]
  else if c <? 0x10000 then [224 + c / 4096; 128 + c / 64 mod 64; 128 + c mod 64]
  else [240 + c / 262144; 128 + c / 4096 mod 64; 128 + c / 64 mod 64; 128 + c mod 64].
Definition utf16_point (c : Z) : list Z :=
  if c <? 0x10000 then [c] else [0xD800 + (c - 0x10000) / 1024; 0xDC00 + (c - 0x10000) mod 1024].
Definition utf8 (cs : list Z) : list Z := flat_map utf8_point cs.
Definition utf16 (cs : list Z) : list Z := flat_map utf16_point cs.

(** Base 128, least significant group first; numbers below [2 ^ 70]. *)
Fixpoint varint_n (k : nat) (n : Z) : list Z :=
  match k with
  | O => []
  | S k' => if n <? 128 then [n] else 128 + n mod 128 :: varint_n k' (n / 128)
  end.
Definition varint (n : Z) : list Z := varint_n 10 n.
Definition len (l : list Z) : Z := Z.of_nat (List.length l).

(** Fields of proto3: nothing is written for the default value. *)
Definition pb_bool (n : Z) (b : bool) : list Z := if b then varint (8 * n) ++ [1] else [].
Definition pb_text (n : Z) (s : list Z) : list Z :=
  match s with [] => [] | _ => varint (8 * n + 2) ++ varint (len s) ++ s end.
Definition pb_int64 (n : Z) (v : Z) : list Z :=
  if v =? 0 then [] else varint (8 * n) ++ varint (v mod 2 ^ 64).

(** proto/messages.proto 4-18 with strings as Unicode texts. *)
Record status : Set := {
  st_connected : bool; st_peer : list Z; st_sync : list Z; st_hash : list Z; st_commit : list Z; st_uptime : Z }.
Definition pb_status (s : status) : list Z :=
  pb_bool 1 (st_connected s) ++ pb_text 2 (utf8 (st_peer s)) ++ pb_text 3 (utf8 (st_sync s))
  ++ pb_text 4 (utf8 (st_hash s)) ++ pb_text 5 (utf8 (st_commit s)) ++ pb_int64 6 (st_uptime s).
(** proto/requests.proto 4-8, proto/responses.proto 4-10 *)
Definition pb_request (address : list Z) : list Z := pb_text 1 (utf8 address).
Definition pb_response (success : bool) (message : list Z) : list Z := pb_bool 1 success ++ pb_text 2 (utf8 message).

(** A text that a 32-bit length can describe. *)
Definition text_ok (cs : list Z) : Prop := Forall scalar cs /\ len (utf8 cs) < 2 ^ 31.
Definition status_ok (s : status) : Prop :=
  text_ok (st_peer s) /\ text_ok (st_sync s) /\ text_ok (st_hash s) /\ text_ok (st_commit s) /\
  - 2 ^ 63 <= st_uptime s < 2 ^ 63.

(** The number that a pair of 32-bit halves stands for. *)
Definition long_value (low high : Z) : Z := high * 2 ^ 32 + low mod 2 ^ 32.
Definition half (z : Z) : Prop := - 2 ^ 31 <= z < 2 ^ 31.

(** ** Messages as sequences of fields *)
Inductive wire : Set :=
| WVarint (v : Z) | WFixed64 (b : list Z) | WBytes (b : list Z) | WFixed32 (b : list Z).
Definition wire_type (w : wire) : Z := match w with WVarint _ => 0 | WFixed64 _ => 1 | WBytes _ => 2 | WFixed32 _ => 5 end.
Definition wire_payload (w : wire) : list Z :=
  match w with WVarint v => varint v | WFixed64 b | WFixed32 b => b | WBytes b => varint (len b) ++ b end.
Definition wire_ok (w : wire) : Prop :=
  match w with
  | WVarint v => 0 <= v < 2 ^ 64
  | WFixed64 b => len b = 8
  | WBytes b => len b < 2 ^ 31
  | WFixed32 b => len b = 4
  end.
Definition field_bytes (f : Z * wire) : list Z := varint (8 * fst f + wire_type (snd f)) ++ wire_payload (snd f).
Definition wire_bytes (fs : list (Z * wire)) : list Z := flat_map field_bytes fs.
