(** Numbers as text: /repo/base/src/numbers.rs,
    /repo/protocol/serialization-types/src/common.rs and
    /repo/base/src/serialization_type_conversions/numbers.rs.

    A text is the list of its UTF-8 bytes.  [checked] tells a build with
    overflow checks (arithmetic overflow panics) from one without (it wraps).
    The serde plumbing around the JSON string is not modelled: a JSON wrapper
    is its text. *)

From Coq Require Import ZArith List Bool String.
From Verif Require Import Lib.Res Lib.Bytes Lib.Decimal Lib.Text.
Import ListNotations.
Local Open Scope Z_scope.

(** base/src/constants.rs 6, serialization-types/src/common.rs 98 *)
Definition MINA_PRECISION : Z := 1000000000.

Inductive aerr : Set := AInt (e : perr) | AFormat (s : list Z).

Definition of_parse (r : perr + Z) : res aerr Z :=
  match r with inl e => Err (AInt e) | inr v => Ok v end.

(** Unsigned 64-bit product and sum of a build with or without overflow
    checks. *)
Definition mul64 {E : Type} (checked : bool) (a b : Z) : res E Z :=
  if checked && (2 ^ 64 <=? a * b) then Panic else Ok (wrapu 64 (a * b)).
Definition add64 {E : Type} (checked : bool) (a b : Z) : res E Z :=
  if checked && (2 ^ 64 <=? a + b) then Panic else Ok (wrapu 64 (a + b)).

(** base/src/numbers.rs 100-105: [write!(f, "{}.{:#09}", q, r)] *)
Definition amount_display (a : Z) : list Z :=
  dec (a / MINA_PRECISION) ++ [46] ++ pad0 9 (dec (a mod MINA_PRECISION)).

(** base/src/numbers.rs 137-154 *)
Definition amount_from_str (checked : bool) (s : list Z) : res aerr Z :=
  match split_on 46 s with
  | [] => Err (AFormat s)
  | q_str :: rest =>
      let* q := of_parse (parse_uint 64 q_str) in
      let r_str := match rest with [] => [48] | r :: _ => r end in
      let* r := of_parse (parse_uint 64 (padr0 9 r_str)) in
      match tl rest with
      | [] => let* m := mul64 checked MINA_PRECISION q in add64 checked r m
      | _ :: _ => Err (AFormat s)
      end
  end.

(** common.rs 99-108: [format!("{q}.{:0>9}", r)], then the trailing zeros and
    the trailing dots are cut. *)
Definition decimal_json_ser (a : Z) : list Z :=
  trim_end 46 (trim_end 48 (dec (a / MINA_PRECISION) ++ [46] ++ pad0 9 (dec (a mod MINA_PRECISION)))).

(** common.rs 110-134.  The errors become [D::Error::custom]; the model keeps
    what they were made of. *)
Definition decimal_json_de (checked : bool) (s : list Z) : res aerr Z :=
  match split_on 46 s with
  | [] => Err (AFormat s)
  | q_str :: rest =>
      let* q := of_parse (parse_uint 64 q_str) in
      let r_str := match rest with [] => [48] | r :: _ => r end in
      let* r := of_parse (parse_uint 64 (padr0 9 r_str)) in
      match tl rest with
      | [] => let* m := mul64 checked MINA_PRECISION q in add64 checked r m
      | _ :: _ => Err (AFormat s)
      end
  end.

(** common.rs 32-56 (U32Json), 60-84 (U64Json) *)
Definition u32_json_ser (v : Z) : list Z := dec v.
Definition u32_json_de (s : list Z) : res aerr Z := of_parse (parse_uint 32 s).
Definition u64_json_ser (v : Z) : list Z := dec v.
Definition u64_json_de (s : list Z) : res aerr Z := of_parse (parse_uint 64 s).

(** common.rs 156-160: [t.0 as i32]; the same cast in
    serialization_type_conversions/numbers.rs 22-26 (AccountNonce) and 37-41
    (GlobalSlotNumber). *)
Definition to_extended_u32 (v : Z) : Z := wraps 32 v.
(** common.rs 162-166: [t.t.t as u32]; the same cast in
    serialization_type_conversions/numbers.rs 27-31 and 42-46. *)
Definition of_extended_u32 (v : Z) : Z := wrapu 32 v.

(** common.rs 186-194: [String::from_utf8_unchecked(vec![self.0])].  The bytes
    handed to the serializer; when they are not UTF-8 the Rust code has
    undefined behaviour. *)
Definition char_json_ser (c : Z) : list Z := [c].
(** common.rs 196-204: [s.as_bytes()[0]] *)
Definition char_json_de (s : list Z) : res aerr Z :=
  match s with [] => Panic | c :: _ => Ok c end.

(** common.rs 222-230 and 232-241 *)
Definition bytevec_json_ser (v : list Z) : list Z := v.
Definition bytevec_json_de (s : list Z) : list Z := s.

(** base/src/numbers.rs 250-252 *)
Definition from_unix_epoch (checked : bool) (ts : Z) : res unit Z := mul64 checked ts 1000.
(** base/src/numbers.rs 255-257, 260-262 *)
Definition from_unix_epoch_millis (ts : Z) : Z := ts.
Definition epoch_millis (t : Z) : Z := t.

(** [OffsetDateTime] of the time crate without its [large-dates] feature: the
    years -9999 to 9999.  An instant is its distance from 1970-01-01 00:00:00
    UTC in milliseconds; the finer part of the type is always zero here. *)
Definition MIN_TIMESTAMP : Z := -377705116800.
Definition MAX_TIMESTAMP : Z := 253402300799.
Definition instant_ok (ms : Z) : bool :=
  (MIN_TIMESTAMP * 1000 <=? ms) && (ms <=? MAX_TIMESTAMP * 1000 + 999).

(** [OffsetDateTime::from_unix_timestamp] *)
Definition from_unix_timestamp (s : Z) : option Z :=
  if (MIN_TIMESTAMP <=? s) && (s <=? MAX_TIMESTAMP) then Some (s * 1000) else None.
(** [OffsetDateTime + Duration]: panics outside the range. *)
Definition add_millis (t r : Z) : res unit Z := if instant_ok (t + r) then Ok (t + r) else Panic.

(** base/src/numbers.rs 265-274; [div_rem] on [i64] truncates toward zero *)
Definition datetime (t : Z) : res unit Z :=
  let i := wraps 64 t in
  let q := Z.quot i 1000 in
  let r := Z.rem i 1000 in
  match from_unix_timestamp q with
  | None => Panic
  | Some dt => if r =? 0 then Ok dt else add_millis dt r
  end.
