(** Hex texts of field elements, 256-bit integers and body references. *)

From Coq Require Import ZArith List Bool.
From Verif Require Import Lib.Res.
Import ListNotations.
Local Open Scope Z_scope.

(** [hex::FromHexError] *)
Inductive herr : Set := HOddLength | HInvalidStringLength | HInvalidHexCharacter (c : Z) (index : nat).

(** [hex::encode]: two lower case digits for each byte. *)
Definition hex_char (d : Z) : Z := if d <? 10 then 48 + d else 87 + d.
Fixpoint hex_encode (bs : list Z) : list Z :=
  match bs with
  | [] => []
  | b :: bs' => hex_char (b / 16) :: hex_char (b mod 16) :: hex_encode bs'
  end.

(** [hex::decode]: both cases are accepted. *)
Definition hex_val (c : Z) (index : nat) : res herr Z :=
  if (48 <=? c) && (c <=? 57) then Ok (c - 48)
  else if (65 <=? c) && (c <=? 70) then Ok (c - 55)
  else if (97 <=? c) && (c <=? 102) then Ok (c - 87)
  else Err (HInvalidHexCharacter c index).
Fixpoint hex_pairs (s : list Z) (index : nat) : res herr (list Z) :=
  match s with
  | c1 :: c2 :: s' =>
      let* d1 := hex_val c1 index in
      let* d2 := hex_val c2 (S index) in
      let* bs := hex_pairs s' (S (S index)) in
      Ok (16 * d1 + d2 :: bs)
  | _ => Ok []
  end.
Definition hex_decode (s : list Z) : res herr (list Z) :=
  if Nat.odd (length s) then Err HOddLength else hex_pairs s 0.
(** [hex::decode_to_slice] with a slice of [n] bytes *)
Definition hex_decode_to_slice (n : nat) (s : list Z) : res herr (list Z) :=
  if Nat.odd (length s) then Err HOddLength
  else if negb (Nat.eqb (Nat.div2 (length s)) n) then Err HInvalidStringLength
  else hex_pairs s 0.

(** /repo/protocol/serialization-types/src/field_and_curve_elements.rs 168-174
    and /repo/crypto/src/hex/mod.rs 12-18 *)
Definition skip_0x (s : list Z) : list Z :=
  match s with
  | c0 :: c1 :: s' => if (c1 =? 120) && ((c0 =? 48) || (c0 =? 92)) then s' else s
  | _ => s
  end.

(** field_and_curve_elements.rs 133-136, and /repo/base/src/numbers.rs 294-299 *)
Definition field_to_hex (b : list Z) : list Z := hex_encode b.
(** field_and_curve_elements.rs 139-145, and /repo/base/src/numbers.rs 301-304.
    [copy_from_slice] panics unless both slices have the same length. *)
Definition field_from_hex (s : list Z) : res herr (list Z) :=
  let* bytes := hex_decode (skip_0x s) in
  if Nat.eqb (length bytes) 32 then Ok bytes else Panic.

(** field_and_curve_elements.rs 148-156: the JSON string *)
Definition field_json_ser (b : list Z) : list Z := 48 :: 120 :: field_to_hex b.
(** field_and_curve_elements.rs 158-166 *)
Definition field_json_de (s : list Z) : res herr (list Z) := field_from_hex s.

(** [slice::chunks(n)]; the fuel is the length. *)
Fixpoint chunks_fuel (n fuel : nat) (s : list Z) : list (list Z) :=
  match fuel, s with
  | S f, _ :: _ => firstn n s :: chunks_fuel n f (skipn n s)
  | _, _ => []
  end.
Definition chunks (n : nat) (s : list Z) : list (list Z) := chunks_fuel n (length s) s.

(** /repo/base/src/protocol_state_proof/field_and_curve_elements.rs 25-31 *)
Definition vec_to_hex (v : list (list Z)) : list Z := concat (map field_to_hex v).
(** lines 33-45: every chunk may bring its own prefix *)
Fixpoint vec_loop (cs : list (list Z)) : res herr (list (list Z)) :=
  match cs with
  | [] => Ok []
  | c :: cs' => let* x := field_from_hex c in let* xs := vec_loop cs' in Ok (x :: xs)
  end.
Definition vec_from_hex (s : list Z) : res herr (list (list Z)) := vec_loop (chunks 64 (skip_0x s)).

(** /repo/base/src/blockchain_state.rs 119-123 *)
Definition body_from_hex (s : list Z) : res herr (list Z) := hex_decode_to_slice 32 s.
