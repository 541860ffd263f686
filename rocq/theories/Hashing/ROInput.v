(** Random oracle inputs: what is fed to a hash.
    /repo/proof-systems-shim/src/roinput.rs, and the [ROInput] of the
    mina-hasher crate.

    A field element is its canonical representative in [0, FP_MODULUS).
    Everything that can only panic has the error type [unit]. *)

From Coq Require Import ZArith List Bool.
From Verif Require Import Lib.Res Lib.Bytes Text.FieldText.
Import ListNotations.
Local Open Scope Z_scope.

(** [as_bits::<Lsb0>]: the bits of an integer, least significant first. *)
Fixpoint bits_of (n : nat) (x : Z) : list bool :=
  match n with
  | O => []
  | S n' => Z.odd x :: bits_of n' (x / 2)
  end.
Fixpoint bits_val (l : list bool) : Z :=
  match l with
  | [] => 0
  | b :: l' => Z.b2z b + 2 * bits_val l'
  end.
Definition byte_bits (bs : list Z) : list bool := flat_map (bits_of 8) bs.

(** [Fp::size_in_bits()] *)
Definition FP_BITS : Z := 255.

(** [Fp::from_bytes] of o1-utils: only canonical representatives *)
Definition fp_from_bytes (bs : list Z) : res unit Z :=
  if le_val bs <? FP_MODULUS then Ok (le_val bs) else Err tt.
(** [.expect(..)] *)
Definition expect {A : Type} (r : res unit A) : res unit A :=
  match r with Ok a => Ok a | _ => Panic end.

(** ** The chunked input *)

(** roinput.rs 23-28 *)
Record croi : Set := mk_croi { c_fields : list Z; c_packed : list (Z * Z) }.

(** 32-34 *)
Definition c_new : croi := mk_croi [] [].
(** 37-41 *)
Definition c_append (a b : croi) : croi := mk_croi (c_fields a ++ c_fields b) (c_packed a ++ c_packed b).
(** 44-46 *)
Definition c_append_chunked (a : croi) (o : res unit croi) : res unit croi := let* b := o in Ok (c_append a b).
(** 49-52 *)
Definition c_append_field (a : croi) (f : Z) : croi := mk_croi (c_fields a ++ [f]) (c_packed a).
(** 55-58 *)
Definition c_append_packed (a : croi) (f n : Z) : croi := mk_croi (c_fields a) (c_packed a ++ [(f, n)]).

(** 129-137.  [resize] only adds zero bits, so the bytes denote the same
    number. *)
Definition bits_to_fp (bits : list bool) : res unit Z :=
  if Z.of_nat (length bits) <=? FP_BITS
  then (if bits_val bits <? FP_MODULUS then Ok (bits_val bits) else Err tt)
  else Err tt.
(** 140-142 *)
Definition bits_to_fp_unsafe (bits : list bool) : res unit Z := expect (bits_to_fp bits).

(** 69-76 *)
Definition c_append_bool (a : croi) (b : bool) : res unit croi :=
  let* f := bits_to_fp_unsafe [b] in Ok (c_append_packed a f 1).
(** 61-66 *)
Fixpoint c_append_bools (a : croi) (bits : list bool) : res unit croi :=
  match bits with
  | [] => Ok a
  | b :: bits' => let* a' := c_append_bool a b in c_append_bools a' bits'
  end.
Definition c_append_bytes (a : croi) (bs : list Z) : res unit croi := c_append_bools a (byte_bits bs).
(** 79-85 *)
Definition c_append_u32 (a : croi) (x : Z) : res unit croi :=
  let* f := bits_to_fp_unsafe (byte_bits (le_bytes 4 x)) in Ok (c_append_packed a f 32).
(** 88-94 *)
Definition c_append_u64 (a : croi) (x : Z) : res unit croi :=
  let* f := bits_to_fp_unsafe (byte_bits (le_bytes 8 x)) in Ok (c_append_packed a f 64).

(** [BigInteger256::muln]: shift left, bits beyond 256 are lost; then
    [Fp::from(BigInteger256)] panics from the modulus on.  (98-106) *)
Definition fp_of_repr (n : Z) : res unit Z := if n <? FP_MODULUS then Ok n else Panic.
Definition shl (f n : Z) : res unit Z :=
  if n =? 0 then Ok f else fp_of_repr ((f * 2 ^ n) mod 2 ^ 256).
(** [u32] sum of a build with or without overflow checks *)
Definition add32 (checked : bool) (a b : Z) : res unit Z :=
  if checked && (2 ^ 32 <=? a + b) then Panic else Ok (wrapu 32 (a + b)).
Definition fp_add (a b : Z) : Z := (a + b) mod FP_MODULUS.

(** 108-123 *)
Fixpoint pack (checked : bool) (acc sum : Z) (l : list (Z * Z)) : res unit (list Z) :=
  match l with
  | [] => Ok (if 0 <? acc then [sum] else [])
  | (f, n) :: l' =>
      let* s := add32 checked acc n in
      if s <? FP_BITS then
        let* h := shl sum n in
        let* s2 := add32 checked acc n in
        pack checked s2 (fp_add h f) l'
      else
        let* r := pack checked n f l' in Ok (sum :: r)
  end.
(** 97-124 *)
Definition into_fields (checked : bool) (c : croi) : res unit (list Z) :=
  let* r := pack checked 0 0 (c_packed c) in Ok (c_fields c ++ r).

(** ** The legacy input: [mina_hasher::ROInput] *)

(** Its [append_*] functions push fields and bits; [append_hashable] appends
    the fields and the bits of the other input. *)
Record lroi : Set := mk_lroi { l_fields : list Z; l_bits : list bool }.
Definition l_new : lroi := mk_lroi [] [].
Definition l_append (a b : lroi) : lroi := mk_lroi (l_fields a ++ l_fields b) (l_bits a ++ l_bits b).
Definition l_append_hashable (a : lroi) (o : res unit lroi) : res unit lroi := let* b := o in Ok (l_append a b).
Definition l_append_field (a : lroi) (f : Z) : lroi := mk_lroi (l_fields a ++ [f]) (l_bits a).
Definition l_append_bool (a : lroi) (b : bool) : lroi := mk_lroi (l_fields a) (l_bits a ++ [b]).
Definition l_append_bytes (a : lroi) (bs : list Z) : lroi := mk_lroi (l_fields a) (l_bits a ++ byte_bits bs).
Definition l_append_u32 (a : lroi) (x : Z) : lroi := l_append_bytes a (le_bytes 4 x).
Definition l_append_u64 (a : lroi) (x : Z) : lroi := l_append_bytes a (le_bytes 8 x).

(** [ROInput::to_fields]: the fields, then the bits in chunks of 254, each
    chunk a number with its first bit least significant. *)
Fixpoint bit_chunks (fuel : nat) (bits : list bool) : list (list bool) :=
  match fuel, bits with
  | O, _ => []
  | _, [] => []
  | S k, _ => firstn 254 bits :: bit_chunks k (skipn 254 bits)
  end.
Definition l_to_fields (a : lroi) : list Z :=
  l_fields a ++ map bits_val (bit_chunks (length (l_bits a)) (l_bits a)).

(** roinput.rs 145-153 *)
Definition roinput_of_chunked (checked : bool) (c : croi) : res unit lroi :=
  let* fs := into_fields checked c in Ok (mk_lroi fs []).
