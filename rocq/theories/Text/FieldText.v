(** Decimal texts of field elements: /repo/proof-systems-shim/src/fp.rs.

    A field element is its canonical representative.  [num::BigUint] and
    [ark_ff::BigInteger256] (version 0.3) are modelled from their published
    behaviour. *)

From Coq Require Import ZArith List Bool.
From Verif Require Import Lib.Res Lib.Decimal.
Import ListNotations.
Local Open Scope Z_scope.

(** The modulus of [mina_hasher::Fp], the base field of Pallas. *)
Definition FP_MODULUS : Z := 0x40000000000000000000000000000000224698fc094cf91b992d30ed00000001.

Inductive fterr : Set := FEmpty | FInvalidDigit | FTooLarge.

(** [BigUint::from_str_radix(s, 10)]: every digit is kept, underscores are
    skipped. *)
Fixpoint big_digits (s : list Z) (acc : Z) : res fterr Z :=
  match s with
  | [] => Ok acc
  | c :: s' =>
      if is_digit c then big_digits s' (10 * acc + (c - 48))
      else if c =? 95 then big_digits s' acc
      else Err FInvalidDigit
  end.
(** One leading [+] is dropped unless another one follows; the first character
    then must not be an underscore. *)
Definition strip_plus (s : list Z) : list Z :=
  match s with
  | 43 :: 43 :: _ => s
  | 43 :: s' => s'
  | _ => s
  end.
Definition biguint_parse (s : list Z) : res fterr Z :=
  match strip_plus s with
  | [] => Err FEmpty
  | c :: s' => if c =? 95 then Err FInvalidDigit else big_digits (c :: s') 0
  end.

(** [BigInteger256::try_from(BigUint)]: at most 32 bytes *)
Definition big256 (n : Z) : res fterr Z := if n <? 2 ^ 256 then Ok n else Err FTooLarge.
(** [Fp::from(BigInteger256)] is [from_repr(..).unwrap()]: panics from the
    modulus on. *)
Definition fp_from_repr (n : Z) : res fterr Z := if n <? FP_MODULUS then Ok n else Panic.

(** fp.rs 15-24 *)
Definition fp_json_ser (x : Z) : list Z := dec x.
(** fp.rs 26-39 *)
Definition fp_json_de (s : list Z) : res fterr Z :=
  let* n := biguint_parse s in let* b := big256 n in fp_from_repr b.
(** fp.rs 41-47: [try_into().unwrap()] *)
Definition fp_from_radix_10 (s : list Z) : res fterr Z :=
  let* n := biguint_parse s in
  match big256 n with Ok b => fp_from_repr b | _ => Panic end.
