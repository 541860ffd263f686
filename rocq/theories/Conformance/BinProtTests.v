(** The expected bytes of the repository's own tests of bin_prot
    (/repo/protocol/bin-prot/tests), run on the model.  These are tests of the
    model, not theorems about it.

    The tables in the tests print the bytes last to first; here they are in the
    same order and reversed by [wire]. *)
From Coq Require Import String ZArith List Bool.
From Verif Require Import Lib.Res Lib.Bytes BinProt.Prim BinProt.Codec Loose.Loose Loose.Index.
Import ListNotations.
Local Open Scope list_scope.
Local Open Scope Z_scope.

(** tests/common.rs 12-21: [bin_prot_test!]; the build with overflow checks *)
Definition wire (t : ty) (expected : list Z) (v : val) : Prop :=
  to_bytes true t v = Ok (rev expected) /\ from_slice true t (rev expected) = Ok (v, []).
Notation int k := (TInt k).
Ltac tables := repeat match goal with |- _ /\ _ => split | |- wire _ _ _ => split end; reflexivity.

(** tests/non_integers_repr.rs 12-52 *)
Example test_unit : wire TUnit [0] VUnit. Proof. tables. Qed.
Example test_bool : wire TBool [1] (VBool true) /\ wire TBool [0] (VBool false). Proof. tables. Qed.
Example test_char :
  wire TChar [0x00] (VChar 0) /\ wire TChar [0x41] (VChar 65) /\ wire TChar [0x7a] (VChar 122) /\
  wire TChar [0x3b] (VChar 59) /\ wire TChar [0xff] (VChar 255).
Proof. tables. Qed.
Example test_str :
  wire TStr [0] (VStr (str_bytes "")) /\ wire TStr [97; 1] (VStr (str_bytes "a")) /\
  wire TStr [99; 66; 97; 3] (VStr (str_bytes "aBc")).
Proof. tables. Qed.

(** tests/non_integers_repr.rs 54-70: a float is the number that its bits spell *)
Definition float_cases : list (list Z * Z) :=
  [ ([0x3c; 0xb0; 0; 0; 0; 0; 0; 0], 0x3cb0000000000000);
    ([0x7f; 0xf0; 0; 0; 0; 0; 0; 0], 0x7ff0000000000000);
    ([0x7f; 0xef; 0xff; 0xff; 0xff; 0xff; 0xff; 0xff], 0x7fefffffffffffff);
    ([0; 0x10; 0; 0; 0; 0; 0; 0], 0x10000000000000);
    ([0; 0; 0; 0; 0; 0; 0; 1], 1);
    ([0xff; 0xf0; 0; 0; 0; 0; 0; 0], 0xfff0000000000000);
    ([0xbf; 0xf0; 0; 0; 0; 0; 0; 0], 0xbff0000000000000);
    ([0x3f; 0xf0; 0; 0; 0; 0; 0; 0], 0x3ff0000000000000);
    ([0x3e; 0x7a; 0xd7; 0xf2; 0x9a; 0xbc; 0xaf; 0x48], 0x3e7ad7f29abcaf48);
    ([0; 0; 0; 0; 0; 0; 0; 0], 0) ].
Example test_float : Forall (fun c => wire TF64 (fst c) (VFloat (snd c))) float_cases.
Proof. repeat (constructor; [tables|]). constructor. Qed.
(** tests/non_integers_repr.rs 72-94 *)
Example test_float_vec :
  wire (TSeq TF64) [0] (VSeq []) /\
  wire (TSeq TF64) [0x3f; 0xf0; 0; 0; 0; 0; 0; 0; 1] (VSeq [VFloat 0x3ff0000000000000]) /\
  wire (TSeq TF32) [0] (VSeq []) /\
  wire (TSeq TF32) [0x3f; 0x80; 0; 0; 1] (VSeq [VFloat 0x3f800000]).
Proof. tables. Qed.
(** tests/non_integers_repr.rs 96-106 *)
Example test_option :
  wire (TOpt (int I64)) [0] VNone /\
  wire (TOpt (int I64)) [0; 1] (VSome (VInt 0)) /\
  wire (TOpt (int I64)) [1; 1] (VSome (VInt 1)) /\
  wire (TOpt (int I32)) [0xff; 0xff; 1] (VSome (VInt (-1))) /\
  wire (TOpt (int I64)) [0x7f; 0xff; 0xff; 0xff; 0xfd; 1] (VSome (VInt 2147483647)) /\
  wire (TOpt (int I64)) [0x80; 0; 0; 0; 0xfd; 1] (VSome (VInt (-2147483648))).
Proof. tables. Qed.
(** tests/non_integers_repr.rs 108-128 *)
Definition same (n : nat) (z : Z) : val := VTup (repeat (VInt z) n).
Definition many (n : nat) : ty := TTup (repeat (int I32) n).
Example test_pair_triple :
  wire (many 2) [0; 0] (same 2 0) /\ wire (many 2) [1; 1] (same 2 1) /\
  wire (many 2) [0xff; 0xff; 0xff; 0xff] (same 2 (-1)) /\
  wire (many 2) [0x7f; 0xff; 0xff; 0xff; 0xfd; 0x7f; 0xff; 0xff; 0xff; 0xfd] (same 2 2147483647) /\
  wire (many 2) [0x80; 0; 0; 0; 0xfd; 0x80; 0; 0; 0; 0xfd] (same 2 (-2147483648)) /\
  wire (many 3) [0; 0; 0] (same 3 0) /\ wire (many 3) [1; 1; 1] (same 3 1) /\
  wire (many 3) [0xff; 0xff; 0xff; 0xff; 0xff; 0xff] (same 3 (-1)) /\
  wire (many 3) [0x7f; 0xff; 0xff; 0xff; 0xfd; 0x7f; 0xff; 0xff; 0xff; 0xfd; 0x7f; 0xff; 0xff; 0xff; 0xfd]
    (same 3 2147483647) /\
  wire (many 3) [0x80; 0; 0; 0; 0xfd; 0x80; 0; 0; 0; 0xfd; 0x80; 0; 0; 0; 0xfd] (same 3 (-2147483648)).
Proof. tables. Qed.
(** tests/arrays.rs 12-30 and tests/non_integers_repr.rs 130-152 *)
Definition ints (l : list Z) : val := VSeq (map VInt l).
Example test_arrays :
  wire (TSeq (int I32)) [0x00] (ints []) /\
  wire (TSeq (int I32)) [0x00; 0x01] (ints [0]) /\
  wire (TSeq (int I32)) [0x01; 0x00; 0x02] (ints [0; 1]) /\
  wire (TSeq (int I32)) [0xff; 0xff; 0x01; 0x02] (ints [1; -1]) /\
  wire (TSeq (int I32)) [0x7f; 0xff; 0xff; 0xff; 0xfd; 0x00; 0x02] (ints [0; 2147483647]) /\
  wire (TSeq (int I32)) [0x80; 0x00; 0x00; 0x00; 0xfd; 0x7f; 0xff; 0xff; 0xff; 0xfd; 0x02]
    (ints [2147483647; -2147483648]).
Proof. tables. Qed.

(** tests/common.rs 23-81: the records *)
Definition tA : ty := TTup [int I64; TF64].
Definition tBInner : ty := TTup [int I64; int I64].
Definition tB : ty := TTup [tBInner; TOpt (int I64)].
Definition tBInner4 : ty := TEnum [[tBInner]].
Definition tBInner2 : ty := TEnum [[tBInner]; [tBInner4]].
Definition tBInner3 : ty := TTup [int I64; tBInner2].
Definition tB2 : ty := TTup [tBInner3; TOpt (int I64)].
Definition tB3 : ty := TTup [tBInner2; TOpt (int I64)].
Definition tCInner2 : ty := TEnum [[]; [TUnit]].
Definition tCInner : ty := TEnum [[]; [tCInner2]].
Definition tC : ty := TTup [tCInner; TOpt (int I64)].
Definition vBInner (w x : Z) : val := VTup [VInt w; VInt x].
(** tests/non_integers_repr.rs 154-193 *)
Example test_records :
  wire tA [0; 0; 0; 0; 0; 0; 0; 0; 0] (VTup [VInt 0; VFloat 0]) /\
  wire tA [0x7f; 0xf0; 0; 0; 0; 0; 0; 0; 0x7f; 0xff; 0xff; 0xff; 0xfd]
    (VTup [VInt 2147483647; VFloat 0x7ff0000000000000]) /\
  wire tB [0; 0; 0] (VTup [vBInner 0 0; VNone]) /\
  wire tB [0; 0x7f; 0xff; 0xff; 0xff; 0xfd; 0x7f; 0xff; 0xff; 0xff; 0xff; 0xff; 0xff; 0xff; 0xfc]
    (VTup [vBInner 9223372036854775807 2147483647; VNone]) /\
  wire tB3 [0; 0; 0; 0; 1] (VTup [VEnum 1 [VEnum 0 [vBInner 0 0]]; VNone]) /\
  wire tB2 [0; 0x7f; 0xff; 0xff; 0xff; 0xfd; 0x7f; 0xff; 0xff; 0xff; 0xff; 0xff; 0xff; 0xff; 0xfc; 0; 1]
    (VTup [VTup [VInt 1; VEnum 0 [vBInner 9223372036854775807 2147483647]]; VNone]) /\
  wire tC [0; 0; 1; 1] (VTup [VEnum 1 [VEnum 1 [VUnit]]; VNone]).
Proof. tables. Qed.

(** tests/compound_types.rs 8-93, without the field attributes of
    [TestFieldAttrs], which no test there uses *)
Definition roundtrips (t : ty) (v : val) : Prop :=
  exists bs, to_bytes true t v = Ok bs /\ from_slice true t bs = Ok (v, []).
Ltac trip := eexists; split; reflexivity.
Example roundtrip_tuple_struct :
  roundtrips (TTup [TBool; int I8; int I16; int I32; int I64; TUnit; TOpt TUnit; TTup [TU8; TU8; TU8]; TChar])
    (VTup [VBool true; VInt 0; VInt 0; VInt 0; VInt 0; VUnit; VNone; VTup [VInt 1; VInt 2; VInt 3]; VChar 99]).
Proof. trip. Qed.
Example roundtrip_array_in_struct :
  roundtrips (TTup [TU8; TTup [TU8; TTup (repeat TU8 32); TBool]])
    (VTup [VInt 1; VTup [VInt 1; VTup (repeat (VInt 0) 32); VBool false]]).
Proof. trip. Qed.
Example roundtrip_nested_structs : roundtrips (TTup [TBool]) (VTup [VBool false]). Proof. trip. Qed.
Example roundtrip_enum : roundtrips (TEnum [[]; []; []]) (VEnum 0 []). Proof. trip. Qed.
Example roundtrip_owned_string : roundtrips TStr (VStr (str_bytes "serde-bin-prot")). Proof. trip. Qed.

(** tests/integers.rs 15-81: the points 0, the ends of OCaml's 63-bit integers,
    the powers of two and their negatives, each with eight numbers on either
    side, cut at the ends as there. *)
Definition int_min : Z := - 2 ^ 62.
Definition int_max : Z := 2 ^ 62 - 1.
Definition powers : list Z := flat_map (fun i => [2 ^ Z.of_nat i; - 2 ^ Z.of_nat i]) (seq 0 62).
Definition around (i : Z) : list Z :=
  let a := if i <=? int_min + 8 then int_min else i - 8 in
  let b := if int_max - 8 <=? i then int_max else i + 8 in
  map (fun k => a + Z.of_nat k) (seq 0 (Z.to_nat (b - a))).
Definition int_points : list Z := flat_map around (0 :: int_min :: int_max :: powers).
Definition int_back (z : Z) : bool :=
  match to_bytes true (int I64) (VInt z) with
  | Ok bs => match from_slice true (int I64) bs with Ok (VInt y, []) => y =? z | _ => false end
  | _ => false
  end.
Example test_roundtrip_integers : forallb int_back int_points = true /\ length int_points = 2016%nat.
Proof. split; vm_compute; reflexivity. Qed.

(** tests/polyvar.rs 11-85 *)
Definition tPolyvar2 : ty := TPoly [("Some"%string, [])].
Definition tPolyvar : ty := TPoly [("None"%string, []); ("One"%string, [TBool]); ("Two"%string, [tPolyvar2])].
Example test_polyvar :
  to_bytes true tPolyvar (VEnum 0 []) = Ok (le_bytes 4 1741061553) /\
  from_slice true tPolyvar (le_bytes 4 1741061553) = Ok (VEnum 0 [], []) /\
  from_slice true tPolyvar (le_bytes 4 7906445 ++ le_bytes 4 1) = Ok (VEnum 1 [VBool true], [0; 0; 0]) /\
  to_bytes true tPolyvar (VEnum 1 [VBool true]) = Ok (firstn 5 (le_bytes 4 7906445 ++ le_bytes 4 1)) /\
  from_slice true tPolyvar (le_bytes 4 8407769 ++ le_bytes 4 1851956777) = Ok (VEnum 2 [VEnum 0 []], []) /\
  to_bytes true tPolyvar (VEnum 2 [VEnum 0 []]) = Ok (le_bytes 4 8407769 ++ le_bytes 4 1851956777) /\
  (exists e, from_slice true tPolyvar (le_bytes 4 1234567) = Err e).
Proof. repeat match goal with |- _ /\ _ => split end; try (eexists; reflexivity); reflexivity. Qed.
(** src/polyvar/caml_hash_variant.rs 42-56 *)
Example test_known_labels :
  caml_hash_variant true "One" = Ok 3953222 /\ caml_hash_variant true "Two" = Ok 4203884 /\
  caml_hash_variant true "Three" = Panic.
Proof. tables. Qed.

(** src/value/index.rs 71-163 *)
Definition l123 : value := LList [LInt 1; LInt 2; LInt 3].
Definition r12 : value := LRecord [("one"%string, LInt 1); ("two"%string, LInt 2)].
Example index_into_list :
  index l123 (KNum 0) = Ok (LInt 1) /\ index l123 (KNum 1) = Ok (LInt 2) /\ index l123 (KNum 2) = Ok (LInt 3) /\
  index l123 (KNum 3) = Panic.
Proof. tables. Qed.
Example index_into_record :
  index r12 (KName "one") = Ok (LInt 1) /\ index r12 (KName "two") = Ok (LInt 2) /\
  index r12 (KName "missing") = Panic.
Proof. tables. Qed.
Example index_into_variants :
  let t := LSum "variant A" 0 l123 in
  let r := LSum "variant A" 0 r12 in
  index t (KNum 0) = Ok (LInt 1) /\ index t (KNum 1) = Ok (LInt 2) /\ index t (KNum 2) = Ok (LInt 3) /\
  index r (KName "one") = Ok (LInt 1) /\ index r (KName "two") = Ok (LInt 2).
Proof. intros t r. tables. Qed.
Example option_inner : inner (LOption None) = Ok None /\ inner (LInt 1) = Panic. Proof. tables. Qed.
