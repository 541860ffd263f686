(** The document that a JSON text stands for.  Models no code.  Whole numbers
    of 64 bits are numbers; all others, minus zero among them, stand for the
    nearest float, as far as there is one. *)

From Coq Require Import ZArith List Permutation.
From Verif Require Import Lib.Bytes Lib.Decimal Lib.Text BinProt.Prim Text.Base58 Json.Json.
From Verif Require Import Json.Grammar.
Import ListNotations.
Local Open Scope Z_scope.

Inductive int_text : list Z -> Z -> Prop :=
| I_plus : forall t, t <> [] -> digits t -> int_text t (dec_val t)
| I_minus : forall t, digits t -> dec_val t <> 0 -> int_text (45 :: t) (- dec_val t).
Definition int64 (z : Z) : Prop := - 2 ^ 63 <= z < 2 ^ 64.
Inductive says (float_of : list Z -> option Z) : raw -> json -> Prop :=
| Y_null : says float_of RNull JNull
| Y_bool : forall b, says float_of (RBool b) (JBool b)
| Y_int : forall t z, int_text t z -> int64 z -> says float_of (RNum t) (JNum z)
| Y_float : forall t b, (forall z, int_text t z -> ~ int64 z) -> float_of t = Some b -> says float_of (RNum t) (JFloat b)
| Y_str : forall s, says float_of (RStr s) (JStr s)
| Y_arr : forall l js, Forall2 (says float_of) l js -> says float_of (RArr l) (JArr js)
| Y_obj : forall m ms, Forall2 (fun p q => fst p = fst q /\ says float_of (snd p) (snd q)) m ms -> says float_of (RObj m) (JObj ms).

(** A text as Rust holds it. *)
Definition rust_text (s : list Z) : Prop := bytes_ok s /\ utf8_valid s = true /\ Z.of_nat (List.length s) < 2 ^ 63.

(** The same document but for the order of members. *)
Inductive same : json -> json -> Prop :=
| S_refl : forall j, same j j
| S_arr : forall l l', Forall2 same l l' -> same (JArr l) (JArr l')
| S_obj : forall m m1 m', NoDup (map fst m) -> Permutation m m1 -> Forall2 (fun p q => fst p = fst q /\ same (snd p) (snd q)) m1 m' -> same (JObj m) (JObj m').
