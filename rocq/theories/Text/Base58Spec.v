(** Base58 with the Bitcoin alphabet, independently of the code: the digits and
    letters without 0, O, I and l. *)

From Coq Require Import ZArith List.
From Verif Require Import Text.Base64Spec.
Import ListNotations.
Local Open Scope Z_scope.

(** The digit of a character: 1-9, A-H, J-N, P-Z, a-k and m-z in this order *)
Inductive rank : Z -> Z -> Prop :=
| R_digit : forall d, 0 <= d < 9 -> rank (49 + d) d
| R_A_H : forall d, 9 <= d < 17 -> rank (56 + d) d
| R_J_N : forall d, 17 <= d < 22 -> rank (57 + d) d
| R_P_Z : forall d, 22 <= d < 33 -> rank (58 + d) d
| R_a_k : forall d, 33 <= d < 44 -> rank (64 + d) d
| R_m_z : forall d, 44 <= d < 58 -> rank (65 + d) d.

(** The text of bytes: as many zeros in front as the bytes have, and then the
    same number with no zero in front. *)
Definition text58 (s bs : list Z) : Prop :=
  exists n ds rest, bs = repeat 0 n ++ rest /\ hd 1 rest <> 0 /\ hd 1 ds <> 0 /\
    Forall2 rank s (repeat 0 n ++ ds) /\ number 58 ds = number 256 rest.
