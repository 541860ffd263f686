(** What hex texts denote, written down independently of the codec. *)

From Coq Require Import ZArith List.
Import ListNotations.
Local Open Scope Z_scope.

Definition hex_digit (c d : Z) : Prop :=
  (48 <= c <= 57 /\ d = c - 48) \/ (65 <= c <= 70 /\ d = c - 65 + 10) \/ (97 <= c <= 102 /\ d = c - 97 + 10).

(** [hexes s bs]: the text [s] is two hex digits for each byte of [bs]. *)
Inductive hexes : list Z -> list Z -> Prop :=
| X_nil : hexes [] []
| X_byte : forall c1 c2 d1 d2 s bs, hex_digit c1 d1 -> hex_digit c2 d2 -> hexes s bs ->
    hexes (c1 :: c2 :: s) (16 * d1 + d2 :: bs).

(** The prefixes that are skipped: nothing, [0x] and [\x]. *)
Definition hex_prefix (p : list Z) : Prop := p = [] \/ p = [48; 120] \/ p = [92; 120].
