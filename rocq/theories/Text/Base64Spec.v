(** Base64 for URLs, independently of the code: RFC 4648, section 5. *)

From Coq Require Import ZArith List.
Import ListNotations.
Local Open Scope Z_scope.

(** The six bits of a character: A-Z, a-z, 0-9, - and _ *)
Inductive six : Z -> Z -> Prop :=
| X_upper : forall d, 0 <= d < 26 -> six (65 + d) d
| X_lower : forall d, 26 <= d < 52 -> six (71 + d) d
| X_digit : forall d, 52 <= d < 62 -> six (d - 4) d
| X_dash : six 45 62
| X_line : six 95 63.

(** Digits as a number, the first the highest *)
Fixpoint number (b : Z) (l : list Z) : Z := match l with [] => 0 | d :: l => d * b ^ Z.of_nat (length l) + number b l end.

(** The text of bytes: their bits in groups of six, filled up with zeros and then
    with [=] to a multiple of four characters. *)
Definition text64 (s bs : list Z) : Prop :=
  exists body ds k, s = body ++ repeat 61 k /\ Forall2 six body ds /\ (k <= 2)%nat /\ (exists q, length s = 4 * q)%nat /\
    (6 * length ds = 8 * length bs + 2 * k)%nat /\ number 64 ds = number 256 bs * 4 ^ Z.of_nat k.
