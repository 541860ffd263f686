(** What decimal texts denote, written down independently of the parsers. *)

From Coq Require Import ZArith List.
From Verif Require Import Lib.Decimal.
Import ListNotations.
Local Open Scope Z_scope.

Definition digit_text (l : list Z) : Prop := Forall (fun c => 48 <= c <= 57) l.

(** [numeral s m k]: the text [s] is an unsigned decimal numeral, digits with
    at most one point behind at least one digit, whose value is
    [m / 10 ^ k]. *)
Inductive numeral : list Z -> Z -> nat -> Prop :=
| N_whole : forall i, i <> [] -> digit_text i -> numeral i (dec_val i) 0
| N_fraction : forall i f, i <> [] -> digit_text i -> digit_text f ->
    numeral (i ++ 46 :: f) (dec_val (i ++ f)) (length f).

(** The amount [a] (in units of 10^-9) is the number [m / 10 ^ k]. *)
Definition amount_is (a m : Z) (k : nat) : Prop := a * 10 ^ Z.of_nat k = m * 10 ^ 9.

(** The value of a numeral is at most what an amount can hold. *)
Definition amount_fits (m : Z) (k : nat) : Prop := m * 10 ^ 9 < 2 ^ 64 * 10 ^ Z.of_nat k.
