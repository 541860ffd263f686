(** Specification of the integer formats of bin_prot, written without the
    model's readers and writers.  A form is a header byte and a fixed number of
    little-endian bytes. *)
From Coq Require Import ZArith List.
Import ListNotations.
Open Scope bool_scope.
Open Scope Z_scope.

Definition is_byte (b : Z) : Prop := 0 <= b <= 255.

(** two's complement *)
Definition twos (bits u : Z) : Z := if u <? 2 ^ (bits - 1) then u else u - 2 ^ bits.

Definition le2 (a b : Z) : Z := a + 2 ^ 8 * b.
Definition le4 (a b c d : Z) : Z := a + 2 ^ 8 * b + 2 ^ 16 * c + 2 ^ 24 * d.
Definition le8 (a b c d e f g h : Z) : Z := le4 a b c d + 2 ^ 32 * le4 e f g h.

(** [int_form bs n]: the reader's documented forms of the signed integer [n],
    plus the single byte 0x80, which the reader also takes. *)
Inductive int_form : list Z -> Z -> Prop :=
| IF_1 : forall a, 0 <= a <= 128 -> int_form [a] a
| IF_2 : forall a, is_byte a -> int_form [255; a] (twos 8 a)
| IF_3 : forall a b, is_byte a -> is_byte b -> int_form [254; a; b] (twos 16 (le2 a b))
| IF_5 : forall a b c d, is_byte a -> is_byte b -> is_byte c -> is_byte d ->
    int_form [253; a; b; c; d] (twos 32 (le4 a b c d))
| IF_9 : forall a b c d e f g h, is_byte a -> is_byte b -> is_byte c -> is_byte d ->
    is_byte e -> is_byte f -> is_byte g -> is_byte h ->
    int_form [252; a; b; c; d; e; f; g; h] (twos 64 (le8 a b c d e f g h)).

(** [nat_form bs n]: same for lengths, unsigned. *)
Inductive nat_form : list Z -> Z -> Prop :=
| NF_1 : forall a, 0 <= a <= 128 -> nat_form [a] a
| NF_3 : forall a b, is_byte a -> is_byte b -> nat_form [254; a; b] (le2 a b)
| NF_5 : forall a b c d, is_byte a -> is_byte b -> is_byte c -> is_byte d ->
    nat_form [253; a; b; c; d] (le4 a b c d)
| NF_9 : forall a b c d e f g h, is_byte a -> is_byte b -> is_byte c -> is_byte d ->
    is_byte e -> is_byte f -> is_byte g -> is_byte h ->
    nat_form [252; a; b; c; d; e; f; g; h] (le8 a b c d e f g h).

(** Number of bytes of the encoding of [n] according to its magnitude. *)
Definition int_size (n : Z) : nat :=
  if (0 <=? n) && (n <=? 127) then 1
  else if (-128 <=? n) && (n <=? -1) then 2
  else if (-32768 <=? n) && (n <=? 32767) then 3
  else if (-2147483648 <=? n) && (n <=? 2147483647) then 5
  else 9.
Definition nat_size (n : Z) : nat :=
  if n <=? 127 then 1
  else if n <=? 65535 then 3
  else if n <=? 4294967295 then 5
  else 9.

Definition i64 (n : Z) : Prop := - 2 ^ 63 <= n < 2 ^ 63.
Definition u64 (n : Z) : Prop := 0 <= n < 2 ^ 64.
