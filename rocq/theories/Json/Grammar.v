(** The texts of JSON documents, RFC 8259.  Models no code.  A text is a list
    of bytes.  Numbers are kept as they are written; the members of an object
    are in order and may be repeated. *)

From Coq Require Import String ZArith List.
From Verif Require Import Lib.Bytes Lib.Decimal Lib.Text Text.Base58 Proto.PbSpec.
Import ListNotations.
Local Open Scope string_scope.
Local Open Scope list_scope.
Local Open Scope Z_scope.

Inductive raw : Type :=
| RNull | RBool (b : bool) | RNum (s : list Z) | RStr (s : list Z)
| RArr (l : list raw) | RObj (m : list (list Z * raw)).

Definition white (c : Z) : Prop := c = 32 \/ c = 9 \/ c = 10 \/ c = 13.
Definition blank (s : list Z) : Prop := Forall white s.

(** ** Numbers *)
Definition whole_text (s : list Z) : Prop := s = [48] \/ exists d ds, s = d :: ds /\ 49 <= d <= 57 /\ digits ds.
Definition fraction_text (s : list Z) : Prop := s = [] \/ exists ds, s = 46 :: ds /\ ds <> [] /\ digits ds.
Definition exponent_text (s : list Z) : Prop :=
  s = [] \/ exists e sg ds, s = e :: sg ++ ds /\ (e = 101 \/ e = 69) /\ (sg = [] \/ sg = [43] \/ sg = [45]) /\ ds <> [] /\ digits ds.
Definition minus_text (s : list Z) : Prop := s = [] \/ s = [45].
Definition num_text (s : list Z) : Prop :=
  exists sg i f e, s = sg ++ i ++ f ++ e /\ minus_text sg /\ whole_text i /\ fraction_text f /\ exponent_text e.

(** ** Strings *)
Definition hex_value (c v : Z) : Prop := (48 <= c <= 57 /\ v = c - 48) \/ (65 <= c <= 70 /\ v = c - 55) \/ (97 <= c <= 102 /\ v = c - 87).
Definition hex4 (s : list Z) (n : Z) : Prop :=
  exists a b c d w x y z, s = [a; b; c; d] /\ hex_value a w /\ hex_value b x /\ hex_value c y /\ hex_value d z /\ n = ((w * 16 + x) * 16 + y) * 16 + z.
(** the second character of a short escape and what it stands for *)
Definition short (c v : Z) : Prop :=
  (c = 34 /\ v = 34) \/ (c = 92 /\ v = 92) \/ (c = 47 /\ v = 47) \/ (c = 98 /\ v = 8) \/ (c = 102 /\ v = 12) \/ (c = 110 /\ v = 10) \/
  (c = 114 /\ v = 13) \/ (c = 116 /\ v = 9).
Inductive chars : list Z -> list Z -> Prop :=
| Ch_nil : chars [] []
| Ch_plain : forall c s l, 32 <= c < 256 -> c <> 34 -> c <> 92 -> chars s l -> chars (c :: s) (c :: l)
| Ch_short : forall c v s l, short c v -> chars s l -> chars (92 :: c :: s) (v :: l)
| Ch_unicode : forall h n s l, hex4 h n -> ~ 0xd800 <= n < 0xe000 -> chars s l -> chars (92 :: 117 :: h ++ s) (utf8_point n ++ l)
| Ch_pair : forall h n k m s l, hex4 h n -> 0xd800 <= n < 0xdc00 -> hex4 k m -> 0xdc00 <= m < 0xe000 -> chars s l ->
    chars (92 :: 117 :: h ++ 92 :: 117 :: k ++ s) (utf8_point (0x10000 + (n - 0xd800) * 0x400 + (m - 0xdc00)) ++ l).

(** ** Values *)
Inductive value : list Z -> raw -> Prop :=
| V_null : value (str_bytes "null") RNull
| V_true : value (str_bytes "true") (RBool true)
| V_false : value (str_bytes "false") (RBool false)
| V_num : forall s, num_text s -> value s (RNum s)
| V_str : forall s l, chars s l -> value (34 :: s ++ [34]) (RStr l)
| V_arr0 : forall w, blank w -> value (91 :: w ++ [93]) (RArr [])
| V_arr : forall s l, elements s l -> value (91 :: s ++ [93]) (RArr l)
| V_obj0 : forall w, blank w -> value (123 :: w ++ [125]) (RObj [])
| V_obj : forall s m, members s m -> value (123 :: s ++ [125]) (RObj m)
with elements : list Z -> list raw -> Prop :=
| E_one : forall w v w' r, blank w -> value v r -> blank w' -> elements (w ++ v ++ w') [r]
| E_more : forall w v w' r s l, blank w -> value v r -> blank w' -> elements s l -> elements (w ++ v ++ w' ++ 44 :: s) (r :: l)
with members : list Z -> list (list Z * raw) -> Prop :=
| M_one : forall w k n w1 w2 v w' r, blank w -> chars k n -> blank w1 -> blank w2 -> value v r -> blank w' ->
    members (w ++ (34 :: k ++ [34]) ++ w1 ++ 58 :: w2 ++ v ++ w') [(n, r)]
| M_more : forall w k n w1 w2 v w' r s m, blank w -> chars k n -> blank w1 -> blank w2 -> value v r -> blank w' -> members s m ->
    members (w ++ (34 :: k ++ [34]) ++ w1 ++ 58 :: w2 ++ v ++ w' ++ 44 :: s) ((n, r) :: m).
Definition json_text (s : list Z) (r : raw) : Prop := exists w v w', s = w ++ v ++ w' /\ blank w /\ blank w' /\ value v r.

(** Every object has every name once. *)
Fixpoint once (r : raw) : Prop :=
  match r with
  | RArr l => (fix all (l : list raw) : Prop := match l with [] => True | r :: l => once r /\ all l end) l
  | RObj m => NoDup (map fst m) /\ (fix all (m : list (list Z * raw)) : Prop := match m with [] => True | (_, r) :: m => once r /\ all m end) m
  | _ => True
  end.
