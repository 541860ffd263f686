(** Which parts of a layout a key selects, whatever the bytes are. *)
From Coq Require Import ZArith List Bool String.
From Verif Require Import Loose.Loose Loose.Index.
Import ListNotations.
Open Scope string_scope.
Open Scope list_scope.
Open Scope Z_scope.

(** the first field of that name; the component at that position; references do
    not count *)
Inductive under : rule -> key -> rule -> Prop :=
| U_field : forall a k r b, ~ In k (map fst a) -> under (RRecord (a ++ (k, r) :: b)) (KName k) r
| U_elem : forall rs n r, nth_error rs n = Some r -> under (RTuple rs) (KNum (Z.of_nat n)) r
| U_ref : forall m r k r', under r k r' -> under (RResolved m r) k r'.
Inductive unders : rule -> list key -> rule -> Prop :=
| U_nil : forall r, unders r [] r
| U_cons : forall r k r' ks r'', under r k r' -> unders r' ks r'' -> unders r (k :: ks) r''.
(** a layout behind its references *)
Fixpoint strip (r : rule) : rule := match r with RResolved _ r => strip r | r => r end.
(** [a] occurs in [b] *)
Definition part (a b : list Z) : Prop := exists x y, b = x ++ a ++ y.
