(** What a stored genesis ledger contains, apart from the loading code. *)

From Coq Require Import ZArith List Sorted.
From Verif Require Import BinProt.Codec BinProt.FormatSpec.
Import ListNotations.
Local Open Scope list_scope.
Local Open Scope Z_scope.

(** A database is a list of keys and values.  Keys are in lexicographic order. *)
Inductive before : list Z -> list Z -> Prop :=
| B_prefix : forall y b, before [] (y :: b)
| B_less : forall x y a b, x < y -> before (x :: a) (y :: b)
| B_same : forall x a b, before a b -> before (x :: a) (x :: b).
Definition ordered (db : list (list Z * list Z)) : Prop := StronglySorted (fun e f => before (fst e) (fst f)) db.

(** The records of accounts have a key that starts with 254. *)
Definition is_record (e : list Z * list Z) : bool := match fst e with x :: _ => x =? 254 | [] => false end.
Definition records (db : list (list Z * list Z)) : list (list Z * list Z) := filter is_record db.
(** The records read before the database reports an error. *)
Definition seen (db : list (list Z * list Z)) (fault : option nat) : list (list Z * list Z) :=
  match fault with None => records db | Some n => firstn n (records db) end.

(** Values are bin_prot forms of wire values, which stand for accounts. *)
Section Stored.
  Variable T : ty.
  Variable A : Type.
  Variable R : val -> A -> Prop.
  Variable big : val -> Prop.
  Definition stores (bs : list Z) (a : A) : Prop := exists v, acc T v bs /\ R v a.
  Definition undecodable (bs : list Z) : Prop := forall v, ~ acc T v bs.
  Definition stores_big (bs : list Z) : Prop := exists v, acc T v bs /\ big v.
  (** What remains when the records that cannot be decoded are left out. *)
  Inductive kept : list (list Z * list Z) -> list A -> Prop :=
  | K_nil : kept [] []
  | K_take : forall e es a l, stores (snd e) a -> kept es l -> kept (e :: es) (a :: l)
  | K_skip : forall e es l, undecodable (snd e) -> kept es l -> kept (e :: es) l.
End Stored.

(** Two lists with the same hash in the same domain. *)
Definition collision (poseidon : option (list Z) -> list Z -> Z) : Prop := exists d x y, x <> y /\ poseidon d x = poseidon d y.
