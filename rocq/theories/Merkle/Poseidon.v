(** Model of /repo/merkle/src: merger_poseidon.rs, hasher_poseidon.rs, prefixes.rs.

    The Poseidon hash itself (crate mina_hasher, not in /repo) is a parameter:
    a function of the domain string and the list of field elements. *)
From Coq Require Import ZArith List Bool String.
From Verif Require Import Lib.Res Lib.Vec Lib.Bytes Lib.Decimal Merkle.Tree.
Import ListNotations.
Open Scope Z_scope.

(** prefixes.rs 8-10 *)
Definition make_prefix_merkle_tree (height : Z) : list Z :=
  str_bytes "CodaMklTree" ++ pad0 3 (dec height).
(** prefixes.rs 14-16 *)
Definition make_prefix_coinbase_merkle_tree (height : Z) : list Z :=
  str_bytes "CodaCbMklTree" ++ pad0 3 (dec height).

(** merger_poseidon.rs 53-60 *)
Definition node_domain (height : Z) : option (list Z) :=
  if 0 <? height then Some (make_prefix_merkle_tree (height - 1)) else None.

Section Poseidon.
Context {Item Fp : Type}.
(** [create_legacy(d).hash(input)] / [create_kimchi(d).hash(input)] for an input
    made of field elements only. *)
Variable poseidon : option (list Z) -> list Fp -> Fp.
(** The hash of an absent account, a constant (merger_poseidon.rs 91-97, 133-139). *)
Variable empty0 : Fp.
(** Hash of an item: its own domain and input (hasher_poseidon.rs 24-27, 45-48). *)
Variable item_hash : Item -> Fp.

(** merger_poseidon.rs 69-71 and 111-113, with both hashes present: the input is
    the two hashes in order (lines 45-51). *)
Definition merge_present (height : Z) (l r : Fp) : Fp := poseidon (node_domain height) [l; r].

(** merger_poseidon.rs 74-103 and 116-145 *)
Fixpoint get_empty_hash (height : nat) : Fp :=
  match height with
  | O => empty0
  | S h => let c := get_empty_hash h in merge_present (Z.of_nat height) c c
  end.

(** merger_poseidon.rs 64-68, 106-110.  A missing hash at height 0 makes the
    code subtract 1 from 0 (panic, or endless recursion); trees and proofs of
    the right shape only merge at height 1 and more, and the model returns
    [empty0] there. *)
Definition fill (height : Z) (h : option Fp) : Fp :=
  match h with Some x => x | None => get_empty_hash (Z.to_nat (height - 1)) end.

(** merger_poseidon.rs 15-37, 63-72, 105-114 *)
Definition poseidon_merge (l r : option Fp) (m : meta) : option Fp :=
  Some (merge_present (m_height m) (fill (m_height m) l) (fill (m_height m) r)).

(** hasher_poseidon.rs 17-28, 38-49: the metadata is ignored. *)
Definition poseidon_hash_item (x : Item) (_ : meta) : Fp := item_hash x.
End Poseidon.

(** merger_poseidon.rs 91-96 and 133-138: limbs, least significant first. *)
Definition limbs (l : list Z) : Z := fold_right (fun x a => x + 2 ^ 64 * a) 0 l.
Definition empty_legacy_repr : Z :=
  limbs [618825277339585648; 17206846358602357477; 11135808194678189552; 2326690702673829595].
Definition empty_kimchi_repr : Z :=
  limbs [17222659083400437799; 16271203913493378952; 8137184135467838648; 1525063794952698544].
(** The values the comments give (lines 88-89, 130-131). *)
Example empty_legacy_value :
  empty_legacy_repr = 14604874247461951431777712543359658136906556694369689076707549712589474483312
  /\ empty_legacy_repr = 0x204a10dde313dedb9a8a568d92ad6df0eecaff98ed379ae50896824fa1dbcc70.
Proof. split; reflexivity. Qed.
Example empty_kimchi_value :
  empty_kimchi_repr = 9572980593872981109373931329129826339992116007886182568766828232902813999143
  /\ empty_kimchi_repr = 0x152a1d70fdf6fab070ed15dbca812cb8e1ceedc033b7f788ef032d2fd1bce027.
Proof. split; reflexivity. Qed.
