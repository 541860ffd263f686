(** Specification of Merkle roots: from the list of leaves alone, by recursion
    on the height, with no array, index or cache.  Models no code. *)
From Coq Require Import ZArith List Bool.
From Verif Require Import Lib.Res Lib.Vec Merkle.Tree.
Import ListNotations.
Open Scope Z_scope.

(** The leaves added by a history, in order. *)
Definition op_leaves {Item} (o : op Item) : list Item :=
  match o with OAddBatch l => l | OAdd x => [x] | ORoot | OProof _ => [] end.
Definition leaves_of {Item} (ops : list (op Item)) : list Item := flat_map op_leaves ops.

(** [k] is the least height of a binary tree with room for [n] leaves. *)
Definition least_height (n k : nat) : Prop :=
  (n <= 2 ^ k)%nat /\ forall j, (n <= 2 ^ j)%nat -> (k <= j)%nat.

Section Spec.
Context {Item Hash : Type}.
Variable hasher : Item -> meta -> Hash.
Variable merger : option Hash -> option Hash -> meta -> option Hash.

(** Hash of the binary tree of height [k] over the leaves [l], whose top node is
    at distance [d] from the root of the whole tree: the left half holds the
    first [2^(k-1)] leaves, the right half the rest; a missing leaf has no hash. *)
Fixpoint mroot (k : nat) (d : Z) (l : list Item) : option Hash :=
  match k with
  | O =>
    match l with
    | [] => None
    | x :: _ => Some (hasher x {| m_depth := d; m_height := 0 |})
    end
  | S k' =>
    merger (mroot k' (d + 1) (firstn (2 ^ k') l)) (mroot k' (d + 1) (skipn (2 ^ k') l))
      {| m_depth := d; m_height := Z.of_nat k |}
  end.

(** [n] further levels put on top of a tree of height [k] with root [r]: each
    time the old root becomes the left child of a new root without right child. *)
Fixpoint extend (n : nat) (k : nat) (r : option Hash) : option Hash :=
  match n with
  | O => r
  | S n' => extend n' (S k) (merger r None {| m_depth := 0; m_height := Z.of_nat (S k) |})
  end.

(** The root of a tree in the given mode, of least height [k]. *)
Definition spec_root (mode : option Z) (k : nat) (l : list Item) : option Hash :=
  match mode with
  | None => mroot k 0 l
  | Some f => extend (Z.to_nat f - k) k (mroot k 0 l)
  end.

(** The merger always answers. *)
Definition merger_total : Prop := forall l r m, merger l r m <> None.
(** Leaf hashes may use the height (always 0 for a leaf) but not the depth. *)
Definition hasher_ignores_depth : Prop :=
  forall x m1 m2, m_height m1 = m_height m2 -> hasher x m1 = hasher x m2.
Definition merger_ignores_depth : Prop :=
  forall l r m1 m2, m_height m1 = m_height m2 -> merger l r m1 = merger l r m2.

(** Hash of a perfect tree of height [k] over exactly [2^k] leaf hashes. *)
Variable node : Z -> Hash -> Hash -> Hash.
Variable e0 : Hash.
Fixpoint perfect_root (k : nat) (l : list Hash) : Hash :=
  match k with
  | O => hd e0 l
  | S k' => node (Z.of_nat k) (perfect_root k' (firstn (2 ^ k') l)) (perfect_root k' (skipn (2 ^ k') l))
  end.

(** The root obtained by folding a list of siblings from the leaf upwards;
    [true] means that the node computed so far is a left child. *)
Fixpoint fold_path (d : Z) (k : nat) (path : list (bool * option Hash)) (acc : option Hash) : option Hash :=
  match path with
  | [] => acc
  | (l, s) :: path' =>
    let m := {| m_depth := d; m_height := Z.of_nat k + 1 |} in
    fold_path (d - 1) (S k) path' (if l then merger acc s m else merger s acc m)
  end.
End Spec.

(** The number written in binary by directions from the leaf (least significant
    bit first; a right child is a 1). *)
Fixpoint position (dirs : list bool) : Z :=
  match dirs with
  | [] => 0
  | l :: ds => (if l then 0 else 1) + 2 * position ds
  end.

(** Node indices count from the root (0) level by level, left to right: the
    children of node [i] are [2i+1] (odd, left) and [2i+2] (even, right).  The
    siblings of the nodes on the way from node [i] up [n] levels. *)
Definition sibling (i : Z) : Z := if Z.even i then i - 1 else i + 1.
Fixpoint sibling_indices (n : nat) (i : Z) : list Z :=
  match n with
  | O => []
  | S n' => sibling i :: sibling_indices n' ((i - 1) / 2)
  end.

(** Weaker: every peer index is next to the node on the way up, on either side. *)
Fixpoint adjacent_indices (is : list Z) (i : Z) : Prop :=
  match is with
  | [] => True
  | p :: is' => (p = i + 1 \/ p = i - 1) /\ adjacent_indices is' ((i - 1) / 2)
  end.

(** A well-formed proof for the leaf at position [pos] of a tree of height [F]. *)
Definition well_formed_proof {Item Hash} (F : nat) (pos : Z) (p : proof Item Hash) : Prop :=
  p_index p = 2 ^ Z.of_nat F - 1 + pos /\ 0 <= pos < 2 ^ Z.of_nat F /\
  p_peer_indices p = sibling_indices F (p_index p) /\ length (p_peer_hashes p) = F.

(** The inputs on which checking a proof calls the merger, from the leaf
    upwards: left hash, right hash, node. *)
Section Inputs.
Context {Item Hash : Type}.
Variable hasher : Item -> meta -> Hash.
Variable merger : option Hash -> option Hash -> meta -> option Hash.
Fixpoint merge_inputs (checked : bool) (h : Z) (is : list Z) (hs : list (option Hash)) (index : Z)
  (acc : option Hash) : list (option Hash * option Hash * meta) :=
  match is, hs with
  | i :: is', s :: hs' =>
    let '(l, r) := if i =? index + 1 then (acc, s) else (s, acc) in
    match parent_index checked index with
    | Ok p =>
      match mk_meta checked p h with
      | Ok m => (l, r, m) :: merge_inputs checked h is' hs' p (merger l r m)
      | _ => []
      end
    | _ => []
    end
  | _, _ => []
  end.
Definition proof_inputs (checked : bool) (p : proof Item Hash) :=
  let h := zlen (p_peer_indices p) mod 2 ^ 32 in
  match mk_meta checked (p_index p) h with
  | Ok m => merge_inputs checked h (p_peer_indices p) (p_peer_hashes p) (p_index p) (Some (hasher (p_item p) m))
  | _ => []
  end.
(** The hash of the leaf a proof is about. *)
Definition leaf_hash (checked : bool) (p : proof Item Hash) : res merkle_error Hash :=
  let* m := mk_meta checked (p_index p) (zlen (p_peer_indices p) mod 2 ^ 32) in
  Ok (hasher (p_item p) m).
End Inputs.
