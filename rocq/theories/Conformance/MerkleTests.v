(** The expected values of the repository's own tests of the Merkle tree
    (/repo/merkle/tests and the test module of merkle/src/tree_impl.rs), run on
    the model.  The tests with the Poseidon merger (tests/tree_poseidon.rs,
    merkle/src/path.rs 130-364) need the constants of the hash function, which
    are not in the repository. *)
From Coq Require Import String ZArith List Bool.
From Verif Require Import Lib.Res Lib.Vec Lib.Bytes Merkle.Tree Merkle.Poseidon.
Import ListNotations.
Local Open Scope list_scope.
Local Open Scope Z_scope.
Ltac tables := repeat match goal with |- _ /\ _ => split end; reflexivity.

(** tests/prefixes.rs 9-35 *)
Example make_merkle_tree_hash :
  make_prefix_merkle_tree 3 = str_bytes "CodaMklTree003" /\
  make_prefix_merkle_tree 13 = str_bytes "CodaMklTree013" /\
  make_prefix_merkle_tree 113 = str_bytes "CodaMklTree113" /\
  make_prefix_coinbase_merkle_tree 3 = str_bytes "CodaCbMklTree003".
Proof. tables. Qed.

(** tests/metadata.rs 8-28 *)
Definition metas (cases : list (Z * Z)) : list (res merkle_error meta) :=
  map (fun c => mk_meta true (fst c) 10) cases.
Definition expected (cases : list (Z * Z)) : list (res merkle_error meta) :=
  map (fun c => Ok {| m_depth := snd c; m_height := 10 - snd c |}) cases.
Definition meta_cases : list (Z * Z) := [(0, 0); (1, 1); (2, 1); (3, 2); (6, 2); (7, 3); (1028, 10)].
Example test_metadata : metas meta_cases = expected meta_cases. Proof. reflexivity. Qed.

(** src/tree_impl.rs 376-388 *)
Example calculate_height_tests :
  map calculate_height [0; 1; 2; 3; 4; 5; 11; 29; 1676] = [0; 0; 1; 2; 2; 3; 4; 5; 11].
Proof. reflexivity. Qed.

(** tests/tree.rs 26-48: the merger that hands a lone left hash on; 64-bit
    overflow is out of reach of the numbers used *)
Definition item_hash (x : Z) (_ : meta) : Z := x.
Definition lone_merger (l r : option Z) (_ : meta) : option Z :=
  match l, r with Some a, Some b => Some (a + b) | Some a, None => Some a | _, _ => None end.
(** tests/tree_dup_odd_leaf_merger.rs 37-48: the merger that doubles it *)
Definition dup_merger (l r : option Z) (_ : meta) : option Z :=
  match l, r with Some a, Some b => Some (a + b) | Some a, None => Some (a * 2) | _, _ => None end.
Definition from_to (a b : nat) : list Z := map Z.of_nat (seq a (b - a)).

Section Run.
Variable merger : option Z -> option Z -> meta -> option Z.
Notation tr := (tree Z Z).
Definition seen : Type := Z * Z * option Z.
(** tests/tree.rs 131-139, 170-188: the count, height and root after adding the
    items up to [n] *)
Definition grow (t : tr) (n : nat) : res merkle_error (tr * seen) :=
  let* t := add_batch true t (from_to (Z.to_nat (count t)) n) in
  let* (t', r) := root item_hash merger true t in
  Ok (t', (count t, height t, r)).
Definition build (n : nat) : res merkle_error seen :=
  let* (_, o) := grow (new_tree None) n in Ok o.
Fixpoint expand (t : tr) (ns : list nat) : res merkle_error (list seen) :=
  match ns with
  | [] => Ok []
  | n :: ns => let* (t, o) := grow t n in let* os := expand t ns in Ok (o :: os)
  end.
(** tests/tree.rs 64-84 *)
Definition fixed_tree (h : Z) : res merkle_error seen :=
  let* (_, o) := grow (new_tree (Some h)) 10 in Ok o.
(** tests/tree.rs 156-168 *)
Fixpoint proofs_hold (t : tr) (r : Z) (is : list Z) : res merkle_error bool :=
  match is with
  | [] => Ok true
  | i :: is =>
    let* (t, p) := get_proof item_hash merger true t i in
    match p with
    | None => Ok false
    | Some p =>
      let* b := verify item_hash merger Z.eqb true p r in
      if b : bool then proofs_hold t r is else Ok false
    end
  end.
End Run.

(** tests/tree.rs 86-129, but for the tree of 1676 leaves *)
Example tree_tests :
  build lone_merger 0 = Ok (0, 0, None) /\
  build lone_merger 1 = Ok (1, 0, Some 0) /\ build lone_merger 10 = Ok (10, 4, Some 45) /\
  build lone_merger 111 = Ok (111, 7, Some 6105) /\ build lone_merger 127 = Ok (127, 7, Some 8001) /\
  build lone_merger 128 = Ok (128, 7, Some 8128) /\ build lone_merger 129 = Ok (129, 8, Some 8256) /\
  build lone_merger 188 = Ok (188, 8, Some 17578).
Proof. repeat match goal with |- _ /\ _ => split end; vm_compute; reflexivity. Qed.
(** tests/tree.rs 141-152 *)
Example tree_expansion_tests :
  expand lone_merger (new_tree None) [1; 9; 10; 111; 127; 128; 129; 188]%nat =
  Ok [ (1, 0, Some 0); (9, 4, Some 36); (10, 4, Some 45); (111, 7, Some 6105); (127, 7, Some 8001);
       (128, 7, Some 8128); (129, 8, Some 8256); (188, 8, Some 17578) ].
Proof. vm_compute. reflexivity. Qed.
(** tests/tree.rs 64-84 *)
Example tree_fixed_height_tests :
  fixed_tree lone_merger 3 = Panic /\
  map (fixed_tree lone_merger) [4; 5; 6; 7; 8; 9] = map (fun h => Ok (10, h, Some 45)) [4; 5; 6; 7; 8; 9].
Proof. split; vm_compute; reflexivity. Qed.
(** tests/tree.rs 156-168 *)
Example tree_proof_tests :
  (let* t := add_batch true (new_tree None) (from_to 0 11) in
   let* (t, r) := root item_hash lone_merger true t in
   match r with Some r => proofs_hold lone_merger t r (from_to 0 11) | None => Ok false end) = Ok true.
Proof. vm_compute. reflexivity. Qed.

(** tests/tree_dup_odd_leaf_merger.rs 59-118 *)
Example dup_tree_tests :
  build dup_merger 0 = Ok (0, 0, None) /\
  build dup_merger 1 = Ok (1, 0, Some 0) /\ build dup_merger 10 = Ok (10, 4, Some 96) /\
  build dup_merger 111 = Ok (111, 7, Some 7870) /\ build dup_merger 127 = Ok (127, 7, Some 8127) /\
  build dup_merger 128 = Ok (128, 7, Some 8128) /\ build dup_merger 129 = Ok (129, 8, Some 24512) /\
  build dup_merger 188 = Ok (188, 8, Some 28512).
Proof. repeat match goal with |- _ /\ _ => split end; vm_compute; reflexivity. Qed.
Example dup_tree_expansion_tests :
  expand dup_merger (new_tree None) [1; 9; 10; 111; 127; 128; 129; 188]%nat =
  Ok [ (1, 0, Some 0); (9, 4, Some 92); (10, 4, Some 96); (111, 7, Some 7870); (127, 7, Some 8127);
       (128, 7, Some 8128); (129, 8, Some 24512); (188, 8, Some 28512) ].
Proof. vm_compute. reflexivity. Qed.
