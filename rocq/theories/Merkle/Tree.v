(** Model of /repo/merkle/src: metadata.rs, tree.rs, tree_impl.rs, proof.rs, path.rs.

    The item and hash types, the hasher and the merger are parameters (they
    are type parameters of the code: hasher.rs 7-14, merger.rs 8-17).  The
    hasher and the merger are pure functions that return; the code's traits
    allow nothing else short of a panic.

    Simplifications: the floating-point logarithms of metadata.rs 34-36 and
    tree_impl.rs 355-361 are exact integer logarithms here.  Merkle/Float.v has
    them with [f64], and FloatProps.v (C119) says where the two agree.
    Vec lengths and node indices of the tree itself do not overflow (memory
    bounds them); node indices of proofs are modelled with overflow. *)
From Coq Require Import ZArith List Bool.
From Verif Require Import Lib.Res Lib.Vec.
Import ListNotations.
Open Scope Z_scope.

(** proof.rs 33-43 *)
Inductive merkle_error := InvalidIndex | InvalidProof | MergerFailure | InvalidNode.
(** [InvalidNode] is the anyhow error of path.rs 21-33. *)

(** metadata.rs 7-12 *)
Record meta := { m_depth : Z; m_height : Z }.

(** metadata.rs 34-36, [depth::<2>].  [index + 2] overflows for the two largest
    indices: a checked build panics; otherwise the logarithm of 0 or 1 is
    converted to 0 and [0 - 1] wraps to u32::MAX. *)
Definition meta_depth (checked : bool) (index : Z) : res merkle_error Z :=
  if index + 2 <=? usize_max then Ok (Z.log2_up (index + 2) - 1)
  else if checked then Panic else Ok (2 ^ 32 - 1).

(** metadata.rs 17-21 and 38-40: u32 subtraction. *)
Definition mk_meta (checked : bool) (index h : Z) : res merkle_error meta :=
  let* d := meta_depth checked index in
  if d <=? h then Ok {| m_depth := d; m_height := h - d |}
  else if checked then Panic else Ok {| m_depth := d; m_height := h - d + 2 ^ 32 |}.

(** tree_impl.rs 355-361 *)
Definition calculate_height (size : Z) : Z := if size <? 2 then 0 else Z.log2_up size.

(** tree_impl.rs 363-365, as used on a caller-supplied fixed height: [2.pow(64)]
    panics or wraps to 0, and [0 - 1] wraps. *)
Definition calculate_node_count (checked : bool) (h : Z) : res merkle_error Z :=
  if h <? 64 then Ok (2 ^ h - 1) else if checked then Panic else Ok usize_max.

(** tree_impl.rs 367-370 and proof.rs 148-151: the debug assertion (and the
    subtraction) panics in a checked build. *)
Definition parent_index (checked : bool) (i : Z) : res merkle_error Z :=
  let* a := usub checked i 1 in Ok (a / 2).

Section Tree.
Context {Item Hash : Type}.
Variable hasher : Item -> meta -> Hash.
Variable merger : option Hash -> option Hash -> meta -> option Hash.
(** [Hash: PartialEq], used by proof.rs 24 *)
Variable hash_eqb : Hash -> Hash -> bool.

(** tree_impl.rs 37-53.  [fixed] is the mode: [None] for VariableHeightMode,
    [Some h] for FixedHeightMode(h) (lines 9-33). *)
Record tree := {
  fixed : option Z;
  vheight : Z;
  leafs : list (Item * option Hash);
  nodes : list (option Hash) }.

(** tree_impl.rs 63-68, 79-81, 309-318 *)
Definition new_tree (mode : option Z) : tree :=
  {| fixed := mode; vheight := 0; leafs := []; nodes := [] |}.

(** tree_impl.rs 93-101: capacities have no observable effect, and the mode is
    the default mode, which for FixedHeightMode is height 0 (derive(Default),
    lines 14-16). *)
Definition with_capacity (fixed_mode : bool) (capacity : Z) : tree :=
  new_tree (if fixed_mode then Some 0 else None).

Definition set_node (t : tree) (i : Z) (h : option Hash) : tree :=
  {| fixed := fixed t; vheight := vheight t; leafs := leafs t; nodes := zset (nodes t) i h |}.
Definition set_leaf (t : tree) (i : Z) (x : Item) (h : option Hash) : tree :=
  {| fixed := fixed t; vheight := vheight t; leafs := zset (leafs t) i (x, h); nodes := nodes t |}.

(** tree_impl.rs 193-228.  Recursion on fuel; the depth of the recursion is the
    height of the tree. *)
Fixpoint calc (checked : bool) (fuel : nat) (t : tree) (index : Z)
  : res merkle_error (tree * option Hash) :=
  match fuel with
  | O => Panic
  | S fuel' =>
    match znth (nodes t) index with
    | Some (Some h) => Ok (t, Some h)
    | Some None =>
      let* (t1, l) := calc checked fuel' t (index * 2 + 1) in
      let* (t2, r) := calc checked fuel' t1 (index * 2 + 2) in
      let* m := mk_meta checked index (vheight t2) in
      let h := merger l r m in
      Ok (set_node t2 index h, h)
    | None =>
      let li := index - zlen (nodes t) in
      match znth (leafs t) li with
      | Some (x, None) =>
        let* m := mk_meta checked index (vheight t) in
        let h := Some (hasher x m) in
        Ok (set_leaf t li x h, h)
      | Some (_, h) => Ok (t, h)
      | None => Ok (t, None)
      end
    end
  end.

Definition calculate_hash_if_needed (checked : bool) (t : tree) (index : Z) :=
  calc checked (S (Z.to_nat (vheight t))) t index.

(** tree_impl.rs 177-187; the loop halves the index, so the fuel is enough. *)
Fixpoint clear_loop (checked : bool) (fuel : nat) (ns : list (option Hash)) (parent : Z)
  : res merkle_error (list (option Hash)) :=
  match fuel with
  | O => Ok ns
  | S fuel' =>
    if parent <=? 0 then Ok ns
    else
      let* p := parent_index checked parent in
      match znth ns p with
      | None => Panic
      | Some (Some _) => clear_loop checked fuel' (zset ns p None) p
      | Some None => Ok ns
      end
  end.
Definition clear_dirty_hashes (checked : bool) (ns : list (option Hash)) (leaf_index : Z) :=
  clear_loop checked (Z.to_nat leaf_index) ns leaf_index.

(** tree_impl.rs 348-350: [for i in start..start + n]. *)
Fixpoint clear_range (checked : bool) (n : nat) (start : Z) (ns : list (option Hash))
  : res merkle_error (list (option Hash)) :=
  match n with
  | O => Ok ns
  | S n' =>
    let* ns' := clear_dirty_hashes checked ns start in
    clear_range checked n' (start + 1) ns'
  end.

(** tree_impl.rs 321-353 *)
Definition add_batch (checked : bool) (t : tree) (items : list Item) : res merkle_error tree :=
  let new := map (fun x => (x, None)) items in
  let new_height := calculate_height (zlen (leafs t) + zlen new) in
  let* (vh, ns) :=
    (if new_height =? vheight t
     then
       let* ns := clear_range checked (length new) (zlen (nodes t) + zlen (leafs t)) (nodes t) in
       Ok (vheight t, ns)
     else Ok (new_height, repeat None (Z.to_nat (2 ^ new_height - 1)))) in
  Ok {| fixed := fixed t; vheight := vh; leafs := leafs t ++ new; nodes := ns |}.

(** tree.rs 20-22 *)
Definition add (checked : bool) (t : tree) (x : Item) := add_batch checked t [x].

(** tree_impl.rs 246-248 and 274-276 *)
Definition count (t : tree) : Z := zlen (leafs t).
(** tree_impl.rs 242-244 and 270-272 *)
Definition height (t : tree) : Z := match fixed t with Some h => h | None => vheight t end.

(** tree_impl.rs 288-290: [n] merges with a missing right sibling, heights [h], [h+1], ... *)
Fixpoint pad_loop (checked : bool) (n : nat) (h : Z) (hash : option Hash)
  : res merkle_error (option Hash) :=
  match n with
  | O => Ok hash
  | S n' =>
    let* m := mk_meta checked 0 h in
    pad_loop checked n' (h + 1) (merger hash None m)
  end.

(** tree_impl.rs 250-252 and 278-294 *)
Definition root (checked : bool) (t : tree) : res merkle_error (tree * option Hash) :=
  let* (t', hash) := calculate_hash_if_needed checked t 0 in
  match fixed t with
  | None => Ok (t', hash)
  | Some f =>
    if f <? vheight t' then Panic
    else
      let* r := pad_loop checked (Z.to_nat (f - vheight t')) (vheight t' + 1) hash in
      Ok (t', r)
  end.

(** proof.rs 46-64 *)
Record proof := {
  p_index : Z;
  p_item : Item;
  p_peer_indices : list Z;
  p_peer_hashes : list (option Hash) }.

(** proof.rs 75-99: the three assertions are active in every build. *)
Definition mk_proof (index : Z) (item : Item) (is : list Z) (hs : list (option Hash))
  : res merkle_error proof :=
  if negb (0 <? index) then Panic
  else if negb (zlen is =? zlen hs) then Panic
  else match is with
       | [] => Panic
       | _ => Ok {| p_index := index; p_item := item; p_peer_indices := is; p_peer_hashes := hs |}
       end.

(** tree_impl.rs 140-163.  Each round at least halves the offset index, so 64
    rounds are enough for any usize. *)
Fixpoint proof_loop (checked : bool) (fuel : nat) (ns : list (option Hash)) (p po : Z)
  : res merkle_error (list (Z * option Hash)) :=
  match fuel with
  | O => Ok []
  | S fuel' =>
    if po <=? 0 then Ok []
    else if 0 <? p then
      let* pp := (if p mod 2 =? 0 then usub checked p 1 else uadd checked p 1) in
      let* a := uadd checked po pp in
      let* ppo := usub checked a p in
      match znth ns pp with
      | None => Panic
      | Some h =>
        let* p' := parent_index checked p in
        let* po' := parent_index checked po in
        let* rest := proof_loop checked fuel' ns p' po' in
        Ok ((ppo, h) :: rest)
      end
    else
      let* a := uadd checked po 1 in
      let* po' := parent_index checked po in
      let* rest := proof_loop checked fuel' ns p po' in
      Ok ((a, None) :: rest)
  end.

(** tree_impl.rs 106-173 *)
Definition get_proof (checked : bool) (t : tree) (index : Z)
  : res merkle_error (tree * option proof) :=
  let* (t', h0) := calculate_hash_if_needed checked t 0 in
  match h0 with
  | None => Ok (t', None)
  | Some _ =>
    let* offset := calculate_node_count checked (height t') in
    match znth (leafs t') index with
    | None => Panic
    | Some (item, _) =>
      let* iwo := uadd checked offset index in
      let peer := if index mod 2 =? 0 then index + 1 else index - 1 in
      let* pwo := uadd checked offset peer in
      let ph := match znth (leafs t') peer with Some (_, h) => h | None => None end in
      let* p := parent_index checked (zlen (nodes t') + index) in
      let* po := parent_index checked iwo in
      let* rest := proof_loop checked 64 (nodes t') p po in
      let* pr := mk_proof iwo item (pwo :: map fst rest) (ph :: map snd rest) in
      Ok (t', Some pr)
    end
  end.

(** proof.rs 153-166 *)
Definition get_ordered_siblings (checked : bool) (index : Z) (h : option Hash) (sib : Z) (sh : option Hash)
  : res merkle_error (option Hash * option Hash) :=
  let* i1 := uadd checked index 1 in
  if i1 =? sib then Ok (h, sh)
  else
    let* s1 := uadd checked sib 1 in
    if index =? s1 then Ok (sh, h) else Err InvalidProof.

(** proof.rs 120-136: [peer_hashes[i]] is out of range when that list is the shorter one. *)
Fixpoint root_loop (checked : bool) (h : Z) (is : list Z) (hs : list (option Hash)) (index : Z)
  (acc : option Hash) : res merkle_error (option Hash) :=
  match is with
  | [] => Ok acc
  | i :: is' =>
    match hs with
    | [] => Panic
    | ph :: hs' =>
      let* (l, r) := get_ordered_siblings checked index acc i ph in
      let* p := parent_index checked index in
      let* m := mk_meta checked p h in
      root_loop checked h is' hs' p (merger l r m)
    end
  end.

(** proof.rs 111-145 *)
Definition root_hash (checked : bool) (p : proof) : res merkle_error Hash :=
  if 0 <? p_index p then
    let h := zlen (p_peer_indices p) mod 2 ^ 32 in
    let* m := mk_meta checked (p_index p) h in
    let* r := root_loop checked h (p_peer_indices p) (p_peer_hashes p) (p_index p)
                (Some (hasher (p_item p) m)) in
    match r with Some x => Ok x | None => Err MergerFailure end
  else Err InvalidIndex.

(** proof.rs 22-28 *)
Definition verify (checked : bool) (p : proof) (root : Hash) : res merkle_error bool :=
  match root_hash checked p with
  | Ok h => Ok (hash_eqb h root)
  | Err _ => Ok false
  | Panic => Panic
  end.

(** path.rs 12-17 *)
Record path_node := { pn_left : option Hash; pn_right : option Hash }.

(** path.rs 21-33 *)
Definition has_left_child (n : path_node) : res merkle_error bool :=
  match pn_left n, pn_right n with
  | Some _, None => Ok true
  | Some _, Some _ => Err InvalidNode
  | None, Some _ => Ok false
  | None, None => Err InvalidNode
  end.

Definition umul2 (checked : bool) (a : Z) : res merkle_error Z :=
  if a * 2 <=? usize_max then Ok (a * 2) else if checked then Panic else Ok (a * 2 - 2 ^ 64).
(** [2_usize.pow(e)]: in a release build the wrapped power is 0 from 64 on. *)
Definition upow2 (checked : bool) (e : Z) : res merkle_error Z :=
  if e <? 64 then Ok (2 ^ e) else if checked then Panic else Ok 0.

(** path.rs 55-75: the state is (row_index, peer_index, node_is_left, peer_indices, peer_hashes). *)
Fixpoint path_loop (checked : bool) (ns : list path_node) (row peer : Z) (isl : bool)
  (is : list Z) (hs : list (option Hash))
  : res merkle_error (Z * Z * bool * list Z * list (option Hash)) :=
  match ns with
  | [] => Ok (row, peer, isl, is, hs)
  | n :: ns' =>
    let* row2 := umul2 checked row in
    let* l := has_left_child n in
    let* peer_row := (if l then uadd checked row2 1 else Ok row2) in
    let* row' := (if l then Ok row2 else uadd checked row2 1) in
    let* pw := upow2 checked (zlen is + 1) in
    let* a := usub checked pw 1 in
    let* peer' := uadd checked a peer_row in
    path_loop checked ns' row' peer' l (peer' :: is)
      ((if l then pn_left n else pn_right n) :: hs)
  end.

(** path.rs 42-87 *)
Definition to_proof (checked : bool) (path : list path_node) (item : Item) : res merkle_error proof :=
  let* (_, peer, isl, is, hs) := path_loop checked (rev path) 0 0 false [] [] in
  let* idx := (if isl then usub checked peer 1 else uadd checked peer 1) in
  mk_proof idx item is hs.

(** Histories: the public operations of a tree (tree.rs 7-25, tree_impl.rs 106). *)
Inductive op := OAddBatch (l : list Item) | OAdd (x : Item) | ORoot | OProof (i : Z).

Definition step (checked : bool) (t : tree) (o : op) : res merkle_error tree :=
  match o with
  | OAddBatch l => add_batch checked t l
  | OAdd x => add checked t x
  | ORoot => let* (t', _) := root checked t in Ok t'
  | OProof i => let* (t', _) := get_proof checked t i in Ok t'
  end.

Fixpoint run (checked : bool) (t : tree) (ops : list op) : res merkle_error tree :=
  match ops with
  | [] => Ok t
  | o :: ops' => let* t' := step checked t o in run checked t' ops'
  end.

End Tree.

Arguments tree : clear implicits.
Arguments proof : clear implicits.
Arguments path_node : clear implicits.
Arguments op : clear implicits.
