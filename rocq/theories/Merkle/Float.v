(** Model of /repo/merkle/src/metadata.rs 17-40 and tree_impl.rs 355-361 with
    the floating point numbers the code uses.  Merkle/Tree.v has exact integer
    logarithms in their place.

    A finite [f64] is a dyadic number.  The two logarithms of the standard
    library ([f64::log] and [f64::log2]) are calls out of the repository and
    therefore parameters: they take an integral [f64] of at least 1, the only
    arguments the code can give, and return a finite [f64]. *)
From Coq Require Import ZArith List Bool.
From Verif Require Import Lib.Res Lib.Vec Merkle.Tree.
Import ListNotations.
Open Scope Z_scope.

(** The number [dy_m / 2 ^ dy_s]. *)
Record dyadic := { dy_m : Z; dy_s : N }.

(** [x as f64] for a [usize]: the nearest number of 53 binary digits, ties to
    the even one.  The result is integral. *)
Definition as_f64 (x : Z) : Z :=
  let k := Z.log2 x - 52 in
  if k <=? 0 then x
  else
    let u := 2 ^ k in
    let q := x / u in
    let r := x mod u in
    if (2 * r <? u) || ((2 * r =? u) && Z.even q) then q * u else (q + 1) * u.

(** [f64::ceil] followed by [as u32], which saturates. *)
Definition ceil (q : dyadic) : Z := - ((- dy_m q) / 2 ^ Z.of_N (dy_s q)).
Definition as_u32 (c : Z) : Z := Z.max 0 (Z.min c (2 ^ 32 - 1)).

Section Lib.
(** [y.log(2.0)] (metadata.rs 35) and [y.log2()] (tree_impl.rs 359) *)
Variable log_base_2 log2 : Z -> dyadic.

(** metadata.rs 34-36, [depth::<2>]: the addition is of [usize], the subtraction of [u32]. *)
Definition depth_f64 (checked : bool) (index : Z) : res merkle_error Z :=
  let* x := uadd checked index 2 in
  let c := as_u32 (ceil (log_base_2 (as_f64 x))) in
  if 1 <=? c then Ok (c - 1) else if checked then Panic else Ok (2 ^ 32 - 1).

(** metadata.rs 17-21 and 38-40 *)
Definition mk_meta_f64 (checked : bool) (index h : Z) : res merkle_error meta :=
  let* d := depth_f64 checked index in
  if d <=? h then Ok {| m_depth := d; m_height := h - d |}
  else if checked then Panic else Ok {| m_depth := d; m_height := h - d + 2 ^ 32 |}.

(** tree_impl.rs 355-361 *)
Definition calculate_height_f64 (size : Z) : Z :=
  if size <? 2 then 0 else as_u32 (ceil (log2 (as_f64 size))).

Context {Item Hash : Type}.
Variable hasher : Item -> meta -> Hash.
Variable merger : option Hash -> option Hash -> meta -> option Hash.
Variable hash_eqb : Hash -> Hash -> bool.

(** proof.rs 120-136 *)
Fixpoint root_loop_f64 (checked : bool) (h : Z) (is : list Z) (hs : list (option Hash)) (index : Z)
  (acc : option Hash) : res merkle_error (option Hash) :=
  match is with
  | [] => Ok acc
  | i :: is' =>
    match hs with
    | [] => Panic
    | ph :: hs' =>
      let* (l, r) := get_ordered_siblings checked index acc i ph in
      let* p := parent_index checked index in
      let* m := mk_meta_f64 checked p h in
      root_loop_f64 checked h is' hs' p (merger l r m)
    end
  end.

(** proof.rs 111-145 *)
Definition root_hash_f64 (checked : bool) (p : proof Item Hash) : res merkle_error Hash :=
  if 0 <? p_index p then
    let h := zlen (p_peer_indices p) mod 2 ^ 32 in
    let* m := mk_meta_f64 checked (p_index p) h in
    let* r := root_loop_f64 checked h (p_peer_indices p) (p_peer_hashes p) (p_index p)
                (Some (hasher (p_item p) m)) in
    match r with Some x => Ok x | None => Err MergerFailure end
  else Err InvalidIndex.

(** proof.rs 22-28 *)
Definition verify_f64 (checked : bool) (p : proof Item Hash) (root : Hash) : res merkle_error bool :=
  match root_hash_f64 checked p with
  | Ok h => Ok (hash_eqb h root)
  | Err _ => Ok false
  | Panic => Panic
  end.
End Lib.
