(** Conversions of the parts of a proof to the number and curve types of
    arkworks: /repo/base/src/numbers.rs 307-312 and
    /repo/base/src/protocol_state_proof/field_and_curve_elements.rs 48-57,
    65-77, 96-104, 129-139, 152-167, 174-182.

    Simplification: an element of a prime field is its canonical
    representative (arkworks keeps its Montgomery form), the field is given by
    its modulus.  [BigInteger256::read], [Fp256::from(BigInteger256)] and
    [GroupAffine::new] of arkworks 0.3 are modelled from their published
    behaviour. *)

From Coq Require Import ZArith List Bool.
From Verif Require Import Lib.Res Lib.Bytes Text.FieldText.
Import ListNotations.
Local Open Scope Z_scope.

(** The modulus of the base field of Vesta, the other curve. *)
Definition FQ_MODULUS : Z := 0x40000000000000000000000000000000224698fc0994a8dd8c46eb2100000001.

(** [BigInteger256::read]: four little endian u64, the least significant
    first.  It is an error when the bytes run out. *)
Fixpoint read_limbs (n : nat) (bs : list Z) : option (list Z) :=
  match n with
  | O => Some []
  | S n' =>
      if Nat.ltb (length bs) 8 then None
      else match read_limbs n' (skipn 8 bs) with
           | Some l => Some (le_val (firstn 8 bs) :: l)
           | None => None
           end
  end.
(** numbers.rs 307-312: [unwrap] *)
Definition to_repr (i : list Z) : res Empty_set (list Z) :=
  match read_limbs 4 i with Some l => Ok l | None => Panic end.
(** the number of an array of u64 *)
Fixpoint limbs_val (l : list Z) : Z := match l with [] => 0 | x :: l' => x + 2 ^ 64 * limbs_val l' end.
(** [Fp256::from_repr]: zero is accepted at once, other numbers must be below
    the modulus *)
Definition from_repr (p : Z) (l : list Z) : option Z :=
  let v := limbs_val l in if v =? 0 then Some v else if v <? p then Some v else None.
(** [impl From<BigInteger256> for Fp256]: [Self::from_repr(int).unwrap()] *)
Definition field_of (p : Z) (i : list Z) : res Empty_set Z :=
  let* l := to_repr i in match from_repr p l with Some v => Ok v | None => Panic end.

(** field_and_curve_elements.rs 48-57 *)
Fixpoint map_res {A B : Type} (f : A -> res Empty_set B) (l : list A) : res Empty_set (list B) :=
  match l with
  | [] => Ok []
  | x :: l' => let* y := f x in let* ys := map_res f l' in Ok (y :: ys)
  end.
Definition fields_of (p : Z) (v : list (list Z)) : res Empty_set (list Z) := map_res (field_of p) v.

(** [GroupAffine]: nothing is checked by [new] *)
Record affine := { ax : Z; ay : Z; infinity : bool }.
(** [GroupAffine::zero()] *)
Definition affine_zero : affine := {| ax := 0; ay := 1; infinity := true |}.
(** 63, 65-77 *)
Definition fpoint := (list Z * list Z)%type.
Definition point_of (p : Z) (pt : fpoint) : res Empty_set affine :=
  let* x := field_of p (fst pt) in
  let* y := field_of p (snd pt) in
  Ok {| ax := x; ay := y; infinity := false |}.
(** 96-104 *)
Definition points_of (p : Z) (v : list fpoint) : res Empty_set (list affine) := map_res (point_of p) v.
(** 129-139 *)
Definition pairs_of (p : Z) (v : list (fpoint * fpoint)) : res Empty_set (list (affine * affine)) :=
  map_res (fun xy => let* x := point_of p (fst xy) in let* y := point_of p (snd xy) in Ok (x, y)) v.
(** 145-150 *)
Inductive ecpoint := Infinite | Finite (pt : fpoint).
(** 152-167: [Default::default()] is zero *)
Definition ecpoint_of (p : Z) (e : ecpoint) : res Empty_set affine :=
  match e with
  | Infinite => Ok {| ax := 0; ay := 0; infinity := true |}
  | Finite (x, y) =>
      let* x := field_of p x in
      let* y := field_of p y in
      Ok {| ax := x; ay := y; infinity := false |}
  end.
(** 174-182 *)
Definition ecpoints_of (p : Z) (v : list ecpoint) : res Empty_set (list affine) := map_res (ecpoint_of p) v.
