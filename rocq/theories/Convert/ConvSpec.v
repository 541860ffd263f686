(** What a conversion between wire and base values has to respect.  Models no
    code; refers to the declarations of the types only. *)

From Coq Require Import ZArith List String.
From Verif Require Import Lib.Bytes BinProt.Codec BinProt.CodecSpec Wire.Types Text.FieldText Ledger.AccountWireSpec Convert.Conv.
Import ListNotations.
Local Open Scope list_scope.
Local Open Scope Z_scope.

(** [inside u w t v]: in the value [v] of type [t] there is, at some depth, the
    value [w] of type [u]. *)
Inductive inside (u : ty) (w : val) : ty -> val -> Prop :=
| In_here : inside u w u w
| In_some : forall t v, inside u w t v -> inside u w (TOpt t) (VSome v)
| In_seq : forall t v vs, In v vs -> inside u w t v -> inside u w (TSeq t) (VSeq vs)
| In_tup : forall ts vs i t v, nth_error ts i = Some t -> nth_error vs i = Some v ->
    inside u w t v -> inside u w (TTup ts) (VTup vs)
| In_enum : forall vars j ts vs i t v, nth_error vars j = Some ts -> nth_error ts i = Some t -> nth_error vs i = Some v ->
    inside u w t v -> inside u w (TEnum vars) (VEnum j vs)
| In_poly : forall vars j n ts vs i t v, nth_error vars j = Some (n, ts) -> nth_error ts i = Some t -> nth_error vs i = Some v ->
    inside u w t v -> inside u w (TPoly vars) (VEnum j vs).

(** A signature one of whose two parts is no element of its field. *)
Definition big_sig (v : val) : Prop :=
  exists m n r s k l, v = VTup [m; VTup [n; VTup [r; s]]] /\ w_bytes r k /\ w_bytes s l /\
    (FP_MODULUS <= le_val k \/ FQ_MODULUS <= le_val l).
(** There is a public key or a signature in the value that is none. *)
Definition bad (t : ty) (v : val) : Prop :=
  (exists k, inside CompressedCurvePoint k t v /\ big_key k) \/ (exists s, inside SignatureV1 s t v /\ big_sig s).

(** [renumbered t v w]: [w] is [v] with all version numbers 1.  In the wire
    types every [u16] is a version number. *)
Inductive renumbered : ty -> val -> val -> Prop :=
| N_version : forall n, renumbered (TInt U16) (VInt n) (VInt 1)
| N_unit : forall v, renumbered TUnit v v
| N_bool : forall v, renumbered TBool v v
| N_u8 : forall v, renumbered TU8 v v
| N_int : forall k v, k <> U16 -> renumbered (TInt k) v v
| N_u64 : forall v, renumbered TU64 v v
| N_none : forall t, renumbered (TOpt t) VNone VNone
| N_some : forall t v w, renumbered t v w -> renumbered (TOpt t) (VSome v) (VSome w)
| N_seq : forall t vs ws, renumbereds (List.repeat t (List.length vs)) vs ws -> renumbered (TSeq t) (VSeq vs) (VSeq ws)
| N_tup : forall ts vs ws, renumbereds ts vs ws -> renumbered (TTup ts) (VTup vs) (VTup ws)
| N_enum : forall vars j ts vs ws, nth_error vars j = Some ts -> renumbereds ts vs ws ->
    renumbered (TEnum vars) (VEnum j vs) (VEnum j ws)
| N_poly : forall vars j n ts vs ws, nth_error vars j = Some (n, ts) -> renumbereds ts vs ws ->
    renumbered (TPoly vars) (VEnum j vs) (VEnum j ws)
with renumbereds : list ty -> list val -> list val -> Prop :=
| N_nil : renumbereds [] [] []
| N_cons : forall t ts v vs w ws, renumbered t v w -> renumbereds ts vs ws -> renumbereds (t :: ts) (v :: vs) (w :: ws).
Scheme renumbered_mut := Minimality for renumbered Sort Prop
  with renumbereds_mut := Minimality for renumbereds Sort Prop.

(** [base_val c t b]: [b] is a value of the base type declared by [c], whose
    wire type is [t]. *)
Inductive base_val : conv -> ty -> val -> Prop :=
| B_same : forall t b, rust_val t b -> base_val Same t b
| B_ver : forall c t b, base_val c t b -> base_val (Ver c) (V t) b
| B_key : forall x o, 0 <= x < FP_MODULUS -> base_val Key CompressedCurvePoint (VTup [VInt x; VBool o])
| B_sig : forall r s, 0 <= r < FP_MODULUS -> 0 <= s < FQ_MODULUS -> base_val Sig SignatureV1 (VTup [VInt r; VInt s])
| B_cast : forall z, 0 <= z < 2 ^ 32 -> base_val Cast (TInt I32) (VInt z)
| B_none : forall c t, base_val (Opt c) (TOpt t) VNone
| B_some : forall c t b, base_val c t b -> base_val (Opt c) (TOpt t) (VSome b)
| B_seq : forall c t bs, Z.of_nat (List.length bs) < 2 ^ 64 ->
    base_vals (List.repeat c (List.length bs)) (List.repeat t (List.length bs)) bs -> base_val (Seq c) (TSeq t) (VSeq bs)
| B_tuple : forall cs ts bs, base_vals cs ts bs -> base_val (Tuple cs) (TTup ts) (VTup bs)
| B_struct : forall wire fields ts us bs, map (fun f => at_name (fst f) wire ts) fields = map Some us ->
    base_vals (map snd fields) us bs -> base_val (Struct wire fields) (TTup ts) (VTup bs)
| B_enum : forall wire variants vars j n cs ts bs, nth_error variants j = Some (n, cs) -> at_name n wire vars = Some ts ->
    base_vals cs ts bs -> base_val (Enum wire variants) (TEnum vars) (VEnum j bs)
| B_poly : forall wire variants vars j n cs ts bs, nth_error variants j = Some (n, cs) -> at_name n wire (map snd vars) = Some ts ->
    base_vals cs ts bs -> base_val (Enum wire variants) (TPoly vars) (VEnum j bs)
with base_vals : list conv -> list ty -> list val -> Prop :=
| B_nil : base_vals [] [] []
| B_cons : forall c cs t ts b bs, base_val c t b -> base_vals cs ts bs -> base_vals (c :: cs) (t :: ts) (b :: bs).
