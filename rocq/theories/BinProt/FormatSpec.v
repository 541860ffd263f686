(** Specification of the bin_prot wire format of a typed value, as a relation
    between types, values and byte strings.  It follows the format's
    documentation (https://github.com/janestreet/bin_prot, README: "Protocol"),
    not the Rust code, and uses no reader or writer of the model. *)
From Coq Require Import ZArith List String.
From Verif Require Import Lib.Bytes BinProt.Codec BinProt.CodecSpec BinProt.PrimSpec.
Import ListNotations.
Open Scope list_scope.
Open Scope Z_scope.

(** the smallest form of a signed integer, or of a length *)
Definition canon_int (bs : list Z) (n : Z) : Prop := int_form bs n /\ List.length bs = int_size n.
Definition canon_nat (bs : list Z) (n : Z) : Prop := nat_form bs n /\ List.length bs = nat_size n.

Inductive fmt : ty -> val -> list Z -> Prop :=
| F_unit : fmt TUnit VUnit [0]
| F_false : fmt TBool (VBool false) [0]
| F_true : fmt TBool (VBool true) [1]
| F_char : forall c, is_byte c -> fmt TChar (VChar c) [c]
| F_u8 : forall z, is_byte z -> fmt TU8 (VInt z) [z]
| F_int : forall k z bs, canon_int bs z -> fmt (TInt k) (VInt z) bs
| F_u64_low : forall z bs, z < 2 ^ 63 -> canon_int bs z -> fmt TU64 (VInt z) bs
| F_u64_high : forall z bs, 2 ^ 63 <= z -> canon_int bs (z - 2 ^ 64) -> fmt TU64 (VInt z) bs
| F_f32 : forall a b c d, is_byte a -> is_byte b -> is_byte c -> is_byte d ->
    fmt TF32 (VFloat (le4 a b c d)) [a; b; c; d]
| F_f64 : forall a b c d e f g h, is_byte a -> is_byte b -> is_byte c -> is_byte d ->
    is_byte e -> is_byte f -> is_byte g -> is_byte h ->
    fmt TF64 (VFloat (le8 a b c d e f g h)) [a; b; c; d; e; f; g; h]
| F_str : forall p l, canon_nat p (Z.of_nat (List.length l)) -> fmt TStr (VStr l) (p ++ l)
| F_none : forall t, fmt (TOpt t) VNone [0]
| F_some : forall t v bs, fmt t v bs -> fmt (TOpt t) (VSome v) (1 :: bs)
| F_seq : forall t vs p bs, canon_nat p (Z.of_nat (List.length vs)) ->
    fmts (List.repeat t (List.length vs)) vs bs -> fmt (TSeq t) (VSeq vs) (p ++ bs)
| F_tup : forall ts vs bs, fmts ts vs bs -> fmt (TTup ts) (VTup vs) bs
| F_enum : forall vars i ts vs bs, nth_error vars i = Some ts -> (i < 256)%nat ->
    fmts ts vs bs -> fmt (TEnum vars) (VEnum i vs) (Z.of_nat i :: bs)
| F_poly : forall vars i nm ts vs bs a b c d, nth_error vars i = Some (nm, ts) ->
    is_byte a -> is_byte b -> is_byte c -> is_byte d -> le4 a b c d = ocaml_tag nm ->
    fmts ts vs bs -> fmt (TPoly vars) (VEnum i vs) (a :: b :: c :: d :: bs)
with fmts : list ty -> list val -> list Z -> Prop :=
| F_nil : fmts [] [] []
| F_cons : forall t ts v vs a b, fmt t v a -> fmts ts vs b -> fmts (t :: ts) (v :: vs) (a ++ b).

(** Values of the type, with one-byte chars and variant indices. *)
Definition fmt_ok (t : ty) (v : val) : Prop :=
  match t, v with
  | TChar, VChar c => c < 256
  | TEnum _, VEnum i _ => (i < 256)%nat
  | _, _ => True
  end.
Definition representable : ty -> val -> Prop := typed (fun t v => rust_ok t v /\ fmt_ok t v).

(** * What the decoder accepts

    [acc t v bs]: the byte string [bs], taken whole, is read as the value [v] of
    type [t].  It differs from [fmt] where the reader is lenient: any integer
    form is taken if the number is in the range of the type, the low bit of a
    polymorphic tag is ignored, and a polymorphic variant is selected by its
    rank among the ASCII names, modulo 256. *)
Definition ascii_name (nm : string) : bool := forallb (fun b => b <? 128) (str_bytes nm).
Definition sel_rank (names : list string) (h : Z) (i : nat) : Prop :=
  exists nm, nth_error names i = Some nm /\ ascii_name nm = true /\ name_hash32 nm = h /\
    forall j nm', (j < i)%nat -> nth_error names j = Some nm' -> ascii_name nm' = true ->
      name_hash32 nm' <> h.
Definition rank (names : list string) (i : nat) : nat :=
  List.length (filter ascii_name (firstn i names)).

Inductive acc : ty -> val -> list Z -> Prop :=
| A_unit : acc TUnit VUnit [0]
| A_false : acc TBool (VBool false) [0]
| A_true : acc TBool (VBool true) [1]
| A_char : forall c, is_byte c -> acc TChar (VChar c) [c]
| A_u8 : forall z, is_byte z -> acc TU8 (VInt z) [z]
| A_int : forall k z bs, int_form bs z -> rust_ok (TInt k) (VInt z) -> acc (TInt k) (VInt z) bs
| A_u64 : forall z bs, int_form bs z -> 0 <= z -> acc TU64 (VInt z) bs
| A_f32 : forall a b c d, is_byte a -> is_byte b -> is_byte c -> is_byte d ->
    acc TF32 (VFloat (le4 a b c d)) [a; b; c; d]
| A_f64 : forall a b c d e f g h, is_byte a -> is_byte b -> is_byte c -> is_byte d ->
    is_byte e -> is_byte f -> is_byte g -> is_byte h ->
    acc TF64 (VFloat (le8 a b c d e f g h)) [a; b; c; d; e; f; g; h]
| A_str : forall p l, nat_form p (Z.of_nat (List.length l)) -> rust_ok TStr (VStr l) ->
    acc TStr (VStr l) (p ++ l)
| A_none : forall t, acc (TOpt t) VNone [0]
| A_some : forall t v bs, acc t v bs -> acc (TOpt t) (VSome v) (1 :: bs)
| A_seq : forall t vs p bs, nat_form p (Z.of_nat (List.length vs)) ->
    accs (List.repeat t (List.length vs)) vs bs -> acc (TSeq t) (VSeq vs) (p ++ bs)
| A_tup : forall ts vs bs, accs ts vs bs -> acc (TTup ts) (VTup vs) bs
| A_enum : forall vars i ts vs bs, nth_error vars i = Some ts -> (i < 256)%nat ->
    accs ts vs bs -> acc (TEnum vars) (VEnum i vs) (Z.of_nat i :: bs)
| A_poly : forall vars i nm ts vs bs a b c d,
    is_byte a -> is_byte b -> is_byte c -> is_byte d ->
    sel_rank (map fst vars) (le4 a b c d / 2) i ->
    nth_error vars (rank (map fst vars) i mod 256) = Some (nm, ts) ->
    accs ts vs bs ->
    acc (TPoly vars) (VEnum (rank (map fst vars) i mod 256) vs) (a :: b :: c :: d :: bs)
with accs : list ty -> list val -> list Z -> Prop :=
| A_nil : accs [] [] []
| A_cons : forall t ts v vs a b, acc t v a -> accs ts vs b -> accs (t :: ts) (v :: vs) (a ++ b).
