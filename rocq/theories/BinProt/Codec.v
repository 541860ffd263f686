(** Model of the strongly typed serializer and deserializer.
    /repo/protocol/bin-prot/src/{ser,de}.rs and polyvar/caml_hash_variant.rs

    A Rust type with derived serde instances is described by a term of [ty]; a
    value of it by a term of [val].  serde's derive calls the serializer method
    of the shape, in field order, with the variant index being the position of
    the variant; newtype structs are transparent in both directions
    (ser.rs:210-215, de.rs:254-259), so they need no constructor. *)

From Coq Require Import ZArith List Bool String Ascii.
From Verif Require Import Lib.Res Lib.Bytes BinProt.Prim.
Import ListNotations.
Open Scope Z_scope.

(** Integer types written by [bin_write_integer] through [Into<i64>]
    (ser.rs:103-121,128-136) and read by [bin_read_integer]
    (de.rs:117-143,152-164). *)
Inductive ikind : Type := I8 | I16 | I32 | I64 | U16 | U32.
Definition irange (k : ikind) : range :=
  match k with
  | I8 => R_i8 | I16 => R_i16 | I32 => R_i32 | I64 => R_i64
  | U16 => R_u16 | U32 => R_u32
  end.

(** Shapes.  [TTup] covers tuples, fixed-size arrays, tuple structs and
    structs, which the format does not distinguish (ser.rs:236-258,
    de.rs:272-318).  A variant is a list of field types: unit variants have no
    field, newtype variants one (ser.rs:270-314, de.rs:463-490).  Maps are not
    in the universe: [serialize_map] is [unimplemented!()] (ser.rs:252-254). *)
Inductive ty : Type :=
| TUnit | TBool | TChar | TU8 | TInt (k : ikind) | TU64 | TF32 | TF64 | TStr
| TOpt (t : ty)
| TSeq (t : ty)
| TTup (ts : list ty)
| TEnum (vs : list (list ty))
| TPoly (vs : list (string * list ty)).

Inductive val : Type :=
| VUnit | VBool (b : bool) | VChar (c : Z) | VInt (z : Z) | VFloat (bits : Z)
| VStr (l : list Z)
| VNone | VSome (v : val)
| VSeq (vs : list val)
| VTup (vs : list val)
| VEnum (i : nat) (vs : list val).

Section Hash.
  (** [true]: build with overflow checks; [false]: wrapping release build *)
  Variable checked : bool.

  Definition u32_arith (x : Z) : res err Z :=
    if x <? 2 ^ 32 then Ok x
    else if checked then Panic else Ok (wrapu 32 x).

  (** caml_hash_variant.rs:11-16 *)
  Fixpoint hash_fold (accu : Z) (l : list Z) : res err Z :=
    match l with
    | [] => Ok accu
    | b :: l' =>
      let* m := u32_arith (223 * accu) in
      let* a := u32_arith (m + b) in
      hash_fold a l'
    end.
  Definition caml_hash_variant (label : string) : res err Z :=
    hash_fold 0 (str_bytes label).

  (** ser.rs:42-54 with ser.rs:478-482.  [poly] is [name == "Polyvar"]. *)
  Definition write_variant_index_or_tag (poly : option string) (index : Z) : res err (list Z) :=
    match poly with
    | Some variant =>
      let* h := caml_hash_variant variant in Ok (bin_write_polyvar_tag h)
    | None =>
      if index <? 256 then Ok (bin_write_variant_index index)
      else Ok (bin_write_polyvar_tag index)
    end.

  (** ser.rs:97-314 and the compound impls ser.rs:324-476.  [Err ECustom] for a
      value that does not have the type, which cannot happen in Rust. *)
  Fixpoint ser (t : ty) (v : val) {struct t} : res err (list Z) :=
    let ser_list :=
      fix ser_list (ts : list ty) (vs : list val) {struct ts} : res err (list Z) :=
        match ts, vs with
        | [], [] => Ok []
        | t :: ts', v :: vs' =>
          let* a := ser t v in
          let* b := ser_list ts' vs' in
          Ok (a ++ b)
        | _, _ => Err ECustom
        end in
    match t, v with
    | TUnit, VUnit => Ok bin_write_unit
    | TBool, VBool b => Ok (bin_write_bool b)
    | TChar, VChar c => Ok (bin_write_char c)
    | TU8, VInt z => Ok [z]                                 (* ser.rs:123-126 *)
    | TInt _, VInt z => Ok (bin_write_integer z)
    | TU64, VInt z => Ok (bin_write_integer (wraps 64 z))   (* ser.rs:138-146 *)
    | TF32, VFloat b => Ok (bin_write_float32 b)
    | TF64, VFloat b => Ok (bin_write_float64 b)
    | TStr, VStr l => Ok (bin_write_nat0 (Z.of_nat (List.length l)) ++ l)
    | TOpt _, VNone => Ok bin_write_unit
    | TOpt t, VSome v => let* a := ser t v in Ok (1 :: a)
    | TSeq t, VSeq vs =>
      let* body :=
        (fix go (vs : list val) : res err (list Z) :=
           match vs with
           | [] => Ok []
           | v :: vs' => let* a := ser t v in let* b := go vs' in Ok (a ++ b)
           end) vs in
      Ok (bin_write_nat0 (Z.of_nat (List.length vs)) ++ body)
    | TTup ts, VTup vs => ser_list ts vs
    | TEnum vars, VEnum i vs =>
      let* tag := write_variant_index_or_tag None (Z.of_nat i) in
      let* body :=
        (fix pick (vars : list (list ty)) (n : nat) {struct vars} : res err (list Z) :=
           match vars, n with
           | ts :: _, O => ser_list ts vs
           | _ :: vars', S n' => pick vars' n'
           | [], _ => Err ECustom
           end) vars i in
      Ok (tag ++ body)
    | TPoly vars, VEnum i vs =>
      (fix pick (vars : list (string * list ty)) (n : nat) {struct vars} : res err (list Z) :=
         match vars, n with
         | (nm, ts) :: _, O =>
           let* tag := write_variant_index_or_tag (Some nm) (Z.of_nat i) in
           let* body := ser_list ts vs in
           Ok (tag ++ body)
         | _ :: vars', S n' => pick vars' n'
         | [], _ => Err ECustom
         end) vars i
    | _, _ => Err ECustom
    end.

  (** [str::is_ascii] *)
  Definition is_ascii (s : string) : bool := forallb (fun b => b <? 128) (str_bytes s).

  (** de.rs:396-409: position, among the ASCII names, of the first name with
      the given hash; [index as u8] at de.rs:410. *)
  Fixpoint find_variant (names : list string) (index : Z) (hash : Z) : res err Z :=
    match names with
    | [] => Err (EUnknownPolyvarTag hash)
    | nm :: names' =>
      if is_ascii nm then
        let* h := caml_hash_variant nm in
        if h =? hash then Ok (wrapu 8 index)
        else find_variant names' (index + 1) hash
      else find_variant names' index hash
    end.

  Section De.
    Variable S : Type.
    Variable read_exact : Z -> S -> res err (list Z * S).

    (** de.rs:98-368 with the access structs de.rs:370-610.  [usize] is 64 bits
        (de.rs:267). An unknown variant index is an error raised by the derived
        visitor. *)
    Fixpoint de (t : ty) (s : S) {struct t} : res err (val * S) :=
      let de_list :=
        fix de_list (ts : list ty) (s : S) {struct ts} : res err (list val * S) :=
          match ts with
          | [] => Ok ([], s)
          | t :: ts' =>
            let* (v, s) := de t s in
            let* (vs, s) := de_list ts' s in
            Ok (v :: vs, s)
          end in
      match t with
      | TUnit => let* (_, s) := bin_read_unit S read_exact s in Ok (VUnit, s)
      | TBool => let* (b, s) := bin_read_bool S read_exact s in Ok (VBool b, s)
      | TChar => let* (c, s) := bin_read_char S read_exact s in Ok (VChar c, s)
      | TU8 => let* (b, s) := read_u8 S read_exact s in Ok (VInt b, s)
      | TInt k => let* (z, s) := bin_read_integer S read_exact (irange k) s in Ok (VInt z, s)
      | TU64 => let* (z, s) := bin_read_integer S read_exact R_u64 s in Ok (VInt z, s)
      | TF32 => let* (b, s) := read_ule S read_exact 4 s in Ok (VFloat b, s)
      | TF64 => let* (b, s) := read_ule S read_exact 8 s in Ok (VFloat b, s)
      | TStr => let* (l, s) := bin_read_string S read_exact s in Ok (VStr l, s)
      | TOpt t =>
        let* (b, s) := bin_read_bool S read_exact s in
        if b : bool then let* (v, s) := de t s in Ok (VSome v, s)
        else Ok (VNone, s)
      | TSeq t =>
        let* (n, s) := bin_read_nat0 S read_exact R_u64 s in
        let* (vs, s) :=
          (fix rep (n : nat) (s : S) {struct n} : res err (list val * S) :=
             match n with
             | O => Ok ([], s)
             | Datatypes.S n' =>
               let* (v, s) := de t s in
               let* (vs, s) := rep n' s in
               Ok (v :: vs, s)
             end) (Z.to_nat n) s in
        Ok (VSeq vs, s)
      | TTup ts => let* (vs, s) := de_list ts s in Ok (VTup vs, s)
      | TEnum vars =>
        let* (i, s) := bin_read_variant_index S read_exact s in
        let* (vs, s) :=
          (fix pick (vars : list (list ty)) (n : nat) {struct vars} : res err (list val * S) :=
             match vars, n with
             | ts :: _, O => de_list ts s
             | _ :: vars', Datatypes.S n' => pick vars' n'
             | [], _ => Err ECustom
             end) vars (Z.to_nat i) in
        Ok (VEnum (Z.to_nat i) vs, s)
      | TPoly vars =>
        let* (h, s) := bin_read_polyvar_tag S read_exact s in
        let* i := find_variant (map fst vars) 0 h in
        let* (vs, s) :=
          (fix pick (vars : list (string * list ty)) (n : nat) {struct vars}
             : res err (list val * S) :=
             match vars, n with
             | (_, ts) :: _, O => de_list ts s
             | _ :: vars', Datatypes.S n' => pick vars' n'
             | [], _ => Err ECustom
             end) vars (Z.to_nat i) in
        Ok (VEnum (Z.to_nat i) vs, s)
      end.

    (** The list helpers of [de] and [ser] as stand-alone functions; used in
        statements and proofs (convertible to the local fixpoints). *)
    Fixpoint de_list (ts : list ty) (s : S) {struct ts} : res err (list val * S) :=
      match ts with
      | [] => Ok ([], s)
      | t :: ts' =>
        let* (v, s) := de t s in
        let* (vs, s) := de_list ts' s in
        Ok (v :: vs, s)
      end.
    Definition de_rep (t : ty) : nat -> S -> res err (list val * S) :=
      fix rep (n : nat) (s : S) {struct n} : res err (list val * S) :=
        match n with
        | O => Ok ([], s)
        | Datatypes.S n' =>
          let* (v, s) := de t s in
          let* (vs, s) := rep n' s in
          Ok (v :: vs, s)
        end.
  End De.

  Fixpoint ser_list (ts : list ty) (vs : list val) {struct ts} : res err (list Z) :=
    match ts, vs with
    | [], [] => Ok []
    | t :: ts', v :: vs' =>
      let* a := ser t v in
      let* b := ser_list ts' vs' in
      Ok (a ++ b)
    | _, _ => Err ECustom
    end.
  Definition ser_all (t : ty) : list val -> res err (list Z) :=
    fix go (vs : list val) : res err (list Z) :=
      match vs with
      | [] => Ok []
      | v :: vs' => let* a := ser t v in let* b := go vs' in Ok (a ++ b)
      end.
End Hash.

(** [bin_prot::to_writer] (ser.rs:59-65) into a [Vec<u8>], and
    [bin_prot::from_reader] (de.rs:59-63) on a byte slice, returning the value
    and the bytes not consumed.  The buffered reader in between is treated in
    BufRead.v. *)
Definition to_bytes (checked : bool) (t : ty) (v : val) : res err (list Z) := ser checked t v.
Definition from_slice (checked : bool) (t : ty) (bs : list Z) : res err (val * list Z) :=
  de checked (list Z) slice_read_exact t bs.
