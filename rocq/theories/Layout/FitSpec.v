(** When a layout describes the wire format of a type: a check that walks
    through both, taking groups (records, tuples, references, fixed vectors)
    apart on either side, so that only the sequence of scalars, options, lists
    and variants counts. *)
From Coq Require Import ZArith List Bool String.
From Verif Require Import Lib.Bytes BinProt.Prim BinProt.Codec BinProt.CodecSpec BinProt.CodecFacts BinProt.PrimSpec
  BinProt.FormatSpec Loose.Loose.
Import ListNotations.
Open Scope string_scope.
Open Scope list_scope.
Open Scope Z_scope.

(** The parts of a group: of a record or tuple the fields, of a reference what
    it refers to, of a vector its elements and the closing unit, of a field
    element its 32 bytes. *)
Definition parts (r : rule) : option (list rule) :=
  match r with
  | RTuple l => Some l
  | RRecord fs => Some (map snd fs)
  | RResolved m r =>
    match r with
    | RCustom l =>
      match vector_len m with
      | Some n => match l with [] => None | r :: _ => Some (List.repeat r (Z.to_nat n) ++ [RUnit]) end
      | None => if is_big_int m then Some (List.repeat RChar 32) else None
      end
    | _ => Some [r]
    end
  | _ => None
  end.
Definition tuple_parts (t : ty) : option (list ty) := match t with TTup us => Some us | _ => None end.

Section Fit.
  (** variants that are left out: of enums, given by their fields, and of sums,
      given by their names *)
  Variable skip : list ty -> bool.
  Variable bad : string -> bool.

  (** The variants of an enum against those of a sum of the same position.  The
      sum may have more of them. *)
  Fixpoint fit_variants (fit : list rule -> list ty -> bool) (i : Z) (ss : list (string * Z * list rule))
      (vars : list (list ty)) {struct vars} : bool :=
    match vars with
    | [] => true
    | ts :: vars =>
      match ss with
      | [] => skip ts && fit_variants fit (i + 1) [] vars
      | (name, index, args) :: ss =>
        (if skip ts then bad name else negb (bad name) && (index =? i) && (i <? 256) && fit args ts) &&
        fit_variants fit (i + 1) ss vars
      end
    end.
  Fixpoint fit_polyvars (fit : list rule -> list ty -> bool) (ps : list (string * Z * list rule + rule))
      (vars : list (string * list ty)) {struct vars} : bool :=
    match vars with
    | [] => true
    | (nm, ts) :: vars =>
      match ps with
      | inl (name, tag, args) :: ps =>
        String.eqb name nm && (tag =? name_hash32 nm) && (256 <=? tag) && ascii_name nm && fit args ts &&
        fit_polyvars fit ps vars
      | _ => false
      end
    end.

  (** A rule without groups against a type without groups *)
  Definition fit_leaf (fit : list rule -> list ty -> bool) (r : rule) (t : ty) : bool :=
    match r with
    | RUnit => match t with TUnit => true | _ => false end
    | RBool => match t with TBool => true | _ => false end
    | RChar => match t with TU8 => true | _ => false end
    | RFloat => match t with TF64 => true | _ => false end
    | RString => match t with TSeq TU8 => true | _ => false end
    | RInt | RInt32 | RInt64 | RNativeInt => match t with TInt _ | TU64 => true | _ => false end
    | ROption r => match t with TOpt t => fit [r] [t] | _ => false end
    | RList r => match t with TSeq t => Nat.leb 1 (min_size t) && fit [r] [t] | _ => false end
    | RSum ss => match t with TEnum vars => fit_variants fit 0 ss vars | _ => false end
    | RPolyvar ps =>
      match t with TPoly vars => Nat.leb (List.length vars) 256 && fit_polyvars fit ps vars | _ => false end
    | _ => false
    end.
  (** [fit f rs ts]: the layouts [rs], one after the other, take what the types
      [ts] take; [f] bounds the recursion. *)
  Fixpoint fit (f : nat) (rs : list rule) (ts : list ty) {struct f} : bool :=
    match f with
    | O => false
    | S f =>
      match rs with
      | r :: rs' =>
        match parts r with
        | Some l => fit f (l ++ rs') ts
        | None =>
          match ts with
          | [] => false
          | t :: ts' =>
            match tuple_parts t with
            | Some us => fit f rs (us ++ ts')
            | None => fit_leaf (fit f) r t && fit f rs' ts'
            end
          end
        end
      | [] =>
        match ts with
        | [] => true
        | t :: ts' => match tuple_parts t with Some us => fit f rs (us ++ ts') | None => false end
        end
      end
    end.
End Fit.

(** Typed values and values of a layout that use none of these variants *)
Definition avoid (skip : list ty -> bool) (t : ty) (v : val) : Prop :=
  match t, v with
  | TEnum vars, VEnum i _ => match nth_error vars i with Some ts => skip ts = false | None => True end
  | _, _ => True
  end.
Definition avoids (skip : list ty -> bool) : ty -> val -> Prop := typed (avoid skip).
Fixpoint clean (bad : string -> bool) (v : value) : bool :=
  match v with
  | LOption (Some v) | LPolyvar _ _ v => clean bad v
  | LRecord fs => forallb (fun f => clean bad (snd f)) fs
  | LTuple vs | LList vs => forallb (clean bad) vs
  | LSum name _ v => negb (bad name) && clean bad v
  | _ => true
  end.
