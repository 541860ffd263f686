(** Specifications for the layout-driven decoder: a decoder by recursion over
    the layout, without a rule stack, and the wire format of a layout as a
    relation that uses no reader or writer. *)
From Coq Require Import ZArith List Bool String.
From Verif Require Import Lib.Res Lib.Bytes BinProt.Prim BinProt.PrimSpec BinProt.FormatSpec Loose.Loose.
Import ListNotations.
Open Scope string_scope.
Open Scope list_scope.
Open Scope Z_scope.

(** * Decoding by recursion

    Decoders over some state, run one after the other. *)
Section Seq.
  Variable T : Type.
  Definition decoder : Type := T -> res err (value * T).
  Fixpoint all (ds : list decoder) (t : T) : res err (list value * T) :=
    match ds with
    | [] => Ok ([], t)
    | d :: ds' =>
      let* (v, t) := d t in
      let* (vs, t) := all ds' t in
      Ok (v :: vs, t)
    end.
End Seq.
Arguments all {T}.

Section Dec.
  Variable rule_size : Z.
  Variable S : Type.
  Variable read_exact : Z -> S -> res err (list Z * S).

  (** what to do at a custom type, given its module path and the decoders of its
      parameters *)
  Definition custom {T} (lift : forall A, (S -> res err (A * S)) -> T -> res err (A * T))
      (path : option string) (params : list (decoder T)) (t : T) : res err (value * T) :=
    let char := fun t => let* (c, t) := lift _ (read_u8 S read_exact) t in Ok (LChar c, t) in
    let unit := fun t => let* (_, t) := lift _ (bin_read_unit S read_exact) t in Ok (LUnit, t) in
    match path with
    | None => Err ELayoutIteratorError
    | Some p =>
      match vector_len p with
      | Some n =>
        match params with
        | [] => Panic
        | d :: _ =>
          if n * rule_size <? 2 ^ 63 then
            let* (vs, t) := all (repeat d (Z.to_nat n) ++ [unit]) t in Ok (LTuple vs, t)
          else Panic
        end
      | None =>
        if is_big_int p then
          if 32 * rule_size <? 2 ^ 63 then
            let* (vs, t) := all (repeat char 32) t in Ok (LTuple vs, t)
          else Panic
        else Err EUnknownCustomType
      end
    end.

  (** Common part of the two decoders below: [rec] decodes sub-rules. *)
  Definition leaf {T} (lift : forall A, (S -> res err (A * S)) -> T -> res err (A * T))
      (r : rule) (t : T) : res err (value * T) :=
    match r with
    | RUnit => let* (_, t) := lift _ (bin_read_unit S read_exact) t in Ok (LUnit, t)
    | RBool => let* (b, t) := lift _ (bin_read_bool S read_exact) t in Ok (LBool b, t)
    | RString => let* (l, t) := lift _ (bin_read_bytes S read_exact) t in Ok (LList (map LChar l), t)
    | RFloat => let* (b, t) := lift _ (read_ule S read_exact 8) t in Ok (LFloat b, t)
    | RChar => let* (c, t) := lift _ (read_u8 S read_exact) t in Ok (LChar c, t)
    | RInt | RInt32 | RInt64 | RNativeInt =>
      let* (z, t) := lift _ (bin_read_integer S read_exact R_i64) t in Ok (LInt z, t)
    | RNat0 => Err EUnimplementedRule
    | _ => Panic
    end.
  Definition option_of {T} (lift : forall A, (S -> res err (A * S)) -> T -> res err (A * T))
      (d : decoder T) (t : T) : res err (value * T) :=
    let* (i, t) := lift _ (bin_read_variant_index S read_exact) t in
    if i =? 0 then Ok (LOption None, t)
    else if i =? 1 then let* (v, t) := d t in Ok (LOption (Some v), t)
    else Err (EInvalidOptionByte i).
  Definition list_of {T} (lift : forall A, (S -> res err (A * S)) -> T -> res err (A * T))
      (d : decoder T) (t : T) : res err (value * T) :=
    let* (n, t) := lift _ (bin_read_nat0 S read_exact R_u64) t in
    if n * rule_size <? 2 ^ 63 then
      let* (vs, t) := all (repeat d (Z.to_nat n)) t in Ok (LList vs, t)
    else Panic.
  Definition sum_of {T} (lift : forall A, (S -> res err (A * S)) -> T -> res err (A * T))
      (ds : list (string * Z * list (decoder T))) (t : T) : res err (value * T) :=
    let* (i, t) := lift _ (bin_read_variant_index S read_exact) t in
    match nth_error ds (Z.to_nat i) with
    | None => Panic
    | Some (name, index, args) =>
      if (0 <=? index) && (index <? 256) then
        let* (vs, t) := all args t in Ok (LSum name index (LTuple vs), t)
      else Panic
    end.
  Fixpoint pick {A} (ps : list (string * Z * A + unit)) (tag : Z) : res err (string * Z * A) :=
    match ps with
    | [] => Err (EUnknownPolyvarTag tag)
    | inl t :: ps' => if snd (fst t) =? tag then Ok t else pick ps' tag
    | inr _ :: _ => Panic
    end.
  Definition polyvar_of {T} (lift : forall A, (S -> res err (A * S)) -> T -> res err (A * T))
      (ds : list (string * Z * list (decoder T) + unit)) (t : T) : res err (value * T) :=
    let* (tag, t) := lift _ (bin_read_polyvar_tag S read_exact) t in
    let* (h, args) := pick ds tag in
    let* (vs, t) := all args t in Ok (LPolyvar (fst h) (snd h) (LTuple vs), t).

  (** Reads, keeping a last-seen module path beside the reader. *)
  Definition keep (A : Type) (f : S -> res err (A * S)) (t : option string * S)
    : res err (A * (option string * S)) :=
    let* (a, s) := f (snd t) in Ok (a, (fst t, s)).

  (** The decoder by recursion over the layout.  The module path is the last one
      met so far, wherever it was met. *)
  Fixpoint dec (r : rule) (t : option string * S) {struct r}
    : res err (value * (option string * S)) :=
    match r with
    | ROption r => option_of keep (dec r) t
    | RRecord fs =>
      let* (vs, t) := all (map (fun f => dec (snd f)) fs) t in
      Ok (LRecord (combine (map fst fs) vs), t)
    | RTuple rs => let* (vs, t) := all (map dec rs) t in Ok (LTuple vs, t)
    | RSum ss => sum_of keep (map (fun x => (fst x, map dec (snd x))) ss) t
    | RPolyvar ps =>
      polyvar_of keep (map (fun p => match p with
        | inl x => inl (fst x, map dec (snd x)) | inr _ => inr tt end) ps) t
    | RList r => list_of keep (dec r) t
    | RResolved p r => dec r (Some p, snd t)
    | RCustom rs => custom keep (fst t) (map dec rs) t
    | r => leaf keep r t
    end.

  (** The same decoder with lexically scoped paths: a custom type belongs to the
      reference that encloses it most closely. *)
  Fixpoint sdec (r : rule) (p : option string) (s : S) {struct r} : res err (value * S) :=
    let same := fun A (f : S -> res err (A * S)) => f in
    match r with
    | ROption r => option_of same (sdec r p) s
    | RRecord fs =>
      let* (vs, s) := all (map (fun f => sdec (snd f) p) fs) s in
      Ok (LRecord (combine (map fst fs) vs), s)
    | RTuple rs => let* (vs, s) := all (map (fun r => sdec r p) rs) s in Ok (LTuple vs, s)
    | RSum ss => sum_of same (map (fun x => (fst x, map (fun r => sdec r p) (snd x))) ss) s
    | RPolyvar ps =>
      polyvar_of same (map (fun q => match q with
        | inl x => inl (fst x, map (fun r => sdec r p) (snd x)) | inr _ => inr tt end) ps) s
    | RList r => list_of same (sdec r p) s
    | RResolved q r => sdec r (Some q) s
    | RCustom rs => custom same p (map (fun r => sdec r p) rs) s
    | r => leaf same r s
    end.
End Dec.

(** Layouts in which every custom type is named by the reference directly around
    it, as in the layouts the project ships; its parameters contain no custom
    type that relies on an outer reference either. *)
Fixpoint direct (under_ref : bool) (r : rule) : bool :=
  match r with
  | ROption r | RList r => direct false r
  | RRecord fs => forallb (fun f => direct false (snd f)) fs
  | RTuple rs => forallb (direct false) rs
  | RSum ss => forallb (fun x => forallb (direct false) (snd x)) ss
  | RPolyvar ps => forallb (fun p => match p with
      | inl x => forallb (direct false) (snd x) | inr _ => true end) ps
  | RResolved _ r => direct true r
  | RCustom rs => under_ref && forallb (direct false) rs
  | _ => true
  end.

(** * The wire format of a layout

    [wire NF IF TF p r v bs q]: read from the module path [p], the byte string
    [bs], taken whole, is the value [v] of layout [r], and the module path is
    then [q].  [NF] and [IF] are the forms taken for lengths and integers, [TF]
    says which words stand for a polymorphic tag. *)
Section Wire.
  Variable rule_size : Z.
  Variable NF IF : list Z -> Z -> Prop.
  Variable TF : Z -> Z -> Prop.

  Inductive wire : option string -> rule -> value -> list Z -> option string -> Prop :=
  | W_unit : forall p, wire p RUnit LUnit [0] p
  | W_false : forall p, wire p RBool (LBool false) [0] p
  | W_true : forall p, wire p RBool (LBool true) [1] p
  | W_char : forall p c, is_byte c -> wire p RChar (LChar c) [c] p
  | W_int : forall p r z bs, r = RInt \/ r = RInt32 \/ r = RInt64 \/ r = RNativeInt ->
      IF bs z -> wire p r (LInt z) bs p
  | W_float : forall p a b c d e f g h, is_byte a -> is_byte b -> is_byte c -> is_byte d ->
      is_byte e -> is_byte f -> is_byte g -> is_byte h ->
      wire p RFloat (LFloat (le8 a b c d e f g h)) [a; b; c; d; e; f; g; h] p
  | W_string : forall p n l, NF n (Z.of_nat (List.length l)) -> bytes_ok l ->
      Z.of_nat (List.length l) < 2 ^ 63 ->
      wire p RString (LList (map LChar l)) (n ++ l) p
  | W_none : forall p r, wire p (ROption r) (LOption None) [0] p
  | W_some : forall p r v bs q, wire p r v bs q ->
      wire p (ROption r) (LOption (Some v)) (1 :: bs) q
  | W_record : forall p fs vs bs q, wires p (map snd fs) vs bs q ->
      wire p (RRecord fs) (LRecord (combine (map fst fs) vs)) bs q
  | W_tuple : forall p rs vs bs q, wires p rs vs bs q -> wire p (RTuple rs) (LTuple vs) bs q
  | W_sum : forall p ss i name index args vs bs q,
      nth_error ss i = Some (name, index, args) -> (i < 256)%nat -> is_byte index ->
      wires p args vs bs q ->
      wire p (RSum ss) (LSum name index (LTuple vs)) (Z.of_nat i :: bs) q
  | W_polyvar : forall p ps qs name tag args rest a b c d vs bs q,
      ps = qs ++ inl (name, tag, args) :: rest ->
      (forall x, In x qs -> exists y, x = inl y /\ snd (fst y) <> tag) ->
      is_byte a -> is_byte b -> is_byte c -> is_byte d -> TF (le4 a b c d) tag ->
      wires p args vs bs q ->
      wire p (RPolyvar ps) (LPolyvar name tag (LTuple vs)) (a :: b :: c :: d :: bs) q
  | W_list : forall p r n vs bs q, NF n (Z.of_nat (List.length vs)) ->
      Z.of_nat (List.length vs) * rule_size < 2 ^ 63 ->
      wires p (repeat r (List.length vs)) vs bs q -> wire p (RList r) (LList vs) (n ++ bs) q
  | W_ref : forall p m r v bs q, wire (Some m) r v bs q -> wire p (RResolved m r) v bs q
  | W_vector : forall m n r rs vs bs q, vector_len m = Some (Z.of_nat n) ->
      Z.of_nat n * rule_size < 2 ^ 63 ->
      wires (Some m) (repeat r n) vs bs q ->
      wire (Some m) (RCustom (r :: rs)) (LTuple (vs ++ [LUnit])) (bs ++ [0]) q
  | W_big_int : forall m rs l, is_big_int m = true -> 32 * rule_size < 2 ^ 63 ->
      List.length l = 32%nat -> bytes_ok l ->
      wire (Some m) (RCustom rs) (LTuple (map LChar l)) l (Some m)
  with wires : option string -> list rule -> list value -> list Z -> option string -> Prop :=
  | W_nil : forall p, wires p [] [] [] p
  | W_cons : forall p r rs v vs a b q q', wire p r v a q -> wires q rs vs b q' ->
      wires p (r :: rs) (v :: vs) (a ++ b) q'.
End Wire.

(** As written by a conforming encoder: shortest forms, low bit of the tag set.
    As accepted: any form, the low bit of the tag does not matter. *)
Definition canonical (rule_size : Z) :=
  wire rule_size canon_nat canon_int (fun w tag => w = 2 * tag + 1).
Definition lenient (rule_size : Z) :=
  wire rule_size nat_form int_form (fun w tag => w / 2 = tag).

(** Layouts whose sums are numbered by position and whose polymorphic tags do
    not fit one byte. *)
Fixpoint numbered (r : rule) : bool :=
  match r with
  | ROption r | RList r | RResolved _ r => numbered r
  | RRecord fs => forallb (fun f => numbered (snd f)) fs
  | RTuple rs | RCustom rs => forallb numbered rs
  | RSum ss =>
    forallb (fun x => forallb numbered (snd x)) ss &&
    forallb (fun ix => Z.of_nat (fst ix) =? snd ix)
      (combine (seq 0 (List.length ss)) (map (fun x => snd (fst x)) ss))
  | RPolyvar ps =>
    forallb (fun p => match p with
      | inl x => forallb numbered (snd x) && (256 <=? snd (fst x)) | inr _ => true end) ps
  | _ => true
  end.

(** Layouts built from the rules the decoder implements, whose sums have at
    least [k] summands with indices of one byte; strings and lists only if
    [lists]. *)
Fixpoint supported (k : Z) (lists : bool) (r : rule) : bool :=
  match r with
  | RUnit | RBool | RChar | RInt | RInt32 | RInt64 | RNativeInt | RFloat | RNat0 => true
  | RString => lists
  | ROption r | RResolved _ r => supported k lists r
  | RList r => lists && supported k lists r
  | RRecord fs => forallb (fun f => supported k lists (snd f)) fs
  | RTuple rs => forallb (supported k lists) rs
  | RSum ss => (k <=? Z.of_nat (List.length ss)) &&
    forallb (fun x => (0 <=? snd (fst x)) && (snd (fst x) <? 256) &&
                      forallb (supported k lists) (snd x)) ss
  | RPolyvar ps => forallb (fun p => match p with
      | inl x => forallb (supported k lists) (snd x) | inr _ => false end) ps
  | RCustom rs => match rs with [] => false | _ => forallb (supported k lists) rs end
  | _ => false
  end.
