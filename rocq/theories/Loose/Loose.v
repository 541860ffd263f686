(** Model of the layout-driven ("loosely typed") decoder and of the dynamic
    values it produces.
    /repo/protocol/bin-prot/src/loose_deserializer.rs,
    value/{mod,ser,visitor}.rs and value/layout/{mod,traverse}.rs *)

From Coq Require Import ZArith List Bool String.
From Verif Require Import Lib.Res Lib.Bytes BinProt.Prim.
Import ListNotations.
Open Scope string_scope.
Open Scope list_scope.
Open Scope Z_scope.

(** value/layout/mod.rs:35-88 with the records of 160-259.  [RHashtable] holds
    key and value rule; [RUnresolved] and [RResolved] are the two cases of
    [Reference]; of the payloads only what the decoder looks at is kept: the
    module path and the rule of a resolved reference. *)
Inductive rule : Type :=
| RNat0 | RUnit | RBool | RString | RChar | RInt | RInt32 | RInt64 | RNativeInt | RFloat
| ROption (r : rule)
| RRecord (fs : list (string * rule))
| RTuple (rs : list rule)
| RSum (ss : list (string * Z * list rule))           (* ctor_name, index, ctor_args *)
| RPolyvar (ps : list (string * Z * list rule + rule)) (* Tagged or Inherited *)
| RList (r : rule)
| RHashtable (k v : rule)
| RVec (n : Z) (r : rule)
| RBigstring
| RUnresolved
| RResolved (path : string) (r : rule)
| RTypeVar (name : string)
| RSelfReference (rs : list rule)
| RTypeAbstraction (names : list string) (r : rule)
| RTypeClosure (bindings : list (string * rule)) (r : rule)
| RCustom (rs : list rule)
| RCustomForPath (path : string) (rs : list rule).

(** value/mod.rs:25-64; a float is its bit pattern, a [String] its bytes *)
Inductive value : Type :=
| LUnit
| LNat0 (n : Z)
| LBool (b : bool)
| LString (l : list Z)
| LChar (c : Z)
| LInt (z : Z)
| LFloat (bits : Z)
| LOption (o : option value)
| LRecord (fs : list (string * value))
| LTuple (vs : list value)
| LSum (name : string) (index : Z) (v : value)
| LPolyvar (name : string) (tag : Z) (v : value)
| LList (vs : list value).

(** ser.rs:42-54 with the empty enum name of value/ser.rs:51-56, so that the
    name is never "Polyvar"; ser.rs:478-482 *)
Definition write_index_or_tag (index : Z) : list Z :=
  if index <? 256 then bin_write_variant_index index else bin_write_polyvar_tag index.

(** value/ser.rs:11-60 through the serializer of ser.rs.  A [Vec] is a
    [serialize_seq] with its length (ser.rs:222-230); an element of a [String]
    is a [u8]. *)
Fixpoint vser (v : value) : list Z :=
  match v with
  | LUnit => bin_write_unit
  | LNat0 n => bin_write_integer n
  | LBool b => bin_write_bool b
  | LString l => bin_write_nat0 (Z.of_nat (List.length l)) ++ l
  | LChar c => bin_write_char c
  | LInt z => bin_write_integer z
  | LFloat b => bin_write_float64 b
  | LOption (Some v) => 1 :: vser v
  | LOption None => bin_write_unit
  | LRecord fs => flat_map (fun f => vser (snd f)) fs
  | LTuple vs => flat_map vser vs
  | LSum _ i v => write_index_or_tag i ++ vser v
  | LPolyvar _ t v => write_index_or_tag t ++ vser v
  | LList vs => bin_write_nat0 (Z.of_nat (List.length vs)) ++ flat_map vser vs
  end.

(** * The rule iterator.  The stack is a list whose head is the top. *)

(** traverse.rs:33-89 once the top rule is popped.  A resolved reference pushes
    its rule and calls [next] again, which pops that rule at once (62-66); here
    the call is made on the rule directly. *)
Fixpoint next_top (r : rule) (rest : list rule) (path : option string)
  : res err (option rule * (list rule * option string)) :=
  match r with
  | RRecord fs => Ok (Some r, (map snd fs ++ rest, path))
  | RTuple rs => Ok (Some r, (rs ++ rest, path))
  | RUnresolved => Panic
  | RResolved p r' => next_top r' rest (Some p)
  | RCustom rs =>
    match path with
    | Some p => Ok (Some (RCustomForPath p rs), (rest, path))
    | None => Ok (Some r, (rest, path))
    end
  | RList _ | RSum _ | RPolyvar _ | ROption _ | RString | RInt | RInt64 | RNat0 | RBool | RUnit
  | RChar | RInt32 | RNativeInt | RFloat => Ok (Some r, (rest, path))
  | RHashtable _ _ | RVec _ _ | RBigstring | RTypeVar _ | RSelfReference _
  | RTypeAbstraction _ _ | RTypeClosure _ _ | RCustomForPath _ _ => Panic
  end.
Definition next (it : list rule * option string)
  : res err (option rule * (list rule * option string)) :=
  match fst it with
  | [] => Ok (None, it)
  | r :: rest => next_top r rest (snd it)
  end.

(** traverse.rs:93-95: the last rule ends up on top *)
Definition push (rules : list rule) (it : list rule * option string) : list rule * option string :=
  (rev rules ++ fst it, snd it).

(** loose_deserializer.rs:130-142; the paths taken as vectors, with the length *)
Definition vector_len (path : string) : option Z :=
  if String.eqb path "Pickles_type.Vector.Vector2" || String.eqb path "Pickles_types.Vector.Vector2" then Some 2
  else if String.eqb path "Pickles_types.Vector.Vector4" then Some 4
  else if String.eqb path "Pickles_types.Vector.Vector8" then Some 8
  else if String.eqb path "Pickles_types.Vector.Vector17" then Some 17
  else if String.eqb path "Pickles_types.Vector.Vector18" then Some 18
  else None.
(** loose_deserializer.rs:151-160; the paths taken as 32 bytes *)
Definition big_ints : list string :=
  ["Ledger_hash0"; "State_hash"; "Pending_coinbase.Stack_hash"; "State_body_hash";
   "Pending_coinbase.Hash_builder"; "Snark_params.Make_inner_curve_scalar"; "Snark_params.Tick";
   "Epoch_seed"; "Zexe_backend.Zexe_backend_common.Stable.Field"; "Pending_coinbase.Coinbase_stack"].
Definition is_big_int (path : string) : bool := existsb (String.eqb path) big_ints.

(** loose_deserializer.rs:60-76: the first tagged variant with the given hash *)
Fixpoint find_tag (ps : list (string * Z * list rule + rule)) (tag : Z)
  : res err (string * Z * list rule) :=
  match ps with
  | [] => Err (EUnknownPolyvarTag tag)
  | inl t :: ps' => if snd (fst t) =? tag then Ok t else find_tag ps' tag
  | inr _ :: _ => Panic
  end.

Section Loose.
  (** [mem::size_of::<BinProtRule>()] *)
  Variable rule_size : Z.
  Variable S : Type.
  Variable read_exact : Z -> S -> res err (list Z * S).

  (** traverse.rs:98-100.  [Vec::extend] reserves room for all [n] rules first
      and panics with "capacity overflow" above [isize::MAX] bytes; the rules
      already on the stack are not counted, and running out of memory below
      that bound is not modelled. *)
  Definition push_n (r : rule) (n : Z) (it : list rule * option string)
    : res err (list rule * option string) :=
    if n * rule_size <? 2 ^ 63 then Ok (repeat r (Z.to_nat n) ++ fst it, snd it) else Panic.

  (** The deserializer: iterator and reader (de.rs:19-31). *)
  Definition state : Type := ((list rule * option string) * S)%type.

  (** [visit_seq] over a [SeqAccess] (visitor.rs:80-94, de.rs:573-606): as many
      elements as announced.  [visit_map] over a [MapAccess] (visitor.rs:96-105,
      de.rs:507-541): one value per field name. *)
  Fixpoint visit_seq (loose : state -> res err (value * state)) (n : nat) (st : state)
    : res err (list value * state) :=
    match n with
    | O => Ok ([], st)
    | Datatypes.S n' =>
      let* (v, st) := loose st in
      let* (vs, st) := visit_seq loose n' st in
      Ok (v :: vs, st)
    end.
  Fixpoint visit_map (loose : state -> res err (value * state)) (names : list string) (st : state)
    : res err (list (string * value) * state) :=
    match names with
    | [] => Ok ([], st)
    | k :: names' =>
      let* (v, st) := loose st in
      let* (vs, st) := visit_map loose names' st in
      Ok ((k, v) :: vs, st)
    end.

  (** loose_deserializer.rs:22-172 driven by the [ValueVisitor] of visitor.rs.
      The recursion goes through the visitor; its depth is bounded by [fuel],
      which [loose_value] chooses large enough ([Panic] on lack of fuel is never
      reached, theorem C17_fuel).

      In [variant_seed] (212-247) name, index and length pass through an
      in-memory encoding and are read back; they are used directly here (see
      theorem C77_hand_over). *)
  Fixpoint loose (fuel : nat) (st : state) : res err (value * state) :=
    match fuel with
    | O => Panic
    | Datatypes.S fuel =>
      let (it, s) := st in
      let* (top, it) := next it in
      match top with
      | None => Err EUnexpectedEndOfLayout
      | Some rule =>
        match rule with
        | RUnit => let* (_, s) := bin_read_unit S read_exact s in Ok (LUnit, (it, s))
        | RRecord fs =>
          let* (vs, st) := visit_map (loose fuel) (map fst fs) (it, s) in Ok (LRecord vs, st)
        | RTuple rs =>
          let* (vs, st) := visit_seq (loose fuel) (List.length rs) (it, s) in Ok (LTuple vs, st)
        | RBool => let* (b, s) := bin_read_bool S read_exact s in Ok (LBool b, (it, s))
        | RSum ss =>
          let* (i, s) := bin_read_variant_index S read_exact s in
          match nth_error ss (Z.to_nat i) with
          | None => Panic
          | Some (name, index, args) =>
            let it := push [RTuple args] it in
            if (0 <=? index) && (index <? 256) then
              let* (v, st) := loose fuel (it, s) in Ok (LSum name index v, st)
            else Panic
          end
        | RPolyvar ps =>
          let* (tag, s) := bin_read_polyvar_tag S read_exact s in
          let* (t, args) := find_tag ps tag in
          let it := push [RTuple args] it in
          let* (v, st) := loose fuel (it, s) in Ok (LPolyvar (fst t) (snd t) v, st)
        | ROption r =>
          let* (i, s) := bin_read_variant_index S read_exact s in
          if i =? 0 then Ok (LOption None, (it, s))
          else if i =? 1 then
            let* (v, st) := loose fuel (push [r] it, s) in Ok (LOption (Some v), st)
          else Err (EInvalidOptionByte i)
        | RString =>
          let* (l, s) := bin_read_bytes S read_exact s in Ok (LList (map LChar l), (it, s))
        | RFloat => let* (b, s) := read_ule S read_exact 8 s in Ok (LFloat b, (it, s))
        | RChar => let* (c, s) := read_u8 S read_exact s in Ok (LChar c, (it, s))
        | RList r =>
          let* (len, s) := bin_read_nat0 S read_exact R_u64 s in
          let* it := push_n r len it in
          let* (vs, st) := visit_seq (loose fuel) (Z.to_nat len) (it, s) in Ok (LList vs, st)
        | RInt | RInt32 | RInt64 | RNativeInt =>
          let* (z, s) := bin_read_integer S read_exact R_i64 s in Ok (LInt z, (it, s))
        | RVec _ _ | RNat0 | RHashtable _ _ | RTypeVar _ | RBigstring | RSelfReference _
        | RTypeClosure _ _ | RTypeAbstraction _ _ | RUnresolved | RResolved _ _ =>
          Err EUnimplementedRule
        | RCustom _ => Err ELayoutIteratorError
        | RCustomForPath path rules =>
          match vector_len path with
          | Some len =>
            match rules with
            | [] => Panic
            | r :: _ =>
              let it := push [RUnit] it in
              let* it := push_n r len it in
              let* (vs, st) := visit_seq (loose fuel) (Z.to_nat (len + 1)) (it, s) in
              Ok (LTuple vs, st)
            end
          | None =>
            if is_big_int path then
              let* it := push_n RChar 32 it in
              let* (vs, st) := visit_seq (loose fuel) 32 (it, s) in Ok (LTuple vs, st)
            else Err EUnknownCustomType
          end
        end
      end
    end.
End Loose.

(** Nesting depth of a layout. *)
Fixpoint depth (r : rule) : nat :=
  Datatypes.S
  match r with
  | ROption r | RList r | RVec _ r | RResolved _ r | RTypeAbstraction _ r => depth r
  | RRecord fs => list_max (map (fun f => depth (snd f)) fs)
  | RTuple rs | RSelfReference rs | RCustomForPath _ rs => list_max (map depth rs)
  | RCustom rs => Nat.max 1 (list_max (map depth rs))
  | RSum ss => Datatypes.S (list_max (map (fun s => list_max (map depth (snd s))) ss))
  | RPolyvar ps =>
    Datatypes.S (list_max (map (fun p =>
      match p with inl t => list_max (map depth (snd t)) | inr r => depth r end) ps))
  | RHashtable k v => Nat.max (depth k) (depth v)
  | RTypeClosure bs r => Nat.max (depth r) (list_max (map (fun b => depth (snd b)) bs))
  | _ => O
  end.

(** [Deserializer::from_reader(bytes).with_layout(&layout)] (de.rs:36-53,
    traverse.rs:107-112) followed by [Value::deserialize] (value/mod.rs:79-87),
    on a byte slice; returns the value and the bytes not consumed. *)
Definition loose_state (rule_size : Z) (layout : rule) (bs : list Z)
  : res err (value * ((list rule * option string) * list Z)) :=
  loose rule_size (list Z) slice_read_exact (depth layout) (([layout], None), bs).
Definition loose_value (rule_size : Z) (layout : rule) (bs : list Z) : res err (value * list Z) :=
  let* (v, st) := loose_state rule_size layout bs in Ok (v, snd st).
