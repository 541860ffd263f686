(** The JSON form of the wire types: /repo/protocol/serialization-types/src and
    /repo/protocol/serialization-types-macros.

    Texts of JSON documents are not modelled: a document is a
    [serde_json::Value], and the functions are [serde_json::to_value] of the
    JSON type converted from a wire value, and the wire value converted from
    [serde_json::from_value].  The conversions (the [AutoFrom] derive, [From]
    for [Versioned]) and the derived serde instances follow the types, so one
    descriptor [dty] gives for every pair of a wire type and its JSON type both
    the wire type ([wire_ty]) and the two functions ([jser], [jde]). *)

From Coq Require Import String ZArith List Bool.
From Verif Require Import Lib.Res Lib.Bytes BinProt.Prim BinProt.Codec BinProt.BufRead Wire.Types
  Text.Numbers Text.Base58 Text.Base64 Text.Hex Text.FieldText.
Import ListNotations.
Local Open Scope Z_scope.
Notation length := List.length.

(** [serde_json::Value].  Integers from [-2 ^ 63] to [2 ^ 64 - 1] are [JNum],
    other numbers [JFloat].  The members of an object are listed in the order
    in which the map yields them; their keys are distinct. *)
Inductive json : Type :=
| JNull | JBool (b : bool) | JNum (z : Z) | JFloat (bits : Z) | JStr (s : list Z)
| JArr (l : list json) | JObj (m : list (list Z * json)).

(** The kinds of errors are not distinguished. *)
Inductive jerr : Set := JE.
Definition conv {E A : Type} (r : res E A) : res jerr A :=
  match r with Ok a => Ok a | Err _ => Err JE | Panic => Panic end.
Definition conv_opt {A : Type} (r : option A) : res jerr A :=
  match r with Some a => Ok a | None => Err JE end.

Section Map.
  Context {E A B : Type}.
  Variable f : A -> res E B.
  Fixpoint mapM (l : list A) : res E (list B) :=
    match l with
    | [] => Ok []
    | a :: l' => let* b := f a in let* bs := mapM l' in Ok (b :: bs)
    end.
End Map.

(** The wrappers whose JSON form is a string. *)
Inductive leaf : Set :=
| LU32          (* U32Json for a u32 *)
| LX32          (* U32Json for an ExtendedU32 *)
| LU64          (* U64Json *)
| LDec          (* DecimalJson *)
| LChar         (* CharJson *)
| LBytes        (* ByteVecJson *)
| LHash (ver : Z)  (* HashV1Json<ver>; the version number of the hash is part of the text *)
| LAux (ver : Z)   (* Base58EncodableType<ver, Vec<u8>> *)
| LMemo         (* SignedCommandMemoJson *)
| LVrf64        (* VrfOutputTruncatedBase64Json *)
| LPub          (* PublicKeyJson *)
| LSig          (* SignatureJson *)
| LField        (* FieldElementJson *)
| LProof64.     (* ProtocolStateProofBase64Json *)

Definition leaf_ty (l : leaf) : ty :=
  match l with
  | LU32 => TInt U32
  | LX32 => TInt I32
  | LU64 | LDec => TU64
  | LChar => TU8
  | LBytes | LAux _ | LMemo | LVrf64 => TSeq TU8
  | LHash _ => HashV1
  | LPub => CompressedCurvePoint
  | LSig => SignatureJsonTy
  | LField => FieldElement
  | LProof64 => ProtocolStateProofV1
  end.

(** How serde reads and writes the fields of a variant. *)
Inductive shape : Set := SUnit | SNew | STup | SStruct.
(** serde's externally tagged form, or the list-tagged form of
    [impl_mina_enum_json_serde_with_option] (macros.rs 61-130) with its option
    [$ser_expand_array]. *)
Inductive tagging : Set := External | Listed (expand : bool).

(** A wire type and its JSON type.  [DV] is a [Versioned] wrapper, which the
    JSON type does not have; newtype structs are transparent.  A field marked
    [#[serde(skip)]] has the wire value made from its default. *)
Inductive dty : Type :=
| DLeaf (l : leaf)
| DBool
| DI64
| DUnit
| DV (d : dty)
| DOpt (d : dty)
| DVec (d : dty)
| DTup (fs : flds)
| DStruct (fs : flds)
| DEnum (tg : tagging) (poly : bool) (ws : vars)
with flds : Type :=
| FNil
| FCons (name : string) (skip : option val) (d : dty) (fs : flds)
with vars : Type :=
| WNil
| WCons (name : string) (sh : shape) (fs : flds) (ws : vars).

Fixpoint wire_ty (d : dty) : ty :=
  match d with
  | DLeaf l => leaf_ty l
  | DBool => TBool
  | DI64 => TInt I64
  | DUnit => TUnit
  | DV d => V (wire_ty d)
  | DOpt d => TOpt (wire_ty d)
  | DVec d => TSeq (wire_ty d)
  | DTup fs | DStruct fs => TTup (wire_flds fs)
  | DEnum _ false ws => TEnum (wire_vars ws)
  | DEnum _ true ws => TPoly (wire_poly ws)
  end
with wire_flds (fs : flds) : list ty :=
  match fs with
  | FNil => []
  | FCons _ _ d fs => wire_ty d :: wire_flds fs
  end
with wire_vars (ws : vars) : list (list ty) :=
  match ws with
  | WNil => []
  | WCons _ _ fs ws => wire_flds fs :: wire_vars ws
  end
with wire_poly (ws : vars) : list (string * list ty) :=
  match ws with
  | WNil => []
  | WCons nm _ fs ws => (nm, wire_flds fs) :: wire_poly ws
  end.

Definition key_eqb (a b : list Z) : bool := if list_eq_dec Z.eq_dec a b then true else false.
Definition ints (vs : list val) : list Z := map (fun v => match v with VInt z => z | _ => 0 end) vs.

(** ** List-tagged enums, macros.rs 61-130 *)

(** macros.rs 65-93, after [to_value] of the proxy *)
Definition tag_ser (tg : tagging) (e : json) : res jerr json :=
  match tg with
  | External => Ok e
  | Listed expand =>
    match e with
    | JStr _ => Ok (JArr [e])
    | JObj [(k, v)] =>
      match expand, v with
      | true, JArr items => Ok (JArr (JStr k :: items))
      | _, _ => Ok (JArr [JStr k; v])
      end
    | JObj _ => Panic
    | _ => Ok e
    end
  end.

(** macros.rs 101-125: the value handed to [from_value] of the proxy *)
Definition tag_de (tg : tagging) (j : json) : res jerr json :=
  match tg with
  | External => Ok j
  | Listed _ =>
    match j with
    | JArr [] => Panic
    | JArr [x] => Ok x
    | JArr [JStr k; v] => Ok (JObj [(k, v)])
    | JArr (JStr k :: rest) => Ok (JObj [(k, JArr rest)])
    | JArr _ => Err JE
    | _ => Panic
    end
  end.

(** [deserialize_enum] of [serde_json::Value]: the variant and its content. *)
Definition ext_de (f : list Z -> option json -> res jerr (nat * list val)) (e : json) : res jerr (nat * list val) :=
  match e with
  | JStr k => f k None
  | JObj [(k, v)] => f k (Some v)
  | _ => Err JE
  end.

(** The members of an object, in order; members that are no field are ignored. *)
Section Obj.
  Variable f : list Z -> json -> option (res jerr val).
  Fixpoint obj_loop (m : list (list Z * json)) : res jerr (list (list Z * val)) :=
    match m with
    | [] => Ok []
    | (k, j) :: m' =>
      match f k j with
      | None => obj_loop m'
      | Some r => let* v := r in let* r' := obj_loop m' in Ok ((k, v) :: r')
      end
    end.
End Obj.
Fixpoint assoc (k : list Z) (m : list (list Z * val)) : option val :=
  match m with
  | [] => None
  | (k', v) :: m' => if key_eqb k' k then Some v else assoc k m'
  end.
(** A missing member is [None] for an [Option] and an error otherwise. *)
Fixpoint missing (d : dty) : option val :=
  match d with
  | DOpt _ => Some VNone
  | DV d => match missing d with Some v => Some (VTup [VInt 1; v]) | None => None end
  | _ => None
  end.
Fixpoint assemble (fs : flds) (m : list (list Z * val)) : res jerr (list val) :=
  match fs with
  | FNil => Ok []
  | FCons _ (Some dflt) _ fs => let* vs := assemble fs m in Ok (dflt :: vs)
  | FCons nm None d fs =>
    let* v := match assoc (str_bytes nm) m with Some v => Ok v | None => conv_opt (missing d) end in
    let* vs := assemble fs m in Ok (v :: vs)
  end.

Section Model.
  (** overflow checks *)
  Variable checked : bool.
  (** first 4 bytes of SHA-256 applied twice *)
  Variable checksum : list Z -> list Z.
  (** [CompressedPubKey::into_address] and [from_address] of mina_signer, on
      the 32 bytes of the x coordinate and the parity *)
  Variable addr : list Z -> bool -> list Z.
  Variable unaddr : list Z -> option (list Z * bool).

  Definition leaf_ser (l : leaf) (v : val) : res jerr (list Z) :=
    match l, v with
    | LU32, VInt z => Ok (u32_json_ser z)
    | LX32, VInt z => Ok (u32_json_ser (of_extended_u32 z))
    | LU64, VInt z => Ok (u64_json_ser z)
    | LDec, VInt z => Ok (decimal_json_ser z)
    | LChar, VInt z => Ok (char_json_ser z)
    | LBytes, VSeq vs => Ok (bytevec_json_ser (ints vs))
    | LHash ver, _ => conv (to_base58_versioned checksum checked ver HashV1 v)
    | LAux ver, VSeq vs => Ok (to_base58_string checksum ver (ints vs))
    | LMemo, VSeq vs => Ok (memo_json_ser checksum (ints vs))
    | LVrf64, VSeq vs => Ok (b64_encode (ints vs))
    (* signatures.rs 36-48 with 117-127: [BaseField::from_bytes(..).expect(..)] *)
    | LPub, VTup [VTup xs; VBool b] =>
      if le_val (ints xs) <? FP_MODULUS then Ok (addr (ints xs) b) else Panic
    | LSig, _ => conv (to_base58_versioned checksum checked SIGNATURE SignatureJsonTy v)
    | LField, VTup xs => Ok (field_json_ser (ints xs))
    (* protocol_state_proof.rs 41-52 *)
    | LProof64, _ => let* bs := conv (to_bytes checked ProtocolStateProofV1 v) in Ok (b64_encode bs)
    | _, _ => Err JE
    end.

  Definition leaf_de (l : leaf) (s : list Z) : res jerr val :=
    match l with
    | LU32 => rmap VInt (conv (u32_json_de s))
    | LX32 => rmap (fun n => VInt (to_extended_u32 n)) (conv (u32_json_de s))
    | LU64 => rmap VInt (conv (u64_json_de s))
    | LDec => rmap VInt (conv (decimal_json_de checked s))
    | LChar => rmap VInt (conv (char_json_de s))
    | LBytes => Ok (VSeq (map VInt (bytevec_json_de s)))
    | LHash ver => conv (from_base58_versioned checksum checked ver HashV1 s)
    | LAux ver => rmap (fun b => VSeq (map VInt b)) (conv (from_base58 checksum ver s))
    | LMemo => rmap (fun b => VSeq (map VInt b)) (conv (memo_json_de checksum s))
    | LVrf64 => rmap (fun b => VSeq (map VInt b)) (conv_opt (b64_decode s))
    (* signatures.rs 50-62 with 133-146 *)
    | LPub => rmap (fun p => VTup [VTup (map VInt (fst p)); VBool (snd p)]) (conv_opt (unaddr s))
    | LSig => conv (from_base58_versioned checksum checked SIGNATURE SignatureJsonTy s)
    | LField => rmap (fun b => VTup (map VInt b)) (conv (field_json_de s))
    (* protocol_state_proof.rs 54-67 *)
    | LProof64 =>
      let* bs := conv_opt (b64_decode s) in
      conv (from_reader_strict BUF_CAP checked ProtocolStateProofV1 (chunks_of bs))
    end.

  (** ** Wire value to JSON *)
  Fixpoint jser (d : dty) (v : val) {struct d} : res jerr json :=
    match d, v with
    | DLeaf l, _ => rmap JStr (leaf_ser l v)
    | DBool, VBool b => Ok (JBool b)
    | DI64, VInt z => Ok (JNum z)
    | DUnit, VUnit => Ok JNull
    | DV d, VTup [VInt _; v] => jser d v
    | DOpt _, VNone => Ok JNull
    | DOpt d, VSome v => jser d v
    | DVec d, VSeq vs => rmap JArr (mapM (jser d) vs)
    | DTup fs, VTup vs => rmap (fun m => JArr (map snd m)) (jser_flds fs vs)
    | DStruct fs, VTup vs => rmap JObj (jser_flds fs vs)
    | DEnum tg _ ws, VEnum i vs => let* e := jser_vars ws i vs in tag_ser tg e
    | _, _ => Err JE
    end
  with jser_flds (fs : flds) (vs : list val) {struct fs} : res jerr (list (list Z * json)) :=
    match fs, vs with
    | FNil, [] => Ok []
    | FCons _ (Some _) _ fs, _ :: vs => jser_flds fs vs
    | FCons nm None d fs, v :: vs =>
      let* j := jser d v in
      let* m := jser_flds fs vs in
      Ok ((str_bytes nm, j) :: m)
    | _, _ => Err JE
    end
  with jser_vars (ws : vars) (i : nat) (vs : list val) {struct ws} : res jerr json :=
    match ws, i with
    | WNil, _ => Err JE
    | WCons nm sh fs _, O =>
      let* m := jser_flds fs vs in
      match sh with
      | SUnit => Ok (JStr (str_bytes nm))
      | SNew => match m with [(_, j)] => Ok (JObj [(str_bytes nm, j)]) | _ => Err JE end
      | STup => Ok (JObj [(str_bytes nm, JArr (map snd m))])
      | SStruct => Ok (JObj [(str_bytes nm, JObj m)])
      end
    | WCons _ _ _ ws, S i => jser_vars ws i vs
    end.

  (** ** JSON to wire value *)
  Fixpoint jde (d : dty) (j : json) {struct d} : res jerr val :=
    match d with
    | DLeaf l => match j with JStr s => leaf_de l s | _ => Err JE end
    | DBool => match j with JBool b => Ok (VBool b) | _ => Err JE end
    | DI64 => match j with JNum z => if z <? 2 ^ 63 then Ok (VInt z) else Err JE | _ => Err JE end
    | DUnit => match j with JNull => Ok VUnit | _ => Err JE end
    | DV d => let* v := jde d j in Ok (VTup [VInt 1; v])
    | DOpt d => match j with JNull => Ok VNone | _ => rmap VSome (jde d j) end
    | DVec d => match j with JArr l => rmap VSeq (mapM (jde d) l) | _ => Err JE end
    | DTup fs => match j with JArr l => rmap VTup (jde_seq fs l) | _ => Err JE end
    | DStruct fs =>
      match j with
      | JObj m => let* r := obj_loop (fld_de fs) m in rmap VTup (assemble fs r)
      | JArr l => rmap VTup (jde_seq fs l)
      | _ => Err JE
      end
    | DEnum tg _ ws =>
      let* e := tag_de tg j in
      let* (i, vs) := ext_de (jde_vars ws 0) e in
      Ok (VEnum i vs)
    end
  (** fields from a sequence: the exact number *)
  with jde_seq (fs : flds) (l : list json) {struct fs} : res jerr (list val) :=
    match fs with
    | FNil => match l with [] => Ok [] | _ => Err JE end
    | FCons _ (Some dflt) _ fs => let* vs := jde_seq fs l in Ok (dflt :: vs)
    | FCons _ None d fs =>
      match l with
      | [] => Err JE
      | j :: l => let* v := jde d j in let* vs := jde_seq fs l in Ok (v :: vs)
      end
    end
  (** the field of the given name *)
  with fld_de (fs : flds) (k : list Z) (j : json) {struct fs} : option (res jerr val) :=
    match fs with
    | FNil => None
    | FCons _ (Some _) _ fs => fld_de fs k j
    | FCons nm None d fs => if key_eqb (str_bytes nm) k then Some (jde d j) else fld_de fs k j
    end
  with jde_vars (ws : vars) (n : nat) (k : list Z) (arg : option json) {struct ws} : res jerr (nat * list val) :=
    match ws with
    | WNil => Err JE
    | WCons nm sh fs ws =>
      if key_eqb (str_bytes nm) k then
        let* vs :=
          match sh, arg with
          | SUnit, None | SUnit, Some JNull => jde_seq fs []
          | SNew, Some j => jde_seq fs [j]
          | STup, Some (JArr []) => Err JE
          | STup, Some (JArr l) => jde_seq fs l
          | SStruct, Some (JObj m) => let* r := obj_loop (fld_de fs) m in assemble fs r
          | _, _ => Err JE
          end in
        Ok (n, vs)
      else jde_vars ws (S n) k arg
    end.
End Model.
