(** Conversions between the wire types and the types of the base crate.

    [AutoFrom] (/repo/protocol/serialization-types-macros/src/auto_from.rs)
    derives both directions from the declaration of the base type; the leaves
    are converted by hand-written instances and macros.  A term of [conv]
    describes such a pair of [From] instances, and [down] (wire to base) and
    [up] (base to wire) run them.

    A wire value is a [val] of its descriptor in Wire/Types.v.  A base value is
    a [val] too: a struct is a [VTup] of its fields in the order of the base
    crate, an enum a [VEnum] with the index of the variant in the base crate, a
    newtype its content, a field element a [VInt].  Values that do not have the
    shape do not occur in Rust; [down] panics on them and [up] gives [VUnit]. *)

From Coq Require Import ZArith List Bool String.
From Verif Require Import Lib.Res Lib.Bytes BinProt.Codec Text.FieldText Hashing.ROInput Ledger.AccountWire.
Import ListNotations.
Local Open Scope string_scope.
Local Open Scope list_scope.
Local Open Scope Z_scope.

(** Order of the scalar field of Pallas, [mina_signer::ScalarField]. *)
Definition FQ_MODULUS : Z := 0x40000000000000000000000000000000224698fc0994a8dd8c46eb2100000001.
Definition fq_from_bytes (bs : list Z) : res unit Z :=
  if le_val bs <? FQ_MODULUS then Ok (le_val bs) else Err tt.

Inductive conv : Type :=
(** the same value on both sides: numbers, [bool], [()], byte vectors and arrays *)
| Same
(** [Versioned<_, 1>] on the wire *)
| Ver (c : conv)
(** [CompressedCurvePoint] and [CompressedPubKey] *)
| Key
(** [SignatureV1] and [Signature] *)
| Sig
(** [i32] on the wire, [u32] in the base crate *)
| Cast
| Opt (c : conv)
| Seq (c : conv)
(** a tuple struct *)
| Tuple (cs : list conv)
(** a struct: the names of the fields on the wire, and the fields of the base type *)
| Struct (wire : list string) (fields : list (string * conv))
(** an enum: the names of the variants on the wire, and the variants of the base type *)
| Enum (wire : list string) (variants : list (string * list conv)).

(** the member with a name *)
Fixpoint at_name {A : Type} (n : string) (names : list string) (l : list A) : option A :=
  match names, l with
  | m :: names', a :: l' => if String.eqb m n then Some a else at_name n names' l'
  | _, _ => None
  end.
Fixpoint index_of (n : string) (names : list string) : nat :=
  match names with
  | [] => O
  | m :: names' => if String.eqb m n then O else S (index_of n names')
  end.

Section Down.
  Variable f : conv -> val -> res unit val.
  (** auto_from.rs 109-163: [Self(item.0.into(), item.1.into(), ..)] *)
  Fixpoint down_list (cs : list conv) (vs : list val) {struct cs} : res unit (list val) :=
    match cs, vs with
    | [], [] => Ok []
    | c :: cs', v :: vs' => let* b := f c v in let* bs := down_list cs' vs' in Ok (b :: bs)
    | _, _ => Panic
    end.
  (** 34-94: [name: item.name.into()] for every field of the base type *)
  Fixpoint down_fields (wire : list string) (vs : list val) (fields : list (string * conv)) : res unit (list val) :=
    match fields with
    | [] => Ok []
    | (n, c) :: fields' =>
        let* b := match at_name n wire vs with Some v => f c v | None => Panic end in
        let* bs := down_fields wire vs fields' in
        Ok (b :: bs)
    end.
  (** 178-289: [Other::Name(v0, v1, ..) => Self::Name(v0.into(), v1.into(), ..)].
      The one variant with named fields lists them in the same order in both
      enums. *)
  Fixpoint down_variant (n : string) (vs : list val) (variants : list (string * list conv)) (j : nat) : res unit val :=
    match variants with
    | [] => Panic
    | (m, cs) :: variants' =>
        if String.eqb m n then let* bs := down_list cs vs in Ok (VEnum j bs) else down_variant n vs variants' (S j)
    end.
End Down.
(** [.into_iter().map(Into::into).collect()] *)
Definition down_all (h : val -> res unit val) : list val -> res unit (list val) :=
  fix down_all (vs : list val) :=
    match vs with
    | [] => Ok []
    | v :: vs' => let* b := h v in let* bs := down_all vs' in Ok (b :: bs)
    end.

(** Wire to base. *)
Fixpoint down (c : conv) (v : val) {struct c} : res unit val :=
  match c, v with
  | Same, _ => Ok v
  (** protocol/versioned/src/lib.rs 57-125, auto_from.rs 299-368: the version
      number is dropped *)
  | Ver c, VTup [_; w] => down c w
  (** protocol/serialization-types/src/signatures.rs 115-130 *)
  | Key, _ => let* k := pubkey_of v in Ok (VTup [VInt (Command.pk_x k); VBool (Command.pk_odd k)])
  (** 219-238 *)
  | Sig, VTup [_; VTup [_; VTup [rx; s]]] =>
      let* a := expect (fp_from_bytes (bytes_of rx)) in
      let* b := expect (fq_from_bytes (bytes_of s)) in
      Ok (VTup [VInt a; VInt b])
  (** base/src/serialization_type_conversions/numbers.rs 24-46: [as u32] *)
  | Cast, VInt z => Ok (VInt (wrapu 32 z))
  | Opt _, VNone => Ok VNone
  | Opt c, VSome w => let* b := down c w in Ok (VSome b)
  | Seq c, VSeq vs => let* bs := down_all (down c) vs in Ok (VSeq bs)
  | Tuple cs, VTup vs => let* bs := down_list down cs vs in Ok (VTup bs)
  | Struct wire fields, VTup vs => let* bs := down_fields down wire vs fields in Ok (VTup bs)
  | Enum wire variants, VEnum i vs =>
      match nth_error wire i with Some n => down_variant down n vs variants 0 | None => Panic end
  | _, _ => Panic
  end.

Section Up.
  Variable g : conv -> val -> val.
  Fixpoint up_list (cs : list conv) (bs : list val) {struct cs} : list val :=
    match cs, bs with
    | c :: cs', b :: bs' => g c b :: up_list cs' bs'
    | _, _ => []
    end.
  (** the field of the base value with this name *)
  Fixpoint up_field (n : string) (fields : list (string * conv)) (bs : list val) {struct fields} : val :=
    match fields, bs with
    | (m, c) :: fields', b :: bs' => if String.eqb m n then g c b else up_field n fields' bs'
    | _, _ => VUnit
    end.
  Fixpoint up_variant (wire : list string) (j : nat) (bs : list val) (variants : list (string * list conv)) {struct variants} : val :=
    match variants, j with
    | (m, cs) :: _, O => VEnum (index_of m wire) (up_list cs bs)
    | _ :: variants', S j' => up_variant wire j' bs variants'
    | [], _ => VUnit
    end.
End Up.

(** Base to wire, by the same sources. *)
Fixpoint up (c : conv) (b : val) {struct c} : val :=
  match c, b with
  | Same, _ => b
  (** versioned/src/lib.rs 38-56: version 1 *)
  | Ver c, _ => VTup [VInt 1; up c b]
  (** signatures.rs 131-146; [to_bytes] gives 32 bytes *)
  | Key, VTup [VInt x; VBool o] => pubkey_to (Command.mk_pk x o)
  (** 240-256 *)
  | Sig, VTup [VInt rx; VInt s] => VTup [VInt 1; VTup [VInt 1; VTup [bytes_to (le_bytes 32 rx); bytes_to (le_bytes 32 s)]]]
  (** numbers.rs: [as i32] *)
  | Cast, VInt z => VInt (wraps 32 z)
  | Opt _, VNone => VNone
  | Opt c, VSome a => VSome (up c a)
  | Seq c, VSeq bs => VSeq (map (up c) bs)
  | Tuple cs, VTup bs => VTup (up_list up cs bs)
  | Struct wire fields, VTup bs => VTup (map (fun n => up_field up n fields bs) wire)
  | Enum wire variants, VEnum j bs => up_variant up wire j bs variants
  | _, _ => VUnit
  end.
