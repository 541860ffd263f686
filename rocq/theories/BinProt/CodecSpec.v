(** Specification vocabulary for the typed codec: which [val] are values of the
    Rust type described by a [ty], and which of these the format can carry.
    Nothing here refers to readers or writers. *)
From Coq Require Import ZArith List Bool String.
From Verif Require Import Lib.Bytes BinProt.Prim BinProt.Codec.
Import ListNotations.
Open Scope Z_scope.

(** [typed P t v]: [v] has the shape of [t] and [P] holds at every node. *)
Section Typed.
  Variable P : ty -> val -> Prop.
  Fixpoint typed (t : ty) (v : val) {struct t} : Prop :=
    let typed_list :=
      fix typed_list (ts : list ty) (vs : list val) {struct ts} : Prop :=
        match ts, vs with
        | [], [] => True
        | t :: ts', v :: vs' => typed t v /\ typed_list ts' vs'
        | _, _ => False
        end in
    P t v /\
    match t, v with
    | TUnit, VUnit | TBool, VBool _ | TChar, VChar _ | TU8, VInt _ | TInt _, VInt _
    | TU64, VInt _ | TF32, VFloat _ | TF64, VFloat _ | TStr, VStr _ => True
    | TOpt _, VNone => True
    | TOpt t, VSome v => typed t v
    | TSeq t, VSeq vs =>
      (fix all (vs : list val) : Prop :=
         match vs with [] => True | v :: vs' => typed t v /\ all vs' end) vs
    | TTup ts, VTup vs => typed_list ts vs
    | TEnum vars, VEnum i vs =>
      (fix pick (vars : list (list ty)) (n : nat) {struct vars} : Prop :=
         match vars, n with
         | ts :: _, O => typed_list ts vs
         | _ :: vars', S n' => pick vars' n'
         | [], _ => False
         end) vars i
    | TPoly vars, VEnum i vs =>
      (fix pick (vars : list (string * list ty)) (n : nat) {struct vars} : Prop :=
         match vars, n with
         | (_, ts) :: _, O => typed_list ts vs
         | _ :: vars', S n' => pick vars' n'
         | [], _ => False
         end) vars i
    | _, _ => False
    end.
  Fixpoint typed_list (ts : list ty) (vs : list val) {struct ts} : Prop :=
    match ts, vs with
    | [], [] => True
    | t :: ts', v :: vs' => typed t v /\ typed_list ts' vs'
    | _, _ => False
    end.
  Definition typed_all (t : ty) : list val -> Prop :=
    fix all (vs : list val) : Prop :=
      match vs with [] => True | v :: vs' => typed t v /\ all vs' end.
End Typed.

(** Values a Rust program can hold. *)
Definition rust_ok (t : ty) (v : val) : Prop :=
  match t, v with
  | TChar, VChar c => 0 <= c < 0xD800 \/ 0xE000 <= c < 0x110000
  | TU8, VInt z => 0 <= z < 2 ^ 8
  | TInt I8, VInt z => - 2 ^ 7 <= z < 2 ^ 7
  | TInt I16, VInt z => - 2 ^ 15 <= z < 2 ^ 15
  | TInt I32, VInt z => - 2 ^ 31 <= z < 2 ^ 31
  | TInt I64, VInt z => - 2 ^ 63 <= z < 2 ^ 63
  | TInt U16, VInt z => 0 <= z < 2 ^ 16
  | TInt U32, VInt z => 0 <= z < 2 ^ 32
  | TU64, VInt z => 0 <= z < 2 ^ 64
  | TF32, VFloat b => 0 <= b < 2 ^ 32
  | TF64, VFloat b => 0 <= b < 2 ^ 64
  | TStr, VStr l => bytes_ok l /\ utf8_valid l = true /\ Z.of_nat (List.length l) < 2 ^ 63
  | TSeq _, VSeq vs => Z.of_nat (List.length vs) < 2 ^ 64
  | _, _ => True
  end.

(** The polynomial behind OCaml's variant hash, over the integers. *)
Fixpoint name_poly (acc : Z) (l : list Z) : Z :=
  match l with
  | [] => acc
  | b :: l' => name_poly (223 * acc + b) l'
  end.
Definition name_value (nm : string) : Z := name_poly 0 (str_bytes nm).
(** its 32-bit truncation *)
Definition name_hash32 (nm : string) : Z := name_value nm mod 2 ^ 32.

(** The [i]-th name can be recognised from its tag. *)
Definition poly_ok (checked : bool) (names : list string) (i : nat) : Prop :=
  (i < 256)%nat /\
  exists nm, nth_error names i = Some nm /\ name_hash32 nm < 2 ^ 31 /\
    (forall j nm', (j <= i)%nat -> nth_error names j = Some nm' ->
       Forall (fun b => b < 128) (str_bytes nm') /\
       (checked = true -> name_value nm' < 2 ^ 32) /\
       ((j < i)%nat -> name_hash32 nm' <> name_hash32 nm)).

(** What the wire format can carry, beyond [rust_ok]. *)
Definition wire_ok (checked : bool) (t : ty) (v : val) : Prop :=
  match t, v with
  | TChar, VChar c => c < 256
  | TU64, VInt z => z < 2 ^ 63
  | TEnum _, VEnum i _ => (i < 256)%nat
  | TPoly vars, VEnum i _ => poly_ok checked (map fst vars) i
  | _, _ => True
  end.

(** A value of type [t] that fits the format. *)
Definition fits (checked : bool) : ty -> val -> Prop :=
  typed (fun t v => rust_ok t v /\ wire_ok checked t v).
(** Any value of type [t]. *)
Definition rust_val : ty -> val -> Prop := typed rust_ok.

(** OCaml's variant hash: the polynomial truncated to 31 bits and sign
    extended, as in the C code quoted in caml_hash_variant.rs:18-32. *)
Definition ocaml_hash (nm : string) : Z :=
  let h := name_value nm mod 2 ^ 31 in
  if h <? 2 ^ 30 then h else h - 2 ^ 31.
(** the 32-bit word bin_prot writes for it: [(h lsl 1) lor 1] *)
Definition ocaml_tag (nm : string) : Z := (2 * ocaml_hash nm + 1) mod 2 ^ 32.
