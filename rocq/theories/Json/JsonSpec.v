(** What the JSON form carries, written down without the two functions. *)

From Coq Require Import String ZArith List Bool.
From Verif Require Import Lib.Bytes BinProt.Prim BinProt.Codec BinProt.CodecSpec Wire.Types Text.FieldText Json.Json.
Import ListNotations.
Local Open Scope Z_scope.
Notation length := List.length.

(** The part of a wire value that the JSON form carries: the version numbers of
    the dropped wrappers become 1, skipped fields their default. *)
Fixpoint norm (d : dty) (v : val) {struct d} : val :=
  match d, v with
  | DV d, VTup [VInt _; v] => VTup [VInt 1; norm d v]
  | DOpt d, VSome v => VSome (norm d v)
  | DVec d, VSeq vs => VSeq (map (norm d) vs)
  | DTup fs, VTup vs | DStruct fs, VTup vs => VTup (norm_flds fs vs)
  | DEnum _ _ ws, VEnum i vs => VEnum i (norm_vars ws i vs)
  | _, _ => v
  end
with norm_flds (fs : flds) (vs : list val) {struct fs} : list val :=
  match fs, vs with
  | FCons _ (Some dflt) _ fs, _ :: vs => dflt :: norm_flds fs vs
  | FCons _ None d fs, v :: vs => norm d v :: norm_flds fs vs
  | _, _ => vs
  end
with norm_vars (ws : vars) (i : nat) (vs : list val) {struct ws} : list val :=
  match ws, i with
  | WNil, _ => vs
  | WCons _ _ fs _, O => norm_flds fs vs
  | WCons _ _ _ ws, S i => norm_vars ws i vs
  end.

(** The values whose version numbers are those of their types and whose skipped
    fields are the defaults. *)
Fixpoint declared (d : dty) (v : val) {struct d} : Prop :=
  match d, v with
  | DV d, VTup [VInt n; v] => n = 1 /\ declared d v
  | DOpt d, VSome v => declared d v
  | DVec d, VSeq vs => Forall (declared d) vs
  | DTup fs, VTup vs | DStruct fs, VTup vs => declared_flds fs vs
  | DEnum _ _ ws, VEnum i vs => declared_vars ws i vs
  | _, _ => True
  end
with declared_flds (fs : flds) (vs : list val) {struct fs} : Prop :=
  match fs, vs with
  | FCons _ (Some dflt) _ fs, v :: vs => v = dflt /\ declared_flds fs vs
  | FCons _ None d fs, v :: vs => declared d v /\ declared_flds fs vs
  | _, _ => True
  end
with declared_vars (ws : vars) (i : nat) (vs : list val) {struct ws} : Prop :=
  match ws, i with
  | WNil, _ => True
  | WCons _ _ fs _, O => declared_flds fs vs
  | WCons _ _ _ ws, S i => declared_vars ws i vs
  end.

(** [leaves P d v]: [P] holds of every value at a string wrapper that is not
    skipped. *)
Section Leaves.
  Variable P : leaf -> val -> Prop.
  Fixpoint leaves (d : dty) (v : val) {struct d} : Prop :=
    match d, v with
    | DLeaf l, _ => P l v
    | DV d, VTup [VInt _; v] => leaves d v
    | DOpt d, VSome v => leaves d v
    | DVec d, VSeq vs => Forall (leaves d) vs
    | DTup fs, VTup vs | DStruct fs, VTup vs => leaves_flds fs vs
    | DEnum _ _ ws, VEnum i vs => leaves_vars ws i vs
    | _, _ => True
    end
  with leaves_flds (fs : flds) (vs : list val) {struct fs} : Prop :=
    match fs, vs with
    | FCons _ (Some _) _ fs, _ :: vs => leaves_flds fs vs
    | FCons _ None d fs, v :: vs => leaves d v /\ leaves_flds fs vs
    | _, _ => True
    end
  with leaves_vars (ws : vars) (i : nat) (vs : list val) {struct ws} : Prop :=
    match ws, i with
    | WNil, _ => True
    | WCons _ _ fs _, O => leaves_flds fs vs
    | WCons _ _ _ ws, S i => leaves_vars ws i vs
    end.
End Leaves.

(** Public keys are coordinates below the modulus of the base field. *)
Definition key_ok (l : leaf) (v : val) : Prop :=
  match l, v with
  | LPub, VTup [VTup xs; _] => le_val (ints xs) < FP_MODULUS
  | _, _ => True
  end.
(** The bytes that are used as a text without a check are UTF-8. *)
Definition text_ok (l : leaf) (v : val) : Prop :=
  match l, v with
  | LChar, VInt z => z < 128
  | LBytes, VSeq vs => utf8_valid (ints vs) = true
  | _, _ => True
  end.

(** Every string and every key of a document satisfies [P]. *)
Section Strings.
  Variable P : list Z -> Prop.
  Fixpoint strings (j : json) : Prop :=
    match j with
    | JStr s => P s
    | JArr l => (fix all (l : list json) : Prop := match l with [] => True | j :: l => strings j /\ all l end) l
    | JObj m =>
      (fix all (m : list (list Z * json)) : Prop :=
         match m with [] => True | (k, j) :: m => P k /\ strings j /\ all m end) m
    | _ => True
    end.
End Strings.

(** A document as Rust holds it. *)
Fixpoint json_ok (j : json) : Prop :=
  match j with
  | JNum z => - 2 ^ 63 <= z < 2 ^ 64
  | JStr s => bytes_ok s /\ utf8_valid s = true /\ Z.of_nat (length s) < 2 ^ 63
  | JArr l => Z.of_nat (length l) < 2 ^ 63 /\
    (fix all (l : list json) : Prop := match l with [] => True | j :: l => json_ok j /\ all l end) l
  | JObj m =>
    (fix all (m : list (list Z * json)) : Prop :=
       match m with [] => True | (_, j) :: m => json_ok j /\ all m end) m
  | _ => True
  end.

(** The names of the fields that are neither skipped nor (inside version
    wrappers) optional. *)
Fixpoint optional (d : dty) : bool :=
  match d with DOpt _ => true | DV d => optional d | _ => false end.
Fixpoint required (fs : flds) : list (list Z) :=
  match fs with
  | FNil => []
  | FCons _ (Some _) _ fs => required fs
  | FCons nm None d fs => if optional d then required fs else str_bytes nm :: required fs
  end.
