(** The command line tool /repo/protocol/bin_prot_checker/src/main.rs, and the
    helpers for fields marked [#[serde(with = "integer")]] or ["nat0"]:
    /repo/protocol/bin-prot/src/integers/{integer,nat0}.rs.

    The tool is a function from its arguments and the bytes of the file (or of
    standard input, in the pieces in which they are read) to the bytes written,
    the text printed or a panic.  Files that cannot be opened or written
    ([unwrap], 136 and 150) are left out. *)

From Coq Require Import String ZArith List Bool.
From Verif Require Import Lib.Res Lib.Bytes Lib.Decimal BinProt.Prim BinProt.Codec BinProt.BufRead.
Import ListNotations.
Local Open Scope Z_scope.
Notation length := List.length.

(** main.rs 31-63.  A [Vec<()>] is its length. *)
Inductive E : Set := EA | EB | EC.
Record S : Set := { s_a : Z; s_b : bool; s_c : E }.
Inductive V : Set := VA (a : Z) | VB (b : bool) | VC (c : E).
Inductive test : Set :=
| Nat0 (n : nat) | Bool (b : bool) | Int (z : Z) | Int32 (z : Z) | Int64 (z : Z)
| Enum (e : E) | Rec (s : S) | Variant (v : V).

(** 66-108: the default of a test; [unimplemented!] and [panic!] *)
Definition from_str (s : string) : res unit test :=
  if String.eqb s "nat0" then Ok (Nat0 1)
  else if String.eqb s "bool" then Ok (Bool true)
  else if String.eqb s "int" then Ok (Int 12345)
  else if String.eqb s "int32" then Ok (Int32 12345)
  else if String.eqb s "int64" then Ok (Int64 12345)
  else if String.eqb s "enum" then Ok (Enum EA)
  else if String.eqb s "record" then Ok (Rec {| s_a := 15; s_b := true; s_c := EC |})
  else if String.eqb s "variant" then Ok (Variant (VA 15))
  else Panic.

(** The types as the derived serde instances see them. *)
Definition E_ty : ty := TEnum [[]; []; []].
Definition S_ty : ty := TTup [TInt I32; TBool; E_ty].
Definition V_ty : ty := TEnum [[TInt I32]; [TBool]; [E_ty]].
Definition E_val (e : E) : val := VEnum (match e with EA => 0 | EB => 1 | EC => 2 end) [].
Definition S_val (s : S) : val := VTup [VInt (s_a s); VBool (s_b s); E_val (s_c s)].
Definition V_val (v : V) : val :=
  match v with VA a => VEnum 0 [VInt a] | VB b => VEnum 1 [VBool b] | VC c => VEnum 2 [E_val c] end.
Definition test_ty (t : test) : ty :=
  match t with
  | Nat0 _ => TSeq TUnit | Bool _ => TBool | Int _ | Int32 _ => TInt I32 | Int64 _ => TInt I64
  | Enum _ => E_ty | Rec _ => S_ty | Variant _ => V_ty
  end.
Definition test_val (t : test) : val :=
  match t with
  | Nat0 n => VSeq (repeat VUnit n) | Bool b => VBool b | Int z | Int32 z | Int64 z => VInt z
  | Enum e => E_val e | Rec s => S_val s | Variant v => V_val v
  end.
(** back from the values that a type reads *)
Definition E_of (v : val) : E := match v with VEnum 0 _ => EA | VEnum 1 _ => EB | _ => EC end.
Definition V_of (v : val) : V :=
  match v with
  | VEnum 0 [VInt a] => VA a
  | VEnum 1 [VBool b] => VB b
  | VEnum _ [c] => VC (E_of c)
  | _ => VC EC
  end.
Definition S_of (v : val) : S :=
  match v with VTup [VInt a; VBool b; c] => {| s_a := a; s_b := b; s_c := E_of c |} | _ => {| s_a := 0; s_b := false; s_c := EA |} end.
Definition test_of (t : test) (v : val) : test :=
  let z := match v with VInt z => z | _ => 0 end in
  match t with
  | Nat0 _ => Nat0 (match v with VSeq l => length l | _ => 0 end)
  | Bool _ => Bool (match v with VBool b => b | _ => false end)
  | Int _ => Int z | Int32 _ => Int32 z | Int64 _ => Int64 z
  | Enum _ => Enum (E_of v) | Rec _ => Rec (S_of v) | Variant _ => Variant (V_of v)
  end.

(** integer.rs 14-22 and nat0.rs 15-23: the bytes are handed to
    [serialize_bytes], ser.rs 176-178, which writes them as they are.
    integer.rs 54-60 and nat0.rs 54-60: [deserialize_bytes], de.rs 208-213 *)
Definition write_integer_with (n : Z) : list Z := bin_write_integer n.
Definition write_nat0_with (n : Z) : list Z := bin_write_nat0 n.
Definition read_integer_with (bs : list Z) : res err Z := Err EWontImplement.
Definition read_nat0_with (bs : list Z) : res err Z := Err EWontImplement.

(** 130-146: [to_writer] of the test, which is untagged *)
Definition serialize (checked : bool) (t : test) : res err (list Z) :=
  match t with
  | Int32 z | Int64 z => Ok (write_integer_with z)
  | _ => to_bytes checked (test_ty t) (test_val t)
  end.
(** 123-134 *)
Definition deserialize (checked : bool) (t : test) (i : inner) : res err test :=
  rmap (test_of t) (from_reader DEFAULT_CAP checked (test_ty t) i).

(** 110-122, and the derived [Debug] *)
Definition z_text (z : Z) : list Z := if z <? 0 then 45 :: dec (- z) else dec z.
Definition b_text (b : bool) : list Z := str_bytes (if b then "true" else "false").
Definition e_text (e : E) : list Z := str_bytes (match e with EA => "A" | EB => "B" | EC => "C" end).
Definition s_text (s : S) : list Z :=
  str_bytes "S { a: " ++ z_text (s_a s) ++ str_bytes ", b: " ++ b_text (s_b s) ++ str_bytes ", c: " ++ e_text (s_c s) ++ str_bytes " }".
Definition v_text (v : V) : list Z :=
  match v with
  | VA a => str_bytes "A(" ++ z_text a ++ str_bytes ")"
  | VB b => str_bytes "B(" ++ b_text b ++ str_bytes ")"
  | VC c => str_bytes "C(" ++ e_text c ++ str_bytes ")"
  end.
Definition to_string (t : test) : list Z :=
  match t with
  | Nat0 n => dec (Z.of_nat n) | Bool b => b_text b | Int z | Int32 z | Int64 z => z_text z
  | Enum e => e_text e | Rec s => s_text s | Variant v => v_text v
  end.

(** 136-171: the run of the tool.  An error is printed and unwrapped. *)
Definition unwrap {Er A : Type} (r : res Er A) : res unit A := match r with Ok a => Ok a | _ => Panic end.
Definition run_serialize (checked : bool) (name : string) : res unit (list Z) :=
  let* t := from_str name in unwrap (serialize checked t).
Definition run_deserialize (checked : bool) (name : string) (i : inner) : res unit (list Z) :=
  let* t := from_str name in
  let* v := unwrap (deserialize checked t i) in
  Ok (str_bytes "Deserialized value: " ++ to_string v).
