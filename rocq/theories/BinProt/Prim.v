(** Model of the bin_prot primitives.
    /repo/protocol/bin-prot/src/{consts,write_ext,read_ext,error}.rs *)

From Coq Require Import ZArith List Bool.
From Verif Require Import Lib.Res Lib.Bytes.
Import ListNotations.
Open Scope Z_scope.

(** bin-prot/src/error.rs:17-126.  Only the errors the modelled code can
    raise; payloads that are only printed are dropped. *)
Inductive err : Type :=
| EIo                               (* Io: includes unexpected end of file *)
| EInvalidByte (b : Z)              (* InvalidByte *)
| EInvalidIntegerByte (b : Z)       (* InvalidIntegerByte *)
| EInvalidOptionByte (b : Z)        (* InvalidOptionByte *)
| EDestinationIntegerOverflow
| EWontImplement
| EUnknownPolyvarTag (tag : Z)
| EUnexpectedEndOfLayout
| ELayoutIteratorError
| EUnimplementedRule
| EUnknownCustomType
| EStreamNotFullyConsumed (n : Z)
| ECustom.                          (* serde's own errors, e.g. unknown variant *)

(** bin-prot/src/consts.rs:5-8 *)
Definition CODE_NEG_INT8 : Z := 255.
Definition CODE_INT16 : Z := 254.
Definition CODE_INT32 : Z := 253.
Definition CODE_INT64 : Z := 252.

(** * Writers.  A writer is modelled by the bytes it emits; I/O errors of the
    underlying writer are not modelled, and [Write::write] (used for floats and
    polyvar tags, write_ext.rs:101,106,126) is taken to write everything, as
    [Vec<u8>] does. *)

(** write_ext.rs:15-17 *)
Definition bin_write_unit : list Z := [0].

(** write_ext.rs:20-22 *)
Definition bin_write_bool (b : bool) : list Z := [if b then 1 else 0].

(** write_ext.rs:25-28; [c as u8] truncates the code point *)
Definition bin_write_char (c : Z) : list Z := [wrapu 8 c].

(** write_ext.rs:31-71 *)
Definition bin_write_integer (n : Z) : list Z :=
  if 0 <=? n then
    if n <? 0x80 then le_bytes 1 n
    else if n <? 0x8000 then CODE_INT16 :: le_bytes 2 n
    else if n <? 0x80000000 then CODE_INT32 :: le_bytes 4 n
    else CODE_INT64 :: le_bytes 8 n
  else
    if -0x80 <=? n then CODE_NEG_INT8 :: le_bytes 1 n
    else if -0x8000 <=? n then CODE_INT16 :: le_bytes 2 n
    else if -0x80000000 <=? n then CODE_INT32 :: le_bytes 4 n
    else CODE_INT64 :: le_bytes 8 n.

(** write_ext.rs:80-97 *)
Definition bin_write_nat0 (n : Z) : list Z :=
  if n <? 0x80 then le_bytes 1 n
  else if n <? 0x10000 then CODE_INT16 :: le_bytes 2 n
  else if n <? 0x100000000 then CODE_INT32 :: le_bytes 4 n
  else CODE_INT64 :: le_bytes 8 n.

(** write_ext.rs:100-107; a float is its bit pattern *)
Definition bin_write_float32 (bits : Z) : list Z := le_bytes 4 bits.
Definition bin_write_float64 (bits : Z) : list Z := le_bytes 8 bits.

(** write_ext.rs:119-121 *)
Definition bin_write_variant_index (i : Z) : list Z := [i].

(** write_ext.rs:125-127: [(i << 1 | 1).to_le_bytes()] on u32 *)
Definition bin_write_polyvar_tag (i : Z) : list Z :=
  le_bytes 4 (Z.lor (wrapu 32 (2 * i)) 1).

(** Integer targets of [bin_read_integer<T>]: the range of [T]
    ([num::FromPrimitive::from_*] returns [None] out of range). *)
Record range : Type := mkrange { lo : Z; hi : Z }.
Definition in_range (r : range) (x : Z) : bool := (lo r <=? x) && (x <=? hi r).
Definition R_i8 := mkrange (-0x80) 0x7f.
Definition R_i16 := mkrange (-0x8000) 0x7fff.
Definition R_i32 := mkrange (-0x80000000) 0x7fffffff.
Definition R_i64 := mkrange (-0x8000000000000000) 0x7fffffffffffffff.
Definition R_u8 := mkrange 0 0xff.
Definition R_u16 := mkrange 0 0xffff.
Definition R_u32 := mkrange 0 0xffffffff.
Definition R_u64 := mkrange 0 0xffffffffffffffff.

Section Readers.
  (** The byte source: state [S] and [io::Read::read_exact]; the length is a
      [Z] because it can come from the wire. *)
  Variable S : Type.
  Variable read_exact : Z -> S -> res err (list Z * S).

  (** byteorder's [read_u8]: [read_exact] of one byte. *)
  Definition read_u8 (s : S) : res err (Z * S) :=
    let* (l, s') := read_exact 1 s in Ok (le_val l, s').

  (** byteorder's [read_uN::<LittleEndian>] and [read_iN::<LittleEndian>]. *)
  Definition read_ule (n : Z) (s : S) : res err (Z * S) :=
    let* (l, s') := read_exact n s in Ok (le_val l, s').
  Definition read_sle (n : Z) (s : S) : res err (Z * S) :=
    let* (l, s') := read_exact n s in Ok (signed (8 * n) (le_val l), s').

  (** read_ext.rs:13-22 *)
  Definition bin_read_unit (s : S) : res err (unit * S) :=
    let* (b, s') := read_u8 s in
    if b =? 0 then Ok (tt, s') else Err (EInvalidByte b).

  (** read_ext.rs:25-35 *)
  Definition bin_read_bool (s : S) : res err (bool * S) :=
    let* (b, s') := read_u8 s in
    if b =? 0 then Ok (false, s')
    else if b =? 1 then Ok (true, s')
    else Err (EInvalidByte b).

  (** read_ext.rs:38-40; [u8 as char] *)
  Definition bin_read_char (s : S) : res err (Z * S) := read_u8 s.

  (** [T::from_*] followed by [ok_or(DestinationIntegerOverflow)] *)
  Definition from_prim (r : range) (x : Z) (s : S) : res err (Z * S) :=
    if in_range r x then Ok (x, s) else Err EDestinationIntegerOverflow.

  (** read_ext.rs:43-75 *)
  Definition bin_read_integer (r : range) (s : S) : res err (Z * S) :=
    let* (b, s) := read_u8 s in
    if b =? CODE_INT16 then let* (x, s) := read_sle 2 s in from_prim r x s
    else if b =? CODE_INT32 then let* (x, s) := read_sle 4 s in from_prim r x s
    else if b =? CODE_INT64 then let* (x, s) := read_sle 8 s in from_prim r x s
    else if b =? CODE_NEG_INT8 then let* (x, s) := read_sle 1 s in from_prim r x s
    else if 0x80 <? b then Err (EInvalidIntegerByte b)
    else from_prim r b s.

  (** read_ext.rs:78-104 *)
  Definition bin_read_nat0 (r : range) (s : S) : res err (Z * S) :=
    let* (b, s) := read_u8 s in
    if b =? CODE_INT16 then let* (x, s) := read_ule 2 s in from_prim r x s
    else if b =? CODE_INT32 then let* (x, s) := read_ule 4 s in from_prim r x s
    else if b =? CODE_INT64 then let* (x, s) := read_ule 8 s in from_prim r x s
    else if 0x80 <? b then Err (EInvalidIntegerByte b)
    else from_prim r b s.

  (** read_ext.rs:107-109 *)
  Definition bin_read_variant_index (s : S) : res err (Z * S) := read_u8 s.

  (** read_ext.rs:113-117 *)
  Definition bin_read_polyvar_tag (s : S) : res err (Z * S) :=
    let* (x, s') := read_ule 4 s in Ok (Z.shiftr x 1, s').

  (** [vec![0u8; len]]: panics with "capacity overflow" above [isize::MAX].
      Running out of memory below that is not modelled. *)
  Definition alloc (len : Z) : res err unit :=
    if len <? 2 ^ 63 then Ok tt else Panic.

  (** read_ext.rs:130-135 *)
  Definition bin_read_bytes (s : S) : res err (list Z * S) :=
    let* (len, s) := bin_read_nat0 R_u64 s in
    let* _ := alloc len in
    read_exact len s.
End Readers.

(** * Reading from a byte slice ([impl Read for &[u8]]). *)
Definition slice_read_exact (n : Z) (s : list Z) : res err (list Z * list Z) :=
  if n <=? Z.of_nat (length s)
  then Ok (firstn (Z.to_nat n) s, skipn (Z.to_nat n) s)
  else Err EIo.

(** [std::str::from_utf8]: well-formed UTF-8 as in the Unicode standard,
    table 3-7. *)
Definition cont (b : Z) : bool := (0x80 <=? b) && (b <=? 0xbf).
Definition btw (a b c : Z) : bool := (a <=? b) && (b <=? c).
Fixpoint utf8_valid (l : list Z) : bool :=
  match l with
  | [] => true
  | a :: l1 =>
    if a <? 0x80 then utf8_valid l1
    else match l1 with
    | [] => false
    | b :: l2 =>
      if btw 0xc2 a 0xdf then cont b && utf8_valid l2
      else match l2 with
      | [] => false
      | c :: l3 =>
        if (a =? 0xe0) then btw 0xa0 b 0xbf && cont c && utf8_valid l3
        else if btw 0xe1 a 0xec || btw 0xee a 0xef then cont b && cont c && utf8_valid l3
        else if (a =? 0xed) then btw 0x80 b 0x9f && cont c && utf8_valid l3
        else match l3 with
        | [] => false
        | d :: l4 =>
          if (a =? 0xf0) then btw 0x90 b 0xbf && cont c && cont d && utf8_valid l4
          else if btw 0xf1 a 0xf3 then cont b && cont c && cont d && utf8_valid l4
          else if (a =? 0xf4) then btw 0x80 b 0x8f && cont c && cont d && utf8_valid l4
          else false
        end
      end
    end
  end.

Section ReadString.
  Variable S : Type.
  Variable read_exact : Z -> S -> res err (list Z * S).
  (** read_ext.rs:120-127; the error of an ill-formed string is an I/O error *)
  Definition bin_read_string (s : S) : res err (list Z * S) :=
    let* (len, s) := bin_read_nat0 S read_exact R_u64 s in
    let* _ := alloc len in
    let* (l, s) := read_exact len s in
    if utf8_valid l then Ok (l, s) else Err EIo.
End ReadString.
