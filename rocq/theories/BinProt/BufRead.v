(** Model of the buffered byte source used by the deserializer, and of the
    entry points [from_reader] and [from_reader_strict].

    The Rust standard library is not part of /repo; the model of
    [std::io::BufReader] below follows its documented behaviour: [buffer()]
    returns the unread bytes, [fill_buf] makes one read of at most [capacity]
    bytes when the buffer is empty, [read] goes straight to the inner reader
    when the buffer is empty and the request is at least [capacity], and
    [read_exact] copies from the buffer if it holds enough bytes and otherwise
    loops over [read] until the request is met or a read returns nothing.
    Interrupted reads and I/O errors of the inner reader are not modelled. *)
From Coq Require Import ZArith List Bool.
From Verif Require Import Lib.Res Lib.Bytes BinProt.Prim BinProt.Codec.
Import ListNotations.
Open Scope Z_scope.

(** The inner reader: the chunks it will deliver.  A read of at most [k] bytes
    returns the first chunk, cut to [k].  A byte slice is one chunk. *)
Notation inner := (list (list Z)).
Definition inner_read (k : Z) (i : inner) : list Z * inner :=
  match i with
  | [] => ([], [])
  | ch :: i' =>
    if Z.of_nat (length ch) <=? k then (ch, i')
    else (firstn (Z.to_nat k) ch, skipn (Z.to_nat k) ch :: i')
  end.

(** unread buffered bytes, inner reader *)
Notation bufr := (list Z * inner)%type.

Section Buf.
  Variable cap : Z.

  Definition buf_read (k : Z) (s : bufr) : list Z * bufr :=
    let (buf, i) := s in
    match buf with
    | [] =>
      if cap <=? k then let (l, i') := inner_read k i in (l, ([], i'))
      else let (b, i') := inner_read cap i in
           (firstn (Z.to_nat k) b, (skipn (Z.to_nat k) b, i'))
    | _ => (firstn (Z.to_nat k) buf, (skipn (Z.to_nat k) buf, i))
    end.

  (** the default [read_exact] loop; [fuel] is the number of unread bytes plus
      one, and every iteration but the last consumes a byte *)
  Fixpoint read_loop (fuel : nat) (k : Z) (acc : list Z) (s : bufr) : res err (list Z * bufr) :=
    if k <=? 0 then Ok (acc, s)
    else match fuel with
    | O => Panic
    | S fuel' =>
      let (l, s') := buf_read k s in
      match l with
      | [] => Err EIo
      | _ => read_loop fuel' (k - Z.of_nat (length l)) (acc ++ l) s'
      end
    end.

  Definition buf_read_exact (k : Z) (s : bufr) : res err (list Z * bufr) :=
    let (buf, i) := s in
    if k <=? Z.of_nat (length buf) then
      Ok (firstn (Z.to_nat k) buf, (skipn (Z.to_nat k) buf, i))
    else read_loop (S (length buf + length (concat i))) k [] s.

  (** de.rs:35-40,59-63 *)
  Definition from_reader (checked : bool) (t : ty) (i : inner) : res err val :=
    let* (v, _) := de checked bufr buf_read_exact t ([], i) in Ok v.

  (** de.rs:68-75 *)
  Definition from_reader_strict (checked : bool) (t : ty) (i : inner) : res err val :=
    let* (v, s) := de checked bufr buf_read_exact t ([], i) in
    match fst s with
    | [] => Ok v
    | l => Err (EStreamNotFullyConsumed (Z.of_nat (length l)))
    end.
End Buf.

(** [BufReader::new]'s capacity (the standard library's default) *)
Definition DEFAULT_CAP : Z := 8192.
