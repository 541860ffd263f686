(** Memos of signed commands: /repo/base/src/user_commands/memo.rs. *)

From Coq Require Import ZArith List Bool.
From Verif Require Import Lib.Res Lib.Bytes BinProt.Prim.
Import ListNotations.
Local Open Scope Z_scope.

(** [String::from_utf8_lossy] of the standard library: well-formed sequences
    are kept, every maximal ill-formed part becomes U+FFFD.

    [utf8_step l] looks at the front of a non-empty [l]: whether it is one
    well-formed sequence, and the number of bytes of the sequence or of the
    ill-formed part. *)
Definition utf8_step (l : list Z) : bool * nat :=
  let at_ n := nth n l 0 in
  let a := at_ 0%nat in
  let b := at_ 1%nat in
  if a <? 0x80 then (true, 1%nat)
  else if btw 0xc2 a 0xdf then if cont b then (true, 2%nat) else (false, 1%nat)
  else if btw 0xe0 a 0xef then
    if (a =? 0xe0) && btw 0xa0 b 0xbf || btw 0xe1 a 0xec && cont b ||
       (a =? 0xed) && btw 0x80 b 0x9f || btw 0xee a 0xef && cont b
    then if cont (at_ 2%nat) then (true, 3%nat) else (false, 2%nat)
    else (false, 1%nat)
  else if btw 0xf0 a 0xf4 then
    if (a =? 0xf0) && btw 0x90 b 0xbf || btw 0xf1 a 0xf3 && cont b || (a =? 0xf4) && btw 0x80 b 0x8f
    then if cont (at_ 2%nat)
         then if cont (at_ 3%nat) then (true, 4%nat) else (false, 3%nat)
         else (false, 2%nat)
    else (false, 1%nat)
  else (false, 1%nat).

Definition replacement : list Z := [0xef; 0xbf; 0xbd].

Fixpoint lossy_loop (fuel : nat) (l : list Z) : list Z :=
  match fuel, l with
  | S fuel', _ :: _ =>
      let (ok, n) := utf8_step l in
      (if ok then firstn n l else replacement) ++ lossy_loop fuel' (skipn n l)
  | _, _ => []
  end.
Definition from_utf8_lossy (l : list Z) : list Z := lossy_loop (length l) l.

Inductive merr : Set := StringTooLong.

Definition DIGEST_LEN : nat := 32.
Definition MEMO_LEN : nat := DIGEST_LEN + 2.

Fixpoint set_nth (n : nat) (x : Z) (l : list Z) : list Z :=
  match n, l with
  | _, [] => []
  | O, _ :: l' => x :: l'
  | S n', y :: l' => y :: set_nth n' x l'
  end.
(** memo.rs 35-37: [for (i, &b) in s.iter().enumerate() { v[i + 2] = b; }].
    The indices are in range since [s.len() <= 32]. *)
Fixpoint write_at (i : nat) (s v : list Z) : list Z :=
  match s with
  | [] => v
  | b :: s' => write_at (S i) s' (set_nth (i + 2) b v)
  end.

(** memo.rs 21-39 *)
Definition try_from_text (s : list Z) : res merr (list Z) :=
  if Nat.ltb DIGEST_LEN (length s) then Err StringTooLong
  else
    let v := repeat 0 MEMO_LEN in
    let v := set_nth 0 1 v in
    let v := set_nth 1 (wrapu 8 (Z.of_nat (length s))) v in
    Ok (write_at 0 s v).

(** memo.rs 42-45: [self.0[1]] and the slice [2..2 + len] panic out of
    range *)
Definition to_text (m : list Z) : res merr (list Z) :=
  match nth_error m 1 with
  | None => Panic
  | Some len =>
      let n := Z.to_nat len in
      if Nat.leb (2 + n) (length m) then Ok (from_utf8_lossy (firstn n (skipn 2 m))) else Panic
  end.
