(** Base64 texts: the base64 crate (0.13) with its [URL_SAFE] configuration, as
    used in /repo/protocol/serialization-types/src/consensus_state.rs 25-51 and
    protocol_state_proof.rs 37-66. *)

From Coq Require Import String ZArith List Bool.
From Verif Require Import Lib.Bytes.
Import ListNotations.
Local Open Scope Z_scope.
Notation length := List.length.

Definition b64_alphabet : list Z := str_bytes "ABCDEFGHIJKLMNOPQRSTUVWXYZabcdefghijklmnopqrstuvwxyz0123456789-_".
Definition b64_char (d : Z) : Z := nth (Z.to_nat d) b64_alphabet 0.
Fixpoint b64_index (c : Z) (l : list Z) (i : Z) : option Z :=
  match l with
  | [] => None
  | x :: l' => if x =? c then Some i else b64_index c l' (i + 1)
  end.

(** [base64::encode_config(.., URL_SAFE)]: with padding *)
Fixpoint b64_encode (bs : list Z) : list Z :=
  match bs with
  | a :: b :: c :: r =>
      b64_char (a / 4) :: b64_char (a mod 4 * 16 + b / 16) :: b64_char (b mod 16 * 4 + c / 64) :: b64_char (c mod 64)
        :: b64_encode r
  | [a; b] => [b64_char (a / 4); b64_char (a mod 4 * 16 + b / 16); b64_char (b mod 16 * 4); 61]
  | [a] => [b64_char (a / 4); b64_char (a mod 4 * 16); 61; 61]
  | [] => []
  end.

Fixpoint b64_digits (s : list Z) : option (list Z) :=
  match s with
  | [] => Some []
  | c :: s' =>
      match b64_index c b64_alphabet 0, b64_digits s' with
      | Some d, Some ds => Some (d :: ds)
      | _, _ => None
      end
  end.
(** Four symbols are three bytes.  The bits of the last symbol that are not
    used have to be zero; one symbol alone cannot be a group. *)
Fixpoint b64_groups (ds : list Z) : option (list Z) :=
  match ds with
  | a :: b :: c :: d :: r =>
      match b64_groups r with
      | Some bs => Some ((a * 4 + b / 16) :: (b mod 16 * 16 + c / 4) :: (c mod 4 * 64 + d) :: bs)
      | None => None
      end
  | [a; b; c] => if c mod 4 =? 0 then Some [a * 4 + b / 16; b mod 16 * 16 + c / 4] else None
  | [a; b] => if b mod 16 =? 0 then Some [a * 4 + b / 16] else None
  | [_] => None
  | [] => Some []
  end.
(** The symbols before the first [=], and the rest. *)
Fixpoint b64_split (s : list Z) : list Z * list Z :=
  match s with
  | [] => ([], [])
  | c :: s' => if c =? 61 then ([], s) else let (a, b) := b64_split s' in (c :: a, b)
  end.
(** [base64::decode_config(.., URL_SAFE)]: padding may be missing or
    incomplete, but not excessive.  The kinds of errors are not distinguished. *)
Definition b64_decode (s : list Z) : option (list Z) :=
  let (syms, pad) := b64_split s in
  if forallb (fun c => c =? 61) pad && Nat.leb (length pad) (Nat.modulo (4 - Nat.modulo (length syms) 4) 4) then
    match b64_digits syms with
    | Some ds => b64_groups ds
    | None => None
    end
  else None.
