(** What JSON carries of a base value.  Models no code. *)

From Coq Require Import ZArith List.
From Verif Require Import BinProt.Codec Wire.Types Convert.ConvSpec.
Import ListNotations.
Local Open Scope Z_scope.

(** A block with the three members that JSON does not have set to: version
    2.0.0, no proposed version, no callback. *)
Definition released (b : val) : val :=
  match b with
  | VTup [state; proof; diff; delta; _; _; _] => VTup [state; proof; diff; delta; VTup [VInt 2; VInt 0; VInt 0]; VNone; VUnit]
  | _ => b
  end.
(** What a value of a base type becomes on its way through JSON. *)
Definition carried (t : ty) (b : val) : val :=
  match t with
  | TTup [_; TTup [_; _; _; _; _; _; _]] => released b
  | _ => b
  end.
(** Some signature in the value is none. *)
Definition bad_signature (t : ty) (v : val) : Prop := exists s, inside SignatureV1 s t v /\ big_sig s.
