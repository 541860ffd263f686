(** [serde_json::to_string_pretty], which is called in
    /repo/secrets/src/secret_box/types_impls.rs 73: every element and member on
    its own line, two spaces for every level, empty arrays and objects on one
    line.  Modelled from the published behaviour of the library. *)

From Coq Require Import String ZArith List.
From Verif Require Import Lib.Bytes Text.Base58 Json.Json Json.Parse.
Import ListNotations.
Local Open Scope string_scope.
Local Open Scope list_scope.
Local Open Scope Z_scope.

Fixpoint spaces (n : nat) : list Z := match n with O => [] | S n => 32 :: 32 :: spaces n end.
Definition new_line (n : nat) : list Z := 10 :: spaces n.
Section Pretty.
  Variable float_text : Z -> list Z.
  Fixpoint pretty (n : nat) (j : json) {struct j} : list Z :=
    match j with
    | JArr [] => [91; 93]
    | JArr l => 91 :: joined (map (fun j => new_line (S n) ++ pretty (S n) j) l) ++ new_line n ++ [93]
    | JObj [] => [123; 125]
    | JObj m => 123 :: joined (map (fun p : list Z * json => let (k, j) := p in new_line (S n) ++ print_str k ++ 58 :: 32 :: pretty (S n) j) m) ++ new_line n ++ [125]
    | _ => print float_text j
    end.
End Pretty.
