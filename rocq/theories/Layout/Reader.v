(** Model of the tool that reads a binary by a layout:
    /repo/apps/bin-prot-layout-reader/src/main.rs.

    Files that cannot be opened, read or written and the text printed at the end
    are not modelled; the layout file is given as the JSON value in it ([None] if
    it is not JSON).  Text behind that value is not looked at (main.rs:46-52
    never ask for the end). *)
From Coq Require Import ZArith List Bool String.
From Verif Require Import Lib.Res Lib.Bytes BinProt.Prim Json.Json Text.Hex Loose.Loose Layout.LayoutJson.
Import ListNotations.
Local Open Scope Z_scope.

Inductive rerr : Type := RLayout | RBinary (e : err).

(** main.rs:63-71 *)
Definition contents (file : list Z) : list Z :=
  match hex_decode file with Ok bs => bs | _ => file end.

Section Tool.
  (** as in Loose/Loose.v *)
  Variable rule_size : Z.
  (** main.rs:38-100; [assert_eq!] panics (81-84).  Writing a decoded value to
      memory cannot fail. *)
  Definition tool (layout : option json) (file : list Z) (roundtrip : bool) : res rerr value :=
    match layout with
    | None => Err RLayout
    | Some j =>
      match layout_of_json j with
      | None => Err RLayout
      | Some rule =>
        let bytes := contents file in
        match loose_value rule_size rule bytes with
        | Panic => Panic
        | Err e => Err (RBinary e)
        | Ok (v, _) =>
          if roundtrip then if list_eq_dec Z.eq_dec bytes (vser v) then Ok v else Panic else Ok v
        end
      end
    end.
End Tool.
