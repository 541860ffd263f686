(** Layouts as texts: the readers of layout files
    (/repo/apps/bin-prot-layout-reader/src/main.rs 44-52 and
    /repo/protocol/test-fixtures/src/lib.rs 15-23) on [Layout]
    (/repo/protocol/bin-prot/src/value/layout/mod.rs 20-30).

    Both readers switch the recursion limit off and never ask whether the text
    is at its end, so they read the value at the beginning of it.  Members with
    other names are skipped.  A rule is buffered, so of members with one name
    inside it the last counts.  Simplified: the text is UTF-8, which
    [from_reader] would check in strings. *)

From Coq Require Import String ZArith List Bool.
From Verif Require Import Lib.Res Lib.Bytes Json.Json Loose.Loose Layout.LayoutJson Layout.Reader.
From Verif Require Import Json.Grammar Json.Parse Json.JsonText.
Import ListNotations.
Local Open Scope list_scope.
Local Open Scope Z_scope.

(** [Layout::deserialize] without [Deserializer::end] *)
Definition parse_first (s : list Z) : option raw :=
  match p_val (S (2 * List.length s)) (skip s) with Some (r, _) => Some r | None => None end.

Section Text.
  Variable float_of : list Z -> option Z.
  Definition known_name (k : list Z) : bool := existsb (fun n => key_eqb k (str_bytes n)) layout_names.
  Definition top (r : raw) : option json :=
    match r with
    | RObj m => option_map JObj (all_some (map (fun p : list Z * raw => let (k, r) := p in
        if known_name k then option_map (pair k) (value_of float_of r) else Some (k, JNull)) m))
    | RArr l => option_map JArr (all_some (map (value_of float_of) l))
    | _ => None
    end.
  Definition layout_of_text (t : list Z) : option rule :=
    match parse_first t with
    | Some r => match top r with Some j => layout_of_json j | None => None end
    | None => None
    end.
  (** The tool of Reader.v on the bytes of both files
      (/repo/apps/bin-prot-layout-reader/src/main.rs 44-100) *)
  Variable rule_size : Z.
  Definition tool_on (layout file : list Z) (roundtrip : bool) : res rerr Loose.value :=
    match layout_of_text layout with
    | None => Err RLayout
    | Some rule =>
      let bytes := contents file in
      match loose_value rule_size rule bytes with
      | Panic => Panic
      | Err e => Err (RBinary e)
      | Ok (v, _) => if roundtrip then if list_eq_dec Z.eq_dec bytes (vser v) then Ok v else Panic else Ok v
      end
    end.
End Text.
