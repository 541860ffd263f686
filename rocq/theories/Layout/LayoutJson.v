(** Reading a layout from JSON:
    /repo/protocol/bin-prot/src/value/layout/mod.rs and list_tagged_enum.rs.

    A document is a [json] (Json/Json.v); texts are in LayoutText.v.  There is no
    recursion limit, which both readers of layouts switch off
    (apps/bin-prot-layout-reader/src/main.rs:49, protocol/test-fixtures/src/lib.rs),
    and the depth of the stack is not modelled.  The kinds of errors are not distinguished, so a
    reader returns an option.  Nothing here panics.  Members that the decoder
    never looks at ([source_type_decl], [bin_io_derived] of a reference, the
    payload of an unresolved one) are checked and dropped, since [rule] does not
    have them. *)
From Coq Require Import String Ascii ZArith List Bool.
From Verif Require Import Lib.Bytes Json.Json Loose.Loose.
Import ListNotations.
Local Open Scope string_scope.
Local Open Scope list_scope.
Local Open Scope Z_scope.

(** a Rust [String] as a Coq string, byte by byte *)
Fixpoint text (s : list Z) : string :=
  match s with [] => EmptyString | b :: s => String (ascii_of_N (Z.to_N b)) (text s) end.

Section Reading.
  Context {A : Type}.
  Variable f : json -> option A.
  (** [Vec<T>] *)
  Fixpoint all_of (l : list json) : option (list A) :=
    match l with
    | [] => Some []
    | j :: l => match f j with Some a => option_map (cons a) (all_of l) | None => None end
    end.
  Definition vec (j : json) : option (list A) := match j with JArr l => all_of l | _ => None end.
  (** a member that must be there *)
  Definition req (o : option json) : option A := match o with Some j => f j | None => None end.
  (** [#[serde(default)]] *)
  Definition opt (d : A) (o : option json) : option A := match o with Some j => f j | None => Some d end.
End Reading.

Definition to_text (j : json) : option string := match j with JStr s => Some (text s) | _ => None end.
Definition to_bool (j : json) : option bool := match j with JBool b => Some b | _ => None end.
(** integers of a range; a number written as a float is refused *)
Definition to_int (lo hi : Z) (j : json) : option Z :=
  match j with JNum z => if (lo <=? z) && (z <=? hi) then Some z else None | _ => None end.
Definition to_i32 := to_int (- 2147483648) 2147483647.
Definition to_u32 := to_int 0 4294967295.
Definition to_usize := to_int 0 18446744073709551615.

(** The derived [Deserialize] of a struct on a [serde_json::Value]: its fields,
    from an object, where other members are ignored, or from an array of exactly
    as many elements *)
Fixpoint lookup (k : string) (m : list (list Z * json)) : option json :=
  match m with [] => None | (k', j) :: m => if key_eqb k' (str_bytes k) then Some j else lookup k m end.
Definition members (names : list string) (v : json) : option (list (option json)) :=
  match v with
  | JObj m => Some (map (fun k => lookup k m) names)
  | JArr l => if Nat.eqb (List.length l) (List.length names) then Some (map Some l) else None
  | _ => None
  end.

Section Rule.
  Variable rd : json -> option rule.

  (** mod.rs:160-165 *)
  Definition to_field (v : json) : option (string * rule) :=
    match members ["field_name"; "field_rule"] v with
    | Some [a; b] =>
      match req to_text a, req rd b with Some n, Some r => Some (n, r) | _, _ => None end
    | _ => None
    end.
  (** mod.rs:167-174 *)
  Definition to_summand (v : json) : option (string * Z * list rule) :=
    match members ["ctor_name"; "index"; "ctor_args"] v with
    | Some [a; b; c] =>
      match req to_text a, req to_i32 b, req (vec rd) c with
      | Some n, Some i, Some rs => Some (n, i, rs)
      | _, _, _ => None
      end
    | _ => None
    end.
  (** mod.rs:176-182 *)
  Definition to_entry (v : json) : option rule :=
    match members ["key_rule"; "value_rule"] v with
    | Some [a; b] => match req rd a, req rd b with Some k, Some w => Some (RHashtable k w) | _, _ => None end
    | _ => None
    end.
  (** mod.rs:194-200 *)
  Definition to_tagged (v : json) : option (string * Z * list rule) :=
    match members ["polyvar_name"; "hash"; "polyvar_args"] v with
    | Some [a; b; c] =>
      match req to_text a, req to_u32 b, req (vec rd) c with
      | Some n, Some h, Some rs => Some (n, h, rs)
      | _, _, _ => None
      end
    | _ => None
    end.
  (** mod.rs:184-192, 202-217 *)
  Definition to_polyvar (v : json) : option (string * Z * list rule + rule) :=
    match v with
    | JArr [JStr t; w] =>
      if String.eqb (text t) "Tagged" then option_map inl (to_tagged w)
      else if String.eqb (text t) "Inherited" then option_map inr (rd w)
      else None
    | _ => None
    end.
  (** mod.rs:228-233 *)
  Definition to_unresolved (v : json) : option rule :=
    match members ["params"; "layout_id"] v with
    | Some [a; b] => match req (vec rd) a, req to_text b with Some _, Some _ => Some RUnresolved | _, _ => None end
    | _ => None
    end.
  (** mod.rs:235-244 *)
  Definition to_resolved (v : json) : option rule :=
    match members ["source_type_decl"; "source_module_path"; "bin_io_derived"; "ref_rule"] v with
    | Some [a; b; c; d] =>
      match req to_text a, opt to_text "" b, opt to_bool false c, req rd d with
      | Some _, Some p, Some _, Some r => Some (RResolved p r)
      | _, _, _, _ => None
      end
    | _ => None
    end.
  (** mod.rs:218-226, 246-260 *)
  Definition to_reference (v : json) : option rule :=
    match v with
    | JArr [JStr t; w] =>
      if String.eqb (text t) "Unresolved" then to_unresolved w
      else if String.eqb (text t) "Resolved" then to_resolved w
      else None
    | _ => None
    end.
  (** a binding of a type closure: [(String, BinProtRule)] *)
  Definition to_binding (v : json) : option (string * rule) :=
    match v with
    | JArr [a; b] => match to_text a, rd b with Some n, Some r => Some (n, r) | _, _ => None end
    | _ => None
    end.

  (** mod.rs:95-108 *)
  Definition rule0 (t : string) : option rule :=
    if String.eqb t "Nat0" then Some RNat0
    else if String.eqb t "Unit" then Some RUnit
    else if String.eqb t "Bool" then Some RBool
    else if String.eqb t "String" then Some RString
    else if String.eqb t "Char" then Some RChar
    else if String.eqb t "Int" then Some RInt
    else if String.eqb t "Int32" then Some RInt32
    else if String.eqb t "Int64" then Some RInt64
    else if String.eqb t "Native_int" then Some RNativeInt
    else if String.eqb t "Float" then Some RFloat
    else if String.eqb t "Bigstring" then Some RBigstring
    else None.
  (** mod.rs:109-140 *)
  Definition rule1 (t : string) (v : json) : option rule :=
    if String.eqb t "Option" then option_map ROption (rd v)
    else if String.eqb t "Record" then option_map RRecord (vec to_field v)
    else if String.eqb t "Tuple" then option_map RTuple (vec rd v)
    else if String.eqb t "Sum" then option_map RSum (vec to_summand v)
    else if String.eqb t "Polyvar" then option_map RPolyvar (vec to_polyvar v)
    else if String.eqb t "List" then option_map RList (rd v)
    else if String.eqb t "Hashtable" then to_entry v
    else if String.eqb t "Reference" then to_reference v
    else if String.eqb t "Type_var" then option_map RTypeVar (to_text v)
    else if String.eqb t "Self_reference" then option_map RSelfReference (vec rd v)
    else if String.eqb t "Custom" then option_map RCustom (vec rd v)
    else None.
  (** mod.rs:141-155 *)
  Definition rule2 (t : string) (v w : json) : option rule :=
    if String.eqb t "Vec" then
      match to_usize v, rd w with Some n, Some r => Some (RVec n r) | _, _ => None end
    else if String.eqb t "Type_abstraction" then
      match vec to_text v, rd w with Some ns, Some r => Some (RTypeAbstraction ns r) | _, _ => None end
    else if String.eqb t "Type_closure" then
      match vec to_binding v, rd w with Some bs, Some r => Some (RTypeClosure bs r) | _, _ => None end
    else None.
End Rule.

(** mod.rs:91-158 on list_tagged_enum.rs:13-19; [fuel] bounds the recursion *)
Fixpoint rd (fuel : nat) (j : json) : option rule :=
  match fuel with
  | O => None
  | S fuel =>
    match j with
    | JArr [JStr t] => rule0 (text t)
    | JArr [JStr t; v] => rule1 (rd fuel) (text t) v
    | JArr [JStr t; v; w] => rule2 (rd fuel) (text t) v w
    | _ => None
    end
  end.
Fixpoint jdepth (j : json) : nat :=
  match j with
  | JArr l => S (list_max (map jdepth l))
  | JObj m => S (list_max (map (fun x => jdepth (snd x)) m))
  | _ => O
  end.
Definition rule_of_json (j : json) : option rule := rd (jdepth j) j.

(** A layout document, mod.rs:20-30, of which only the rule is used.  It is read
    from text directly, so here the members of an object come in the order of the
    text and may repeat: a second member for a field is an error
    (serde's derived [visit_map]); elsewhere the last one counts and [json] has
    no repetitions. *)
Fixpoint count (k : string) (m : list (list Z * json)) : nat :=
  match m with [] => O | (k', _) :: m => ((if key_eqb k' (str_bytes k) then 1 else 0) + count k m)%nat end.
Definition layout_names : list string := ["layout_loc"; "version_opt"; "type_decl"; "bin_io_derived"; "bin_prot_rule"].
Definition to_version (o : option json) : option unit :=
  match o with
  | None | Some JNull => Some tt
  | Some j => option_map (fun _ => tt) (to_i32 j)
  end.
Definition layout_of_json (doc : json) : option rule :=
  match doc with
  | JObj m =>
    if forallb (fun k => Nat.leb (count k m) 1) layout_names then
      match req to_text (lookup "layout_loc" m), to_version (lookup "version_opt" m),
        req to_text (lookup "type_decl" m), req to_bool (lookup "bin_io_derived" m) with
      | Some _, Some _, Some _, Some _ => req rule_of_json (lookup "bin_prot_rule" m)
      | _, _, _, _ => None
      end
    else None
  | JArr [a; b; c; d; e] =>
    match to_text a, to_version (Some b), to_text c, to_bool d with
    | Some _, Some _, Some _, Some _ => rule_of_json e
    | _, _, _, _ => None
    end
  | _ => None
  end.

(** The derived [Serialize] (mod.rs:33, 160-244), which is externally tagged *)
Fixpoint derived (r : rule) : json :=
  let s := fun x => JStr (str_bytes x) in
  let tag := fun x j => JObj [(str_bytes x, j)] in
  let obj := fun ms => JObj (map (fun x : string * json => (str_bytes (fst x), snd x)) ms) in
  match r with
  | RNat0 => s "Nat0" | RUnit => s "Unit" | RBool => s "Bool" | RString => s "String" | RChar => s "Char"
  | RInt => s "Int" | RInt32 => s "Int32" | RInt64 => s "Int64" | RNativeInt => s "NativeInt" | RFloat => s "Float"
  | RBigstring => s "Bigstring"
  | ROption r => tag "Option" (derived r)
  | RRecord fs => tag "Record" (JArr (map (fun f => obj [("field_name", s (fst f)); ("field_rule", derived (snd f))]) fs))
  | RTuple rs => tag "Tuple" (JArr (map derived rs))
  | RSum ss => tag "Sum" (JArr (map (fun x =>
      obj [("ctor_name", s (fst (fst x))); ("index", JNum (snd (fst x))); ("ctor_args", JArr (map derived (snd x)))]) ss))
  | RPolyvar ps => tag "Polyvar" (JArr (map (fun p => match p with
      | inl x => tag "Tagged" (obj [("polyvar_name", s (fst (fst x))); ("hash", JNum (snd (fst x)));
                                    ("polyvar_args", JArr (map derived (snd x)))])
      | inr r => tag "Inherited" (derived r) end) ps))
  | RList r => tag "List" (derived r)
  | RHashtable k v => tag "Hashtable" (obj [("key_rule", derived k); ("value_rule", derived v)])
  | RVec n r => tag "Vec" (JArr [JNum n; derived r])
  | RUnresolved => tag "Reference" (tag "Unresolved" (obj [("params", JArr []); ("layout_id", s "")]))
  | RResolved p r => tag "Reference" (tag "Resolved" (obj [("source_type_decl", s ""); ("source_module_path", s p);
      ("bin_io_derived", JBool false); ("ref_rule", derived r)]))
  | RTypeVar n => tag "TypeVar" (s n)
  | RSelfReference rs => tag "SelfReference" (JArr (map derived rs))
  | RTypeAbstraction ns r => tag "TypeAbstraction" (JArr [JArr (map s ns); derived r])
  | RTypeClosure bs r => tag "TypeClosure" (JArr [JArr (map (fun b => JArr [s (fst b); derived (snd b)]) bs); derived r])
  | RCustom rs => tag "Custom" (JArr (map derived rs))
  | RCustomForPath p rs => tag "CustomForPath" (JArr [s p; JArr (map derived rs)])
  end.
