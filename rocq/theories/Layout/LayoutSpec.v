(** What a layout document means, and how OCaml's [ppx_deriving_yojson] prints a
    rule. *)
From Coq Require Import String ZArith List.
From Verif Require Import Lib.Bytes Json.Json Loose.Loose.
Import ListNotations.
Local Open Scope string_scope.
Local Open Scope list_scope.
Local Open Scope Z_scope.

Definition jstr (s : string) : json := JStr (str_bytes s).
(** the member [k] of an object; if there were several, the first *)
Definition holds (m : list (list Z * json)) (k : string) (j : json) : Prop :=
  exists a b, m = a ++ (str_bytes k, j) :: b /\ ~ In (str_bytes k) (map fst a).
(** The fields of a struct: members of an object, which may lack some and have
    others, or all elements of an array *)
Inductive struct (names : list string) : json -> list (option json) -> Prop :=
| S_obj : forall m js, Forall2 (fun k o => forall j, o = Some j <-> holds m k j) names js -> struct names (JObj m) js
| S_arr : forall l, List.length l = List.length names -> struct names (JArr l) (map Some l).

Definition plain_rules : list (string * rule) :=
  [("Nat0", RNat0); ("Unit", RUnit); ("Bool", RBool); ("String", RString); ("Char", RChar); ("Int", RInt);
   ("Int32", RInt32); ("Int64", RInt64); ("Native_int", RNativeInt); ("Float", RFloat); ("Bigstring", RBigstring)].

(** The strings of a document are bytes. *)
Fixpoint texts_ok (j : json) : Prop :=
  match j with
  | JStr s => bytes_ok s
  | JArr l => fold_right (fun j P => texts_ok j /\ P) True l
  | JObj m => fold_right (fun x P => texts_ok (snd x) /\ P) True m
  | _ => True
  end.

(** [denotes j r]: the rule [r] is written as [j].  Variants are arrays that begin
    with their name; records of OCaml are structs. *)
Inductive denotes : json -> rule -> Prop :=
| N_plain : forall n r, In (n, r) plain_rules -> denotes (JArr [jstr n]) r
| N_option : forall j r, denotes j r -> denotes (JArr [jstr "Option"; j]) (ROption r)
| N_list : forall j r, denotes j r -> denotes (JArr [jstr "List"; j]) (RList r)
| N_tuple : forall l rs, Forall2 denotes l rs -> denotes (JArr [jstr "Tuple"; JArr l]) (RTuple rs)
| N_self : forall l rs, Forall2 denotes l rs -> denotes (JArr [jstr "Self_reference"; JArr l]) (RSelfReference rs)
| N_custom : forall l rs, Forall2 denotes l rs -> denotes (JArr [jstr "Custom"; JArr l]) (RCustom rs)
| N_record : forall l fs,
    Forall2 (fun v f => exists j, struct ["field_name"; "field_rule"] v [Some (jstr (fst f)); Some j] /\ denotes j (snd f)) l fs ->
    denotes (JArr [jstr "Record"; JArr l]) (RRecord fs)
| N_sum : forall l ss,
    Forall2 (fun v s => exists js,
      struct ["ctor_name"; "index"; "ctor_args"] v [Some (jstr (fst (fst s))); Some (JNum (snd (fst s))); Some (JArr js)] /\
      - 2 ^ 31 <= snd (fst s) < 2 ^ 31 /\ Forall2 denotes js (snd s)) l ss ->
    denotes (JArr [jstr "Sum"; JArr l]) (RSum ss)
| N_polyvar : forall l ps,
    Forall2 (fun v p =>
      (exists n h rs w js, p = inl (n, h, rs) /\ v = JArr [jstr "Tagged"; w] /\
          struct ["polyvar_name"; "hash"; "polyvar_args"] w [Some (jstr n); Some (JNum h); Some (JArr js)] /\
          0 <= h < 2 ^ 32 /\ Forall2 denotes js rs) \/
      (exists r w, p = inr r /\ v = JArr [jstr "Inherited"; w] /\ denotes w r)) l ps ->
    denotes (JArr [jstr "Polyvar"; JArr l]) (RPolyvar ps)
| N_table : forall v a b k w, struct ["key_rule"; "value_rule"] v [Some a; Some b] -> denotes a k -> denotes b w ->
    denotes (JArr [jstr "Hashtable"; v]) (RHashtable k w)
| N_vec : forall n j r, 0 <= n < 2 ^ 64 -> denotes j r -> denotes (JArr [jstr "Vec"; JNum n; j]) (RVec n r)
| N_unresolved : forall v js rs n, struct ["params"; "layout_id"] v [Some (JArr js); Some (jstr n)] -> Forall2 denotes js rs ->
    denotes (JArr [jstr "Reference"; JArr [jstr "Unresolved"; v]]) RUnresolved
| N_resolved : forall v decl path derived j p r,
    struct ["source_type_decl"; "source_module_path"; "bin_io_derived"; "ref_rule"] v [Some (jstr decl); path; derived; Some j] ->
    (path = Some (jstr p) \/ path = None /\ p = "") -> (derived = None \/ exists b, derived = Some (JBool b)) -> denotes j r ->
    denotes (JArr [jstr "Reference"; JArr [jstr "Resolved"; v]]) (RResolved p r)
| N_var : forall n, denotes (JArr [jstr "Type_var"; jstr n]) (RTypeVar n)
| N_abstraction : forall ns j r, denotes j r ->
    denotes (JArr [jstr "Type_abstraction"; JArr (map jstr ns); j]) (RTypeAbstraction ns r)
| N_closure : forall l bs j r, Forall2 (fun v b => exists w, v = JArr [jstr (fst b); w] /\ denotes w (snd b)) l bs -> denotes j r ->
    denotes (JArr [jstr "Type_closure"; JArr l; j]) (RTypeClosure bs r).

(** The rules that can be written down: the numbers have their ranges, and the
    rule made for traversal only does not occur. *)
Fixpoint writable (r : rule) : Prop :=
  match r with
  | ROption r | RList r | RResolved _ r | RTypeAbstraction _ r => writable r
  | RRecord fs => fold_right (fun f P => writable (snd f) /\ P) True fs
  | RTuple rs | RSelfReference rs | RCustom rs => fold_right (fun r P => writable r /\ P) True rs
  | RSum ss => fold_right (fun s P => (- 2 ^ 31 <= snd (fst s) < 2 ^ 31 /\ fold_right (fun r P => writable r /\ P) True (snd s)) /\ P) True ss
  | RPolyvar ps => fold_right (fun p P => match p with
      | inl t => 0 <= snd (fst t) < 2 ^ 32 /\ fold_right (fun r P => writable r /\ P) True (snd t)
      | inr r => writable r end /\ P) True ps
  | RHashtable k v => writable k /\ writable v
  | RVec n r => 0 <= n < 2 ^ 64 /\ writable r
  | RTypeClosure bs r => fold_right (fun b P => writable (snd b) /\ P) True bs /\ writable r
  | RCustomForPath _ _ => False
  | _ => True
  end.

(** OCaml's printer; [decl] stands for the type declarations it adds. *)
Section Yojson.
  Variable decl : rule -> string.
  Definition jobj (ms : list (string * json)) : json := JObj (map (fun x => (str_bytes (fst x), snd x)) ms).
  Fixpoint yojson (r : rule) : json :=
    match r with
    | RNat0 => JArr [jstr "Nat0"] | RUnit => JArr [jstr "Unit"] | RBool => JArr [jstr "Bool"]
    | RString => JArr [jstr "String"] | RChar => JArr [jstr "Char"] | RInt => JArr [jstr "Int"]
    | RInt32 => JArr [jstr "Int32"] | RInt64 => JArr [jstr "Int64"] | RNativeInt => JArr [jstr "Native_int"]
    | RFloat => JArr [jstr "Float"] | RBigstring => JArr [jstr "Bigstring"]
    | ROption r => JArr [jstr "Option"; yojson r]
    | RList r => JArr [jstr "List"; yojson r]
    | RTuple rs => JArr [jstr "Tuple"; JArr (map yojson rs)]
    | RSelfReference rs => JArr [jstr "Self_reference"; JArr (map yojson rs)]
    | RCustom rs => JArr [jstr "Custom"; JArr (map yojson rs)]
    | RRecord fs => JArr [jstr "Record"; JArr (map (fun f => jobj [("field_name", jstr (fst f)); ("field_rule", yojson (snd f))]) fs)]
    | RSum ss => JArr [jstr "Sum"; JArr (map (fun s => jobj [("ctor_name", jstr (fst (fst s))); ("index", JNum (snd (fst s)));
        ("ctor_args", JArr (map yojson (snd s)))]) ss)]
    | RPolyvar ps => JArr [jstr "Polyvar"; JArr (map (fun p => match p with
        | inl t => JArr [jstr "Tagged"; jobj [("polyvar_name", jstr (fst (fst t))); ("hash", JNum (snd (fst t)));
            ("polyvar_args", JArr (map yojson (snd t)))]]
        | inr r => JArr [jstr "Inherited"; yojson r] end) ps)]
    | RHashtable k v => JArr [jstr "Hashtable"; jobj [("key_rule", yojson k); ("value_rule", yojson v)]]
    | RVec n r => JArr [jstr "Vec"; JNum n; yojson r]
    | RUnresolved => JArr [jstr "Reference"; JArr [jstr "Unresolved"; jobj [("params", JArr []); ("layout_id", jstr (decl r))]]]
    | RResolved p r' => JArr [jstr "Reference"; JArr [jstr "Resolved"; jobj [("source_type_decl", jstr (decl r));
        ("source_module_path", jstr p); ("bin_io_derived", JBool true); ("ref_rule", yojson r')]]]
    | RTypeVar n => JArr [jstr "Type_var"; jstr n]
    | RTypeAbstraction ns r => JArr [jstr "Type_abstraction"; JArr (map jstr ns); yojson r]
    | RTypeClosure bs r => JArr [jstr "Type_closure"; JArr (map (fun b => JArr [jstr (fst b); yojson (snd b)]) bs); yojson r]
    | RCustomForPath _ _ => JNull
    end.
End Yojson.

(** The same document for a reader of layouts: members may be ordered otherwise,
    and members with other names may be added, dropped or changed. *)
Definition known : list string :=
  ["field_name"; "field_rule"; "ctor_name"; "index"; "ctor_args"; "key_rule"; "value_rule"; "polyvar_name"; "hash"; "polyvar_args";
   "params"; "layout_id"; "source_type_decl"; "source_module_path"; "bin_io_derived"; "ref_rule"].
Inductive alike : json -> json -> Prop :=
| L_same : forall j, alike j j
| L_arr : forall l l', Forall2 alike l l' -> alike (JArr l) (JArr l')
| L_obj : forall m m',
    (forall k j, In k known -> holds m k j -> exists j', holds m' k j' /\ alike j j') ->
    (forall k j', In k known -> holds m' k j' -> exists j, holds m k j) ->
    alike (JObj m) (JObj m').

(** [once m k]: at most one member is named [k] *)
Definition once (m : list (list Z * json)) (k : string) : Prop :=
  forall a j b, m = a ++ (str_bytes k, j) :: b -> ~ In (str_bytes k) (map fst b).
(** A layout document: location, version, declaration, flag and rule, of which
    only the version may be missing *)
Definition version (o : option json) : Prop :=
  o = None \/ o = Some JNull \/ exists z, o = Some (JNum z) /\ - 2 ^ 31 <= z < 2 ^ 31.
Definition fields_of : list string := ["layout_loc"; "version_opt"; "type_decl"; "bin_io_derived"; "bin_prot_rule"].
Inductive document : json -> rule -> Prop :=
| D_doc : forall doc loc v decl d j r,
    struct fields_of doc [Some (JStr loc); v; Some (JStr decl); Some (JBool d); Some j] ->
    (forall m, doc = JObj m -> forall k, In k fields_of -> once m k) ->
    version v -> denotes j r -> document doc r.
