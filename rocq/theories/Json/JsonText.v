(** JSON texts: [try_from_json] and [try_into_json] of [JsonSerializationType]
    (/repo/protocol/serialization-types/src/type_annotations.rs 31-49) up to
    the wire value, and [impl_strconv_via_json] (macros.rs 13-55).

    A text is parsed into a tree (Json/Parse.v) and the derived readers go over
    the tree.  Simplified: a crash of a reader comes before an error of the
    text behind it; here the text is parsed first.  Externally tagged enums
    have only variants without fields (theorem [only_units]). *)

From Coq Require Import String ZArith List Bool.
From Verif Require Import Lib.Res Lib.Bytes Lib.Decimal BinProt.Codec Wire.Types Text.Base58 Json.Json.
From Verif Require Import Json.Grammar Json.Parse.
Import ListNotations.
Local Open Scope list_scope.
Local Open Scope Z_scope.

(** ** [serde_json::Value] of a text *)
Definition all_digits (s : list Z) : bool := forallb is_digit s.
Section Value.
  (** the [f64] nearest to a number, [None] if it is out of range *)
  Variable float_of : list Z -> option Z.
  (** integers of 64 bits; a minus sign before zero makes a float *)
  Definition num_of (t : list Z) : option json :=
    let float := option_map JFloat (float_of t) in
    match t with
    | c :: ds =>
      if c =? 45 then if all_digits ds && (0 <? dec_val ds) && (dec_val ds <=? 2 ^ 63) then Some (JNum (- dec_val ds)) else float
      else if all_digits t && (dec_val t <? 2 ^ 64) then Some (JNum (dec_val t)) else float
    | [] => float
    end.
  Fixpoint bytes_lt (a b : list Z) : bool :=
    match a, b with
    | _, [] => false
    | [], _ :: _ => true
    | x :: a, y :: b => (x <? y) || ((x =? y) && bytes_lt a b)
    end.
  (** [BTreeMap::insert] *)
  Fixpoint ins (k : list Z) (j : json) (m : list (list Z * json)) : list (list Z * json) :=
    match m with
    | [] => [(k, j)]
    | (k', j') :: m' => if key_eqb k k' then (k, j) :: m' else if bytes_lt k k' then (k, j) :: m else (k', j') :: ins k j m'
    end.
  Definition map_of (m : list (list Z * json)) : list (list Z * json) := fold_left (fun acc p => ins (fst p) (snd p) acc) m [].
  Fixpoint all_some {A : Type} (l : list (option A)) : option (list A) :=
    match l with
    | [] => Some []
    | Some a :: l => match all_some l with Some r => Some (a :: r) | None => None end
    | None :: _ => None
    end.
  Fixpoint value_of (r : raw) : option json :=
    match r with
    | RNull => Some JNull
    | RBool b => Some (JBool b)
    | RNum t => num_of t
    | RStr s => Some (JStr s)
    | RArr l => option_map JArr (all_some (map value_of l))
    | RObj m => option_map (fun m => JObj (map_of m)) (all_some (map (fun p : list Z * raw => let (k, r) := p in option_map (pair k) (value_of r)) m))
    end.
End Value.
(** [to_value] makes the same maps *)
Fixpoint sorted (j : json) : json :=
  match j with
  | JArr l => JArr (map sorted l)
  | JObj m => JObj (map_of (map (fun p : list Z * json => let (k, j) := p in (k, sorted j)) m))
  | _ => j
  end.
(** the levels of arrays and objects *)
Fixpoint depth (r : raw) : nat :=
  match r with
  | RArr l => S (list_max (map depth l))
  | RObj m => S (list_max (map (fun p : list Z * raw => let (_, r) := p in depth r) m))
  | _ => O
  end.
(** [Deserializer] starts with [remaining_depth] 128; the feature
    [unbounded_depth] only allows to switch the check off. *)
Definition MAX_DEPTH : nat := 127.

(** The members in order: a field that comes again is an error
    ([duplicate_field]). *)
Section Members.
  Variable f : list Z -> raw -> option (res jerr val).
  Fixpoint member_loop (seen : list (list Z)) (m : list (list Z * raw)) : res jerr (list (list Z * val)) :=
    match m with
    | [] => Ok []
    | (k, r) :: m' =>
      match f k r with
      | None => member_loop seen m'
      | Some x =>
        if existsb (key_eqb k) seen then Err JE
        else let* v := x in let* vs := member_loop (k :: seen) m' in Ok ((k, v) :: vs)
      end
    end.
End Members.

Section Text.
  Variable checked : bool.
  Variable checksum : list Z -> list Z.
  Variable addr : list Z -> bool -> list Z.
  Variable unaddr : list Z -> option (list Z * bool).
  Variable float_of : list Z -> option Z.
  Variable float_text : Z -> list Z.

  (** ** From a text.  [lim] is the number of levels that are left. *)
  Fixpoint tde (d : dty) (lim : nat) (r : raw) {struct d} : res jerr val :=
    match d with
    | DLeaf l => match r with RStr s => leaf_de checked checksum unaddr l s | _ => Err JE end
    | DBool => match r with RBool b => Ok (VBool b) | _ => Err JE end
    | DI64 => match r with RNum t => match num_of float_of t with Some (JNum z) => if z <? 2 ^ 63 then Ok (VInt z) else Err JE | _ => Err JE end | _ => Err JE end
    | DUnit => match r with RNull => Ok VUnit | _ => Err JE end
    | DV d => let* v := tde d lim r in Ok (VTup [VInt 1; v])
    | DOpt d => match r with RNull => Ok VNone | _ => rmap VSome (tde d lim r) end
    | DVec d => match r, lim with RArr l, S lim => rmap VSeq (mapM (tde d lim) l) | _, _ => Err JE end
    | DTup fs => match r, lim with RArr l, S lim => rmap VTup (tde_seq fs lim l) | _, _ => Err JE end
    | DStruct fs =>
      match r, lim with
      | RObj m, S lim => let* vs := member_loop (tfld_de fs lim) [] m in rmap VTup (assemble fs vs)
      | RArr l, S lim => rmap VTup (tde_seq fs lim l)
      | _, _ => Err JE
      end
    (* macros.rs 96-126: [Value::deserialize] *)
    | DEnum (Listed x) p ws =>
      match value_of float_of r with
      | Some j => if (depth r <=? lim)%nat then jde checked checksum unaddr (DEnum (Listed x) p ws) j else Err JE
      | None => Err JE
      end
    | DEnum External _ ws =>
      let arg := match r, lim with RStr k, _ => Some (k, None) | RObj [(k, RNull)], S _ => Some (k, Some JNull) | _, _ => None end in
      match arg with
      | Some (k, a) => let* (i, vs) := jde_vars checked checksum unaddr ws 0 k a in Ok (VEnum i vs)
      | None => Err JE
      end
    end
  with tde_seq (fs : flds) (lim : nat) (l : list raw) {struct fs} : res jerr (list val) :=
    match fs with
    | FNil => match l with [] => Ok [] | _ => Err JE end
    | FCons _ (Some dflt) _ fs => let* vs := tde_seq fs lim l in Ok (dflt :: vs)
    | FCons _ None d fs =>
      match l with
      | [] => Err JE
      | r :: l => let* v := tde d lim r in let* vs := tde_seq fs lim l in Ok (v :: vs)
      end
    end
  with tfld_de (fs : flds) (lim : nat) (k : list Z) (r : raw) {struct fs} : option (res jerr val) :=
    match fs with
    | FNil => None
    | FCons _ (Some _) _ fs => tfld_de fs lim k r
    | FCons nm None d fs => if key_eqb (str_bytes nm) k then Some (tde d lim r) else tfld_de fs lim k r
    end.
  (** [serde_json::from_str], type_annotations.rs 40 *)
  Definition from_text (d : dty) (s : list Z) : res jerr val :=
    match parse s with Some r => tde d MAX_DEPTH r | None => Err JE end.

  (** ** To a text: the fields of structs in their order, what is in a
      list-tagged enum as a [Value] (macros.rs 68-91) *)
  Fixpoint tser (d : dty) (v : val) {struct d} : res jerr json :=
    match d, v with
    | DV d, VTup [VInt _; v] => tser d v
    | DOpt d, VSome v => tser d v
    | DVec d, VSeq vs => rmap JArr (mapM (tser d) vs)
    | DTup fs, VTup vs => rmap (fun m => JArr (map snd m)) (tser_flds fs vs)
    | DStruct fs, VTup vs => rmap JObj (tser_flds fs vs)
    | DEnum _ _ _, _ => rmap sorted (jser checked checksum addr d v)
    | _, _ => jser checked checksum addr d v
    end
  with tser_flds (fs : flds) (vs : list val) {struct fs} : res jerr (list (list Z * json)) :=
    match fs, vs with
    | FNil, [] => Ok []
    | FCons _ (Some _) _ fs, _ :: vs => tser_flds fs vs
    | FCons nm None d fs, v :: vs =>
      let* j := tser d v in
      let* m := tser_flds fs vs in
      Ok ((str_bytes nm, j) :: m)
    | _, _ => Err JE
    end.
  (** [serde_json::to_string], 47 *)
  Definition to_text (d : dty) (v : val) : res jerr (list Z) := rmap (print float_text) (tser d v).

  (** ** [impl_strconv_via_json], macros.rs 15-42 *)
  Definition str_try_from (d : dty) (s : list Z) : res jerr val := from_text d (print float_text (JStr s)).
  (** 32-38: the text is read as a [String] *)
  Definition str_try_into (d : dty) (v : val) : res jerr (list Z) :=
    let* t := to_text d v in
    match parse t with Some (RStr s) => Ok s | _ => Err JE end.
End Text.
