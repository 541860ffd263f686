(** Model of the derive macro [AutoFrom]: /repo/protocol/
    serialization-types-macros/src/{lib,auto_from}.rs and the conversions of
    /repo/protocol/versioned/src/lib.rs that its output calls.

    The macro maps the declaration of a type to code.  Declarations and the code
    are data here; [compile_...] says when the compiler accepts the code as far
    as names and shapes go, [exec_...] what it computes.  The instances of [Into]
    that the compiler selects for the parts are a parameter.  Values are those of
    Convert/Conv.v: the members of a struct in the order of its declaration.
    Simplifications: of a type only the path is kept; generics of the deriving
    type, spans and hygiene are left out, as the macro ignores them. *)

From Coq Require Import String ZArith List Bool Arith.
From Verif Require Import Lib.Res BinProt.Codec Convert.Conv.
Import ListNotations.
Local Open Scope string_scope.
Local Open Scope list_scope.
Local Open Scope nat_scope.

(** ** Declarations: the part of syn's syntax tree that is looked at *)
Inductive rty : Type :=
| TyPath (segs : list (string * list rty))   (* [a::b<T>::c], a segment with its arguments *)
| TyOther.                                  (* arrays, tuples, references, .. *)
Inductive fields : Type :=
| FNamed (l : list (string * rty))
| FUnnamed (l : list rty)
| FUnit.
Inductive decl : Type :=
| DStruct (f : fields)
| DEnum (variants : list (string * fields))
| DUnion.
(** an attribute: whether it is outer, its name if it is a single identifier,
    and its argument if that is a sequence of tokens *)
Record attribute := { outer : bool; attr_name : option string; args : option string }.

(** ** The code that is generated *)
(** the expression made of a member [e]: [e.into()], [e.into_iter().map(Into::into).collect()],
    [e.map(Into::into)], and [Box::new] of the content's [into()] *)
Inductive kind := Plain | EachVec | EachOpt | InBox.
Inductive arm : Type :=
| AUnit                                 (* [Other::V => Self::V] *)
| ATuple (l : list kind)                (* [Other::V(v0, ..) => Self::V(..)] *)
| ANamed (l : list (string * kind)).    (* [Other::V{a, ..} => Self::V{a: .., ..}] *)
Inductive body : Type :=
| BStruct (l : list (string * kind))    (* [Self { a: .. item.a .., .. }] *)
| BTuple (l : list (nat * kind))        (* [Self (.. item.0 .., ..)] *)
| BMatch (arms : list (string * arm)).  (* [match item { .. }] *)

(** auto_from.rs 12-26 *)
Definition parse_types_from_attr (attrs : list attribute) : list string :=
  flat_map (fun a =>
    if outer a then
      match attr_name a with
      | Some n => if String.eqb n "auto_from" then match args a with Some t => [t] | None => [] end else []
      | None => []
      end
    else []) attrs.

(** the inner loop, four times in the file: 40-58, 114-136, 196-217, 231-253 *)
Fixpoint kind_of_segs (segs : list (string * list rty)) : kind :=
  match segs with
  | [] => Plain
  | (n, _) :: segs' =>
    if String.eqb n "Vec" then EachVec
    else if String.eqb n "Option" then EachOpt
    else if String.eqb n "Box" then InBox
    else kind_of_segs segs'
  end.
Definition kind_of (t : rty) : kind := match t with TyPath segs => kind_of_segs segs | TyOther => Plain end.

(** 34-61: the four lists of names *)
Fixpoint sort_fields (named : list (string * rty)) (p v o b : list string) : list string * list string * list string * list string :=
  match named with
  | [] => (p, v, o, b)
  | (n, t) :: named' =>
    match kind_of t with
    | Plain => sort_fields named' (p ++ [n]) v o b
    | EachVec => sort_fields named' p (v ++ [n]) o b
    | EachOpt => sort_fields named' p v (o ++ [n]) b
    | InBox => sort_fields named' p v o (b ++ [n])
    end
  end.
Definition with_kind (k : kind) (l : list string) : list (string * kind) := map (fun n => (n, k)) l.
(** 62-94 *)
Definition auto_from_for_struct_with_named_fields (named : list (string * rty)) : option body :=
  match sort_fields named [] [] [] [] with
  | ([], [], [], []) => None
  | (p, v, o, b) => Some (BStruct (with_kind Plain p ++ with_kind EachVec v ++ with_kind EachOpt o ++ with_kind InBox b))
  end.
(** 109-163: the position is the number of expressions so far *)
Fixpoint positions (named : list rty) (stream : list (nat * kind)) : list (nat * kind) :=
  match named with
  | [] => stream
  | t :: named' => positions named' (stream ++ [(length stream, kind_of t)])
  end.
Definition auto_from_for_struct_with_unnamed_fields (named : list rty) : option body :=
  match positions named [] with [] => None | l => Some (BTuple l) end.
(** 178-268 *)
Definition fields_len (f : fields) : nat := match f with FNamed l => length l | FUnnamed l => length l | FUnit => 0 end.
Definition arm_of (f : fields) : arm :=
  match fields_len f with
  | 0 => AUnit
  | _ =>
    match f with
    | FUnnamed l => ATuple (map kind_of l)
    | FNamed l => ANamed (map (fun x => (fst x, kind_of (snd x))) l)
    | FUnit => AUnit
    end
  end.
Definition auto_from_for_enum (variants : list (string * fields)) : option body :=
  match map (fun v => (fst v, arm_of (snd v))) variants with [] => None | arms => Some (BMatch arms) end.

(** lib.rs 77-123.  For every target the same body serves in both directions, and
    [impl_from_for_versioned] (auto_from.rs 299-368) adds the versioned target
    types.  [unimplemented!()] is a panic of the compiler. *)
Definition auto_from_macro (attrs : list attribute) (d : decl) : res unit (list (string * body)) :=
  match parse_types_from_attr attrs with
  | [] => Ok []
  | targets =>
    let each (o : option body) := match o with Some b => map (fun t => (t, b)) targets | None => [] end in
    match d with
    | DStruct (FNamed named) => Ok (each (auto_from_for_struct_with_named_fields named))
    | DStruct (FUnnamed unnamed) => Ok (each (auto_from_for_struct_with_unnamed_fields unnamed))
    | DStruct FUnit => Panic
    | DEnum variants => Ok (each (auto_from_for_enum variants))
    | DUnion => Panic
    end
  end.

(** ** What the code means *)
Definition mem (n : string) (l : list string) : bool := existsb (String.eqb n) l.
Fixpoint nodupb (l : list string) : bool := match l with [] => true | n :: l' => negb (mem n l') && nodupb l' end.

(** the value of one member; a vector is a [VSeq], a box is transparent *)
Definition exec_kind (k : kind) (into : val -> res unit val) (v : val) : res unit val :=
  match k, v with
  | Plain, _ | InBox, _ => into v
  | EachVec, VSeq vs => rmap VSeq (down_all into vs)
  | EachOpt, VNone => Ok VNone
  | EachOpt, VSome x => rmap VSome (into x)
  | _, _ => Panic
  end.
(** The members of [src] by name; a struct expression gives every member of
    [self] exactly once and no other. *)
Definition compile_named (src self : list string) (l : list (string * kind)) : bool :=
  forallb (fun n => mem n src) (map fst l) && forallb (fun n => mem n self) (map fst l) &&
  forallb (fun n => mem n (map fst l)) self && nodupb (map fst l).
(** evaluated in the order written *)
Fixpoint eval_named (into : string -> val -> res unit val) (src : list string) (vs : list val) (l : list (string * kind)) : res unit (list val) :=
  match l with
  | [] => Ok []
  | (n, k) :: l' =>
    let* b := match at_name n src vs with Some v => exec_kind k (into n) v | None => Panic end in
    let* bs := eval_named into src vs l' in
    Ok (b :: bs)
  end.
Definition arrange (self : list string) (names : list string) (bs : list val) : list val :=
  map (fun n => match at_name n names bs with Some b => b | None => VUnit end) self.
Definition exec_named (into : string -> val -> res unit val) (src self : list string) (l : list (string * kind)) (vs : list val) : res unit (list val) :=
  let* bs := eval_named into src vs l in Ok (arrange self (map fst l) bs).

(** [n] members on each side *)
Definition compile_tuple (src self : nat) (l : list (nat * kind)) : bool :=
  forallb (fun x => fst x <? src) l && (length l =? self).
Fixpoint exec_tuple (into : nat -> val -> res unit val) (l : list (nat * kind)) (vs : list val) : res unit (list val) :=
  match l with
  | [] => Ok []
  | (i, k) :: l' =>
    let* b := match nth_error vs i with Some v => exec_kind k (into i) v | None => Panic end in
    let* bs := exec_tuple into l' vs in
    Ok (b :: bs)
  end.

(** the shape of a variant *)
Inductive shape := SUnit | STuple (n : nat) | SNamed (names : list string).
Definition shape_of (f : fields) : shape :=
  match f with FNamed l => SNamed (map fst l) | FUnnamed l => STuple (length l) | FUnit => SUnit end.
(** A path without parentheses or braces is a pattern and an expression for unit
    variants only. *)
Definition compile_arm (src self : shape) (a : arm) : bool :=
  match a, src, self with
  | AUnit, SUnit, SUnit => true
  | ATuple l, STuple n, STuple m => (length l =? n) && (length l =? m)
  | ANamed l, SNamed ns, SNamed ms => compile_named ns ms l && forallb (fun n => mem n (map fst l)) ns
  | _, _, _ => false
  end.
Definition shape_at (n : string) (vars : list (string * shape)) : option shape := at_name n (map fst vars) (map snd vars).
Definition compile_match (src self : list (string * shape)) (arms : list (string * arm)) : bool :=
  forallb (fun x => match shape_at (fst x) src, shape_at (fst x) self with
                    | Some s, Some t => compile_arm s t (snd x) | _, _ => false end) arms &&
  forallb (fun x => mem (fst x) (map fst arms)) src.
(** a member of a variant *)
Inductive part := Pos (i : nat) | Nam (n : string).
Definition exec_arm (into : part -> val -> res unit val) (src self : shape) (a : arm) (vs : list val) : res unit (list val) :=
  match a, src, self with
  | AUnit, _, _ => Ok []
  | ATuple l, _, _ => exec_tuple (fun i => into (Pos i)) (combine (seq 0 (length l)) l) vs
  | ANamed l, SNamed ns, SNamed ms => exec_named (fun n => into (Nam n)) ns ms l vs
  | _, _, _ => Panic
  end.
Definition exec_match (into : string -> part -> val -> res unit val) (src self : list (string * shape)) (arms : list (string * arm)) (v : val) : res unit val :=
  match v with
  | VEnum j vs =>
    match nth_error src j with
    | Some (n, s) =>
      match at_name n (map fst arms) (map snd arms), shape_at n self with
      | Some a, Some t => let* bs := exec_arm (into n) s t a vs in Ok (VEnum (index_of n (map fst self)) bs)
      | _, _ => Panic
      end
    | None => Panic
    end
  | _ => Panic
  end.

(** ** Versioned types: versioned/src/lib.rs 40-125, auto_from.rs 299-368 *)
Definition from1 (v1 : Z) (t : val) : val := VTup [VInt v1; t].
Definition from2 (v1 v2 : Z) (t : val) : val := from1 v2 (from1 v1 t).
Definition from3 (v1 v2 v3 : Z) (t : val) : val := from1 v3 (from2 v1 v2 t).
Definition from4 (v1 v2 v3 v4 : Z) (t : val) : val := from1 v4 (from3 v1 v2 v3 t).
Definition to1 (t : val) : res unit val := match t with VTup [_; x] => Ok x | _ => Panic end.
Definition to2 (t : val) : res unit val := let* x := to1 t in to1 x.
Definition to3 (t : val) : res unit val := let* x := to1 t in to2 x.
Definition to4 (t : val) : res unit val := let* x := to1 t in to3 x.
(** the impl for a type with these version numbers, innermost first; there is
    none for more than four *)
Definition into_versioned (from : val -> res unit val) (vs : list Z) (x : val) : option (res unit val) :=
  match vs with
  | [] => Some (from x)
  | [a] => Some (let* t := from x in Ok (from1 a t))
  | [a; b] => Some (let* t := from x in Ok (from2 a b t))
  | [a; b; c] => Some (let* t := from x in Ok (from3 a b c t))
  | [a; b; c; d] => Some (let* t := from x in Ok (from4 a b c d t))
  | _ => None
  end.
Definition of_versioned (from : val -> res unit val) (depth : nat) (x : val) : option (res unit val) :=
  match depth with
  | 0 => Some (from x)
  | 1 => Some (let* t := to1 x in from t)
  | 2 => Some (let* t := to2 x in from t)
  | 3 => Some (let* t := to3 x in from t)
  | 4 => Some (let* t := to4 x in from t)
  | _ => None
  end.
