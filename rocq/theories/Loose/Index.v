(** Model of indexing into dynamic values:
    /repo/protocol/bin-prot/src/value/index.rs and [inner] of value/mod.rs *)
From Coq Require Import ZArith List Bool String.
From Verif Require Import Lib.Res Lib.Bytes BinProt.Prim Loose.Loose.
Import ListNotations.
Open Scope string_scope.
Open Scope list_scope.
Open Scope Z_scope.

(** A [usize] or a [str]; [String] and references pass on to [str]
    (index.rs:43-56) *)
Inductive key : Type := KNum (n : Z) | KName (s : string).

(** [Vec::get] *)
Definition get (n : Z) (vs : list value) : option value :=
  if n <? Z.of_nat (List.length vs) then nth_error vs (Z.to_nat n) else None.
(** [map.iter().find(..).map(..)] *)
Definition field (k : string) (fs : list (string * value)) : option value :=
  option_map snd (find (fun f => String.eqb (fst f) k) fs).
(** index.rs:15-41 *)
Definition index_into (k : key) (v : value) : option value :=
  match k with
  | KNum n =>
    match v with
    | LList vs | LTuple vs => get n vs
    | LSum _ _ (LList vs) | LSum _ _ (LTuple vs) => get n vs
    | _ => None
    end
  | KName s =>
    match v with
    | LRecord fs => field s fs
    | LSum _ _ (LRecord fs) => field s fs
    | _ => None
    end
  end.
(** [v[k]]: index.rs:58-71 *)
Definition index (v : value) (k : key) : res err value :=
  match index_into k v with Some w => Ok w | None => Panic end.
(** [v[k1][k2]...] *)
Fixpoint index_path (v : value) (ks : list key) : res err value :=
  match ks with
  | [] => Ok v
  | k :: ks => let* w := index v k in index_path w ks
  end.
(** value/mod.rs:92-98 *)
Definition inner (v : value) : res err (option value) :=
  match v with LOption o => Ok o | _ => Panic end.
