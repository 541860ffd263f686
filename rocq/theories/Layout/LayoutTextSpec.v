(** Layout texts, independently of the code. *)

From Coq Require Import String ZArith List.
From Verif Require Import Lib.Bytes Json.Json Json.Grammar.
From Verif Require Import Frontier.ResponseSpec.
Import ListNotations.
Local Open Scope list_scope.
Local Open Scope Z_scope.

(** The text begins with a value; anything may come behind it. *)
Definition begins (t : list Z) (r : raw) : Prop := exists w v rest, t = w ++ v ++ rest /\ blank w /\ value v r.
Definition container (r : raw) : Prop := match r with RArr _ | RObj _ => True | _ => False end.
(** What is kept of the members of a document; its own members stay. *)
Inductive inside : json -> json -> Prop :=
| N_obj : forall m m', Forall2 (fun p q => fst p = fst q /\ kept (snd p) (snd q)) m m' -> inside (JObj m) (JObj m')
| N_arr : forall l l', Forall2 kept l l' -> inside (JArr l) (JArr l').
