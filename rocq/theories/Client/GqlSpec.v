(** What a GraphQL server reads in a request text, written down independently of
    the code: the lexical grammar and the part of the document grammar that the
    requests of /repo use (GraphQL specification, June 2018, sections 2.1 and
    2.4-2.9).  This file models no code of /repo.

    Left out: floats, negative numbers, block strings, variables, fragments and
    directives.  A text that uses them is in no relation below. *)
From Coq Require Import ZArith List Bool String.
From Verif Require Import Lib.Bytes.
Import ListNotations.
Local Open Scope Z_scope.

Inductive token : Type :=
| TPunct (c : Z)
| TName (n : list Z)
| TInt (d : list Z)
| TStr (v : list Z).

Definition digit (c : Z) : bool := (48 <=? c) && (c <=? 57).
Definition name_start (c : Z) : bool :=
  ((65 <=? c) && (c <=? 90)) || ((97 <=? c) && (c <=? 122)) || (c =? 95).
Definition name_more (c : Z) : bool := name_start c || digit c.
(** ! $ ( ) : = @ [ ] { | } *)
Definition punct (c : Z) : bool := existsb (Z.eqb c) [33; 36; 40; 41; 58; 61; 64; 91; 93; 123; 124; 125].
(** tab, line feed, carriage return, space, comma *)
Definition ignored (c : Z) : bool := existsb (Z.eqb c) [9; 10; 13; 32; 44].
Definition line_end (c : Z) : bool := (c =? 10) || (c =? 13).

(** The character may stand for itself inside a string: no quote, no backslash,
    no line end, no control character but tab.  (Bytes of UTF-8 from 128 on are
    parts of characters that stand for themselves.) *)
Definition plain_char (c : Z) : bool :=
  ((32 <=? c) && (c <=? 255) || (c =? 9)) && negb (c =? 34) && negb (c =? 92).

(** What the character behind a backslash denotes, for one-character escapes. *)
Definition escape (c : Z) : option Z :=
  if c =? 34 then Some 34 else if c =? 92 then Some 92 else if c =? 47 then Some 47
  else if c =? 98 then Some 8 else if c =? 102 then Some 12 else if c =? 110 then Some 10
  else if c =? 114 then Some 13 else if c =? 116 then Some 9 else None.

Definition hex_val (c : Z) : option Z :=
  if digit c then Some (c - 48)
  else if (65 <=? c) && (c <=? 70) then Some (c - 55)
  else if (97 <=? c) && (c <=? 102) then Some (c - 87) else None.

(** UTF-8 of a 16-bit character number. *)
Definition utf8 (u : Z) : list Z :=
  if u <? 128 then [u]
  else if u <? 2048 then [192 + u / 64; 128 + u mod 64]
  else [224 + u / 4096; 128 + u / 64 mod 64; 128 + u mod 64].

(** [string_body raw value]: the text [raw] between two quotes denotes [value]. *)
Inductive string_body : list Z -> list Z -> Prop :=
| SB_end : string_body [] []
| SB_plain : forall c r v, plain_char c = true -> string_body r v -> string_body (c :: r) (c :: v)
| SB_escape : forall c x r v, escape c = Some x -> string_body r v -> string_body (92 :: c :: r) (x :: v)
| SB_unicode : forall a b c d x y z w r v,
    hex_val a = Some x -> hex_val b = Some y -> hex_val c = Some z -> hex_val d = Some w ->
    string_body r v ->
    string_body (92 :: 117 :: a :: b :: c :: d :: r) (utf8 (4096 * x + 256 * y + 16 * z + w) ++ v).

Definition begins (p : Z -> bool) (l : list Z) : Prop :=
  match l with [] => False | c :: _ => p c = true end.

(** [lexes text tokens] *)
Inductive lexes : list Z -> list token -> Prop :=
| L_end : lexes [] []
| L_ignored : forall c r ts, ignored c = true -> lexes r ts -> lexes (c :: r) ts
| L_comment : forall n r ts, Forall (fun c => line_end c = false) n -> (r = [] \/ begins line_end r) ->
    lexes r ts -> lexes (35 :: n ++ r) ts
| L_punct : forall c r ts, punct c = true -> lexes r ts -> lexes (c :: r) (TPunct c :: ts)
| L_name : forall c n r ts, name_start c = true -> Forall (fun c => name_more c = true) n ->
    ~ begins name_more r -> lexes r ts -> lexes (c :: n ++ r) (TName (c :: n) :: ts)
| L_int : forall c n r ts, digit c = true -> Forall (fun c => digit c = true) n ->
    (c = 48 -> n = []) -> ~ begins (fun c => name_more c || (c =? 46)) r ->
    lexes r ts -> lexes (c :: n ++ r) (TInt (c :: n) :: ts)
| L_string : forall raw v r ts, string_body raw v -> ~ (raw = [] /\ begins (Z.eqb 34) r) ->
    lexes r ts -> lexes (34 :: raw ++ 34 :: r) (TStr v :: ts).

(** Documents: one operation, its selections with arguments. *)
Inductive arg : Type :=
| AStr (v : list Z)
| AInt (d : list Z)
| AEnum (n : list Z)
| AObj (fields : list (list Z * arg)).

Inductive sel : Type :=
| Sel (alias : option (list Z)) (name : list Z) (args : list (list Z * arg)) (subs : list sel).

Record document := { d_kind : list Z; d_name : list Z; d_sels : list sel }.

Definition P (s : string) : token := match str_bytes s with [c] => TPunct c | _ => TPunct 0 end.

Fixpoint arg_tokens (a : arg) : list token :=
  match a with
  | AStr v => [TStr v]
  | AInt d => [TInt d]
  | AEnum n => [TName n]
  | AObj fs => P "{" :: flat_map (fun f => TName (fst f) :: P ":" :: arg_tokens (snd f)) fs ++ [P "}"]
  end.
Definition args_tokens (fs : list (list Z * arg)) : list token :=
  match fs with
  | [] => []
  | _ => P "(" :: flat_map (fun f => TName (fst f) :: P ":" :: arg_tokens (snd f)) fs ++ [P ")"]
  end.
Fixpoint sel_tokens (s : sel) : list token :=
  match s with
  | Sel al n args subs =>
    match al with Some a => [TName a; P ":"] | None => [] end ++ TName n :: args_tokens args ++
    match subs with [] => [] | _ => P "{" :: flat_map sel_tokens subs ++ [P "}"] end
  end.
Definition doc_tokens (d : document) : list token :=
  TName (d_kind d) :: TName (d_name d) :: P "{" :: flat_map sel_tokens (d_sels d) ++ [P "}"].

(** The server reads the text as the document. *)
Definition asks (text : list Z) (d : document) : Prop := lexes text (doc_tokens d).

(** Abbreviations. *)
Definition nm (s : string) : list Z := str_bytes s.
Definition field (n : string) : sel := Sel None (nm n) [] [].
Definition node (n : string) (subs : list sel) : sel := Sel None (nm n) [] subs.

(** The call of a mutation with one input object, as the API documents it. *)
Definition call (alias : option (list Z)) (n : string) (input : list (list Z * arg)) (subs : list sel) : sel :=
  Sel alias (nm n) [(nm "input", AObj input)] subs.
Definition mutation (sels : list sel) : document :=
  {| d_kind := nm "mutation"; d_name := nm "MyMutation"; d_sels := sels |}.
Definition query (n : string) (sels : list sel) : document :=
  {| d_kind := nm "query"; d_name := nm n; d_sels := sels |}.
