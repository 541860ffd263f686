(** [serde_json]'s reading and writing of texts, which is called by
    [JsonSerializationType] (/repo/protocol/serialization-types/src/
    type_annotations.rs 39-49) and [impl_strconv_via_json] (macros.rs 15-42).
    The library (version 1, features of /repo/Cargo.toml 36) is modelled from
    its published behaviour.

    The reader makes a tree with the numbers as they are written and the
    members of objects in order.  Simplified: a member that nobody asks for is
    skipped by the library with fewer checks (surrogates in escapes). *)

From Coq Require Import String ZArith List Bool.
From Verif Require Import Lib.Bytes Lib.Decimal Text.Base58 Proto.PbSpec Json.Json.
From Verif Require Import Json.Grammar.
Import ListNotations.
Local Open Scope string_scope.
Local Open Scope list_scope.
Local Open Scope Z_scope.

(** ** Reading *)
Definition is_white (c : Z) : bool := (c =? 32) || (c =? 9) || (c =? 10) || (c =? 13).
Fixpoint skip (s : list Z) : list Z := match s with c :: s' => if is_white c then skip s' else s | [] => [] end.
Fixpoint strip (p s : list Z) : option (list Z) :=
  match p, s with
  | [], _ => Some s
  | a :: p', b :: s' => if a =? b then strip p' s' else None
  | _, _ => None
  end.
Fixpoint span (s : list Z) : list Z * list Z :=
  match s with
  | c :: s' => if is_digit c then let (a, b) := span s' in (c :: a, b) else ([], s)
  | [] => ([], [])
  end.
Definition p_minus (s : list Z) : list Z * list Z := match s with c :: r => if c =? 45 then ([45], r) else ([], s) | [] => ([], []) end.
(** a zero is not followed by a digit; here the digit is left over *)
Definition p_whole (s : list Z) : option (list Z * list Z) :=
  match s with
  | c :: r => if c =? 48 then Some ([48], r) else if is_digit c then let (ds, r') := span r in Some (c :: ds, r') else None
  | [] => None
  end.
Definition p_fraction (s : list Z) : option (list Z * list Z) :=
  match s with
  | c :: r => if c =? 46 then let (ds, r') := span r in match ds with [] => None | _ => Some (46 :: ds, r') end else Some ([], s)
  | [] => Some ([], [])
  end.
Definition p_sign (s : list Z) : list Z * list Z := match s with c :: r => if (c =? 43) || (c =? 45) then ([c], r) else ([], s) | [] => ([], []) end.
Definition p_exponent (s : list Z) : option (list Z * list Z) :=
  match s with
  | c :: r =>
    if (c =? 101) || (c =? 69) then
      let (sg, r1) := p_sign r in let (ds, r2) := span r1 in
      match ds with [] => None | _ => Some (c :: sg ++ ds, r2) end
    else Some ([], s)
  | [] => Some ([], [])
  end.
Definition p_num (s : list Z) : option (list Z * list Z) :=
  let (sg, s1) := p_minus s in
  match p_whole s1 with
  | None => None
  | Some (i, s2) =>
    match p_fraction s2 with
    | None => None
    | Some (f, s3) => match p_exponent s3 with None => None | Some (e, s4) => Some (sg ++ i ++ f ++ e, s4) end
    end
  end.

Definition p_hex (c : Z) : option Z :=
  if (48 <=? c) && (c <=? 57) then Some (c - 48) else if (65 <=? c) && (c <=? 70) then Some (c - 55)
  else if (97 <=? c) && (c <=? 102) then Some (c - 87) else None.
Definition p_hex4 (a b c d : Z) : option Z :=
  match p_hex a, p_hex b, p_hex c, p_hex d with
  | Some w, Some x, Some y, Some z => Some (((w * 16 + x) * 16 + y) * 16 + z)
  | _, _, _, _ => None
  end.
Definition p_short (c : Z) : option Z :=
  if c =? 34 then Some 34 else if c =? 92 then Some 92 else if c =? 47 then Some 47 else if c =? 98 then Some 8
  else if c =? 102 then Some 12 else if c =? 110 then Some 10 else if c =? 114 then Some 13 else if c =? 116 then Some 9 else None.
Definition before (l : list Z) (r : option (list Z * list Z)) : option (list Z * list Z) :=
  match r with Some (l', s) => Some (l ++ l', s) | None => None end.
(** the characters up to the quotation mark *)
Fixpoint p_str (s : list Z) : option (list Z * list Z) :=
  match s with
  | [] => None
  | c :: s1 =>
    if c =? 34 then Some ([], s1)
    else if c =? 92 then
      match s1 with
      | [] => None
      | e :: s2 =>
        if e =? 117 then
          match s2 with
          | h1 :: h2 :: h3 :: h4 :: s3 =>
            match p_hex4 h1 h2 h3 h4 with
            | None => None
            | Some n =>
              if (0xd800 <=? n) && (n <? 0xdc00) then
                match s3 with
                | x :: y :: k1 :: k2 :: k3 :: k4 :: s4 =>
                  if (x =? 92) && (y =? 117) then
                    match p_hex4 k1 k2 k3 k4 with
                    | Some m =>
                      if (0xdc00 <=? m) && (m <? 0xe000) then before (utf8_point (0x10000 + (n - 0xd800) * 0x400 + (m - 0xdc00))) (p_str s4) else None
                    | None => None
                    end
                  else None
                | _ => None
                end
              else if (0xdc00 <=? n) && (n <? 0xe000) then None
              else before (utf8_point n) (p_str s3)
            end
          | _ => None
          end
        else match p_short e with Some v => before [v] (p_str s2) | None => None end
      end
    else if (32 <=? c) && (c <? 256) then before [c] (p_str s1) else None
  end.

Fixpoint p_val (n : nat) (s : list Z) {struct n} : option (raw * list Z) :=
  match n with
  | O => None
  | S n =>
    match s with
    | [] => None
    | c :: r =>
      if c =? 34 then match p_str r with Some (l, r') => Some (RStr l, r') | None => None end
      else if c =? 91 then
        match strip [93] (skip r) with
        | Some r' => Some (RArr [], r')
        | None => match p_elems n r with Some (l, r') => Some (RArr l, r') | None => None end
        end
      else if c =? 123 then
        match strip [125] (skip r) with
        | Some r' => Some (RObj [], r')
        | None => match p_members n r with Some (m, r') => Some (RObj m, r') | None => None end
        end
      else
        match strip (str_bytes "null") s with
        | Some r => Some (RNull, r)
        | None =>
          match strip (str_bytes "true") s with
          | Some r => Some (RBool true, r)
          | None =>
            match strip (str_bytes "false") s with
            | Some r => Some (RBool false, r)
            | None => match p_num s with Some (t, r) => Some (RNum t, r) | None => None end
            end
          end
        end
    end
  end
with p_elems (n : nat) (s : list Z) {struct n} : option (list raw * list Z) :=
  match n with
  | O => None
  | S n =>
    match p_val n (skip s) with
    | None => None
    | Some (v, r) =>
      match skip r with
      | x :: r' =>
        if x =? 93 then Some ([v], r')
        else if x =? 44 then match p_elems n r' with Some (l, r'') => Some (v :: l, r'') | None => None end
        else None
      | [] => None
      end
    end
  end
with p_members (n : nat) (s : list Z) {struct n} : option (list (list Z * raw) * list Z) :=
  match n with
  | O => None
  | S n =>
    match strip [34] (skip s) with
    | None => None
    | Some s1 =>
      match p_str s1 with
      | None => None
      | Some (k, s2) =>
        match strip [58] (skip s2) with
        | None => None
        | Some s3 =>
          match p_val n (skip s3) with
          | None => None
          | Some (v, r) =>
            match skip r with
            | x :: r' =>
              if x =? 125 then Some ([(k, v)], r')
              else if x =? 44 then match p_members n r' with Some (m, r'') => Some ((k, v) :: m, r'') | None => None end
              else None
            | [] => None
            end
          end
        end
      end
    end
  end.
Definition parse (s : list Z) : option raw :=
  match p_val (S (2 * List.length s)) (skip s) with
  | Some (r, s') => match skip s' with [] => Some r | _ => None end
  | None => None
  end.

(** ** Writing, without spaces *)
Definition hex_digit (v : Z) : Z := if v <? 10 then 48 + v else 87 + v.
(** [format_escaped_str_contents] with its table ESCAPE *)
Definition escape (c : Z) : list Z :=
  if c =? 34 then [92; 34] else if c =? 92 then [92; 92] else if c =? 8 then [92; 98] else if c =? 12 then [92; 102]
  else if c =? 10 then [92; 110] else if c =? 13 then [92; 114] else if c =? 9 then [92; 116]
  else if c <? 32 then [92; 117; 48; 48; hex_digit (c / 16); hex_digit (c mod 16)] else [c].
Definition print_str (s : list Z) : list Z := 34 :: flat_map escape s ++ [34].
Definition print_int (z : Z) : list Z := if z <? 0 then 45 :: dec (- z) else dec z.
Section Print.
  (** the shortest decimal form of a float, by the library ryu *)
  Variable float_text : Z -> list Z.
  Definition joined (l : list (list Z)) : list Z := match l with [] => [] | x :: l => x ++ flat_map (fun y => 44 :: y) l end.
  Fixpoint print (j : json) : list Z :=
    match j with
    | JNull => str_bytes "null"
    | JBool b => str_bytes (if b then "true" else "false")
    | JNum z => print_int z
    | JFloat b => float_text b
    | JStr s => print_str s
    | JArr l => 91 :: joined (map print l) ++ [93]
    | JObj m => 123 :: joined (map (fun p : list Z * json => let (k, j) := p in print_str k ++ 58 :: print j) m) ++ [125]
    end.
End Print.
