(** Wallet files as texts, described independently of the code. *)

From Coq Require Import String ZArith List.
From Verif Require Import Lib.Bytes Text.Base58 Json.Grammar Secrets.SecretBoxSpec.
From Verif Require Import Json.TextSpec.
Import ListNotations.
Local Open Scope string_scope.
Local Open Scope list_scope.
Local Open Scope Z_scope.

(** The only member of that name. *)
Definition only (m : list (list Z * raw)) (k : string) (r : raw) : Prop :=
  exists a b, m = a ++ (str_bytes k, r) :: b /\ ~ In (str_bytes k) (map fst a) /\ ~ In (str_bytes k) (map fst b).
(** The six members by name, among others, or as a list. *)
Definition tree_members (r a b c d e f : raw) : Prop :=
  r = RArr [a; b; c; d; e; f] \/
  exists m, r = RObj m /\
    only m "box_primitive" a /\ only m "pw_primitive" b /\ only m "nonce" c /\ only m "pwsalt" d /\ only m "pwdiff" e /\ only m "ciphertext" f.
Definition i64_text (r : raw) (z : Z) : Prop := exists t, r = RNum t /\ int_text t z /\ i64 z.
(** The six parts of a wallet file. *)
Definition wallet_parts (s prim pw ns ss : list Z) (mem ops : Z) (cs : list Z) : Prop :=
  exists r x y, json_text s r /\ tree_members r (RStr prim) (RStr pw) (RStr ns) (RStr ss) (RArr [x; y]) (RStr cs) /\ i64_text x mem /\ i64_text y ops.
(** A wallet file with a nonce, a salt, a memory limit in bytes, a number of
    passes and a ciphertext. *)
Definition wallet_text (checksum : list Z -> list Z) (s nonce salt : list Z) (mem ops : Z) (ct : list Z) : Prop :=
  exists ns ss cs, wallet_parts s (str_bytes "xsalsa20poly1305") (str_bytes "argon2i") ns ss mem ops cs /\
    text58 checksum ns nonce /\ text58 checksum ss salt /\ text58 checksum cs ct.
(** The text that is written: eleven lines. *)
Definition quoted (s : list Z) : list Z := 34 :: s ++ [34].
Definition member_line (k : string) (v : list Z) : list Z := 10 :: str_bytes "  " ++ quoted (str_bytes k) ++ str_bytes ": " ++ v.
Definition wallet_lines (ns ss mem ops cs : list Z) : list Z :=
  str_bytes "{" ++ member_line "box_primitive" (quoted (str_bytes "xsalsa20poly1305")) ++ str_bytes "," ++
  member_line "pw_primitive" (quoted (str_bytes "argon2i")) ++ str_bytes "," ++ member_line "nonce" (quoted ns) ++ str_bytes "," ++
  member_line "pwsalt" (quoted ss) ++ str_bytes "," ++ member_line "pwdiff" (str_bytes "[") ++
  10 :: str_bytes "    " ++ mem ++ str_bytes "," ++ 10 :: str_bytes "    " ++ ops ++ 10 :: str_bytes "  ]" ++ str_bytes "," ++
  member_line "ciphertext" (quoted cs) ++ 10 :: str_bytes "}".
