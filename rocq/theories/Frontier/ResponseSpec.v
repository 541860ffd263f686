(** What an answer of the berkeley API says about the accounts in it,
    independently of the code. *)

From Coq Require Import String ZArith List Sorted.
From Verif Require Import Lib.Vec Lib.Bytes Text.Base58 Text.FieldText Text.FieldTextProps Json.Json GraphQL.GraphQLSpec Hashing.State Merkle.Tree Merkle.MerkleSpec.
Import ListNotations.
Local Open Scope string_scope.
Local Open Scope list_scope.
Local Open Scope Z_scope.

Definition fp_text (s : list Z) (x : Z) : Prop := denotes s x /\ x < FP_MODULUS.
Definition nothing (j : json) (k : string) : Prop := forall v, has j k v -> v = JNull.
(** [node_answer j (true, h)]: the way goes up from a left child, the hash [h]
    is that of its sibling. *)
Definition node_answer (j : json) (d : bool * Z) : Prop :=
  exists s, fp_text s (snd d) /\
    if fst d then (has j "left" (JStr s) /\ nothing j "right") \/ j = JArr [JStr s; JNull]
    else (nothing j "left" /\ has j "right" (JStr s)) \/ j = JArr [JNull; JStr s].
(** The proof of an account: its leaf hash at the place that the directions
    say, with the siblings on the way. *)
Definition account_says (v : json) (p : proof Z Z) : Prop :=
  exists l ds s, has v "merklePath" (JArr l) /\ Forall2 node_answer l ds /\ ds <> [] /\ has v "leafHash" (JStr s) /\ fp_text s (p_item p) /\
    p_index p = 2 ^ zlen ds - 1 + position (map fst ds) /\
    p_peer_indices p = sibling_indices (List.length ds) (p_index p) /\ p_peer_hashes p = map (fun d => Some (snd d)) ds.
Section Answer.
  Variable checksum : list Z -> list Z.
  Definition address (k : list Z) : Prop := exists p, key_text checksum k p.
  (** One proof for every member whose name is an address. *)
  Inductive accounts : list (list Z * json) -> list (proof Z Z) -> Prop :=
  | A_nil : accounts [] []
  | A_other : forall k v m ps, ~ address k -> accounts m ps -> accounts ((k, v) :: m) ps
  | A_account : forall k v m p ps, address k -> account_says v p -> accounts m ps -> accounts ((k, v) :: m) (p :: ps).
  Definition best_state (j : json) (s : state) : Prop :=
    exists b rest q, has j "bestChain" (JArr (b :: rest)) /\ has b "protocolState" q /\ state_answer checksum q s /\ fixed_state s.
End Answer.
(** No account has a path of more than 62 nodes. *)
Definition short_paths (m : list (list Z * json)) : Prop :=
  forall k v l, In (k, v) m -> has v "merklePath" (JArr l) -> (List.length l <= 62)%nat.
(** The hashes of an account are below the modulus of the field, and its path
    has 1 to 62 nodes. *)
Definition in_field (s : list Z) : Prop := forall n, denotes s n -> n < FP_MODULUS.
Definition has_text (x : json) (s : list Z) : Prop := has x "left" (JStr s) \/ has x "right" (JStr s) \/ exists l, x = JArr l /\ In (JStr s) l.
Definition harmless (v : json) : Prop :=
  (forall l, has v "merklePath" (JArr l) -> (1 <= List.length l <= 62)%nat /\ forall x s, In x l -> has_text x s -> in_field s) /\
  (forall s, has v "leafHash" (JStr s) -> in_field s).
(** The order of byte strings. *)
Inductive lex : list Z -> list Z -> Prop :=
| X_nil : forall b l, lex [] (b :: l)
| X_less : forall a b l l', a < b -> lex (a :: l) (b :: l')
| X_more : forall a l l', lex l l' -> lex (a :: l) (a :: l').
Definition by_name (m : list (list Z * json)) : Prop := StronglySorted (fun p q => lex (fst p) (fst q)) m.
(** What [Value] keeps of a document: of the members with one name the last,
    and the members by name. *)
Definition is_last (m : list (list Z * json)) (k : list Z) (v : json) : Prop := exists a b, m = a ++ (k, v) :: b /\ ~ In k (map fst b).
Inductive kept : json -> json -> Prop :=
| K_leaf : forall j, match j with JArr _ | JObj _ => False | _ => True end -> kept j j
| K_arr : forall l l', Forall2 kept l l' -> kept (JArr l) (JArr l')
| K_obj : forall m m1 m', (forall k v, In (k, v) m1 <-> is_last m k v) -> Forall2 (fun p q => fst p = fst q /\ kept (snd p) (snd q)) m1 m' -> by_name m' ->
    kept (JObj m) (JObj m').
