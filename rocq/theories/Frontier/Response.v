(** The answers of the berkeley API, from their text to a protocol state with
    account proofs: [fetch_best_chain_json] (/repo/network/src/processor/js/
    graphql_api_berkeley.rs 24-38) after the fetch, and [TryFrom<&Value>] of
    [ProtocolStateWithSparseMerkleLedger] (/repo/network/src/processor/
    naive_transition_frontier.rs 128-151) with the JSON form of [MerklePath]
    (/repo/merkle/src/path.rs 11-37).  The model of Frontier/Frontier.v starts
    behind these readers. *)

From Coq Require Import String ZArith List Bool.
From Verif Require Import Lib.Res Lib.Bytes Text.Base58 Text.Checksum Text.FieldText Json.Json Json.Grammar Json.Parse Json.JsonText
  Hashing.State GraphQL.GraphQL Merkle.Tree.
Import ListNotations.
Local Open Scope string_scope.
Local Open Scope list_scope.
Local Open Scope Z_scope.

Inductive rerr : Set := RJson | RState | RPath | RLeaf | RProof.
Definition as_err {E A : Type} (e : rerr) (x : res E A) : res rerr A := match x with Ok a => Ok a | Err _ => Err e | Panic => Panic end.

(** path.rs 11-17: the derived [Deserialize] on a [Value], with [FpJson]
    (/repo/proof-systems-shim/src/fp.rs 26-39).  A missing member is none.  The
    members of the map come in order, "left" first. *)
Definition hash_of_json (j : json) : res rerr Z := match j with JStr s => as_err RPath (fp_json_de s) | _ => Err RPath end.
Definition option_hash (j : json) : res rerr (option Z) := match j with JNull => Ok None | _ => let* h := hash_of_json j in Ok (Some h) end.
Definition two (a b : json) : res rerr (path_node Z) :=
  let* l := option_hash a in
  let* r := option_hash b in
  Ok {| pn_left := l; pn_right := r |}.
Definition node_of (j : json) : res rerr (path_node Z) :=
  match j with
  | JObj _ => two (index j "left") (index j "right")
  | JArr [a; b] => two a b
  | _ => Err RPath
  end.
(** 35-37 *)
Definition path_of (j : json) : res rerr (list (path_node Z)) := match j with JArr l => mapM node_of l | _ => Err RPath end.
(** [json[0]] *)
Definition first (j : json) : json := match j with JArr (x :: _) => x | _ => JNull end.

Section Response.
  Variable checksum : list Z -> list Z.
  Variable checked : bool.
  Variable float_of : list Z -> option Z.
  (** naive_transition_frontier.rs 138-147 *)
  Definition account_proof (v : json) : res rerr (proof Z Z) :=
    let* path := path_of (index v "merklePath") in
    let* leaf := as_err RLeaf (fp_from_radix_10 (as_str (index v "leafHash"))) in
    as_err RProof (to_proof checked path leaf).
  Fixpoint account_proofs (m : list (list Z * json)) : res rerr (list (proof Z Z)) :=
    match m with
    | [] => Ok []
    | (k, v) :: m' =>
      match from_address checksum k with
      | Some _ => let* p := account_proof v in let* ps := account_proofs m' in Ok (p :: ps)
      | None => account_proofs m'
      end
    end.
  (** 131-150 *)
  Definition answer_of (j : json) : res rerr (state * list (proof Z Z)) :=
    let* s := as_err RState (state_of checksum checked (index (first (index j "bestChain")) "protocolState")) in
    let* ps := match j with JObj m => account_proofs m | _ => Ok [] end in
    Ok (s, ps).
  (** graphql_api_berkeley.rs 35-37, then [try_from] *)
  Definition answer_of_text (t : list Z) : res rerr (state * list (proof Z Z)) :=
    match parse t with
    | Some r =>
      match value_of float_of r with
      | Some j => if (depth r <=? MAX_DEPTH)%nat then answer_of j else Err RJson
      | None => Err RJson
      end
    | None => Err RJson
    end.
End Response.
