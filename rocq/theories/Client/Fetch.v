(** Model of fetching the best chain and the latest blocks:
    - /repo/network/js/graphql_berkeley_utils.js:8-130
    - /repo/network/js/graphql_v1_utils.js:8-66
    - /repo/network/src/processor/js/graphql_api_berkeley.rs:14-98
    - /repo/network/src/processor/js/graphql_api_v1.rs:14-104

    An answer of the network is a JSON value or a failure.  JSON numbers pass
    through JavaScript unchanged here (in the code, integers above 2^53 are
    rounded; no number is read from an answer).  Members named like a built-in
    property ("length", "__proto__") are not treated specially. *)
From Coq Require Import String ZArith List Bool.
From Verif Require Import Lib.Res Lib.Bytes Lib.Decimal Json.Json GraphQL.GraphQL Client.Query.
Import ListNotations.
Local Open Scope string_scope.
Local Open Scope list_scope.
Local Open Scope Z_scope.

(** ** The JavaScript part *)

(** graphql_berkeley_utils.js:8-18, graphql_v1_utils.js:8-18: the parameter is
    shadowed by the loop variable, so there are always three attempts.  An
    attempt that throws is [None]; the attempts are the list, in order, of what
    the network does. *)
Fixpoint retry_loop {A} (n : nat) (attempts : list (option A)) : option A :=
  match n, attempts with
  | O, _ => None
  | S _, [] => None
  | S n', Some a :: _ => Some a
  | S n', None :: l => retry_loop n' l
  end.
Definition retry {A} (attempts : list (option A)) : option A := retry_loop 3 attempts.

(** A JavaScript value that came out of JSON; [None] is undefined. *)
Definition jsv : Type := option json.
Fixpoint member (k : list Z) (m : list (list Z * json)) : option json :=
  match m with
  | [] => None
  | (k', j) :: m' => if key_eqb k' k then Some j else member k m'
  end.
(** [v.k]: throws ([None]) on null and undefined. *)
Definition prop (v : jsv) (k : string) : option jsv :=
  match v with
  | None => None
  | Some JNull => None
  | Some (JObj m) => Some (member (str_bytes k) m)
  | Some _ => Some None
  end.
(** [v[0]] *)
Definition first (v : jsv) : option jsv :=
  match v with
  | None => None
  | Some JNull => None
  | Some (JArr l) => Some (hd_error l)
  | Some (JObj m) => Some (member (str_bytes "0") m)
  | Some (JStr s) => Some (match s with [] => None | c :: _ => Some (JStr [c]) end)
  | Some _ => Some None
  end.

Fixpoint set_member (k : list Z) (v : json) (m : list (list Z * json)) : list (list Z * json) :=
  match m with
  | [] => [(k, v)]
  | (k', j) :: m' => if key_eqb k' k then (k', v) :: m' else (k', j) :: set_member k v m'
  end.
Definition drop_member (k : list Z) (m : list (list Z * json)) : list (list Z * json) :=
  filter (fun e => negb (key_eqb (fst e) k)) m.
(** [o.k = v] as [JSON.stringify] shows it: an undefined member is left out, a
    member of an array or of what is no object is not shown. *)
Definition assign (k : string) (v : jsv) (o : json) : json :=
  match o with
  | JObj m => JObj (match v with Some x => set_member (str_bytes k) x m | None => drop_member (str_bytes k) m end)
  | _ => o
  end.
(** Change the value found under a key, or at the first place. *)
Definition inside (k : string) (f : json -> json) (o : json) : json :=
  match o with
  | JObj m => match member (str_bytes k) m with Some x => JObj (set_member (str_bytes k) (f x) m) | None => o end
  | _ => o
  end.
Definition inside_first (f : json -> json) (o : json) : json :=
  match o with
  | JArr (x :: l) => JArr (f x :: l)
  | JObj _ => inside "0" f o
  | _ => o
  end.

Definition obind {A B} (x : option A) (f : A -> option B) : option B := match x with Some a => f a | None => None end.
Definition nullish (v : jsv) : bool := match v with None => true | Some JNull => true | _ => false end.

(** graphql_berkeley_utils.js:113-118 *)
Definition patch (answer : json) : option json :=
  obind (prop (Some answer) "data") (fun data =>
  obind (prop data "bestChain") (fun chain =>
  obind (first chain) (fun b0 =>
  obind (prop b0 "protocolState") (fun ps =>
  obind (prop ps "blockchainState") (fun bs =>
  obind (prop data "genesisBlock") (fun g =>
  obind (prop g "protocolState") (fun gps =>
  obind (prop gps "blockchainState") (fun gbs =>
  obind (prop gbs "snarkedLedgerHash") (fun h =>
  if nullish bs then None
  else match data with
       | Some d => Some (inside "bestChain" (inside_first (inside "protocolState" (inside "blockchainState"
                     (assign "genesisLedgerHash" h)))) d)
       | None => None
       end))))))))).

(** A POST request and its answer. *)
Record post := { po_url : list Z; po_body : json }.
(** graphql_berkeley_utils.js:103-112 *)
Definition chain_post (endpoint : list Z) (accounts : list (list Z)) : post :=
  {| po_url := endpoint;
     po_body := JObj [(str_bytes "operationName", JStr (str_bytes "Query")); (str_bytes "query", JStr (best_chain_query accounts))] |}.

(** The answers of the network to three attempts at the same request. *)
Definition network : Type := post -> list (option json).

(** graphql_berkeley_utils.js:20-131; graphql_api_berkeley.rs:25-38.  The text
    made by [JSON.stringify] is parsed again to the same value. *)
Definition fetch_best_chain (net : network) (endpoint : list Z) (accounts : list (list Z)) : option json :=
  retry (map (fun a => obind a patch) (net (chain_post endpoint accounts))).

(** ** The backends *)

(** graphql_api_berkeley.rs:64-75: what is sent to the processor, and
    whether the call succeeds.  Sending never fails while the processor exists.
    [apis] is the set of endpoints in the order of iteration. *)
Fixpoint berkeley_poll (fetch : list Z -> option json) (apis : list (list Z)) : list json * bool :=
  match apis with
  | [] => ([], true)
  | e :: rest =>
    match fetch e with
    | None => ([], false)
    | Some b => let (bs, ok) := berkeley_poll fetch rest in (b :: bs, ok)
    end
  end.

(** graphql_api_berkeley.rs:86-96: the request is not looked at. *)
Definition berkeley_query (fetch : list Z -> option json) (apis : list (list Z)) (height : Z) (hash : list Z) : list json * bool :=
  berkeley_poll fetch apis.

(** graphql_api_v1.rs:48-58 *)
Record block_info := { bi_height : Z; bi_hash : list Z }.
(** graphql_v1_utils.js:20-35, with the default network *)
Definition block_url (height : Z) (hash : list Z) : list Z :=
  str_bytes "https://storage.googleapis.com/mina_network_block_data/mainnet-" ++ dec height ++ str_bytes "-" ++ hash ++ str_bytes ".json".

Section V1.
  (** [None] if the latest blocks cannot be asked for or the answer cannot be
      read; [fetch] as a function of the address of the block. *)
  Variable latest : option (list block_info).
  Context {B : Type}.
  Variable fetch : list Z -> option B.
  Definition fetch_info (b : block_info) : option B := fetch (block_url (bi_height b) (bi_hash b)).
  Fixpoint v1_send (bs : list block_info) : list B :=
    match bs with
    | [] => []
    | b :: rest => match fetch_info b with Some x => x :: v1_send rest | None => v1_send rest end
    end.
  (** graphql_api_v1.rs:72-85 *)
  Definition v1_poll : list B * bool :=
    match latest with
    | None => ([], false)
    | Some bs => (v1_send bs, true)
    end.
  (** graphql_api_v1.rs:96-102 *)
  Definition v1_query (height : Z) (hash : list Z) : list B * bool :=
    match fetch (block_url height hash) with Some x => ([x], true) | None => ([], false) end.
End V1.
