(** Model of /repo/network/src/processor/naive_transition_frontier.rs: the
    transition frontier of both networks, the block verification it calls and
    the conversion of a GraphQL response.

    Simplifications: the block requester (65, never used by [add_block]) is left
    out; a command's own check is a parameter; the result of parsing parts of a
    JSON value is part of the input (see [entry]). *)
From Coq Require Import ZArith List Bool.
From Verif Require Import Lib.Res Lib.Vec Consensus.Chain Merkle.Tree.
Import ListNotations.
Open Scope Z_scope.

(** Errors of [add_block]: the [ensure!] of line 112 or a consensus error. *)
Inductive ferr := VerificationFailure | Consensus (e : cerr).

(** [?] on a consensus result *)
Definition lift {A} (r : res cerr A) : res ferr A :=
  match r with Ok a => Ok a | Err e => Err (Consensus e) | Panic => Panic end.

Section Frontier.
Context {T P C : Type}.
Variable consensus_state : T -> cstate.
Variable state_hash_fp : T -> Z.
Variable digest : list Z -> list Z.
(** base/src/user_commands/mod.rs: verification of one command. *)
Variable command_ok : C -> bool.

(** base/src/external_transition.rs 17-32 and base/src/staged_ledger_diff.rs
    45-67: the parts of a block that are read here. *)
Record block := {
  protocol_state : T;
  diff_two : list C;
  diff_one : option (list C) }.

(** staged_ledger_diff.rs 71-82 *)
Definition pre_diff_verify (cmds : list C) : bool := forallb command_ok cmds.
(** staged_ledger_diff.rs 30-43, external_transition.rs 48-58 *)
Definition block_verify (b : block) : bool :=
  match diff_one b with
  | Some d => pre_diff_verify d && pre_diff_verify (diff_two b)
  | None => pre_diff_verify (diff_two b)
  end.

(** naive_transition_frontier.rs 64-75 *)
Record frontier := {
  best_chain : chain T;
  sparse_merkle_ledger : list P }.
(** 83-89 *)
Definition new_frontier : frontier := {| best_chain := []; sparse_merkle_ledger := [] |}.

(** [if best_chain.length() < 1 { push } else { select_secure_chain }] of lines
    113-118 and 173-179. *)
Definition extend (checked : bool) (c : chain T) (s : T) : chain T * res cerr unit :=
  if chain_length consensus_state c <? 1 then push consensus_state checked c s
  else select_secure_chain consensus_state state_hash_fp digest checked c [[s]].

(** 110-122, mainnet *)
Definition add_block_mainnet (checked : bool) (f : frontier) (b : block) : frontier * res ferr unit :=
  if block_verify b then
    let (c, r) := extend checked (best_chain f) (protocol_state b) in
    ({| best_chain := c; sparse_merkle_ledger := sparse_merkle_ledger f |}, lift r)
  else (f, Err VerificationFailure).

(** 169-184, berkeley: the block is a protocol state with account proofs. *)
Definition add_block_berkeley (checked : bool) (f : frontier) (b : T * list P) : frontier * res ferr unit :=
  let (s, proofs) := b in
  let h := state_hash_fp s in
  if chain_length consensus_state (best_chain f) <? 1 then
    match push consensus_state checked (best_chain f) s with
    | (c, Ok _) => ({| best_chain := c; sparse_merkle_ledger := proofs |}, Ok tt)
    | (c, r) => ({| best_chain := c; sparse_merkle_ledger := sparse_merkle_ledger f |}, lift r)
    end
  else
    match select_secure_chain consensus_state state_hash_fp digest checked (best_chain f) [[s]] with
    | (c, Ok _) =>
      ({| best_chain := c;
          sparse_merkle_ledger :=
            match state_hash state_hash_fp c with
            | Some h' => if h' =? h then proofs else sparse_merkle_ledger f
            | None => sparse_merkle_ledger f
            end |}, Ok tt)
    | (c, r) => ({| best_chain := c; sparse_merkle_ledger := sparse_merkle_ledger f |}, lift r)
    end.
End Frontier.
Arguments block : clear implicits.
Arguments frontier : clear implicits.

(** 128-151: one member of the JSON object.  [e_address] is the outcome of
    [CompressedPubKey::from_address(key)], [e_path] that of parsing "merklePath",
    [e_leaf] that of [fp_from_radix_10] on "leafHash" (which can panic).  The
    readers themselves are in Response.v; a hash in the path can panic too. *)
Section Response.
Context {S H : Type}.
Record entry := {
  e_address : bool;
  e_path : option (list (path_node H));
  e_leaf : res merkle_error H }.
Fixpoint response_proofs (checked : bool) (es : list entry) : res merkle_error (list (proof H H)) :=
  match es with
  | [] => Ok []
  | e :: es' =>
    if e_address e then
      match e_path e with
      | None => Err InvalidNode
      | Some path =>
        let* leaf := e_leaf e in
        let* p := to_proof checked path leaf in
        let* ps := response_proofs checked es' in
        Ok (p :: ps)
      end
    else response_proofs checked es'
  end.
Definition try_from_response (checked : bool) (state : res merkle_error S) (es : list entry)
  : res merkle_error (S * list (proof H H)) :=
  let* s := state in
  let* ps := response_proofs checked es in
  Ok (s, ps).
End Response.
Arguments entry : clear implicits.
