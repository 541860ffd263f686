(** Model of /repo/consensus/src/common.rs: chains of protocol states and the
    selection between them.

    Simplifications: a block is any type with a consensus state and a state
    hash (trait ProtocolStateHeader, /repo/base/src/protocol_state.rs 169-182);
    only the fields of the consensus state that this file reads are kept; hashes
    of checkpoints are byte strings; field elements are the integers that their
    order compares ([Fp: Ord] compares canonical representatives).  The Blake2b
    digest of a VRF output (consensus_state.rs 36-41) is a parameter. *)
From Coq Require Import ZArith List Bool.
From Verif Require Import Lib.Res Lib.Vec Lib.Hex.
Import ListNotations.
Open Scope Z_scope.

(** error.rs 12-47, the cases used *)
Inductive cerr := InvalidHeight | TopBlockNotFound | ConsensusStateNotFound | CandidatesMissingSubWindowDensities.

(** u32 addition: panics or wraps. *)
Definition u32_max : Z := 2 ^ 32 - 1.
Definition add32 {E} (checked : bool) (a b : Z) : res E Z :=
  if a + b <=? u32_max then Ok (a + b) else if checked then Panic else Ok ((a + b) mod 2 ^ 32).

(** common.rs 36-46 *)
Definition slots_per_epoch_const : Z := 7140.
Definition slots_per_sub_window : Z := 7.
Definition sub_windows_per_window : Z := 11.
Definition grace_period_end : Z := 1440.

(** base/src/consensus_state.rs 134-170, base/src/global_slot.rs 16-21,
    base/src/epoch_data.rs ([lock_checkpoint] of both epochs) *)
Record cstate := {
  blockchain_length : Z;
  epoch_count : Z;
  min_window_density : Z;
  sub_window_densities : list Z;
  last_vrf_output : list Z;
  slot_number : Z;
  slots_per_epoch : Z;
  staking_lock : list Z;
  next_lock : list Z }.

Definition bytes_eqb (a b : list Z) : bool := match lex a b with Eq => true | _ => false end.

Section Chain.
Context {T : Type}.
Variable consensus_state : T -> cstate.
Variable state_hash_fp : T -> Z.
Variable digest : list Z -> list Z.

(** common.rs 57-59 *)
Definition chain := list T.

(** base/src/protocol_state.rs 185-187, 270-272 *)
Definition get_height (b : T) : Z := blockchain_length (consensus_state b).

(** common.rs 83-85 *)
Definition top (c : chain) : option T := last (map Some c) None.

(** common.rs 66-78: the new chain and the result. *)
Definition push (checked : bool) (c : chain) (new : T) : chain * res cerr unit :=
  match top c with
  | None => (c ++ [new], Ok tt)
  | Some b =>
    match add32 checked (get_height b) 1 with
    | Ok h => if get_height new =? h then (c ++ [new], Ok tt) else (c, Err InvalidHeight)
    | Err e => (c, Err e)
    | Panic => (c, Panic)
    end
  end.

(** common.rs 89-91 *)
Definition chain_state (c : chain) : option cstate := option_map consensus_state (top c).
(** common.rs 94-96 *)
Definition genesis_block (c : chain) : option T := hd_error c.
(** common.rs 106-109: the remainder panics when the divisor is 0, in every build. *)
Definition epoch_slot (c : chain) : res cerr (option Z) :=
  match chain_state c with
  | None => Ok None
  | Some s => if slots_per_epoch s =? 0 then Panic else Ok (Some (slot_number s mod slots_per_epoch s))
  end.
(** common.rs 112-116 *)
Definition chain_length (c : chain) : Z :=
  match chain_state c with Some s => blockchain_length s | None => 0 end.
(** common.rs 120-127 *)
Definition last_vrf_hash_digest (c : chain) : res cerr (list Z) :=
  match chain_state c with
  | None => Err TopBlockNotFound
  | Some s => Ok (to_hex (digest (last_vrf_output s)))
  end.
(** common.rs 131-133 *)
Definition state_hash (c : chain) : option Z := option_map state_hash_fp (top c).

Definition ok_or {A} (o : option A) (e : cerr) : res cerr A :=
  match o with Some a => Ok a | None => Err e end.

(** [>] on Option: None is least. *)
Definition opt_gt (a b : option Z) : bool :=
  match a, b with
  | Some x, Some y => y <? x
  | Some _, None => true
  | None, _ => false
  end.
Definition opt_ge (a b : option Z) : bool := negb (opt_gt b a).

(** common.rs 200-228; the result is the chain kept. *)
Definition select_longer_chain (self candidate : chain) : res cerr chain :=
  let* t := ok_or (chain_state self) ConsensusStateNotFound in
  let* c := ok_or (chain_state candidate) ConsensusStateNotFound in
  if blockchain_length t <? blockchain_length c then Ok candidate
  else if blockchain_length t =? blockchain_length c then
    let* dc := last_vrf_hash_digest candidate in
    let* ds := last_vrf_hash_digest self in
    match lex dc ds with
    | Gt => Ok candidate
    | Eq => if opt_gt (state_hash candidate) (state_hash self) then Ok candidate else Ok self
    | Lt => Ok self
    end
  else Ok self.

(** common.rs 240-249: the closure [check]. *)
Definition fork_check (checked : bool) (s1 s2 : cstate) (s2_epoch_slot : option Z) : res cerr bool :=
  let* e := add32 checked (epoch_count s2) 1 in
  Ok (if (epoch_count s1 =? e) && opt_ge s2_epoch_slot (Some (slots_per_epoch_const * 2 / 3))
      then bytes_eqb (staking_lock s1) (next_lock s2) else false).

(** common.rs 230-258 *)
Definition is_short_range (checked : bool) (self candidate : chain) : res cerr bool :=
  let* a := ok_or (chain_state self) ConsensusStateNotFound in
  let* b := ok_or (chain_state candidate) ConsensusStateNotFound in
  if epoch_count a =? epoch_count b then Ok (bytes_eqb (staking_lock a) (staking_lock b))
  else
    let* sb := epoch_slot candidate in
    let* x := fork_check checked a b sb in
    if x then Ok true
    else
      let* sa := epoch_slot self in
      fork_check checked b a sa.

(** common.rs 306-314: [n] rounds of the ring shift. *)
Fixpoint ring_shift (n : nat) (rel : Z) (w : list Z) : res cerr (list Z) :=
  match n with
  | O => Ok w
  | S n' =>
    let rel' := (rel + 1) mod sub_windows_per_window in
    match znth w rel' with
    | Some _ => ring_shift n' rel' (zset w rel' 0)
    | None => Err CandidatesMissingSubWindowDensities
    end
  end.

(** [Iterator::sum] on u32: panics or wraps. *)
Fixpoint sum32 (checked : bool) (acc : Z) (l : list Z) : res cerr Z :=
  match l with
  | [] => Ok acc
  | x :: l' => let* a := add32 checked acc x in sum32 checked a l'
  end.

(** common.rs 270-330 *)
Definition relative_min_window_density (checked : bool) (self chain_b : chain) : res cerr Z :=
  let* tip := ok_or (chain_state self) ConsensusStateNotFound in
  let* b := ok_or (chain_state chain_b) ConsensusStateNotFound in
  let max_slot := Z.max (slot_number tip) (slot_number b) in
  if max_slot <? grace_period_end then Ok (min_window_density tip)
  else
    let shift_count := Z.min (Z.max (max_slot - Z.max 0 (slot_number tip - 1)) 0) sub_windows_per_window in
    let rel := slot_number tip / sub_windows_per_window mod sub_windows_per_window in
    let* w := ring_shift (Z.to_nat shift_count) rel (sub_window_densities tip) in
    let* d := sum32 checked 0 w in
    Ok (Z.min (min_window_density tip) d).

(** common.rs 162-198, one round of the loop: the chain kept. *)
Definition select_one (checked : bool) (self candidate : chain) : res cerr chain :=
  let* short := is_short_range checked self candidate in
  if short then select_longer_chain self candidate
  else
    let* c := ok_or (chain_state candidate) ConsensusStateNotFound in
    if existsb (fun s => slots_per_sub_window <? s) (sub_window_densities c) then Ok self
    else if negb (zlen (sub_window_densities c) =? sub_windows_per_window) then Ok self
    else
      let* tip_density := relative_min_window_density checked self candidate in
      let* candidate_density := relative_min_window_density checked candidate self in
      match candidate_density ?= tip_density with
      | Gt => Ok candidate
      | Eq => select_longer_chain self candidate
      | Lt => Ok self
      end.

(** common.rs 162-198: an error leaves the chain chosen so far. *)
Fixpoint select_secure_chain (checked : bool) (self : chain) (candidates : list chain) : chain * res cerr unit :=
  match candidates with
  | [] => (self, Ok tt)
  | c :: cs =>
    match select_one checked self c with
    | Ok self' => select_secure_chain checked self' cs
    | Err e => (self, Err e)
    | Panic => (self, Panic)
    end
  end.
End Chain.
Arguments chain : clear implicits.
