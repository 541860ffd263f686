(** The expected values of the repository's own tests of chain selection
    (/repo/consensus/tests/{common,checkpoint,density}.rs), run on the model.

    A block is a consensus state and a state hash.  The fields are those of the
    fixtures in /repo/protocol/test-fixtures/src/data; a checkpoint hash and a
    VRF output are kept as the bytes of their text in the fixture, which tells
    them apart just as their bytes do. *)
From Coq Require Import String ZArith List Bool.
From Verif Require Import Lib.Res Lib.Bytes Lib.Hex Consensus.Chain.
Import ListNotations.
Local Open Scope list_scope.
Local Open Scope Z_scope.
Ltac tables := repeat match goal with |- _ /\ _ => split end; vm_compute; reflexivity.

Definition block : Type := cstate * Z.
Definition bcs (b : block) : cstate := fst b.
Definition bhash (b : block) : Z := snd b.

(** [ConsensusState::default()]: consensus_state.rs 132-170, all zero *)
Definition default_state : cstate :=
  {| blockchain_length := 0; epoch_count := 0; min_window_density := 0; sub_window_densities := [];
     last_vrf_output := []; slot_number := 0; slots_per_epoch := 0; staking_lock := []; next_lock := [] |}.
Definition with_length (s : cstate) (n : Z) : cstate :=
  {| blockchain_length := n; epoch_count := epoch_count s; min_window_density := min_window_density s;
     sub_window_densities := sub_window_densities s; last_vrf_output := last_vrf_output s;
     slot_number := slot_number s; slots_per_epoch := slots_per_epoch s;
     staking_lock := staking_lock s; next_lock := next_lock s |}.
Definition with_epoch (s : cstate) (n : Z) : cstate :=
  {| blockchain_length := blockchain_length s; epoch_count := n; min_window_density := min_window_density s;
     sub_window_densities := sub_window_densities s; last_vrf_output := last_vrf_output s;
     slot_number := slot_number s; slots_per_epoch := slots_per_epoch s;
     staking_lock := staking_lock s; next_lock := next_lock s |}.
Definition with_slot (s : cstate) (slot per : Z) : cstate :=
  {| blockchain_length := blockchain_length s; epoch_count := epoch_count s;
     min_window_density := min_window_density s; sub_window_densities := sub_window_densities s;
     last_vrf_output := last_vrf_output s; slot_number := slot; slots_per_epoch := per;
     staking_lock := staking_lock s; next_lock := next_lock s |}.
Definition with_window (s : cstate) (d : Z) (w : list Z) : cstate :=
  {| blockchain_length := blockchain_length s; epoch_count := epoch_count s; min_window_density := d;
     sub_window_densities := w; last_vrf_output := last_vrf_output s;
     slot_number := slot_number s; slots_per_epoch := slots_per_epoch s;
     staking_lock := staking_lock s; next_lock := next_lock s |}.
Definition with_locks (s : cstate) (staking next : string) : cstate :=
  {| blockchain_length := blockchain_length s; epoch_count := epoch_count s;
     min_window_density := min_window_density s; sub_window_densities := sub_window_densities s;
     last_vrf_output := last_vrf_output s; slot_number := slot_number s; slots_per_epoch := slots_per_epoch s;
     staking_lock := str_bytes staking; next_lock := str_bytes next |}.
Definition of_length (n : Z) : block := (with_length default_state n, 0).

(** tests/common.rs 12-49 *)
Fixpoint pushes (c : chain block) (bs : list block) : chain block * list (res cerr unit) :=
  match bs with
  | [] => (c, [])
  | b :: bs =>
    let (c, r) := push bcs true c b in
    let (c, rs) := pushes c bs in
    (c, r :: rs)
  end.
Example test_chain_push :
  chain_length bcs [] = 0 /\
  pushes [] [of_length 1; of_length 2; of_length 3; of_length 1] =
    ([of_length 1; of_length 2; of_length 3], [Ok tt; Ok tt; Ok tt; Err InvalidHeight]) /\
  chain_length bcs [of_length 1; of_length 2; of_length 3] = 3.
Proof. tables. Qed.
(** tests/common.rs 51-74 *)
Example test_chain_top :
  top (T := block) [] = None /\
  top (fst (pushes [] [of_length 1])) = Some (of_length 1) /\
  top (fst (pushes [] [of_length 1; of_length 2])) = Some (of_length 2).
Proof. tables. Qed.
(** tests/common.rs 76-116 *)
Definition at_slot (len slot : Z) : block := (with_slot (with_length default_state len) slot 1000, 0).
Example test_chain_epoch_slot :
  epoch_slot bcs (fst (pushes [] [at_slot 0 0])) = Ok (Some 0) /\
  epoch_slot bcs (fst (pushes [] [at_slot 0 0; at_slot 1 1])) = Ok (Some 1) /\
  epoch_slot bcs (fst (pushes [] [at_slot 0 0; at_slot 1 1; at_slot 2 1002])) = Ok (Some 2).
Proof. tables. Qed.

(** The fixtures mainnet-77748-3NKaBJsN....json, mainnet-113267-3NKtqqst....json
    and mainnet-113267-3NLenrog....json.  The state hashes, which none of these
    tests reaches, are left at 0. *)
Definition w77748 : list Z := [6; 1; 3; 5; 4; 3; 5; 7; 4; 5; 6].
Definition w113267 : list Z := [7; 2; 2; 5; 6; 7; 5; 7; 5; 5; 5].
Definition b77748 : block :=
  ({| blockchain_length := 77748; epoch_count := 15; min_window_density := 33; sub_window_densities := w77748;
      last_vrf_output := str_bytes "WNAmmaRL7XzyhZHiz276MbnBv4YUIJRGf9P_Xu0RBAA=";
      slot_number := 111965; slots_per_epoch := 7140;
      staking_lock := str_bytes "3NLiFhztdCsuWSociNGMspidiYkyqNKZw6ufH7jqbgQtEgGtBb2P";
      next_lock := str_bytes "3NLW5kBi9nXDzzdr2C3p9X6QaKaASMaVHp3otwreKXKJToUNK7yu" |}, 0).
Definition vrf_kt : list Z := str_bytes "r0K80Xsb44NLx_pBjI9UQtt6a1N-RWym8VxVTY4pAAA=".
Definition vrf_le : list Z := str_bytes "kKr83LYd7DyFupRAPh5Dh9eWM1teSEs5VjU4XId2DgA=".
Definition b113267 (vrf : list Z) (next : string) : block :=
  ({| blockchain_length := 113267; epoch_count := 23; min_window_density := 14; sub_window_densities := w113267;
      last_vrf_output := vrf; slot_number := 167176; slots_per_epoch := 7140;
      staking_lock := str_bytes "3NKtELQayz5CMSB6CsssuRfuauzKf6s1JYgNNi4GLDpMTrscEjpQ";
      next_lock := str_bytes next |}, 0).
Definition b113267_kt : block := b113267 vrf_kt "3NLC4u9241gWoCdEKohTAZpwCvDzAmjVACcRsfg4yN61Dgne3F17".
Definition b113267_le : block := b113267 vrf_le "3NKdPyFizYfQ9vCetSdHVdDhnLmGzBUHY7QY7cejGbUK7C25PmWN".
(** The first bytes of the Blake2b digests of the two outputs, as given in the
    comments at tests/common.rs 183 and 190 *)
Definition fixture_digest (vrf : list Z) : list Z :=
  if bytes_eqb vrf vrf_kt then [0xdd; 0x55; 0xef; 0x09]
  else if bytes_eqb vrf vrf_le then [0xe9; 0x07; 0xe6; 0x3d]
  else [].
Notation longer := (select_longer_chain bcs bhash fixture_digest).
Notation secure := (select_secure_chain bcs bhash fixture_digest true).

(** tests/common.rs 146-174, with the candidate that the repository has a
    fixture for: the fixture of height 117896 named there is not in it *)
Example selects_longer_chain : longer [b77748] [b113267_le] = Ok [b113267_le]. Proof. tables. Qed.
(** tests/common.rs 176-251 *)
Example longer_chain_vrf :
  longer [b113267_kt] [b113267_le] = Ok [b113267_le] /\ longer [b113267_le] [b113267_kt] = Ok [b113267_le].
Proof. tables. Qed.
(** tests/common.rs 253-289 *)
Example secure_chain_short_range :
  let a := [(with_epoch (with_length default_state 11) 5, 0)] in
  let b := [(with_epoch (with_length default_state 10) 5, 0)] in
  secure a [b] = (a, Ok tt).
Proof. tables. Qed.
(** tests/common.rs 291-335, 413-449 *)
Example secure_chain_long_range :
  secure [b77748] [[b113267_le]] = ([b113267_le], Ok tt) /\
  secure [b113267_le] [[b77748]] = ([b113267_le], Ok tt).
Proof. tables. Qed.
(** tests/common.rs 337-411 *)
Definition long_fork (epoch len : Z) : block :=
  (with_slot (with_window (with_epoch (with_length default_state len) epoch) 14 w113267) 167176 7140, 0).
Example secure_chain_same_density :
  secure [long_fork 23 1] [[long_fork 15 77748]] = ([long_fork 15 77748], Ok tt) /\
  longer [long_fork 23 1] [long_fork 15 77748] = Ok [long_fork 15 77748].
Proof. tables. Qed.
(** tests/common.rs 451-569: three forged windows *)
Definition forged (w : list Z) : block := (with_window (fst b77748) 33 w, 0).
Example secure_chain_forged_windows :
  secure [b113267_le] [[forged (w77748 ++ [6; 6; 6])]] = ([b113267_le], Ok tt) /\
  secure [b113267_le] [[forged [6; 1; 3; 5; 4; 999; 5; 7; 4; 5; 6]]] = ([b113267_le], Ok tt) /\
  secure [b113267_le] [[forged [6; 1; 3]]] = ([b113267_le], Ok tt).
Proof. tables. Qed.

(** tests/checkpoint.rs 24-222.  The genesis state of genesis/config.rs 473-532:
    length 1, slot 0, and both checkpoints the null hash, here empty. *)
Definition genesis_cs : cstate :=
  with_slot (with_window (with_length default_state 1) 77 [1; 7; 7; 7; 7; 7; 7; 7; 7; 7; 7]) 0 7140.
Definition h_2kn : string := "3NLWRuFB7G8CPkizXnRwpAUcQu5cAS5RTWE5vhWL1XBE47oEJ2kn".
Definition h_bw : string := "3NKmKfm2RSTfA1w5mNSJRLoyAQgcRhWjH5qdNynchHar4kBmJPbW".
Definition h_e2x : string := "3NK2tkzqqK5spR2sZ7tujjqPksL45M3UUrcA4WhCkeiPtnugyE2x".
Notation short a b := (is_short_range bcs true [(a, 0)] [(b, 0)]).
Example checkpoint_same_chain : short genesis_cs genesis_cs = Ok true. Proof. tables. Qed.
Example checkpoint_beyond_seed_update :
  short (with_slot genesis_cs 7140 7140) (with_locks (with_epoch genesis_cs 1) h_2kn h_bw) = Ok false.
Proof. tables. Qed.
Example checkpoint_same_lock :
  short (with_slot (with_locks genesis_cs h_e2x h_2kn) 7139 7140)
        (with_slot (with_locks (with_epoch genesis_cs 1) h_2kn h_bw) 7140 7140) = Ok true.
Proof. tables. Qed.
Example checkpoint_far_apart :
  short (with_slot (with_locks genesis_cs h_e2x h_2kn) 6839 7140)
        (with_slot (with_locks (with_epoch genesis_cs 22)
           "3NKW9MqYePrfK48ZAn3iu7iDDc17wZkTmzo5tHQ96bvG1gUfG9Dv" "3NKPqRTPrJJVyrb4RKMikfJG9WabCV1fH6aw2p62dEKNpf1aVeTy")
           1577 7140) = Ok false.
Proof. tables. Qed.

(** tests/density.rs 15-141 *)
Definition density_state (d slot : Z) (w : list Z) : block :=
  (with_slot (with_window default_state d w) slot 7140, 0).
Definition genesis_chain : chain block := [density_state 77 0 [1; 7; 7; 7; 7; 7; 7; 7; 7; 7; 7]].
Definition chain_2120 : chain block := [density_state 48 2121 [2; 7; 4; 5; 5; 4; 1; 5; 6; 3; 6]].
Definition chain_1000 : chain block := [density_state 75 1402 [6; 6; 2; 3; 5; 3; 5; 5; 5; 6; 7]].
Example density_tests :
  relative_min_window_density bcs true genesis_chain chain_2120 = Ok 0 /\
  relative_min_window_density bcs true chain_2120 genesis_chain = Ok 47 /\
  relative_min_window_density bcs true genesis_chain chain_1000 = Ok 77.
Proof. tables. Qed.
