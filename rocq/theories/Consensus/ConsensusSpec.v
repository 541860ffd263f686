(** Specification of chain selection, stated on the tip blocks of chains.
    Models no code. *)
From Coq Require Import ZArith List Bool.
From Verif Require Import Lib.Vec Lib.Hex Consensus.Chain.
Import ListNotations.
Open Scope Z_scope.

Section Spec.
Context {T : Type}.
Variable cs : T -> cstate.
Variable state_hash_fp : T -> Z.
Variable digest : list Z -> list Z.

(** [b] is the last block of chain [c]. *)
Definition tip (c : chain T) (b : T) : Prop := exists pre, c = pre ++ [b].

(** [y] is preferred to [x]: by length, then VRF digest, then state hash. *)
Definition better (x y : T) : Prop :=
  blockchain_length (cs x) < blockchain_length (cs y) \/
  (blockchain_length (cs x) = blockchain_length (cs y) /\
   (lex (digest (last_vrf_output (cs x))) (digest (last_vrf_output (cs y))) = Lt \/
    (digest (last_vrf_output (cs x)) = digest (last_vrf_output (cs y)) /\
     state_hash_fp x < state_hash_fp y))).
(** Neither is preferred. *)
Definition tied (x y : T) : Prop :=
  blockchain_length (cs x) = blockchain_length (cs y) /\
  digest (last_vrf_output (cs x)) = digest (last_vrf_output (cs y)) /\
  state_hash_fp x = state_hash_fp y.

(** [x] is in the epoch after [y], [y] is past the first two thirds of its
    epoch, and [x] started from the checkpoint [y] prepared. *)
Definition one_ahead (x y : cstate) : Prop :=
  epoch_count x = epoch_count y + 1 /\ 4760 <= slot_number y mod slots_per_epoch y /\
  staking_lock x = next_lock y.
(** The fork of two tips is short range. *)
Definition short_fork (x y : cstate) : Prop :=
  (epoch_count x = epoch_count y /\ staking_lock x = staking_lock y) \/ one_ahead x y \/ one_ahead y x.

(** Fields in the ranges of a block produced by an honest node. *)
Record valid_state (s : cstate) : Prop := {
  v_length : 0 <= blockchain_length s <= u32_max;
  v_epoch : 0 <= epoch_count s < u32_max;
  v_density : 0 <= min_window_density s <= u32_max;
  v_slot : 0 <= slot_number s <= u32_max;
  v_spe : 0 < slots_per_epoch s <= u32_max;
  v_windows : length (sub_window_densities s) = 11%nat;
  v_window : Forall (fun d => 0 <= d <= 7) (sub_window_densities s) }.

(** The density window after forgetting [n] sub-windows following that of slot [slot]. *)
Definition forgotten (slot : Z) (n : nat) (i : Z) : bool :=
  existsb (fun j => i =? (slot / 11 + Z.of_nat j) mod 11) (seq 1 n).
Fixpoint masked (f : Z -> bool) (i : Z) (w : list Z) : list Z :=
  match w with
  | [] => []
  | d :: w' => (if f i then 0 else d) :: masked f (i + 1) w'
  end.
Definition zsum (l : list Z) : Z := fold_right Z.add 0 l.

(** How far the code shifts: one sub-window per slot of distance plus one, up to 11. *)
Definition shift_of (slot other : Z) : nat := Z.to_nat (Z.min (Z.max slot other - Z.max 0 (slot - 1)) 11).
Definition density (s other : cstate) : Z :=
  if Z.max (slot_number s) (slot_number other) <? 1440 then min_window_density s
  else Z.min (min_window_density s)
    (zsum (masked (forgotten (slot_number s) (shift_of (slot_number s) (slot_number other))) 0 (sub_window_densities s))).

(** The candidate tip [y] replaces the tip [x]. *)
Definition replaces (x y : T) : Prop :=
  (short_fork (cs x) (cs y) /\ better x y) \/
  (~ short_fork (cs x) (cs y) /\
   (density (cs x) (cs y) < density (cs y) (cs x) \/
    (density (cs x) (cs y) = density (cs y) (cs x) /\ better x y))).

(** Heights go up by one from block to block. *)
Fixpoint consecutive (c : list T) : Prop :=
  match c with
  | x :: ((y :: _) as c') => blockchain_length (cs y) = blockchain_length (cs x) + 1 /\ consecutive c'
  | _ => True
  end.
End Spec.
