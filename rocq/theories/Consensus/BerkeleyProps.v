(** C93, continued: the state that the program has built in for the Berkeley
    network. *)

From Coq Require Import String ZArith List Bool Lia.
From Verif Require Import Lib.Res Lib.Bytes Text.Checksum Json.Json Hashing.ROInput Hashing.Account Hashing.State GraphQL.GraphQL GraphQL.GraphQLSpec GraphQL.GraphQLProps
  Consensus.Chain Consensus.ConsensusSpec.
From Verif Require Import Consensus.Berkeley.
Import ListNotations.
Local Open Scope list_scope.
Local Open Scope Z_scope.

(** All its texts are read, and it is the state that the node's answer for the
    first block stands for (base/src/protocol_state.rs 348-399). *)
Theorem C93_berkeley : exists s, berkeley = Ok s /\ state_answer sha_checksum C93_fixture s /\
  forall checked j, state_of sha_checksum checked j = Ok s <-> state_answer sha_checksum j s.
Proof.
  exists C93_state. split; [vm_compute; reflexivity|]. split; [exact (proj1 C93_ex)|]. intros checked j.
  destruct (proj1 (C93_read_iff true _ _) C93_fixture_read) as (_ & F). rewrite C93_read_iff. split; [intros (A & _); exact A|auto].
Qed.

(** What the consensus rules look at, and that it is a state they are meant for. *)
Definition consensus_view (c : consensus) : cstate := {|
  Chain.blockchain_length := State.blockchain_length c;
  Chain.epoch_count := State.epoch_count c;
  Chain.min_window_density := State.min_window_density c;
  Chain.sub_window_densities := State.sub_window_densities c;
  Chain.last_vrf_output := State.last_vrf_output c;
  Chain.slot_number := State.slot_number c;
  Chain.slots_per_epoch := cs_slots_per_epoch c;
  Chain.staking_lock := lock_checkpoint (staking_epoch_data c);
  Chain.next_lock := lock_checkpoint (next_epoch_data c) |}.
Theorem C93_berkeley_valid : forall s, berkeley = Ok s -> valid_state (consensus_view (body_consensus (s_body s))) /\
  s_previous s = body_genesis_state_hash (s_body s) /\ lock_checkpoint (next_epoch_data (body_consensus (s_body s))) = s_previous s.
Proof.
  intros s H. assert (X : berkeley = Ok C93_state) by (vm_compute; reflexivity). rewrite X in H. clear X. apply (f_equal (fun r => match r with Ok a => a | _ => C93_state end)) in H. cbv beta iota in H. rewrite <- H. clear H s.
  split; [|split; vm_compute; reflexivity].
  constructor; vm_compute; repeat split; try discriminate; repeat constructor; try discriminate.
Qed.

Print Assumptions C93_berkeley.
Print Assumptions C93_berkeley_valid.
