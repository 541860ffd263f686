(** C117: the first block of a chain. *)

From Coq Require Import String ZArith List Bool Lia ZifyBool ZifyNat.
From Verif Require Import Lib.Res Lib.Bytes Lib.Vec Lib.Hex BinProt.Codec BinProt.CodecSpec BinProt.CodecProps Wire.Types Wire.WireProps
  Text.FieldText Hashing.ROInput Hashing.Command Hashing.CommandProps Hashing.State Ledger.AccountWire Consensus.Chain Consensus.ConsensusSpec Consensus.ChainProofs
  Consensus.ConsensusProps Convert.Conv Convert.BlockConv Convert.ConvSpec Convert.ConvFacts Convert.View Convert.Block Convert.BlockFacts Convert.BlockProps.
From Verif Require Import Consensus.Genesis.
Import ListNotations.
Local Open Scope string_scope.
Local Open Scope list_scope.
Local Open Scope Z_scope.

(** ** Specification *)
(** The members that are copied, each with its type. *)
Definition copied (g : config) : list (conv * ty * val) :=
  [(Ver (Ver C_ProtocolConstants), ProtocolConstantsV1, g_constants g);
   (Ver C_VrfOutputTruncated, VrfOutputTruncatedV1, g_last_vrf_output g);
   (Ver (Ver C_EpochData), EpochDataV1, g_staking_epoch_data g);
   (Ver (Ver C_EpochData), EpochDataV1, g_next_epoch_data g);
   (Ver (Ver Key), PublicKeyV1, g_block_stake_winner g);
   (Ver (Ver Key), PublicKeyV1, g_block_creator g);
   (Ver (Ver Key), PublicKeyV1, g_coinbase_receiver g);
   (Ver Same, HashV1, g_genesis_state_hash g);
   (Ver Same, HashV1, g_previous_state_hash g);
   (Ver (Ver C_BlockchainState), BlockchainStateV1, g_blockchain_state g);
   (Ver (Ver (Ver (Ver C_ProtocolStateProof))), ProtocolStateProofV1, g_protocol_state_proof g);
   (C_DeltaTransitionChainProof, DeltaTransitionChainProof, g_delta_transition_chain_proof g)].
(** Every member is a value of its type ... *)
Definition well_typed (g : config) : Prop :=
  Forall (fun m => match m with (c, t, b) => base_val c t b end) (copied g) /\
  0 <= g_sub_windows_per_window g < 2 ^ 32 /\ 0 <= g_total_currency g < 2 ^ 64 /\
  Forall (fun d => 0 <= d < 2 ^ 32) (g_sub_window_densities g) /\ Z.of_nat (List.length (g_sub_window_densities g)) < 2 ^ 64.
(** ... and every u64 in it is below 2^63 (larger ones have no encoding, C04). *)
Definition encodable (g : config) : Prop :=
  Forall (fun m => match m with (c, t, b) => u64s_below t (up c b) end) (copied g) /\ g_total_currency g < 2 ^ 63.
Definition slots (g : config) : Z := State.slots_per_epoch (constants_of (g_constants g)).
Definition sub_window (g : config) : Z := State.slots_per_sub_window (constants_of (g_constants g)).

Lemma mul_ok : forall checked a b m, mul32 checked a b = Ok m -> 0 <= a -> 0 <= b -> 0 <= m <= u32_max.
Proof.
  intros checked a b m H A B. unfold mul32 in H. destruct (_ <=? _) eqn:L.
  - injection H as <-. lia.
  - destruct checked; [discriminate|]. injection H as <-. pose proof (Z.mod_pos_bound (a * b) (2 ^ 32)). unfold u32_max. lia.
Qed.
Lemma struct_val : forall wire fields ts bs,
  forallb (fun f => match at_name (fst f) wire ts with Some _ => true | None => false end) fields = true ->
  base_vals (map snd fields) (map (fun f => match at_name (fst f) wire ts with Some u => u | None => TUnit end) fields) bs ->
  base_val (Struct wire fields) (TTup ts) (VTup bs).
Proof.
  intros wire fields ts bs F B. eapply B_struct; [|exact B]. clear B. induction fields as [|f fields IH]; [reflexivity|].
  cbn [forallb] in F. apply andb_true_iff in F. destruct F as (F & G). cbn [map]. rewrite (IH G). destruct (at_name _ _ _); [reflexivity|discriminate].
Qed.
Lemma bv_ver : forall c t b, base_val (Ver c) (V t) b -> base_val c t b.
Proof. intros c t b H. inversion H; subst. assumption. Qed.
Lemma bv_u32 : forall b, base_val Same (TInt U32) b -> exists z, b = VInt z /\ 0 <= z < 2 ^ 32.
Proof. intros b H. inversion H as [t v R| | | | | | | | | | |]; subst. destruct R as (R & S). destruct b; try contradiction. eauto. Qed.
Lemma bv_u64 : forall b, base_val Same TU64 b -> exists z, b = VInt z.
Proof. intros b H. inversion H as [t v R| | | | | | | | | | |]; subst. destruct R as (R & S). destruct b; try contradiction. eauto. Qed.
Lemma constants_shape : forall g, well_typed g -> exists k s w d t, g_constants g = VTup [VInt k; VInt s; VInt w; VInt d; VInt t] /\
  0 <= s < 2 ^ 32 /\ 0 <= w < 2 ^ 32.
Proof.
  intros g (F & _). inversion F as [|? ? H _]; subst. clear F. apply bv_ver, bv_ver in H.
  inversion H as [| | | | | | | | |wire fields ts us bs E B| |]; subst. clear H.
  cbn in E. destruct us as [|u1 [|u2 [|u3 [|u4 [|u5 [|u6 us]]]]]]; try discriminate. cbn [map] in E. injection E as <- <- <- <- <-.
  cbn [map snd] in B.
  repeat match goal with B : base_vals (_ :: _) _ _ |- _ => inversion B; subst; clear B | B : base_vals [] _ _ |- _ => inversion B; subst; clear B end.
  repeat match goal with H : base_val (Ver _) _ _ |- _ => apply bv_ver in H end.
  repeat match goal with H : base_val Same (TInt U32) _ |- _ => apply bv_u32 in H; destruct H as (? & -> & ?) | H : base_val Same TU64 _ |- _ => apply bv_u64 in H; destruct H as (? & ->) end.
  do 5 eexists. split; [reflexivity|]. split; assumption.
Qed.

(** ** C117 *)
(** The only way to fail: the product of the two numbers of the density window
    does not fit, in a build that checks it. *)
Theorem C117_panics_iff : forall checked g, 
  (from_genesis_config checked g = Panic <-> checked = true /\ 2 ^ 32 <= g_sub_windows_per_window g * sub_window g) /\
  (forall e, from_genesis_config checked g <> Err e).
Proof.
  intros checked g. unfold from_genesis_config, sub_window, constants_of. cbn [State.slots_per_sub_window]. set (w := int_of _). unfold mul32, u32_max.
  destruct (_ <=? _) eqn:L; (split; [|destruct checked; discriminate]).
  - split; [discriminate|]. intros (_ & X). lia.
  - destruct checked; split; try discriminate.
    + intros _. split; [reflexivity|lia].
    + auto.
    + intros (X & _). discriminate.
Qed.
(** The smallest possible density of the window is the number of its slots,
    as long as that fits. *)
Definition density_of (checked : bool) (g : config) : Z := (g_sub_windows_per_window g * sub_window g) mod 2 ^ 32.
Lemma made : forall checked g b, well_typed g -> from_genesis_config checked g = Ok b ->
  exists d, 0 <= d <= u32_max /\ d = density_of checked g /\ (checked = true -> d = g_sub_windows_per_window g * sub_window g) /\
    mul32 checked (g_sub_windows_per_window g) (sub_window g) = Ok d.
Proof.
  intros checked g b W H. destruct (constants_shape g W) as (k & s & w & d & t & E & S & V). destruct W as (_ & N & _).
  assert (SW : sub_window g = w) by (unfold sub_window, constants_of; rewrite E; reflexivity). rewrite SW.
  unfold from_genesis_config in H. apply bind_ok in H. destruct H as (m & M & _). rewrite E in M. change (int_of _) with w in M.
  exists m. split; [eapply mul_ok; eauto; lia|]. unfold density_of. rewrite SW. split; [|split; [|exact M]].
  - unfold mul32 in M. destruct (_ <=? _) eqn:L.
    + injection M as <-. symmetry. apply Z.mod_small. unfold u32_max in L. nia.
    + destruct checked; [discriminate|]. congruence.
  - intros ->. unfold mul32 in M. destruct (_ <=? _); [congruence|discriminate].
Qed.

(** What is in the block: the fields of its protocol state by name, no command,
    no coinbase, protocol version 2.0.0. *)
Theorem C117_state : forall checked g b, well_typed g -> from_genesis_config checked g = Ok b ->
  state_of (state_val b) =
  {| sl_previous := vec_of (g_previous_state_hash g);
     sl_body := {|
       bodyl_genesis_state_hash := vec_of (g_genesis_state_hash g);
       bodyl_blockchain := blockchain_of (g_blockchain_state g);
       bodyl_consensus := {|
         State.blockchain_length := 1;
         State.epoch_count := 0;
         State.min_window_density := density_of checked g;
         State.sub_window_densities := g_sub_window_densities g;
         State.last_vrf_output := vec_of (g_last_vrf_output g);
         State.total_currency := g_total_currency g;
         State.slot_number := 0;
         State.cs_slots_per_epoch := slots g;
         State.global_slot_since_genesis := 0;
         State.staking_epoch_data := epoch_of (g_staking_epoch_data g);
         State.next_epoch_data := epoch_of (g_next_epoch_data g);
         State.has_ancestor := true;
         State.block_stake_winner := key_of (g_block_stake_winner g);
         State.block_creator := key_of (g_block_creator g);
         State.coinbase_receiver := key_of (g_coinbase_receiver g);
         State.supercharge_coinbase := true |};
       bodyl_constants := constants_of (g_constants g) |} |}.
Proof.
  intros checked g b W H. destruct (made checked g b W H) as (d & _ & D & _ & M). unfold from_genesis_config in H. fold (sub_window g) in H.
  change (int_of (field C_ProtocolConstants "slots_per_sub_window" (g_constants g))) with (sub_window g) in H. rewrite M in H. cbn [bind] in H. rewrite <- D.
  injection H as <-. 
  assert (L : map int_of (map VInt (g_sub_window_densities g)) = g_sub_window_densities g) by (rewrite map_map; cbn [int_of]; apply map_id).
  revert L. generalize (g_sub_window_densities g) at 2 3. intros l <-. reflexivity.
Qed.
Theorem C117_contents : forall checked g b, from_genesis_config checked g = Ok b ->
  all_commands (block_of b) = [] /\
  field C_ExternalTransition "protocol_state_proof" b = g_protocol_state_proof g /\
  field C_ExternalTransition "delta_transition_chain_proof" b = g_delta_transition_chain_proof g /\
  field C_ExternalTransition "current_protocol_version" b = VTup [VInt 2; VInt 0; VInt 0] /\
  field C_ExternalTransition "proposed_protocol_version_opt" b = VNone.
Proof.
  intros checked g b H. unfold from_genesis_config in H. apply bind_ok in H. destruct H as (d & _ & H). injection H as <-.
  repeat split; reflexivity.
Qed.

(** The block is a value of the type of blocks. *)
Lemma same_u32 : forall z, 0 <= z < 2 ^ 32 -> base_val (Ver (Ver Same)) LengthV1 (VInt z).
Proof. intros z H. apply B_ver, B_ver, B_same. split; [exact H|exact I]. Qed.
Lemma same_u64 : forall z, 0 <= z < 2 ^ 64 -> base_val (Ver (Ver Same)) AmountV1 (VInt z).
Proof. intros z H. apply B_ver, B_ver, B_same. split; [exact H|exact I]. Qed.
Lemma same_bool : forall x, base_val Same TBool (VBool x).
Proof. intros x. apply B_same. split; exact I. Qed.
Lemma ints32 : forall l, Forall (fun d => 0 <= d < 2 ^ 32) l ->
  base_vals (List.repeat (Ver (Ver Same)) (List.length (map VInt l))) (List.repeat LengthV1 (List.length (map VInt l))) (map VInt l).
Proof.
  induction l as [|d l IH]; intros F; [apply B_nil|]. inversion F; subst. cbn [map List.length List.repeat]. apply B_cons; [|auto].
  apply same_u32. assumption.
Qed.
Lemma made_block : forall checked g b, from_genesis_config checked g = Ok b -> exists d, mul32 checked (g_sub_windows_per_window g) (sub_window g) = Ok d /\
  b = VTup [genesis_state g d; g_protocol_state_proof g; default_diff; g_delta_transition_chain_proof g; default_version; VNone; VUnit].
Proof.
  intros checked g b H. unfold from_genesis_config in H. apply bind_ok in H. destruct H as (d & M & H). exists d. split; [exact M|].
  apply (f_equal (fun r => match r with Ok x => x | _ => VUnit end)) in H. symmetry. exact H.
Qed.
Ltac fields := repeat (apply B_cons; [|]); try apply B_nil.
Lemma state_typed : forall g d, well_typed g -> 0 <= d <= u32_max -> base_val C_state ProtocolStateV1 (genesis_state g d).
Proof.
  intros g d W R.
  destruct (constants_shape g W) as (k & s & w & dl & t & E & S & _). destruct W as (F & N & C & D & L).
  unfold copied in F. repeat match goal with F : Forall _ (_ :: _) |- _ => apply Forall_cons_iff in F; destruct F as (? & F) end. clear F.
  apply B_ver, B_ver. change (genesis_state g d) with
    (VTup [g_previous_state_hash g; VTup [g_genesis_state_hash g; g_blockchain_state g; genesis_consensus g d; g_constants g]]).
  eapply (B_struct _ _ _ [HashV1; ProtocolStateBodyV1]); [reflexivity|]. fields; [assumption|]. apply B_ver, B_ver.
  eapply (B_struct _ _ _ [HashV1; BlockchainStateV1; ConsensusStateV1; ProtocolConstantsV1]); [reflexivity|]. fields; try assumption. apply B_ver, B_ver.
  change (genesis_consensus g d) with (VTup [VInt 1; VInt 0; VInt d; VSeq (map VInt (g_sub_window_densities g)); g_last_vrf_output g; VInt (g_total_currency g);
    VTup [VInt 0; field C_ProtocolConstants "slots_per_epoch" (g_constants g)]; VInt 0; g_staking_epoch_data g; g_next_epoch_data g; VBool true;
    g_block_stake_winner g; g_block_creator g; g_coinbase_receiver g; VBool true]).
  eapply (B_struct _ _ _ [LengthV1; LengthV1; LengthV1; TSeq LengthV1; VrfOutputTruncatedV1; AmountV1;
            GlobalSlotV1; GlobalSlotNumberV1; EpochDataV1; EpochDataV1; TBool; PublicKeyV1; PublicKeyV1; PublicKeyV1; TBool]); [reflexivity|].
  fields; try assumption; try apply same_bool; try (apply same_u32; lia); try (apply same_u64; assumption).
  - apply same_u32. unfold u32_max in R. lia.
  - apply B_seq; [rewrite map_length; exact L|apply ints32; exact D].
  - apply B_ver, B_ver. eapply (B_struct _ _ _ [GlobalSlotNumberV1; LengthV1]); [reflexivity|]. rewrite E.
    change (field C_ProtocolConstants "slots_per_epoch" (VTup [VInt k; VInt s; VInt w; VInt dl; VInt t])) with (VInt s).
    fields; apply same_u32; lia.
Qed.
Lemma genesis_typed : forall checked g b, well_typed g -> from_genesis_config checked g = Ok b -> base_val C_block ExternalTransitionV1 b.
Proof.
  intros checked g b W H. destruct (made checked g b W H) as (d & R & _ & _ & M). destruct (made_block checked g b H) as (d' & M' & ->).
  assert (d' = d) by congruence. subst d'. apply B_ver.
  eapply (B_struct _ _ _ [ProtocolStateV1; ProtocolStateProofV1; StagedLedgerDiffV1; DeltaTransitionChainProof; ProtocolVersionV1; TOpt ProtocolVersionV1; TUnit]); [reflexivity|].
  pose proof (state_typed g d W R) as T. destruct W as (F & _).
  unfold copied in F. repeat match goal with F : Forall _ (_ :: _) |- _ => apply Forall_cons_iff in F; destruct F as (? & F) end. clear F.
  fields; try assumption.
  - apply B_ver. change default_diff with (VTup [VTup [VTup [VSeq []; VSeq []; VEnum 0 []; VSeq []]; VNone]]).
    eapply (B_struct _ _ _ [_]); [reflexivity|]. fields. apply B_ver. apply B_tuple. fields; [|apply B_none]. apply B_ver, B_ver.
    eapply (B_struct _ _ _ [_; _; _; _]); [reflexivity|]. fields.
    + apply B_seq; [reflexivity|apply B_nil].
    + apply B_seq; [reflexivity|apply B_nil].
    + apply B_ver. eapply B_enum; [reflexivity|reflexivity|apply B_nil].
    + apply B_seq; [reflexivity|apply B_nil].
  - apply B_ver. change default_version with (VTup [VInt 2; VInt 0; VInt 0]). eapply (B_struct _ _ _ [_; _; _]); [reflexivity|].
    fields; apply B_same; split; try exact I; cbn; lia.
  - apply B_none.
  - apply B_same. split; exact I.
Qed.

(** and its encoding exists: *)
Lemma small_ver : forall t v, u64s_below t v -> u64s_below (V t) (VTup [VInt 1; v]).
Proof. intros t v H. unfold u64s_below, V in *. cbn [typed]. auto 10. Qed.
Lemma small_tup : forall ts vs, Forall2 u64s_below ts vs -> u64s_below (TTup ts) (VTup vs).
Proof. intros ts vs F. split; [exact I|]. induction F; [exact I|]. split; assumption. Qed.
Lemma small_int : forall z, u64s_below LengthV1 (VTup [VInt 1; VTup [VInt 1; VInt z]]).
Proof. intros z. repeat (split; try exact I). Qed.
Lemma small_ints : forall l, u64s_below (TSeq LengthV1) (VSeq (map (up (Ver (Ver Same))) (map VInt l))).
Proof.
  intros l. split; [exact I|]. induction l as [|z l IH]; [exact I|]. split; [apply small_int|exact IH].
Qed.
Lemma state_small : forall g d, well_typed g -> encodable g -> u64s_below ProtocolStateV1 (up C_state (genesis_state g d)).
Proof.
  intros g d W (F & C). destruct (constants_shape g W) as (k & s & w & dl & t & E & _).
  unfold copied in F. repeat match goal with F : Forall _ (_ :: _) |- _ => apply Forall_cons_iff in F; destruct F as (? & F) end. clear F.
  apply small_ver, small_ver.
  change (u64s_below (TTup [HashV1; ProtocolStateBodyV1])
    (VTup [up (Ver Same) (g_previous_state_hash g); up (Ver (Ver C_ProtocolStateBody))
       (VTup [g_genesis_state_hash g; g_blockchain_state g; genesis_consensus g d; g_constants g])])).
  split; [exact I|]. split; [assumption|]. split; [|exact I]. apply small_ver, small_ver.
  change (u64s_below (TTup [HashV1; BlockchainStateV1; ConsensusStateV1; ProtocolConstantsV1])
    (VTup [up (Ver Same) (g_genesis_state_hash g); up (Ver (Ver C_BlockchainState)) (g_blockchain_state g); up (Ver (Ver C_ConsensusState)) (genesis_consensus g d);
           up (Ver (Ver C_ProtocolConstants)) (g_constants g)])).
  split; [exact I|]. split; [assumption|]. split; [assumption|]. split; [|split; [assumption|exact I]]. apply small_ver, small_ver.
  change (up C_ConsensusState (genesis_consensus g d)) with (VTup [VTup [VInt 1; VTup [VInt 1; VInt 1]]; VTup [VInt 1; VTup [VInt 1; VInt 0]];
    VTup [VInt 1; VTup [VInt 1; VInt d]]; VSeq (map (up (Ver (Ver Same))) (map VInt (g_sub_window_densities g)));
    up (Ver C_VrfOutputTruncated) (g_last_vrf_output g); VTup [VInt 1; VTup [VInt 1; VInt (g_total_currency g)]];
    up (Ver (Ver C_GlobalSlot)) (VTup [VInt 0; field C_ProtocolConstants "slots_per_epoch" (g_constants g)]);
    VTup [VInt 1; VTup [VInt 1; VInt 0]]; up (Ver (Ver C_EpochData)) (g_staking_epoch_data g); up (Ver (Ver C_EpochData)) (g_next_epoch_data g); VBool true;
    up (Ver (Ver Key)) (g_block_stake_winner g); up (Ver (Ver Key)) (g_block_creator g); up (Ver (Ver Key)) (g_coinbase_receiver g); VBool true]).
  apply small_tup. repeat apply Forall2_cons; try apply Forall2_nil; try assumption; try (split; exact I); try apply small_int; try apply small_ints.
  { repeat (split; try exact I). exact C. }
  rewrite E.
  change (field C_ProtocolConstants "slots_per_epoch" (VTup [VInt k; VInt s; VInt w; VInt dl; VInt t])) with (VInt s).
  repeat (split; try exact I).
Qed.
Lemma genesis_small : forall checked g b, well_typed g -> encodable g -> from_genesis_config checked g = Ok b ->
  u64s_below ExternalTransitionV1 (up C_block b).
Proof.
  intros checked g b W X H. destruct (made_block checked g b H) as (d & _ & ->). pose proof (state_small g d W X) as T. destruct X as (F & _).
  unfold copied in F. repeat match goal with F : Forall _ (_ :: _) |- _ => apply Forall_cons_iff in F; destruct F as (? & F) end. clear F.
  apply small_ver.
  change (u64s_below (TTup [ProtocolStateV1; ProtocolStateProofV1; StagedLedgerDiffV1; DeltaTransitionChainProof; ProtocolVersionV1; TOpt ProtocolVersionV1; TUnit])
    (VTup [up C_state (genesis_state g d); up (Ver (Ver (Ver (Ver C_ProtocolStateProof)))) (g_protocol_state_proof g); up (Ver C_StagedLedgerDiff) default_diff;
       up C_DeltaTransitionChainProof (g_delta_transition_chain_proof g); up (Ver C_ProtocolVersion) default_version; VNone; VUnit])).
  split; [exact I|]. split; [exact T|]. split; [assumption|]. split; [|split; [assumption|]].
  - cbn. repeat (split; try exact I).
  - cbn. repeat (split; try exact I).
Qed.

(** Anybody who reads the bytes of the first block gets that block. *)
Theorem C117_wire : forall cap checked g b, well_typed g -> encodable g -> from_genesis_config checked g = Ok b -> 1 <= cap ->
  exists bs, try_into_binprot checked C_block ExternalTransitionV1 b = Ok bs /\ bytes_ok bs /\
    forall i, Forall (fun ch => ch <> []) i -> List.concat i = bs -> try_from_binprot cap checked C_block ExternalTransitionV1 i = Ok b.
Proof.
  intros cap checked g b W X H Hc. apply C101_round_trip; [left; reflexivity|exact (genesis_typed _ _ _ W H)|exact (genesis_small _ _ _ W X H)|exact Hc].
Qed.

(** It verifies, on every network and whatever the signature scheme. *)
Theorem C117_verifies : forall PubKey point decompress check net checked g b, from_genesis_config checked g = Ok b ->
  transition_verify PubKey (Z * Z) point fst decompress check val val state_legacy net (block_of b) = Ok true.
Proof.
  intros. destruct (C117_contents _ _ _ H) as (E & _). apply C50_valid_iff. unfold all_commands in E. rewrite E. constructor.
Qed.

(** ** The first block and chain selection *)
Definition lock_of (e : val) : list Z := State.lock_checkpoint (epoch_of e).
Lemma genesis_cstate : forall checked g b, well_typed g -> from_genesis_config checked g = Ok b ->
  cstate_of (state_val b) =
  {| blockchain_length := 1; epoch_count := 0; min_window_density := density_of checked g; sub_window_densities := g_sub_window_densities g;
     last_vrf_output := vec_of (g_last_vrf_output g); slot_number := 0; slots_per_epoch := slots g;
     staking_lock := lock_of (g_staking_epoch_data g); next_lock := lock_of (g_next_epoch_data g) |}.
Proof.
  intros checked g b W H. pose proof (C117_state checked g b W H) as E. apply (f_equal (fun s => bodyl_consensus (sl_body s))) in E. cbn [sl_body bodyl_consensus] in E.
  assert (P : forall s, cstate_of s = let c := bodyl_consensus (sl_body (state_of s)) in
    {| blockchain_length := State.blockchain_length c; epoch_count := State.epoch_count c; min_window_density := State.min_window_density c;
       sub_window_densities := State.sub_window_densities c; last_vrf_output := State.last_vrf_output c; slot_number := State.slot_number c;
       slots_per_epoch := State.cs_slots_per_epoch c; staking_lock := State.lock_checkpoint (State.staking_epoch_data c);
       next_lock := State.lock_checkpoint (State.next_epoch_data c) |}) by reflexivity.
  rewrite P, E. reflexivity.
Qed.
Lemma density_range : forall checked g, 0 <= density_of checked g <= u32_max.
Proof. intros checked g. unfold density_of, u32_max. pose proof (Z.mod_pos_bound (g_sub_windows_per_window g * sub_window g) (2 ^ 32)). lia. Qed.
Lemma slots_range : forall g, well_typed g -> 0 <= slots g <= u32_max.
Proof. intros g W. destruct (constants_shape g W) as (k & s & w & d & t & E & S & _). unfold slots, constants_of. rewrite E. cbn. unfold u32_max. lia. Qed.
(** The hypothesis of the theorems on chain selection holds of it exactly when
    there are slots in an epoch and eleven densities, none above 7. *)
Theorem C117_valid_iff : forall checked g b, well_typed g -> from_genesis_config checked g = Ok b ->
  (valid_state (cstate_of (state_val b)) <->
   0 < slots g /\ List.length (g_sub_window_densities g) = 11%nat /\ Forall (fun d => d <= 7) (g_sub_window_densities g)).
Proof.
  intros checked g b W H. rewrite (genesis_cstate checked g b W H). pose proof (slots_range g W) as R. pose proof (density_range checked g) as D. split.
  - intros [_ _ _ _ A B C]. cbn [blockchain_length epoch_count min_window_density sub_window_densities last_vrf_output slot_number slots_per_epoch staking_lock next_lock] in A, B, C. split; [lia|]. split; [exact B|]. eapply Forall_impl; [|exact C]. cbn. intros; lia.
  - intros (A & B & C). destruct W as (_ & _ & _ & F & _). constructor; cbn [blockchain_length epoch_count min_window_density sub_window_densities last_vrf_output slot_number slots_per_epoch staking_lock next_lock]; try exact B; try (unfold u32_max in *; lia).
    rewrite Forall_forall in *. intros d I. specialize (C d I). specialize (F d I). lia.
Qed.

Section Chains.
  Variable hash : val -> Z.
  Variable digest : list Z -> list Z.
  Hypothesis digest_bytes : forall l, bytes_ok (digest l).
  Notation sel := (select_secure_chain cstate_of hash digest).
  Notation better := (better cstate_of hash digest).

  (** A chain that begins with it has as many blocks as its last block says,
      as long as the blocks follow one another. *)
  Theorem C117_length : forall checked g b c, well_typed g -> from_genesis_config checked g = Ok b ->
    consecutive cstate_of (state_val b :: c) -> chain_length cstate_of (state_val b :: c) = zlen (state_val b :: c).
  Proof using Type.
    intros checked g b c W H C. apply C35_count; [exact C|]. intros x E. cbn in E. injection E as <-. unfold height_of. rewrite (genesis_cstate checked g b W H). reflexivity.
  Qed.
  (** It is in slot 0 of its epoch, unless epochs have no slots: then asking is a crash. *)
  Theorem C117_slot : forall checked g b, well_typed g -> from_genesis_config checked g = Ok b ->
    epoch_slot cstate_of [state_val b] = if slots g =? 0 then Panic else Ok (Some 0).
  Proof using Type.
    intros checked g b W H. unfold epoch_slot. change (chain_state cstate_of [state_val b]) with (Some (cstate_of (state_val b))). rewrite (genesis_cstate checked g b W H).
    cbn [slots_per_epoch slot_number]. destruct (_ =? _) eqn:E; [reflexivity|]. rewrite Z.mod_0_l by (clear - E; lia). reflexivity.
  Qed.
  (** Two nodes of one network agree from the start: the same block as a
      candidate changes nothing. *)
  Theorem C117_agree : forall ck checked g b, well_typed g -> from_genesis_config checked g = Ok b ->
    is_short_range cstate_of ck [state_val b] [state_val b] = Ok true /\ sel ck [state_val b] [[state_val b]] = ([state_val b], Ok tt).
  Proof using Type.
    intros ck checked g b W H. assert (R : is_short_range cstate_of ck [state_val b] [state_val b] = Ok true).
    { unfold is_short_range. change (chain_state cstate_of [state_val b]) with (Some (cstate_of (state_val b))). cbn [ok_or bind].
      rewrite Z.eqb_refl. unfold bytes_eqb. rewrite lex_refl. reflexivity. }
    split; [exact R|]. cbn [select_secure_chain]. unfold select_one. rewrite R. cbn [bind]. unfold select_longer_chain, last_vrf_hash_digest, state_hash.
    change (chain_state cstate_of [state_val b]) with (Some (cstate_of (state_val b))). change (top [state_val b]) with (Some (state_val b)). cbn [ok_or bind option_map opt_gt].
    rewrite Z.ltb_irrefl, Z.eqb_refl, lex_refl, Z.ltb_irrefl. reflexivity.
  Qed.
  (** Networks are told apart by nothing but the checkpoint of the first epoch.
      With the same checkpoint the longer chain wins, whosever it is. *)
  Theorem C117_same_lock : forall ck c1 c2 g h b d, well_typed g -> well_typed h -> from_genesis_config c1 g = Ok b -> from_genesis_config c2 h = Ok d ->
    valid_state (cstate_of (state_val b)) -> valid_state (cstate_of (state_val d)) ->
    lock_of (g_staking_epoch_data g) = lock_of (g_staking_epoch_data h) ->
    (better (state_val b) (state_val d) -> sel ck [state_val b] [[state_val d]] = ([state_val d], Ok tt)) /\
    (~ better (state_val b) (state_val d) -> sel ck [state_val b] [[state_val d]] = ([state_val b], Ok tt)).
  Proof.
    intros ck c1 c2 g h b d W X H K V U L.
    assert (S : short_fork (cstate_of (state_val b)) (cstate_of (state_val d))).
    { left. rewrite (genesis_cstate c1 g b W H), (genesis_cstate c2 h d X K). split; [reflexivity|exact L]. }
    destruct (C27_decision cstate_of hash digest digest_bytes ck [state_val b] [state_val d] (state_val b) (state_val d) (tip1 _ _) (tip1 _ _) V U) as (P & Q).
    split; intros B; [apply P; left; split; assumption|apply Q]. intros [(_ & B')|(N & _)]; contradiction.
  Qed.
  (** With another checkpoint the one with more slots in its window wins. *)
  Theorem C117_other_lock : forall ck c1 c2 g h b d, well_typed g -> well_typed h -> from_genesis_config c1 g = Ok b -> from_genesis_config c2 h = Ok d ->
    valid_state (cstate_of (state_val b)) -> valid_state (cstate_of (state_val d)) ->
    lock_of (g_staking_epoch_data g) <> lock_of (g_staking_epoch_data h) ->
    (density_of c1 g < density_of c2 h -> sel ck [state_val b] [[state_val d]] = ([state_val d], Ok tt)) /\
    (density_of c2 h < density_of c1 g -> sel ck [state_val b] [[state_val d]] = ([state_val b], Ok tt)) /\
    (density_of c1 g = density_of c2 h -> 
       (better (state_val b) (state_val d) -> sel ck [state_val b] [[state_val d]] = ([state_val d], Ok tt)) /\
       (~ better (state_val b) (state_val d) -> sel ck [state_val b] [[state_val d]] = ([state_val b], Ok tt))).
  Proof.
    intros ck c1 c2 g h b d W X H K V U L.
    assert (S : ~ short_fork (cstate_of (state_val b)) (cstate_of (state_val d))).
    { rewrite (genesis_cstate c1 g b W H), (genesis_cstate c2 h d X K). unfold short_fork, one_ahead. cbn [blockchain_length epoch_count min_window_density sub_window_densities last_vrf_output slot_number slots_per_epoch staking_lock next_lock]. intros [(_ & E)|[(E & _)|(E & _)]]; [contradiction|lia|lia]. }
    assert (D1 : density (cstate_of (state_val b)) (cstate_of (state_val d)) = density_of c1 g)
      by (rewrite (genesis_cstate c1 g b W H), (genesis_cstate c2 h d X K); reflexivity).
    assert (D2 : density (cstate_of (state_val d)) (cstate_of (state_val b)) = density_of c2 h)
      by (rewrite (genesis_cstate c1 g b W H), (genesis_cstate c2 h d X K); reflexivity).
    destruct (C27_decision cstate_of hash digest digest_bytes ck [state_val b] [state_val d] (state_val b) (state_val d) (tip1 _ _) (tip1 _ _) V U) as (P & Q).
    unfold replaces in P, Q. rewrite D1, D2 in P, Q.
    split; [|split].
    - intros E. apply P. right. split; [exact S|left; exact E].
    - intros E. apply Q. intros [(N & _)|(_ & [A|(A & _)])]; [contradiction|lia|lia].
    - intros E. split; intros B.
      + apply P. right. split; [exact S|right; split; assumption].
      + apply Q. intros [(N & _)|(_ & [A|(_ & A)])]; [contradiction|lia|contradiction].
  Qed.
End Chains.

(** ** The configuration of mainnet *)
Lemma by_wire : forall c t b, agrees c t = true -> rust_val t (up c b) -> down c (up c b) = Ok b -> base_val c t b.
Proof.
  intros c t b A R D. destruct (down_correct c t A _ R) as [(b' & E & B & _)|(E & _)]; [|congruence]. rewrite E in D. injection D as ->. exact B.
Qed.
Ltac leaf := vm_compute; repeat match goal with |- _ /\ _ => split | |- True => exact I end; try exact I; try discriminate; reflexivity.
Ltac concrete := apply by_wire; [vm_compute; reflexivity|leaf|vm_compute; reflexivity].
Ltac numbers := unfold mainnet, mainnet_currency; cbn [g_sub_windows_per_window g_total_currency g_sub_window_densities List.length]; repeat match goal with |- _ /\ _ => split end; try lia; repeat (apply Forall_cons; [lia|]); apply Forall_nil.
Theorem C117_mainnet_typed : forall proof, base_val (Ver (Ver (Ver (Ver C_ProtocolStateProof)))) ProtocolStateProofV1 proof ->
  well_typed (mainnet proof).
Proof.
  intros proof B. split; [|numbers].
  unfold copied, mainnet. cbn [g_constants g_last_vrf_output g_staking_epoch_data g_next_epoch_data g_block_stake_winner g_block_creator g_coinbase_receiver
    g_genesis_state_hash g_previous_state_hash g_blockchain_state g_protocol_state_proof g_delta_transition_chain_proof].
  repeat apply Forall_cons; try apply Forall_nil; try exact B; concrete.
Qed.
Theorem C117_mainnet_encodable : forall proof, u64s_below ProtocolStateProofV1 (up (Ver (Ver (Ver (Ver C_ProtocolStateProof)))) proof) ->
  encodable (mainnet proof).
Proof.
  intros proof B. split; [|reflexivity].
  unfold copied, mainnet. cbn [g_constants g_last_vrf_output g_staking_epoch_data g_next_epoch_data g_block_stake_winner g_block_creator g_coinbase_receiver
    g_genesis_state_hash g_previous_state_hash g_blockchain_state g_protocol_state_proof g_delta_transition_chain_proof].
  repeat apply Forall_cons; try apply Forall_nil; try exact B; leaf.
Qed.
(** There are proofs. *)
Definition some_proof : val := match down (Ver (Ver (Ver (Ver C_ProtocolStateProof)))) (sample 7 1 ProtocolStateProofV1) with Ok b => b | _ => VUnit end.
Lemma some_proof_ok : base_val (Ver (Ver (Ver (Ver C_ProtocolStateProof)))) ProtocolStateProofV1 some_proof /\
  u64s_below ProtocolStateProofV1 (up (Ver (Ver (Ver (Ver C_ProtocolStateProof)))) some_proof).
Proof.
  assert (F : full ProtocolStateProofV1 = true) by (vm_compute; reflexivity).
  assert (R : rust_val ProtocolStateProofV1 (sample 7 1 ProtocolStateProofV1)) by (apply sample_typed; [unfold byte_ok; lia|lia|exact F]).
  assert (A : agrees (Ver (Ver (Ver (Ver C_ProtocolStateProof)))) ProtocolStateProofV1 = true) by (vm_compute; reflexivity).
  pose proof (sample_small 7 1 ProtocolStateProofV1 F) as U.
  unfold some_proof. destruct (down_correct _ _ A _ R) as [(b & E & B & N & _)|(E & _)].
  - rewrite E. split; [exact B|]. exact (renumbered_small _ _ _ N U).
  - exfalso. assert (X : match down (Ver (Ver (Ver (Ver C_ProtocolStateProof)))) (sample 7 1 ProtocolStateProofV1) with Panic => false | _ => true end = true) by (vm_compute; reflexivity).
    rewrite E in X. discriminate.
Qed.

(** The protocol state of the first block of mainnet has the bytes that the
    network gave to it: bytes 1 to 830 of the fixture
    /repo/protocol/test-fixtures/src/data/genesis-3NKeMoncuHab5ScarV5ViyF16cJPT4taWNSaTLS64Dp67wuXigPZ.hex,
    whose last 50 bytes follow the proof. *)
Definition genesis_state_bytes : list Z :=
  [1; 1; 1; 232; 149; 55; 214; 162; 25; 166; 75; 189; 7; 127; 231; 219; 235; 171; 161; 183; 9; 227; 123; 211; 166; 117; 103; 24; 130;
   127; 33; 8; 154; 124; 2; 1; 1; 1; 232; 149; 55; 214; 162; 25; 166; 75; 189; 7; 127; 231; 219; 235; 171; 161; 183; 9; 227; 123;
   211; 166; 117; 103; 24; 130; 127; 33; 8; 154; 124; 2; 1; 1; 1; 1; 1; 1; 133; 246; 174; 16; 42; 48; 61; 19; 82; 234; 190; 184; 70;
   31; 98; 164; 122; 104; 123; 109; 205; 231; 98; 51; 185; 32; 113; 104; 160; 172; 247; 44; 1; 32; 0; 0; 0; 0; 0; 0; 0; 0; 0; 0; 0;
   0; 0; 0; 0; 0; 0; 0; 0; 0; 0; 0; 0; 0; 0; 0; 0; 0; 0; 0; 0; 0; 1; 32; 0; 0; 0; 0; 0; 0; 0; 0; 0; 0; 0; 0; 0; 0; 0; 0; 0; 0; 0; 0;
   0; 0; 0; 0; 0; 0; 0; 0; 0; 0; 0; 0; 1; 1; 181; 11; 37; 86; 222; 164; 71; 87; 148; 33; 179; 28; 45; 105; 84; 101; 213; 139; 62; 8;
   151; 254; 200; 87; 145; 171; 231; 120; 24; 23; 162; 33; 1; 133; 246; 174; 16; 42; 48; 61; 19; 82; 234; 190; 184; 70; 31; 98; 164;
   122; 104; 123; 109; 205; 231; 98; 51; 185; 32; 113; 104; 160; 172; 247; 44; 1; 133; 246; 174; 16; 42; 48; 61; 19; 82; 234; 190;
   184; 70; 31; 98; 164; 122; 104; 123; 109; 205; 231; 98; 51; 185; 32; 113; 104; 160; 172; 247; 44; 1; 1; 1; 2; 1; 1; 252; 0; 100;
   123; 61; 120; 1; 0; 0; 1; 1; 1; 1; 1; 1; 1; 0; 1; 1; 77; 11; 1; 1; 1; 1; 1; 7; 1; 1; 7; 1; 1; 7; 1; 1; 7; 1; 1; 7; 1; 1; 7; 1; 1;
   7; 1; 1; 7; 1; 1; 7; 1; 1; 7; 1; 32; 53; 244; 225; 27; 90; 245; 27; 20; 46; 133; 161; 139; 72; 149; 134; 197; 202; 111; 219; 132;
   174; 118; 213; 198; 225; 235; 65; 209; 57; 198; 171; 8; 1; 1; 252; 65; 147; 233; 64; 5; 78; 45; 11; 1; 1; 1; 1; 0; 1; 1; 254; 228;
   27; 1; 1; 0; 1; 1; 1; 1; 1; 133; 246; 174; 16; 42; 48; 61; 19; 82; 234; 190; 184; 70; 31; 98; 164; 122; 104; 123; 109; 205; 231;
   98; 51; 185; 32; 113; 104; 160; 172; 247; 44; 1; 1; 252; 65; 147; 233; 64; 5; 78; 45; 11; 1; 0; 0; 0; 0; 0; 0; 0; 0; 0; 0; 0; 0;
   0; 0; 0; 0; 0; 0; 0; 0; 0; 0; 0; 0; 0; 0; 0; 0; 0; 0; 0; 0; 1; 0; 0; 0; 0; 0; 0; 0; 0; 0; 0; 0; 0; 0; 0; 0; 0; 0; 0; 0; 0; 0; 0;
   0; 0; 0; 0; 0; 0; 0; 0; 0; 0; 1; 0; 0; 0; 0; 0; 0; 0; 0; 0; 0; 0; 0; 0; 0; 0; 0; 0; 0; 0; 0; 0; 0; 0; 0; 0; 0; 0; 0; 0; 0; 0; 0;
   1; 1; 1; 1; 1; 1; 1; 1; 133; 246; 174; 16; 42; 48; 61; 19; 82; 234; 190; 184; 70; 31; 98; 164; 122; 104; 123; 109; 205; 231; 98;
   51; 185; 32; 113; 104; 160; 172; 247; 44; 1; 1; 252; 65; 147; 233; 64; 5; 78; 45; 11; 1; 37; 127; 117; 208; 167; 148; 99; 11; 218;
   242; 217; 7; 37; 244; 201; 93; 161; 26; 189; 134; 47; 184; 162; 248; 138; 185; 76; 65; 250; 11; 141; 53; 1; 0; 0; 0; 0; 0; 0; 0;
   0; 0; 0; 0; 0; 0; 0; 0; 0; 0; 0; 0; 0; 0; 0; 0; 0; 0; 0; 0; 0; 0; 0; 0; 0; 1; 232; 149; 55; 214; 162; 25; 166; 75; 189; 7; 127;
   231; 219; 235; 171; 161; 183; 9; 227; 123; 211; 166; 117; 103; 24; 130; 127; 33; 8; 154; 124; 2; 1; 1; 2; 1; 1; 1; 15; 72; 198;
   91; 210; 95; 133; 243; 228; 234; 78; 254; 190; 183; 91; 121; 123; 215; 67; 96; 59; 224; 75; 78; 173; 132; 86; 152; 183; 107; 211;
   49; 0; 1; 1; 15; 72; 198; 91; 210; 95; 133; 243; 228; 234; 78; 254; 190; 183; 91; 121; 123; 215; 67; 96; 59; 224; 75; 78; 173;
   132; 86; 152; 183; 107; 211; 49; 0; 1; 1; 15; 72; 198; 91; 210; 95; 133; 243; 228; 234; 78; 254; 190; 183; 91; 121; 123; 215; 67;
   96; 59; 224; 75; 78; 173; 132; 86; 152; 183; 107; 211; 49; 0; 1; 1; 1; 1; 1; 254; 34; 1; 1; 1; 254; 228; 27; 1; 1; 7; 1; 1; 0; 1;
   1; 252; 0; 100; 123; 61; 120; 1; 0; 0].
Definition genesis_tail_bytes : list Z :=
  [1; 1; 1; 1; 0; 0; 1; 0; 0; 0; 1; 232; 149; 55; 214; 162; 25; 166; 75; 189; 7; 127; 231; 219; 235; 171; 161; 183; 9; 227; 123; 211; 166; 117; 103; 24; 130; 127; 33; 8; 154; 124; 2; 0; 1; 2; 0; 0; 0; 0].
Example C117_mainnet_bytes : forall proof checked, exists b, from_genesis_config checked (mainnet proof) = Ok b /\
  try_into_binprot true C_state ProtocolStateV1 (state_val b) = Ok genesis_state_bytes /\
  to_bytes true (TTup [StagedLedgerDiffV1; DeltaTransitionChainProof; ProtocolVersionV1; TOpt ProtocolVersionV1; TUnit])
    (VTup (skipn 2 (match up C_ExternalTransition b with VTup l => l | _ => [] end))) = Ok genesis_tail_bytes.
Proof.
  intros proof checked. unfold from_genesis_config.
  assert (M : mul32 checked (g_sub_windows_per_window (mainnet proof)) (int_of (field C_ProtocolConstants "slots_per_sub_window" (g_constants (mainnet proof)))) = Ok 77)
    by (destruct checked; vm_compute; reflexivity).
  rewrite M. cbn [bind]. eexists. split; [reflexivity|]. split.
  - vm_compute. reflexivity.
  - vm_compute. reflexivity.
Qed.
Theorem C117_mainnet_valid : forall checked proof b, base_val (Ver (Ver (Ver (Ver C_ProtocolStateProof)))) ProtocolStateProofV1 proof ->
  from_genesis_config checked (mainnet proof) = Ok b ->
  valid_state (cstate_of (state_val b)) /\ density_of checked (mainnet proof) = 77.
Proof.
  intros checked proof b B H. split; [|vm_compute; reflexivity].
  apply (C117_valid_iff checked (mainnet proof) b (C117_mainnet_typed proof B) H). split; [vm_compute; reflexivity|]. split; [reflexivity|].
  cbn. repeat constructor; lia.
Qed.

(** ** Refuted expectations *)
(** A node keeps to the network it was configured for: false.  The first block
    of a network with another history (another genesis state hash) replaces that
    of mainnet. *)
Definition foreign (proof : val) : config :=
  {| g_constants := mainnet_constants; g_sub_windows_per_window := 12; g_last_vrf_output := vrf_output; g_total_currency := 1;
     g_sub_window_densities := [7; 7; 7; 7; 7; 7; 7; 7; 7; 7; 7]; g_staking_epoch_data := mainnet_epoch 1 staking_seed previous_hash;
     g_next_epoch_data := mainnet_epoch 2 next_seed null_hash; g_block_stake_winner := genesis_key; g_block_creator := genesis_key; g_coinbase_receiver := genesis_key;
     g_genesis_state_hash := null_hash; g_previous_state_hash := null_hash; g_blockchain_state := mainnet_blockchain;
     g_protocol_state_proof := proof; g_delta_transition_chain_proof := VTup [null_hash; VSeq []] |}.
Lemma foreign_typed : well_typed (foreign some_proof).
Proof.
  split; [|unfold foreign; numbers].
  unfold copied, foreign. cbn [g_constants g_last_vrf_output g_staking_epoch_data g_next_epoch_data g_block_stake_winner g_block_creator g_coinbase_receiver
    g_genesis_state_hash g_previous_state_hash g_blockchain_state g_protocol_state_proof g_delta_transition_chain_proof].
  repeat apply Forall_cons; try apply Forall_nil; try exact (proj1 some_proof_ok); concrete.
Qed.
Theorem C117_network_refuted : exists h, well_typed h /\ g_genesis_state_hash h <> g_genesis_state_hash (mainnet some_proof) /\
  forall hash digest ck, (forall l, bytes_ok (digest l)) -> exists b d, from_genesis_config true (mainnet some_proof) = Ok b /\ from_genesis_config true h = Ok d /\
    select_secure_chain cstate_of hash digest ck [state_val b] [[state_val d]] = ([state_val d], Ok tt) /\ state_val d <> state_val b.
Proof.
  exists (foreign some_proof). split; [exact foreign_typed|]. split; [vm_compute; discriminate|]. intros hash digest ck DB.
  destruct (from_genesis_config true (mainnet some_proof)) as [b|e|] eqn:H; [|discriminate H|discriminate H].
  destruct (from_genesis_config true (foreign some_proof)) as [d|e|] eqn:K; [|discriminate K|discriminate K].
  exists b, d. split; [reflexivity|]. split; [reflexivity|].
  pose proof (C117_mainnet_typed some_proof (proj1 some_proof_ok)) as W.
  assert (V : valid_state (cstate_of (state_val b))) by (eapply C117_mainnet_valid; [exact (proj1 some_proof_ok)|exact H]).
  assert (U : valid_state (cstate_of (state_val d))).
  { apply (C117_valid_iff true _ d foreign_typed K). split; [vm_compute; reflexivity|]. split; [reflexivity|]. cbn. repeat constructor; lia. }
  split.
  - refine (proj1 (C117_other_lock hash digest DB ck true true (mainnet some_proof) (foreign some_proof) b d W foreign_typed H K V U _) _);
      vm_compute; [discriminate|reflexivity].
  - intros E. apply (f_equal cstate_of) in E. rewrite (genesis_cstate true _ _ W H), (genesis_cstate true _ _ foreign_typed K) in E.
    apply (f_equal min_window_density) in E. vm_compute in E. discriminate.
Qed.
(** The network for development has a first block of its own: false. *)
Theorem C117_devnet_refuted : forall checked proof, from_genesis_config checked (devnet proof) = from_genesis_config checked (mainnet proof).
Proof. reflexivity. Qed.
(** The density of the window is the number of its slots: false in a build
    that does not check. *)
Theorem C117_wraps_refuted : exists g b, well_typed g /\ from_genesis_config false g = Ok b /\
  State.min_window_density (bodyl_consensus (sl_body (state_of (state_val b)))) <> g_sub_windows_per_window g * sub_window g.
Proof.
  pose (g := {| g_constants := mainnet_constants; g_sub_windows_per_window := 2 ^ 31; g_last_vrf_output := vrf_output; g_total_currency := 1;
     g_sub_window_densities := []; g_staking_epoch_data := mainnet_epoch 1 staking_seed previous_hash;
     g_next_epoch_data := mainnet_epoch 2 next_seed null_hash; g_block_stake_winner := genesis_key; g_block_creator := genesis_key; g_coinbase_receiver := genesis_key;
     g_genesis_state_hash := null_hash; g_previous_state_hash := null_hash; g_blockchain_state := mainnet_blockchain;
     g_protocol_state_proof := some_proof; g_delta_transition_chain_proof := VTup [null_hash; VSeq []] |}).
  assert (W : well_typed g).
  { split; [|unfold g; numbers].
    unfold copied, g. cbn [g_constants g_last_vrf_output g_staking_epoch_data g_next_epoch_data g_block_stake_winner g_block_creator g_coinbase_receiver
      g_genesis_state_hash g_previous_state_hash g_blockchain_state g_protocol_state_proof g_delta_transition_chain_proof].
    repeat apply Forall_cons; try apply Forall_nil; try exact (proj1 some_proof_ok); concrete. }
  destruct (from_genesis_config false g) as [b|e|] eqn:H; [|discriminate H|discriminate H]. exists g, b. split; [exact W|]. split; [exact H|].
  rewrite (C117_state false g b W H). cbn [bodyl_consensus sl_body State.min_window_density]. vm_compute. discriminate.
Qed.

Print Assumptions C117_panics_iff.
Print Assumptions C117_state.
Print Assumptions C117_contents.
Print Assumptions C117_wire.
Print Assumptions C117_verifies.
Print Assumptions C117_valid_iff.
Print Assumptions C117_length.
Print Assumptions C117_slot.
Print Assumptions C117_agree.
Print Assumptions C117_same_lock.
Print Assumptions C117_other_lock.
Print Assumptions C117_mainnet_typed.
Print Assumptions C117_mainnet_encodable.
Print Assumptions C117_mainnet_valid.
Print Assumptions C117_network_refuted.
Print Assumptions C117_devnet_refuted.
Print Assumptions C117_wraps_refuted.
