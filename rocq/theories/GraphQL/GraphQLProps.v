(** GraphQL answers: theorems.  The checksum of base58 texts is the real one
    (Text/Checksum.v). *)

From Coq Require Import String ZArith List Bool Lia ZifyBool ZifyNat.
From Verif Require Import Lib.Res Lib.Bytes Lib.Decimal Lib.Text BinProt.PrimSpec Text.Base58 Text.Base58Props Text.Hex Text.HexSpec
  Text.FieldText Text.Checksum Text.ChecksumProps Json.Json Hashing.ROInput Hashing.Command Hashing.Account Hashing.State GraphQL.GraphQL GraphQL.GraphQLSpec
  GraphQL.GraphQLFacts.
Import ListNotations.
Local Open Scope string_scope.
Local Open Scope list_scope.
Local Open Scope Z_scope.
Notation length := List.length.

Definition obj (m : list (string * json)) : json := JObj (map (fun kv => (str_bytes (fst kv), snd kv)) m).
Definition str (s : string) : json := JStr (str_bytes s).

(** ** C46: permissions *)

(** What is read: ten members of their own names, and [increment_nonce] is
    what [edit_state] is. *)
Theorem C46_read_iff : forall j p, permissions_of j = Ok p <-> other_permissions j p /\ increment_nonce p = edit_state p.
Proof.
  intros j p. unfold other_permissions. rewrite <- !auth_iff. unfold permissions_of. split.
  - intros H. do 11 (apply bind_ok in H; let a := fresh "a" in let E := fresh "E" in destruct H as (a & E & H)).
    injection H as <-. cbn [edit_state send receive set_delegate set_permissions set_verification_key set_zkapp_uri edit_sequence_state set_token_symbol increment_nonce set_voting_for].
    repeat split; try assumption. congruence.
  - intros ((E1 & E2 & E3 & E4 & E5 & E6 & E7 & E8 & E9 & E10) & I).
    rewrite E1, E2, E3, E4, E5, E6, E7, E8, E9, E10. cbn [bind]. rewrite <- I at 2. destruct p. reflexivity.
Qed.
(** An answer with all eleven members is read as what it says exactly if it
    says the same of [incrementNonce] and [editState]. *)
Theorem C46_own_iff : forall j p, permissions_answer j p -> (permissions_of j = Ok p <-> increment_nonce p = edit_state p).
Proof. intros j p (O & _). rewrite C46_read_iff. tauto. Qed.
(** The member [incrementNonce] is never looked at: *)
Theorem C46_increment_nonce_ignored : forall m v, permissions_of (JObj ((str_bytes "incrementNonce", v) :: m)) = permissions_of (JObj m).
Proof. reflexivity. Qed.

Definition C46_fixture (incr : string) : json :=
  obj [("editSequenceState", str "Signature"); ("editState", str "Signature"); ("incrementNonce", str incr); ("receive", str "None");
       ("send", str "Signature"); ("setDelegate", str "Signature"); ("setPermissions", str "Signature"); ("setTokenSymbol", str "Signature");
       ("setVerificationKey", str "Signature"); ("setVotingFor", str "Signature"); ("setZkappUri", str "Signature")].
Definition C46_perms (incr : auth) : permissions :=
  mk_perms ASignature ASignature ANone ASignature ASignature ASignature ASignature ASignature ASignature incr ASignature.
Lemma C46_fixture_says : forall a, permissions_answer (C46_fixture (auth_name a)) (C46_perms a).
Proof.
  intros a. unfold permissions_answer, other_permissions, auth_member.
  repeat split; apply has_iff; try discriminate; reflexivity.
Qed.
(** The expected reading is not what happens: the fixture of the repository
    (permissions.rs 151-165) with another [incrementNonce], and its own. *)
Theorem C46_refuted : exists j p q, permissions_answer j p /\ permissions_of j = Ok q /\ q <> p.
Proof.
  exists (C46_fixture (auth_name AProof)), (C46_perms AProof), (C46_perms ASignature).
  split; [apply C46_fixture_says|]. split; [reflexivity|discriminate].
Qed.
Example C46_ex : permissions_answer (C46_fixture "Signature") (C46_perms ASignature) /\
  permissions_of (C46_fixture "Signature") = Ok (C46_perms ASignature) /\
  permissions_of (obj [("editState", str "signature")]) = Err JE.
Proof. split; [exact (C46_fixture_says ASignature)|]. split; reflexivity. Qed.

(** ** C56: timing *)

Lemma timed_iff : forall j d, timed_of j = Ok d <-> timed_answer j d.
Proof.
  intros j d. unfold timed_answer. rewrite <- !number_iff by lia. unfold timed_of. split.
  - intros H. do 5 (apply bind_ok in H; let a := fresh "a" in let E := fresh "E" in destruct H as (a & E & H)).
    injection H as <-. cbn [initial_minimum_balance cliff_time cliff_amount vesting_period vesting_increment]. auto.
  - intros (E1 & E2 & E3 & E4 & E5). rewrite E1, E2, E3, E4, E5. cbn [bind]. destruct d. reflexivity.
Qed.
Lemma timed_no_panic : forall j, timed_of j <> Panic.
Proof.
  intros j H. unfold timed_of in H.
  do 5 (apply bind_panic in H; let a := fresh in destruct H as [H|(a & _ & H)]; [exact (number_no_panic _ _ H)|]). discriminate.
Qed.
(** Exactly what is read: a timing if all five numbers are there, and
    otherwise, whatever is there, none.  There is no error. *)
Theorem C56_timed_iff : forall j d, timing_of j = Ok (Timed d) <-> timed_answer j d.
Proof.
  intros j d. rewrite <- timed_iff. unfold timing_of. destruct (timed_of j); split; congruence.
Qed.
Theorem C56_untimed_iff : forall j, timing_of j = Ok Untimed <-> forall d, ~ timed_answer j d.
Proof.
  intros j. unfold timing_of. pose proof (timed_no_panic j) as N. destruct (timed_of j) as [d|e|] eqn:E.
  - split; [discriminate|]. intros H. exfalso. apply (H d). apply timed_iff. exact E.
  - split; [|reflexivity]. intros _ d H. apply timed_iff in H. congruence.
  - congruence.
Qed.
Theorem C56_total : forall j, exists t, timing_of j = Ok t.
Proof. intros j. unfold timing_of. pose proof (timed_no_panic j). destruct (timed_of j); [eauto|eauto|congruence]. Qed.
(** So an answer that gives a timing in which one number is out of range or
    malformed is silently read as no timing: for every valid answer there is
    one. *)
Theorem C56_refuted : forall m d, timed_answer (JObj m) d -> exists m', timing_of (JObj m') = Ok Untimed /\
  (forall k v, k <> str_bytes "cliffTime" -> In (k, v) m' <-> In (k, v) m) /\ In (str_bytes "cliffTime", str "18446744073709551616") m'.
Proof.
  intros m d _. 
  set (k0 := str_bytes "cliffTime").
  exists ((k0, str "18446744073709551616") :: filter (fun kv => negb (key_eqb (fst kv) k0)) m). split; [|split].
  - apply C56_untimed_iff. intros d' (_ & (s & H & (e & S & N & D & V) & L) & _).
    apply has_iff in H; [|discriminate]. cbn [index find_member] in H.
    replace (key_eqb k0 (str_bytes "cliffTime")) with true in H by reflexivity. injection H as <-.
    destruct S as [<-|S]; [|discriminate]. rewrite <- V in L. vm_compute in L. discriminate.
  - intros k v K. cbn [In]. rewrite filter_In. cbn [fst]. split.
    + intros [E|(I & _)]; [congruence|exact I].
    + intros I. right. split; [exact I|]. destruct (key_eqb k k0) eqn:E; [|reflexivity]. apply key_eqb_iff in E. congruence.
  - left. reflexivity.
Qed.
Definition C56_fixture : json :=
  obj [("initialMinimumBalance", str "1000000000"); ("cliffTime", str "4294967297"); ("cliffAmount", str "+005"); ("vestingPeriod", str "1");
       ("vestingIncrement", str "0")].
Example C56_ex : timed_answer C56_fixture (mk_timed 1000000000 4294967297 5 1 0) /\
  timing_of C56_fixture = Ok (Timed (mk_timed 1000000000 4294967297 5 1 0)) /\ timing_of JNull = Ok Untimed.
Proof. split; [apply timed_iff|]; [|split]; reflexivity. Qed.
(** Times are read with 64 bits and hashed with 32: two answers that are read
    differently have the same hash input. *)
Theorem C56_truncation_refuted : exists i j t u, timing_of i = Ok t /\ timing_of j = Ok u /\ t <> u /\ timing_chunked t = timing_chunked u.
Proof.
  exists C56_fixture, (obj [("initialMinimumBalance", str "1000000000"); ("cliffTime", str "1"); ("cliffAmount", str "5"); ("vestingPeriod", str "1");
       ("vestingIncrement", str "0")]), (Timed (mk_timed 1000000000 4294967297 5 1 0)), (Timed (mk_timed 1000000000 1 5 1 0)).
  split; [reflexivity|]. split; [reflexivity|]. split; [discriminate|reflexivity].
Qed.

(** ** Protocol states *)

Notation hash_iff c := (hash_member_iff sha_checksum c sha_checksum_len sha_checksum_bytes).
Notation value_iff c := (hash_value_iff sha_checksum c sha_checksum_len sha_checksum_bytes).
Notation auxv_iff := (aux_iff sha_checksum sha_checksum_len sha_checksum_bytes).
Notation pk_iff := (key_iff sha_checksum sha_checksum_len sha_checksum_bytes).

Lemma sha_empty : nth 0 (sha_checksum []) 0 = 0x5d.
Proof. vm_compute. reflexivity. Qed.
Lemma ver_ok : forall v, In v [0x05; 0x0c; 0x0d; 0x0e; 0x0f; 0x10] -> byte_ok v.
Proof. intros v H. cbn in H. unfold byte_ok. lia. Qed.
Ltac ver := apply ver_ok; cbn; tauto.

Lemma genesis_text : forall c, hash_of sha_checksum c STATE_HASH (str_bytes GENESIS_STATE_HASH_TEXT) = Ok GENESIS_HASH.
Proof. intros []; vm_compute; reflexivity. Qed.
Lemma local_default : forall c, default_local sha_checksum c = Ok DEFAULT_LOCAL.
Proof. intros []; vm_compute; reflexivity. Qed.

Lemma epoch_iff : forall c j e, epoch_of sha_checksum c j = Ok e <-> epoch_answer sha_checksum j e.
Proof.
  intros c j e. unfold epoch_answer.
  rewrite <- (member_iff (fun l => hash_member sha_checksum l "hash" 5 (e_ledger_hash e) /\ num_member l "totalCurrency" 64 (e_total_currency e))).
  2:{ intros ((s & H & _) & _). exact (null_has _ _ H). }
  rewrite <- !(hash_iff c) by ver. rewrite <- !number_iff by lia. unfold epoch_of. split.
  - intros H. do 6 (apply bind_ok in H; let a := fresh "a" in let E := fresh "E" in destruct H as (a & E & H)).
    injection H as <-. cbn [e_ledger_hash e_total_currency seed start_checkpoint lock_checkpoint epoch_length]. auto 8.
  - intros ((E1 & E2) & E3 & E4 & E5 & E6). unfold LEDGER_HASH, EPOCH_SEED, STATE_HASH. rewrite E1, E2, E3, E4, E5, E6. cbn [bind]. destruct e. reflexivity.
Qed.
Lemma epoch_null : forall e, ~ epoch_answer sha_checksum JNull e.
Proof. intros e ((l & H & _) & _). exact (null_has _ _ H). Qed.

Lemma consensus_iff : forall c j s, consensus_of sha_checksum c j = Ok s <-> consensus_answer sha_checksum j s /\ fixed_consensus s.
Proof.
  intros c j s. unfold consensus_answer.
  rewrite <- (member_iff (fun l => epoch_answer sha_checksum l (staking_epoch_data s))) by apply epoch_null.
  rewrite <- (member_iff (fun l => epoch_answer sha_checksum l (next_epoch_data s))) by apply epoch_null.
  rewrite <- !(epoch_iff c), <- !number_iff, <- !pk_iff, <- !flag_iff by lia.
  rewrite <- (vrf_iff sha_checksum sha_checksum_len sha_checksum_bytes sha_empty).
  unfold consensus_of, fixed_consensus. split.
  - intros H. do 12 (apply bind_ok in H; let a := fresh "a" in let E := fresh "E" in destruct H as (a & E & H)).
    injection H as <-. cbn [blockchain_length epoch_count min_window_density sub_window_densities last_vrf_output total_currency slot_number
      cs_slots_per_epoch global_slot_since_genesis staking_epoch_data next_epoch_data has_ancestor block_stake_winner block_creator
      coinbase_receiver supercharge_coinbase]. repeat split; assumption.
  - intros ((E1 & E2 & E3 & E4 & E5 & E6 & E7 & E8 & E9 & E10 & E11 & E12 & E13 & E14) & D & S).
    rewrite E1, E2, E3, E4, E5, E6, E7, E8, E9, E10, E11, E12, E13, E14. cbn [bind].
    change HARD_DENSITIES with (1 :: repeat 7 10). change HARD_SLOTS_PER_EPOCH with 7140. rewrite <- D, <- S. destruct s. reflexivity.
Qed.
Lemma blockchain_iff : forall c j b, blockchain_of sha_checksum c j = Ok b <-> blockchain_answer sha_checksum j b /\ registers_local b = DEFAULT_LOCAL.
Proof.
  intros c j b. unfold blockchain_answer. rewrite <- !(value_iff c) by ver. rewrite <- !auxv_iff by ver. rewrite <- number_iff by lia. rewrite <- hex_iff.
  unfold blockchain_of. rewrite local_default. split.
  - intros H. do 9 (apply bind_ok in H; let a := fresh "a" in let E := fresh "E" in destruct H as (a & E & H)).
    injection E5 as <-. injection H as <-.
    cbn [b_staged ledger_hash aux_hash pending_coinbase_aux pending_coinbase_hash b_genesis_ledger_hash registers_ledger registers_local b_timestamp body_reference].
    repeat split; assumption.
  - intros ((E1 & E2 & E3 & E4 & E5 & E6 & E7 & E8) & D).
    unfold LEDGER_HASH, STAGED_LEDGER_HASH_AUX_HASH, STAGED_LEDGER_HASH_PENDING_COINBASE_AUX, COINBASE_HASH.
    rewrite E1, E2, E3, E4, E5, E6, E7, E8. cbn [bind]. rewrite <- D. destruct b as [[]]. reflexivity.
Qed.

(** C93: exactly what is read of a protocol state: what the answer says, and
    fixed values for the genesis state hash, the local state, the sub-window
    densities, the slots per epoch and the constants. *)
Theorem C93_read_iff : forall checked j s, state_of sha_checksum checked j = Ok s <-> state_answer sha_checksum j s /\ fixed_state s.
Proof.
  intros c j s. unfold state_answer, fixed_state.
  rewrite <- (member_iff (fun l => blockchain_answer sha_checksum l (body_blockchain (s_body s)))).
  2:{ intros ((x & H & _) & _). exact (null_has _ _ H). }
  rewrite <- (member_iff (fun l => consensus_answer sha_checksum l (body_consensus (s_body s)))).
  2:{ intros ((x & H & _) & _). exact (null_has _ _ H). }
  rewrite <- (hash_iff c) by ver. unfold state_of, body_of. rewrite genesis_text. cbn [bind]. split.
  - intros H. apply bind_ok in H. destruct H as (p & P & H). apply bind_ok in H. destruct H as (b & B & H). injection H as <-.
    apply bind_ok in B. destruct B as (bs & B & H). apply bind_ok in H. destruct H as (cs & C & H). injection H as <-.
    apply blockchain_iff in B. apply consensus_iff in C. cbn [s_previous s_body body_genesis_state_hash body_blockchain body_consensus body_constants].
    intuition.
  - intros ((P & B & C) & G & L & F & K).
    assert (B' : blockchain_of sha_checksum c (index j "blockchainState") = Ok (body_blockchain (s_body s))) by (apply blockchain_iff; auto).
    assert (C' : consensus_of sha_checksum c (index j "consensusState") = Ok (body_consensus (s_body s))) by (apply consensus_iff; auto).
    unfold STATE_HASH. rewrite P, B', C'. cbn [bind]. rewrite <- G. unfold default_constants. rewrite <- K. destruct s as [p [b x y z]]. reflexivity.
Qed.
Lemma fix_answer : forall j s, state_answer sha_checksum j s -> state_answer sha_checksum j (fix_state s).
Proof. intros j s H. exact H. Qed.
Lemma fix_fixed : forall s, fixed_state (fix_state s).
Proof. intros s. repeat split. Qed.
Lemma fixed_same : forall s, fixed_state s <-> fix_state s = s.
Proof.
  intros s. split.
  - intros (G & L & (D & S) & K). destruct s as [p [g [x1 x2 x3 x4 x5 x6] [c1 c2 c3 c4 c5 c6 c7 c8 c9 c10 c11 c12 c13 c14 c15 c16] k]].
    cbn in G, L, D, S, K. subst. reflexivity.
  - intros <-. apply fix_fixed.
Qed.
(** Reading the answer for a state gives the state with those values put in,
    so the state itself exactly if it has them. *)
Theorem C93_answered : forall checked j s, state_answer sha_checksum j s -> state_of sha_checksum checked j = Ok (fix_state s).
Proof. intros c j s H. apply C93_read_iff. split; [apply fix_answer; exact H|apply fix_fixed]. Qed.
Theorem C93_same_iff : forall checked j s, state_answer sha_checksum j s -> (state_of sha_checksum checked j = Ok s <-> fixed_state s).
Proof. intros c j s H. rewrite C93_read_iff. tauto. Qed.
(** An answer says the same of every state up to those values. *)
Theorem C93_answer_unique : forall j s t, state_answer sha_checksum j s -> state_answer sha_checksum j t -> fix_state s = fix_state t.
Proof. intros j s t S T. apply (C93_answered true) in S, T. congruence. Qed.

(** The answer in the test of the repository (protocol_state.rs 348-399). *)
Definition C93_fixture : json :=
  obj [("previousStateHash", str "3NLUmnTBMCeExeWErijZ2GeLnjLtBgsDjN3qM8M8gcJDtk8k89xf"); ("consensusState", obj [("blockCreator",
  str "B62qiy32p8kAKnny8ZFwoMhYpBppM1DWVCqAPBYNcXnsAHhnfAAuXgg"); ("blockHeight", str "1"); ("blockStakeWinner", str
  "B62qiy32p8kAKnny8ZFwoMhYpBppM1DWVCqAPBYNcXnsAHhnfAAuXgg"); ("blockchainLength", str "1"); ("coinbaseReceiever", str
  "B62qiy32p8kAKnny8ZFwoMhYpBppM1DWVCqAPBYNcXnsAHhnfAAuXgg"); ("epoch", str "0"); ("epochCount", str "0");
  ("hasAncestorInSameCheckpointWindow", JBool true); ("lastVrfOutput", str "48FthHHNE1y3YmoS4UvKaM6UyGd9nCJXTPVFQUGak7YtonTDUuEd");
  ("minWindowDensity", str "77"); ("slot", str "0"); ("slotSinceGenesis", str "0"); ("superchargedCoinbase", JBool true);
  ("totalCurrency", str "1013238001000001000"); ("nextEpochData", obj [("epochLength", str "2"); ("lockCheckpoint", str
  "3NLUmnTBMCeExeWErijZ2GeLnjLtBgsDjN3qM8M8gcJDtk8k89xf"); ("seed", str "2vc1zQHJx2xN72vaR4YDH31KwFSr5WHSEH2dzcfcq8jxBPcGiJJA");
  ("startCheckpoint", str "3NK2tkzqqK5spR2sZ7tujjqPksL45M3UUrcA4WhCkeiPtnugyE2x"); ("ledger", obj [("hash", str
  "jwNYQU34Jb9FD6ZbKnWRALZqVDKbMrjZBKWFYZwAw8ZPMgv9Ld4"); ("totalCurrency", str "1013238001000001000")])]); ("stakingEpochData", obj
  [("epochLength", str "1"); ("lockCheckpoint", str "3NK2tkzqqK5spR2sZ7tujjqPksL45M3UUrcA4WhCkeiPtnugyE2x"); ("seed", str
  "2va9BGv9JrLTtrzZttiEMDYw1Zj6a6EHzXjmP9evHDTG3oEquURA"); ("startCheckpoint", str
  "3NK2tkzqqK5spR2sZ7tujjqPksL45M3UUrcA4WhCkeiPtnugyE2x"); ("ledger", obj [("hash", str
  "jwNYQU34Jb9FD6ZbKnWRALZqVDKbMrjZBKWFYZwAw8ZPMgv9Ld4"); ("totalCurrency", str "1013238001000001000")])])]); ("blockchainState",
  obj [("bodyReference", str "36bda176656cc3be96c3d317db7b4ac06fdbc7f4eedcd6efdd20e28143d67421"); ("date", str "1655755201000");
  ("snarkedLedgerHash", str "jwNYQU34Jb9FD6ZbKnWRALZqVDKbMrjZBKWFYZwAw8ZPMgv9Ld4"); ("stagedLedgerAuxHash", str
  "UDRUFHSvxUAtV8sh7gzMVPqpbd46roG1wzWR6dYvB6RunPihom"); ("stagedLedgerHash", str
  "jwNYQU34Jb9FD6ZbKnWRALZqVDKbMrjZBKWFYZwAw8ZPMgv9Ld4"); ("stagedLedgerPendingCoinbaseHash", str
  "2n27mUhCEctJbiZQdrk3kxYc7DVHvJVDErjXrjNs7jnP3HMLKtuN"); ("stagedLedgerPendingCoinbaseAux", str
  "WAAeUjUnP9Q2JiabhJzJozcjiEmkZe8ob4cfFKSuq6pQSNmHh7"); ("stagedLedgerProofEmitted", JBool false); ("utcDate", str
  "1655755201000"); ("genesisLedgerHash", str "jwNYQU34Jb9FD6ZbKnWRALZqVDKbMrjZBKWFYZwAw8ZPMgv9Ld4")])].
Definition C93_state : state := Eval vm_compute in
  match state_of sha_checksum true C93_fixture with
  | Ok s => s
  | _ => mk_state [] (mk_body [] (mk_blockchain (mk_staged [] [] [] []) [] [] DEFAULT_LOCAL 0 []) (mk_consensus 0 0 0 [] [] 0 0 0 0 (mk_epoch [] 0 [] [] [] 0)
      (mk_epoch [] 0 [] [] [] 0) false (mk_pk 0 false) (mk_pk 0 false) (mk_pk 0 false) false) default_constants)
  end.
Lemma C93_fixture_read : state_of sha_checksum true C93_fixture = Ok C93_state.
Proof. vm_compute. reflexivity. Qed.
Example C93_ex : state_answer sha_checksum C93_fixture C93_state /\ total_currency (body_consensus (s_body C93_state)) = 1013238001000001000 /\
  s_previous C93_state = GENESIS_HASH /\ pk_odd (block_creator (body_consensus (s_body C93_state))) = false.
Proof. split; [apply (C93_read_iff true); exact C93_fixture_read|]. vm_compute. auto. Qed.
(** A network with 120 instead of 290 confirmations sends the same answer: *)
Definition with_k (n : Z) (s : state) : state :=
  let b := s_body s in let k := body_constants b in
  mk_state (s_previous s) (mk_body (body_genesis_state_hash b) (body_blockchain b) (body_consensus b)
    (mk_constants n (slots_per_epoch k) (slots_per_sub_window k) (delta k) (genesis_state_timestamp k))).
Theorem C93_refuted : exists j s t, state_answer sha_checksum j s /\ state_of sha_checksum true j = Ok t /\ k (body_constants (s_body t)) <> k (body_constants (s_body s)).
Proof.
  exists C93_fixture, (with_k 120 C93_state), C93_state. split.
  - exact (proj1 C93_ex).
  - split; [exact C93_fixture_read|]. replace (body_constants (s_body C93_state)) with default_constants; [discriminate|]. vm_compute. reflexivity.
Qed.

(** ** Accounts *)

Lemma delegate_iff : forall j d, delegate_of sha_checksum (index j "delegate") = Ok d <-> delegate_answer sha_checksum j d.
Proof.
  intros j d. unfold delegate_of, delegate_answer. destruct d as [p|].
  - rewrite <- pk_iff. destruct (index j "delegate") as [| | | |s| |]; cbn [as_str]; try (split; [discriminate|intros H; vm_compute in H; discriminate]).
    split.
    + intros H. apply bind_ok in H. destruct H as (p' & E & H). injection H as ->. exact E.
    + intros ->. reflexivity.
  - split.
    + intros H s K. apply has_iff in K; [|discriminate]. rewrite K in H. apply bind_ok in H. destruct H as (p' & _ & H). discriminate.
    + intros H. destruct (index j "delegate") as [| | | |s| |] eqn:E; try reflexivity.
      exfalso. apply (H s). apply has_iff; [discriminate|exact E].
Qed.
Lemma timed_null : forall d, ~ timed_answer JNull d.
Proof. intros d ((s & H & _) & _). exact (null_has _ _ H). Qed.
Lemma timing_iff : forall j t, timing_of (index j "timing") = Ok t <-> timing_answer j t.
Proof.
  intros j [|d]; cbn [timing_answer].
  - rewrite C56_untimed_iff. split.
    + intros H t d K. assert (N : t <> JNull \/ t = JNull) by (destruct t; auto; left; discriminate).
      destruct N as [N| ->]; [|apply timed_null]. apply has_iff in K; [|exact N]. subst t. apply H.
    + intros H d A. assert (X : exists l, has j "timing" l /\ timed_answer l d) by (apply (member_iff (fun l => timed_answer l d)); [apply timed_null|exact A]).
      destruct X as (l & K & X). exact (H l d K X).
  - rewrite C56_timed_iff. apply (member_iff (fun l => timed_answer l d)). apply timed_null.
Qed.

(** C94: exactly what is read of an account: what the answer says, permissions
    as in C46, and no symbol and no zkapp. *)
Theorem C94_read_iff : forall checked j a, account_of sha_checksum checked j = Ok a <->
  account_answer sha_checksum j a /\ (exists p, has j "permissions" p /\ other_permissions p (a_permissions a)) /\
  increment_nonce (a_permissions a) = edit_state (a_permissions a) /\ fixed_account a.
Proof.
  intros c j a. unfold account_answer.
  rewrite <- (member_iff (fun l => num_member l "total" 64 (balance a))).
  2:{ intros (x & H & _). exact (null_has _ _ H). }
  rewrite <- (member_iff (fun p => other_permissions p (a_permissions a))).
  2:{ intros (H & _). exact (null_has _ _ H). }
  rewrite <- !(hash_iff c) by ver. rewrite <- !number_iff by lia. rewrite <- pk_iff, <- delegate_iff, <- timing_iff.
  assert (T : forall d o, (if as_bool (index j "isTokenOwner") then TokenOwned (as_bool (index j "isDisabled")) else NotOwned (as_bool (index j "isDisabled"))) =
      (if o : bool then TokenOwned d else NotOwned d) <->
      (if o then has j "isTokenOwner" (JBool true) else ~ has j "isTokenOwner" (JBool true)) /\ flag j "isDisabled" d).
  { intros d o. rewrite <- flag_iff. pose proof (proj1 (flag_iff j "isTokenOwner" (as_bool (index j "isTokenOwner"))) eq_refl) as O. unfold flag in O.
    destruct o, (as_bool (index j "isTokenOwner")); intuition congruence. }
  unfold account_of, fixed_account. cbv zeta. split.
  - intros H. do 9 (apply bind_ok in H; let a := fresh "a" in let E := fresh "E" in destruct H as (a & E & H)).
    injection H as <-. apply C46_read_iff in E7. cbn [public_key token_id balance a_token_permissions token_symbol a_nonce receipt_chain_hash delegate voting_for a_timing
      a_permissions zkapp zkapp_uri]. destruct E7 as (P & I).
    repeat (split; [first [assumption | idtac]|]); try assumption; try reflexivity.
    destruct (as_bool (index j "isTokenOwner")) eqn:O; [apply (T _ true)|apply (T _ false)]; rewrite ?O; reflexivity.
  - intros ((E1 & E2 & E3 & O & E4 & E5 & E6 & E7 & E8) & P & I & S & Z1 & Z2).
    assert (P' : permissions_of (index j "permissions") = Ok (a_permissions a)) by (apply C46_read_iff; auto).
    unfold LEDGER_HASH, STATE_HASH. rewrite E1, E2, E3, E4, E5, E6, E7, E8, P'. cbn [bind].
    replace (if as_bool (index j "isTokenOwner") then TokenOwned (as_bool (index j "isDisabled")) else NotOwned (as_bool (index j "isDisabled")))
      with (a_token_permissions a).
    + rewrite <- S. destruct a; cbn in *; subst. reflexivity.
    + symmetry. destruct (a_token_permissions a) as [d|d]; [apply (T d false)|apply (T d true)]; exact O.
Qed.
(** The answer for an account is read as the account with these put in. *)
Theorem C94_answered : forall checked j a p, account_answer sha_checksum j a -> has j "permissions" p -> permissions_answer p (a_permissions a) ->
  account_of sha_checksum checked j = Ok (fix_account a).
Proof.
  intros c j a p A H (O & _). apply C94_read_iff. split; [exact A|]. split; [exists p; split; [exact H|exact O]|]. repeat split.
Qed.
Theorem C94_same_iff : forall checked j a p, account_answer sha_checksum j a -> has j "permissions" p -> permissions_answer p (a_permissions a) ->
  (account_of sha_checksum checked j = Ok a <-> fixed_account a /\ increment_nonce (a_permissions a) = edit_state (a_permissions a)).
Proof.
  intros c j a p A H (O & _). rewrite C94_read_iff. split; [tauto|]. intros (F & I). split; [exact A|]. split; [exists p; auto|auto].
Qed.
Definition C94_fixture (symbol : string) : json :=
  obj [("publicKey", str "B62qiy32p8kAKnny8ZFwoMhYpBppM1DWVCqAPBYNcXnsAHhnfAAuXgg"); ("token", str "1");
       ("balance", obj [("total", str "1000000000000")]); ("nonce", str "7"); ("tokenSymbol", str symbol); ("isDisabled", JBool false); ("isTokenOwner", JNull);
       ("receiptChainHash", str "jw6bz2wud1N6itRUHZ5ypo3267stk4UgzkiuWtAMPRZo9g4Udyd"); ("delegate", str "B62qiy32p8kAKnny8ZFwoMhYpBppM1DWVCqAPBYNcXnsAHhnfAAuXgg");
       ("votingFor", str "3NLUmnTBMCeExeWErijZ2GeLnjLtBgsDjN3qM8M8gcJDtk8k89xf"); ("timing", obj [("cliffTime", JNull)]); ("permissions", C46_fixture "Signature")].
Definition C94_account : account := Eval vm_compute in
  match account_of sha_checksum false (C94_fixture "") with
  | Ok a => a
  | _ => mk_account (mk_pk 0 false) 0 0 (NotOwned false) [] 0 [] None [] Untimed (C46_perms ANone) None None
  end.
Lemma C94_fixture_read : account_of sha_checksum false (C94_fixture "") = Ok C94_account.
Proof. vm_compute. reflexivity. Qed.
Example C94_ex : account_answer sha_checksum (C94_fixture "") C94_account /\ has (C94_fixture "") "permissions" (C46_fixture "Signature") /\
  permissions_answer (C46_fixture "Signature") (a_permissions C94_account) /\ a_nonce C94_account = 7 /\ a_timing C94_account = Untimed /\
  delegate C94_account = Some (public_key C94_account) /\ balance C94_account = 1000000000000.
Proof.
  split; [exact (proj1 (proj1 (C94_read_iff _ _ _) C94_fixture_read))|]. split; [apply has_iff; [discriminate|reflexivity]|].
  split; [exact (C46_fixture_says ASignature)|]. vm_compute. auto.
Qed.
(** Members that are not read do not matter: an account with a token symbol, or
    with a zkapp, is read without it. *)
Lemma index_skip : forall x v m k, key_eqb x (str_bytes k) = false -> index (JObj ((x, v) :: m)) k = index (JObj m) k.
Proof. intros x v m k H. cbn [index find_member]. rewrite H. reflexivity. Qed.
Theorem C94_unread_refuted : forall checked m k v, In k ["tokenSymbol"; "zkappState"; "zkappUri"; "provedState"; "verificationKey"; "leafHash"; "locked"; "index"] ->
  account_of sha_checksum checked (JObj ((str_bytes k, v) :: m)) = account_of sha_checksum checked (JObj m).
Proof.
  intros c m k v H. unfold account_of.
  cbn [In] in H. repeat (destruct H as [<-|H]; [rewrite !index_skip by reflexivity; reflexivity|]). destruct H.
Qed.

(** ** C95: no answer makes the readers panic *)

Ltac calm := repeat (let H := fresh in intros H; apply bind_panic in H; destruct H as [H|(? & _ & H)]; [revert H|revert H]).
Lemma bind_calm : forall (E A B : Type) (r : res E A) (f : A -> res E B), r <> Panic -> (forall a, f a <> Panic) -> bind r f <> Panic.
Proof. intros E A B r f R F H. apply bind_panic in H. destruct H as [H|(a & _ & H)]; [exact (R H)|exact (F a H)]. Qed.
Lemma hash_calm : forall c ver s, In ver [0x05; 0x0c; 0x0d; 0x0e; 0x0f; 0x10] -> hash_of sha_checksum c ver s <> Panic.
Proof.
  intros c ver s H. apply (hash_no_panic sha_checksum c sha_checksum_len sha_checksum_bytes sha_empty). cbn in H. lia.
Qed.
Lemma value_calm : forall c ver j, In ver [0x05; 0x0c; 0x0d; 0x0e; 0x0f; 0x10] -> hash_value sha_checksum c ver j <> Panic.
Proof. intros c ver j H. destruct j; try discriminate. apply hash_calm. exact H. Qed.
Lemma aux_calm : forall ver j, In ver [0x05; 0x0c; 0x0d; 0x0e; 0x0f; 0x10] -> aux_value sha_checksum ver j <> Panic.
Proof.
  intros ver j H. apply (aux_no_panic sha_checksum sha_checksum_len sha_checksum_bytes sha_empty). cbn in H. lia.
Qed.
Ltac step := match goal with
  | |- number _ _ <> _ => apply number_no_panic
  | |- auth_of _ <> _ => apply auth_no_panic
  | |- key_of _ _ <> _ => apply key_no_panic
  | |- conv (body_from_hex _) <> _ => apply hex_no_panic
  | |- vrf_of _ _ <> _ => apply vrf_no_panic
  | |- hash_of _ _ _ _ <> _ => apply hash_calm; cbn; tauto
  | |- hash_value _ _ _ _ <> _ => apply value_calm; cbn; tauto
  | |- aux_value _ _ _ <> _ => apply aux_calm; cbn; tauto
  | |- Ok _ <> _ => discriminate
  end.
Lemma epoch_calm : forall c j, epoch_of sha_checksum c j <> Panic.
Proof. intros c j. unfold epoch_of. repeat (apply bind_calm; [step|intros ?]). discriminate. Qed.
Lemma permissions_calm : forall j, permissions_of j <> Panic.
Proof. intros j. unfold permissions_of. repeat (apply bind_calm; [step|intros ?]). discriminate. Qed.
Lemma delegate_calm : forall j, delegate_of sha_checksum j <> Panic.
Proof. intros j. destruct j; try discriminate. cbn [delegate_of]. apply bind_calm; [step|discriminate]. Qed.
Lemma timing_calm : forall j, timing_of j <> Panic.
Proof. intros j. destruct (C56_total j) as (t & ->). discriminate. Qed.
Theorem C95_state_no_crash : forall checked j, state_of sha_checksum checked j <> Panic.
Proof.
  intros c j. unfold state_of. apply bind_calm; [step|intros p]. apply bind_calm; [|discriminate].
  unfold body_of. apply bind_calm; [step|intros g]. apply bind_calm; [|intros b].
  - unfold blockchain_of. rewrite local_default. repeat (apply bind_calm; [step|intros ?]). discriminate.
  - apply bind_calm; [|discriminate]. unfold consensus_of. cbv zeta. repeat (apply bind_calm; [first [step|apply epoch_calm]|intros ?]). discriminate.
Qed.
Theorem C95_account_no_crash : forall checked j, account_of sha_checksum checked j <> Panic.
Proof.
  intros c j. unfold account_of. cbv zeta.
  repeat (apply bind_calm; [first [step|apply delegate_calm|apply timing_calm|apply permissions_calm]|intros ?]). discriminate.
Qed.
(** Both kinds of results happen. *)
Example C95_ex : state_of sha_checksum true JNull = Err JE /\ account_of sha_checksum true (JArr []) = Err JE /\
  state_of sha_checksum true C93_fixture <> Err JE.
Proof. split; [vm_compute; reflexivity|]. split; [vm_compute; reflexivity|]. rewrite C93_fixture_read. discriminate. Qed.

Print Assumptions C46_read_iff.
Print Assumptions C46_own_iff.
Print Assumptions C46_increment_nonce_ignored.
Print Assumptions C46_fixture_says.
Print Assumptions C46_refuted.
Print Assumptions C56_timed_iff.
Print Assumptions C56_untimed_iff.
Print Assumptions C56_total.
Print Assumptions C56_refuted.
Print Assumptions C56_truncation_refuted.
Print Assumptions C93_read_iff.
Print Assumptions C93_answered.
Print Assumptions C93_same_iff.
Print Assumptions C93_answer_unique.
Print Assumptions C93_fixture_read.
Print Assumptions C93_refuted.
Print Assumptions C94_read_iff.
Print Assumptions C94_answered.
Print Assumptions C94_same_iff.
Print Assumptions C94_fixture_read.
Print Assumptions C94_unread_refuted.
Print Assumptions C95_state_no_crash.
Print Assumptions C95_account_no_crash.
