(** Protocol states, commands and blocks as documents, type by type. *)

From Coq Require Import String ZArith List Bool Lia ZifyBool ZifyNat.
From Verif Require Import Lib.Res Lib.Bytes Lib.Text BinProt.Codec BinProt.CodecSpec Wire.Types Text.Base58 Text.Checksum Text.ChecksumProps Text.FieldText
  Json.Json Json.JsonTypes Json.JsonSpec Json.JsonFacts Json.JsonReadFacts Json.JsonProps GraphQL.GraphQLSpec Hashing.Command Hashing.State Ledger.AccountWireSpec Convert.Conv Convert.ViewSpec.
From Verif Require Import Convert.JsonViewSpec Convert.JsonViewFacts Convert.JsonViewLeaf.
Import ListNotations.
Local Open Scope string_scope.
Local Open Scope list_scope.
Local Open Scope Z_scope.

Section Types.
  Variable checked : bool.
  Notation says := (says checked).
  Notation v2 W := (wv (wv W)).
  Notation v3 W := (wv (wv (wv W))).

  Lemma f2_cons : forall A B (P : A -> B -> Prop) a l m, Forall2 P (a :: l) m -> exists b m', m = b :: m' /\ P a b /\ Forall2 P l m'.
  Proof using Type. intros A B P a l m H. inversion H; subst. eauto. Qed.
  Lemma f2_nil : forall A B (P : A -> B -> Prop) m, Forall2 P [] m -> m = [].
  Proof using Type. intros A B P m H. inversion H. reflexivity. Qed.
  Lemma says_iff : forall A d (R R' : mode -> json -> A -> Prop) W, (forall m j a, R m j a <-> R' m j a) -> says d R W -> says d R' W.
  Proof using Type.
    intros A d R R' W E (H1 & H2 & H3 & H4). split; [|split; [|split; [|exact H4]]].
    - intros j v a X Y. apply E. eapply H1; eassumption.
    - intros j v a X Y. apply E. eapply H2; eassumption.
    - intros j a X Y. apply E in Y. exact (H3 j a X Y).
  Qed.
  Lemma hash_ver : forall n, In n [0x05; 0x0c; 0x0d; 0x10] -> byte_ok n.
  Proof using Type. intros n [<-|[<-|[<-|[<-|[]]]]]; unfold byte_ok; lia. Qed.
  Lemma says2 : forall A d R (W : val -> A -> Prop), says d R W -> says (DV (DV d)) R (v2 W).
  Proof using Type. intros. apply says_ver, says_ver. assumption. Qed.
  Lemma says3 : forall A d R (W : val -> A -> Prop), says d R W -> says (DV (DV (DV d))) R (v3 W).
  Proof using Type. intros. apply says_ver, says2. assumption. Qed.
  Lemma s_u32 : says jU32 (fun _ => d_num 32 true) (v2 (w_num (2 ^ 32))). Proof using Type. apply says2, says_u32. Qed.
  Lemma s_x32 : says jX32 (fun _ => d_num 32 true) (v2 w_cast). Proof using Type. apply says2, says_x32. Qed.
  Lemma s_u64 : says jU64_2 (fun _ => d_num 64 true) (v2 (w_num (2 ^ 64))). Proof using Type. apply says2, says_u64. Qed.
  Lemma s_u64_3 : says jU64_3 (fun _ => d_num 64 true) (v3 (w_num (2 ^ 64))). Proof using Type. apply says3, says_u64. Qed.
  Lemma s_dec : says jDec (fun m => d_fee (understood m) true) (v2 (w_num (2 ^ 64))). Proof using Type. apply says2, says_dec. Qed.
  Lemma s_ledger : says jLedgerHash (fun _ => d_hash sha 0x05 true) (w_ver w_bytes). Proof using Type. apply says_hash, hash_ver; cbn; tauto. Qed.
  Lemma s_seed : says jEpochSeed (fun _ => d_hash sha 0x0d true) (w_ver w_bytes). Proof using Type. apply says_hash, hash_ver; cbn; tauto. Qed.
  Lemma s_state : says jStateHash (fun _ => d_hash sha 0x10 true) (w_ver w_bytes). Proof using Type. apply says_hash, hash_ver; cbn; tauto. Qed.
  Lemma s_coinbase : says (DV jCoinBaseHash) (fun _ => d_hash sha 0x0c true) (wv (w_ver w_bytes)). Proof using Type. apply says_ver, says_hash, hash_ver; cbn; tauto. Qed.
  Lemma s_aux : says jAuxHash (fun _ => d_check sha 0x0e true) (wv w_vec). Proof using Type. apply says_ver, says_aux. unfold byte_ok; lia. Qed.
  Lemma s_pending : says jPendingAux (fun _ => d_check sha 0x0f true) (wv w_vec). Proof using Type. apply says_ver, says_aux. unfold byte_ok; lia. Qed.
  Lemma s_memo : says jMemo (fun _ => d_check sha 0x14 true) (wv w_vec). Proof using Type. apply says_ver, says_memo. Qed.
  Lemma s_vrf : says jVrf (fun _ => d_base64 true) (wv w_vec). Proof using Type. apply says_ver, says_vrf. Qed.
  Lemma s_pub : says jPub (fun _ => d_key sha true) (v2 w_key). Proof using Type. apply says2, says_pub. Qed.
  Lemma s_pub2 : says jPub2 (fun _ => d_key sha true) (v3 w_key). Proof using Type. apply says3, says_pub. Qed.
  Lemma s_sig : says jSig (fun _ => d_sig sha true) (wv (w_ver w_sig)). Proof using Type. apply says_ver, says_sig. Qed.
  Lemma s_densities : says (DVec jU32) (fun _ => d_list (d_num 32) true) (fun v l => exists vs, v = VSeq vs /\ Forall2 (v2 (w_num (2 ^ 32))) vs l).
  Proof using Type. exact (says_list checked _ _ _ _ s_u32). Qed.

  Definition m_constants : list (mem constants) :=
    [mk_mem "k" jU32 Z (fun _ => d_num 32 true) (v2 (w_num (2 ^ 32))) k;
     mk_mem "slots_per_epoch" jU32 Z (fun _ => d_num 32 true) (v2 (w_num (2 ^ 32))) slots_per_epoch;
     mk_mem "slots_per_sub_window" jU32 Z (fun _ => d_num 32 true) (v2 (w_num (2 ^ 32))) slots_per_sub_window;
     mk_mem "delta" jU32 Z (fun _ => d_num 32 true) (v2 (w_num (2 ^ 32))) delta;
     mk_mem "genesis_state_timestamp" jU64_2 Z (fun _ => d_num 64 true) (v2 (w_num (2 ^ 64))) genesis_state_timestamp].
  Lemma is_constants : forall m j a, sR m_constants m j a <-> (fun m => d_constants (other m)) m j a.
  Proof using Type.
    intros m j a. split.
    - intros (xs & P & F). unfold m_constants in F. repeat (apply f2_cons in F; destruct F as (? & ? & -> & ? & F)). apply f2_nil in F. subst.
      do 5 eexists. split; [exact P|]. repeat (split; [eassumption|]). eassumption.
    - intros (x0 & x1 & x2 & x3 & x4 & P & H0 & H1 & H2 & H3 & H4). exists [x0; x1; x2; x3; x4]. split; [exact P|]. repeat (apply Forall2_cons; [assumption|]). apply Forall2_nil.
  Qed.
  Lemma t_constants : says (DStruct (flds_of m_constants FNil)) (fun m => d_constants (other m)) (sW m_constants).
  Proof using Type.
    apply (says_iff _ _ (sR m_constants)); [exact is_constants|]. apply s_says; [reflexivity|discriminate| |].
    - apply Forall_cons; [split; [exact s_u32|reflexivity]|].
      apply Forall_cons; [split; [exact s_u32|reflexivity]|].
      apply Forall_cons; [split; [exact s_u32|reflexivity]|].
      apply Forall_cons; [split; [exact s_u32|reflexivity]|].
      apply Forall_cons; [split; [exact s_u64|reflexivity]|].
      apply Forall_nil.
    - intros a a' F. unfold m_constants in F. repeat (let X := fresh in pose proof (Forall_inv F) as X; apply Forall_inv_tail in F; cbn [m_p m_B] in X). destruct a, a'; cbn in *; repeat match goal with X : (_, _) = (_, _) |- _ => injection X; clear X; intros end; subst; reflexivity.
  Qed.
  Lemma s_constants : says jProtocolConstants (fun m => d_constants (other m)) (wv (wv (sW m_constants))).
  Proof using Type. exact (says2 _ _ _ _ t_constants). Qed.
  Definition m_non_snark : list (mem (list Z * list Z * list Z)) :=
    [mk_mem "ledger_hash" jLedgerHash (list Z) (fun _ => d_hash sha 0x05 true) (w_ver w_bytes) (fun s => fst (fst s));
     mk_mem "aux_hash" jAuxHash (list Z) (fun _ => d_check sha 0x0e true) (wv w_vec) (fun s => snd (fst s));
     mk_mem "pending_coinbase_aux" jPendingAux (list Z) (fun _ => d_check sha 0x0f true) (wv w_vec) (fun s => snd s)].
  Lemma is_non_snark : forall m j a, sR m_non_snark m j a <-> (fun m x s => exists a b c, parts (other m) ["ledger_hash"; "aux_hash"; "pending_coinbase_aux"] x [a; b; c] /\
    d_hash sha 0x05 (other m) a (fst (fst s)) /\ d_check sha 0x0e (other m) b (snd (fst s)) /\ d_check sha 0x0f (other m) c (snd s)) m j a.
  Proof using Type.
    intros m j a. split.
    - intros (xs & P & F). unfold m_non_snark in F. repeat (apply f2_cons in F; destruct F as (? & ? & -> & ? & F)). apply f2_nil in F. subst.
      do 3 eexists. split; [exact P|]. repeat (split; [eassumption|]). eassumption.
    - intros (x0 & x1 & x2 & P & H0 & H1 & H2). exists [x0; x1; x2]. split; [exact P|]. repeat (apply Forall2_cons; [assumption|]). apply Forall2_nil.
  Qed.
  Lemma t_non_snark : says (DStruct (flds_of m_non_snark FNil)) (fun m x s => exists a b c, parts (other m) ["ledger_hash"; "aux_hash"; "pending_coinbase_aux"] x [a; b; c] /\
    d_hash sha 0x05 (other m) a (fst (fst s)) /\ d_check sha 0x0e (other m) b (snd (fst s)) /\ d_check sha 0x0f (other m) c (snd s)) (sW m_non_snark).
  Proof using Type.
    apply (says_iff _ _ (sR m_non_snark)); [exact is_non_snark|]. apply s_says; [reflexivity|discriminate| |].
    - apply Forall_cons; [split; [exact s_ledger|reflexivity]|].
      apply Forall_cons; [split; [exact s_aux|reflexivity]|].
      apply Forall_cons; [split; [exact s_pending|reflexivity]|].
      apply Forall_nil.
    - intros a a' F. unfold m_non_snark in F. repeat (let X := fresh in pose proof (Forall_inv F) as X; apply Forall_inv_tail in F; cbn [m_p m_B] in X). destruct a, a'; repeat match goal with x : prod _ _ |- _ => destruct x end; cbn [fst snd] in *; congruence.
  Qed.
  Lemma s_non_snark : says jNonSnark (fun m x s => exists a b c, parts (other m) ["ledger_hash"; "aux_hash"; "pending_coinbase_aux"] x [a; b; c] /\
    d_hash sha 0x05 (other m) a (fst (fst s)) /\ d_check sha 0x0e (other m) b (snd (fst s)) /\ d_check sha 0x0f (other m) c (snd s)) (wv (sW m_non_snark)).
  Proof using Type. exact (says_ver checked _ _ _ _ t_non_snark). Qed.
  Definition m_staged : list (mem staged) :=
    [mk_mem "non_snark" jNonSnark ((list Z * list Z * list Z)) (fun m x s => exists a b c, parts (other m) ["ledger_hash"; "aux_hash"; "pending_coinbase_aux"] x [a; b; c] /\
    d_hash sha 0x05 (other m) a (fst (fst s)) /\ d_check sha 0x0e (other m) b (snd (fst s)) /\ d_check sha 0x0f (other m) c (snd s)) (wv (sW m_non_snark)) (fun s => (ledger_hash s, aux_hash s, pending_coinbase_aux s));
     mk_mem "pending_coinbase_hash" (DV jCoinBaseHash) (list Z) (fun _ => d_hash sha 0x0c true) (wv (w_ver w_bytes)) pending_coinbase_hash].
  Lemma is_staged : forall m j a, sR m_staged m j a <-> (fun m => d_staged sha (other m)) m j a.
  Proof using Type.
    intros m j a. split.
    - intros (xs & P & F). unfold m_staged in F. repeat (apply f2_cons in F; destruct F as (? & ? & -> & ? & F)). apply f2_nil in F. subst.
      do 2 eexists. split; [exact P|]. repeat (split; [eassumption|]). eassumption.
    - intros (x0 & x1 & P & H0 & H1). exists [x0; x1]. split; [exact P|]. repeat (apply Forall2_cons; [assumption|]). apply Forall2_nil.
  Qed.
  Lemma t_staged : says (DStruct (flds_of m_staged FNil)) (fun m => d_staged sha (other m)) (sW m_staged).
  Proof using Type.
    apply (says_iff _ _ (sR m_staged)); [exact is_staged|]. apply s_says; [reflexivity|discriminate| |].
    - apply Forall_cons; [split; [exact s_non_snark|reflexivity]|].
      apply Forall_cons; [split; [exact s_coinbase|reflexivity]|].
      apply Forall_nil.
    - intros a a' F. unfold m_staged in F. repeat (let X := fresh in pose proof (Forall_inv F) as X; apply Forall_inv_tail in F; cbn [m_p m_B] in X). destruct a, a'; cbn in *; repeat match goal with X : (_, _) = (_, _) |- _ => injection X; clear X; intros end; subst; reflexivity.
  Qed.
  Lemma s_staged : says jStagedLedgerHash (fun m => d_staged sha (other m)) (wv (wv (sW m_staged))).
  Proof using Type. exact (says2 _ _ _ _ t_staged). Qed.
  Definition m_blockchain : list (mem blockchain_legacy) :=
    [mk_mem "staged_ledger_hash" jStagedLedgerHash (staged) (fun m => d_staged sha (other m)) (wv (wv (sW m_staged))) bl_staged;
     mk_mem "snarked_ledger_hash" jLedgerHash (list Z) (fun _ => d_hash sha 0x05 true) (w_ver w_bytes) bl_snarked_ledger_hash;
     mk_mem "genesis_ledger_hash" jLedgerHash (list Z) (fun _ => d_hash sha 0x05 true) (w_ver w_bytes) bl_genesis_ledger_hash;
     mk_mem "snarked_next_available_token" jU64_3 Z (fun _ => d_num 64 true) (v3 (w_num (2 ^ 64))) bl_token;
     mk_mem "timestamp" jU64_2 Z (fun _ => d_num 64 true) (v2 (w_num (2 ^ 64))) bl_timestamp].
  Lemma is_blockchain : forall m j a, sR m_blockchain m j a <-> (fun m => d_blockchain sha (other m)) m j a.
  Proof using Type.
    intros m j a. split.
    - intros (xs & P & F). unfold m_blockchain in F. repeat (apply f2_cons in F; destruct F as (? & ? & -> & ? & F)). apply f2_nil in F. subst.
      do 5 eexists. split; [exact P|]. repeat (split; [eassumption|]). eassumption.
    - intros (x0 & x1 & x2 & x3 & x4 & P & H0 & H1 & H2 & H3 & H4). exists [x0; x1; x2; x3; x4]. split; [exact P|]. repeat (apply Forall2_cons; [assumption|]). apply Forall2_nil.
  Qed.
  Lemma t_blockchain : says (DStruct (flds_of m_blockchain FNil)) (fun m => d_blockchain sha (other m)) (sW m_blockchain).
  Proof using Type.
    apply (says_iff _ _ (sR m_blockchain)); [exact is_blockchain|]. apply s_says; [reflexivity|discriminate| |].
    - apply Forall_cons; [split; [exact s_staged|reflexivity]|].
      apply Forall_cons; [split; [exact s_ledger|reflexivity]|].
      apply Forall_cons; [split; [exact s_ledger|reflexivity]|].
      apply Forall_cons; [split; [exact s_u64_3|reflexivity]|].
      apply Forall_cons; [split; [exact s_u64|reflexivity]|].
      apply Forall_nil.
    - intros a a' F. unfold m_blockchain in F. repeat (let X := fresh in pose proof (Forall_inv F) as X; apply Forall_inv_tail in F; cbn [m_p m_B] in X). destruct a, a'; cbn in *; repeat match goal with X : (_, _) = (_, _) |- _ => injection X; clear X; intros end; subst; reflexivity.
  Qed.
  Lemma s_blockchain : says jBlockchainState (fun m => d_blockchain sha (other m)) (wv (wv (sW m_blockchain))).
  Proof using Type. exact (says2 _ _ _ _ t_blockchain). Qed.
  Definition m_slot : list (mem (Z * Z)) :=
    [mk_mem "slot_number" jU32 Z (fun _ => d_num 32 true) (v2 (w_num (2 ^ 32))) fst;
     mk_mem "slots_per_epoch" jU32 Z (fun _ => d_num 32 true) (v2 (w_num (2 ^ 32))) snd].
  Lemma is_slot : forall m j a, sR m_slot m j a <-> (fun m x s => exists a b, parts (other m) ["slot_number"; "slots_per_epoch"] x [a; b] /\ d_num 32 (other m) a (fst s) /\ d_num 32 (other m) b (snd s)) m j a.
  Proof using Type.
    intros m j a. split.
    - intros (xs & P & F). unfold m_slot in F. repeat (apply f2_cons in F; destruct F as (? & ? & -> & ? & F)). apply f2_nil in F. subst.
      do 2 eexists. split; [exact P|]. repeat (split; [eassumption|]). eassumption.
    - intros (x0 & x1 & P & H0 & H1). exists [x0; x1]. split; [exact P|]. repeat (apply Forall2_cons; [assumption|]). apply Forall2_nil.
  Qed.
  Lemma t_slot : says (DStruct (flds_of m_slot FNil)) (fun m x s => exists a b, parts (other m) ["slot_number"; "slots_per_epoch"] x [a; b] /\ d_num 32 (other m) a (fst s) /\ d_num 32 (other m) b (snd s)) (sW m_slot).
  Proof using Type.
    apply (says_iff _ _ (sR m_slot)); [exact is_slot|]. apply s_says; [reflexivity|discriminate| |].
    - apply Forall_cons; [split; [exact s_u32|reflexivity]|].
      apply Forall_cons; [split; [exact s_u32|reflexivity]|].
      apply Forall_nil.
    - intros a a' F. unfold m_slot in F. repeat (let X := fresh in pose proof (Forall_inv F) as X; apply Forall_inv_tail in F; cbn [m_p m_B] in X). destruct a, a'; repeat match goal with x : prod _ _ |- _ => destruct x end; cbn [fst snd] in *; congruence.
  Qed.
  Lemma s_slot : says jGlobalSlot (fun m x s => exists a b, parts (other m) ["slot_number"; "slots_per_epoch"] x [a; b] /\ d_num 32 (other m) a (fst s) /\ d_num 32 (other m) b (snd s)) (wv (wv (sW m_slot))).
  Proof using Type. exact (says2 _ _ _ _ t_slot). Qed.
  Definition m_epoch_ledger : list (mem (list Z * Z)) :=
    [mk_mem "hash" jLedgerHash (list Z) (fun _ => d_hash sha 0x05 true) (w_ver w_bytes) fst;
     mk_mem "total_currency" jU64_2 Z (fun _ => d_num 64 true) (v2 (w_num (2 ^ 64))) snd].
  Lemma is_epoch_ledger : forall m j a, sR m_epoch_ledger m j a <-> (fun m x s => exists a b, parts (other m) ["hash"; "total_currency"] x [a; b] /\ d_hash sha 0x05 (other m) a (fst s) /\ d_num 64 (other m) b (snd s)) m j a.
  Proof using Type.
    intros m j a. split.
    - intros (xs & P & F). unfold m_epoch_ledger in F. repeat (apply f2_cons in F; destruct F as (? & ? & -> & ? & F)). apply f2_nil in F. subst.
      do 2 eexists. split; [exact P|]. repeat (split; [eassumption|]). eassumption.
    - intros (x0 & x1 & P & H0 & H1). exists [x0; x1]. split; [exact P|]. repeat (apply Forall2_cons; [assumption|]). apply Forall2_nil.
  Qed.
  Lemma t_epoch_ledger : says (DStruct (flds_of m_epoch_ledger FNil)) (fun m x s => exists a b, parts (other m) ["hash"; "total_currency"] x [a; b] /\ d_hash sha 0x05 (other m) a (fst s) /\ d_num 64 (other m) b (snd s)) (sW m_epoch_ledger).
  Proof using Type.
    apply (says_iff _ _ (sR m_epoch_ledger)); [exact is_epoch_ledger|]. apply s_says; [reflexivity|discriminate| |].
    - apply Forall_cons; [split; [exact s_ledger|reflexivity]|].
      apply Forall_cons; [split; [exact s_u64|reflexivity]|].
      apply Forall_nil.
    - intros a a' F. unfold m_epoch_ledger in F. repeat (let X := fresh in pose proof (Forall_inv F) as X; apply Forall_inv_tail in F; cbn [m_p m_B] in X). destruct a, a'; repeat match goal with x : prod _ _ |- _ => destruct x end; cbn [fst snd] in *; congruence.
  Qed.
  Lemma s_epoch_ledger : says jEpochLedger (fun m x s => exists a b, parts (other m) ["hash"; "total_currency"] x [a; b] /\ d_hash sha 0x05 (other m) a (fst s) /\ d_num 64 (other m) b (snd s)) (wv (wv (sW m_epoch_ledger))).
  Proof using Type. exact (says2 _ _ _ _ t_epoch_ledger). Qed.
  Definition m_epoch : list (mem epoch_data) :=
    [mk_mem "ledger" jEpochLedger ((list Z * Z)) (fun m x s => exists a b, parts (other m) ["hash"; "total_currency"] x [a; b] /\ d_hash sha 0x05 (other m) a (fst s) /\ d_num 64 (other m) b (snd s)) (wv (wv (sW m_epoch_ledger))) (fun s => (e_ledger_hash s, e_total_currency s));
     mk_mem "seed" jEpochSeed (list Z) (fun _ => d_hash sha 0x0d true) (w_ver w_bytes) seed;
     mk_mem "start_checkpoint" jStateHash (list Z) (fun _ => d_hash sha 0x10 true) (w_ver w_bytes) start_checkpoint;
     mk_mem "lock_checkpoint" jStateHash (list Z) (fun _ => d_hash sha 0x10 true) (w_ver w_bytes) lock_checkpoint;
     mk_mem "epoch_length" jU32 Z (fun _ => d_num 32 true) (v2 (w_num (2 ^ 32))) epoch_length].
  Lemma is_epoch : forall m j a, sR m_epoch m j a <-> (fun m => d_epoch sha (other m)) m j a.
  Proof using Type.
    intros m j a. split.
    - intros (xs & P & F). unfold m_epoch in F. repeat (apply f2_cons in F; destruct F as (? & ? & -> & ? & F)). apply f2_nil in F. subst.
      do 5 eexists. split; [exact P|]. repeat (split; [eassumption|]). eassumption.
    - intros (x0 & x1 & x2 & x3 & x4 & P & H0 & H1 & H2 & H3 & H4). exists [x0; x1; x2; x3; x4]. split; [exact P|]. repeat (apply Forall2_cons; [assumption|]). apply Forall2_nil.
  Qed.
  Lemma t_epoch : says (DStruct (flds_of m_epoch FNil)) (fun m => d_epoch sha (other m)) (sW m_epoch).
  Proof using Type.
    apply (says_iff _ _ (sR m_epoch)); [exact is_epoch|]. apply s_says; [reflexivity|discriminate| |].
    - apply Forall_cons; [split; [exact s_epoch_ledger|reflexivity]|].
      apply Forall_cons; [split; [exact s_seed|reflexivity]|].
      apply Forall_cons; [split; [exact s_state|reflexivity]|].
      apply Forall_cons; [split; [exact s_state|reflexivity]|].
      apply Forall_cons; [split; [exact s_u32|reflexivity]|].
      apply Forall_nil.
    - intros a a' F. unfold m_epoch in F. repeat (let X := fresh in pose proof (Forall_inv F) as X; apply Forall_inv_tail in F; cbn [m_p m_B] in X). destruct a, a'; cbn in *; repeat match goal with X : (_, _) = (_, _) |- _ => injection X; clear X; intros end; subst; reflexivity.
  Qed.
  Lemma s_epoch : says jEpochData (fun m => d_epoch sha (other m)) (wv (wv (sW m_epoch))).
  Proof using Type. exact (says2 _ _ _ _ t_epoch). Qed.
  Definition m_consensus : list (mem consensus) :=
    [mk_mem "blockchain_length" jU32 Z (fun _ => d_num 32 true) (v2 (w_num (2 ^ 32))) blockchain_length;
     mk_mem "epoch_count" jU32 Z (fun _ => d_num 32 true) (v2 (w_num (2 ^ 32))) epoch_count;
     mk_mem "min_window_density" jU32 Z (fun _ => d_num 32 true) (v2 (w_num (2 ^ 32))) min_window_density;
     mk_mem "sub_window_densities" (DVec jU32) (list Z) (fun _ => d_list (d_num 32) true) (fun v l => exists vs, v = VSeq vs /\ Forall2 (v2 (w_num (2 ^ 32))) vs l) sub_window_densities;
     mk_mem "last_vrf_output" jVrf (list Z) (fun _ => d_base64 true) (wv w_vec) last_vrf_output;
     mk_mem "total_currency" jU64_2 Z (fun _ => d_num 64 true) (v2 (w_num (2 ^ 64))) total_currency;
     mk_mem "curr_global_slot" jGlobalSlot ((Z * Z)) (fun m x s => exists a b, parts (other m) ["slot_number"; "slots_per_epoch"] x [a; b] /\ d_num 32 (other m) a (fst s) /\ d_num 32 (other m) b (snd s)) (wv (wv (sW m_slot))) (fun s => (slot_number s, cs_slots_per_epoch s));
     mk_mem "global_slot_since_genesis" jU32 Z (fun _ => d_num 32 true) (v2 (w_num (2 ^ 32))) global_slot_since_genesis;
     mk_mem "staking_epoch_data" jEpochData (epoch_data) (fun m => d_epoch sha (other m)) (wv (wv (sW m_epoch))) staking_epoch_data;
     mk_mem "next_epoch_data" jEpochData (epoch_data) (fun m => d_epoch sha (other m)) (wv (wv (sW m_epoch))) next_epoch_data;
     mk_mem "has_ancestor_in_same_checkpoint_window" DBool bool (fun _ => d_bool true) (fun v b => v = VBool b) has_ancestor;
     mk_mem "block_stake_winner" jPub pubkey (fun _ => d_key sha true) (v2 w_key) block_stake_winner;
     mk_mem "block_creator" jPub pubkey (fun _ => d_key sha true) (v2 w_key) block_creator;
     mk_mem "coinbase_receiver" jPub pubkey (fun _ => d_key sha true) (v2 w_key) coinbase_receiver;
     mk_mem "supercharge_coinbase" DBool bool (fun _ => d_bool true) (fun v b => v = VBool b) supercharge_coinbase].
  Lemma is_consensus : forall m j a, sR m_consensus m j a <-> (fun m => d_consensus sha (other m)) m j a.
  Proof using Type.
    intros m j a. split.
    - intros (xs & P & F). unfold m_consensus in F. repeat (apply f2_cons in F; destruct F as (? & ? & -> & ? & F)). apply f2_nil in F. subst.
      do 15 eexists. split; [exact P|]. repeat (split; [eassumption|]). eassumption.
    - intros (x0 & x1 & x2 & x3 & x4 & x5 & x6 & x7 & x8 & x9 & x10 & x11 & x12 & x13 & x14 & P & H0 & H1 & H2 & H3 & H4 & H5 & H6 & H7 & H8 & H9 & H10 & H11 & H12 & H13 & H14). exists [x0; x1; x2; x3; x4; x5; x6; x7; x8; x9; x10; x11; x12; x13; x14]. split; [exact P|]. repeat (apply Forall2_cons; [assumption|]). apply Forall2_nil.
  Qed.
  Lemma t_consensus : says (DStruct (flds_of m_consensus FNil)) (fun m => d_consensus sha (other m)) (sW m_consensus).
  Proof using Type.
    apply (says_iff _ _ (sR m_consensus)); [exact is_consensus|]. apply s_says; [reflexivity|discriminate| |].
    - apply Forall_cons; [split; [exact s_u32|reflexivity]|].
      apply Forall_cons; [split; [exact s_u32|reflexivity]|].
      apply Forall_cons; [split; [exact s_u32|reflexivity]|].
      apply Forall_cons; [split; [exact s_densities|reflexivity]|].
      apply Forall_cons; [split; [exact s_vrf|reflexivity]|].
      apply Forall_cons; [split; [exact s_u64|reflexivity]|].
      apply Forall_cons; [split; [exact s_slot|reflexivity]|].
      apply Forall_cons; [split; [exact s_u32|reflexivity]|].
      apply Forall_cons; [split; [exact s_epoch|reflexivity]|].
      apply Forall_cons; [split; [exact s_epoch|reflexivity]|].
      apply Forall_cons; [split; [exact (says_bool checked)|reflexivity]|].
      apply Forall_cons; [split; [exact s_pub|reflexivity]|].
      apply Forall_cons; [split; [exact s_pub|reflexivity]|].
      apply Forall_cons; [split; [exact s_pub|reflexivity]|].
      apply Forall_cons; [split; [exact (says_bool checked)|reflexivity]|].
      apply Forall_nil.
    - intros a a' F. unfold m_consensus in F. repeat (let X := fresh in pose proof (Forall_inv F) as X; apply Forall_inv_tail in F; cbn [m_p m_B] in X). destruct a, a'; cbn in *; repeat match goal with X : (_, _) = (_, _) |- _ => injection X; clear X; intros end; subst; reflexivity.
  Qed.
  Lemma s_consensus : says jConsensusState (fun m => d_consensus sha (other m)) (wv (wv (sW m_consensus))).
  Proof using Type. exact (says2 _ _ _ _ t_consensus). Qed.
  Definition m_body : list (mem body_legacy) :=
    [mk_mem "genesis_state_hash" jStateHash (list Z) (fun _ => d_hash sha 0x10 true) (w_ver w_bytes) bodyl_genesis_state_hash;
     mk_mem "blockchain_state" jBlockchainState (blockchain_legacy) (fun m => d_blockchain sha (other m)) (wv (wv (sW m_blockchain))) bodyl_blockchain;
     mk_mem "consensus_state" jConsensusState (consensus) (fun m => d_consensus sha (other m)) (wv (wv (sW m_consensus))) bodyl_consensus;
     mk_mem "constants" jProtocolConstants (constants) (fun m => d_constants (other m)) (wv (wv (sW m_constants))) bodyl_constants].
  Lemma is_body : forall m j a, sR m_body m j a <-> (fun m => d_body sha (other m)) m j a.
  Proof using Type.
    intros m j a. split.
    - intros (xs & P & F). unfold m_body in F. repeat (apply f2_cons in F; destruct F as (? & ? & -> & ? & F)). apply f2_nil in F. subst.
      do 4 eexists. split; [exact P|]. repeat (split; [eassumption|]). eassumption.
    - intros (x0 & x1 & x2 & x3 & P & H0 & H1 & H2 & H3). exists [x0; x1; x2; x3]. split; [exact P|]. repeat (apply Forall2_cons; [assumption|]). apply Forall2_nil.
  Qed.
  Lemma t_body : says (DStruct (flds_of m_body FNil)) (fun m => d_body sha (other m)) (sW m_body).
  Proof using Type.
    apply (says_iff _ _ (sR m_body)); [exact is_body|]. apply s_says; [reflexivity|discriminate| |].
    - apply Forall_cons; [split; [exact s_state|reflexivity]|].
      apply Forall_cons; [split; [exact s_blockchain|reflexivity]|].
      apply Forall_cons; [split; [exact s_consensus|reflexivity]|].
      apply Forall_cons; [split; [exact s_constants|reflexivity]|].
      apply Forall_nil.
    - intros a a' F. unfold m_body in F. repeat (let X := fresh in pose proof (Forall_inv F) as X; apply Forall_inv_tail in F; cbn [m_p m_B] in X). destruct a, a'; cbn in *; repeat match goal with X : (_, _) = (_, _) |- _ => injection X; clear X; intros end; subst; reflexivity.
  Qed.
  Lemma s_body : says jProtocolStateBody (fun m => d_body sha (other m)) (wv (wv (sW m_body))).
  Proof using Type. exact (says2 _ _ _ _ t_body). Qed.
  Definition m_pstate : list (mem state_legacy) :=
    [mk_mem "previous_state_hash" jStateHash (list Z) (fun _ => d_hash sha 0x10 true) (w_ver w_bytes) sl_previous;
     mk_mem "body" jProtocolStateBody (body_legacy) (fun m => d_body sha (other m)) (wv (wv (sW m_body))) sl_body].
  Lemma is_pstate : forall m j a, sR m_pstate m j a <-> (fun m => d_state sha (other m)) m j a.
  Proof using Type.
    intros m j a. split.
    - intros (xs & P & F). unfold m_pstate in F. repeat (apply f2_cons in F; destruct F as (? & ? & -> & ? & F)). apply f2_nil in F. subst.
      do 2 eexists. split; [exact P|]. repeat (split; [eassumption|]). eassumption.
    - intros (x0 & x1 & P & H0 & H1). exists [x0; x1]. split; [exact P|]. repeat (apply Forall2_cons; [assumption|]). apply Forall2_nil.
  Qed.
  Lemma t_pstate : says (DStruct (flds_of m_pstate FNil)) (fun m => d_state sha (other m)) (sW m_pstate).
  Proof using Type.
    apply (says_iff _ _ (sR m_pstate)); [exact is_pstate|]. apply s_says; [reflexivity|discriminate| |].
    - apply Forall_cons; [split; [exact s_state|reflexivity]|].
      apply Forall_cons; [split; [exact s_body|reflexivity]|].
      apply Forall_nil.
    - intros a a' F. unfold m_pstate in F. repeat (let X := fresh in pose proof (Forall_inv F) as X; apply Forall_inv_tail in F; cbn [m_p m_B] in X). destruct a, a'; cbn in *; repeat match goal with X : (_, _) = (_, _) |- _ => injection X; clear X; intros end; subst; reflexivity.
  Qed.
  Lemma s_pstate : says jProtocolState (fun m => d_state sha (other m)) (wv (wv (sW m_pstate))).
  Proof using Type. exact (says2 _ _ _ _ t_pstate). Qed.
  Definition m_common : list (mem common) :=
    [mk_mem "fee" jDec Z (fun m => d_fee (understood m) true) (v2 (w_num (2 ^ 64))) fee;
     mk_mem "fee_token" jU64_3 Z (fun _ => d_num 64 true) (v3 (w_num (2 ^ 64))) fee_token;
     mk_mem "fee_payer_pk" jPub pubkey (fun _ => d_key sha true) (v2 w_key) fee_payer_pk;
     mk_mem "nonce" jX32 Z (fun _ => d_num 32 true) (v2 w_cast) nonce;
     mk_mem "valid_until" jX32 Z (fun _ => d_num 32 true) (v2 w_cast) valid_until;
     mk_mem "memo" jMemo (list Z) (fun _ => d_check sha 0x14 true) (wv w_vec) memo].
  Lemma is_common : forall m j a, sR m_common m j a <-> (fun m => d_common sha (understood m) (other m)) m j a.
  Proof using Type.
    intros m j a. split.
    - intros (xs & P & F). unfold m_common in F. repeat (apply f2_cons in F; destruct F as (? & ? & -> & ? & F)). apply f2_nil in F. subst.
      do 6 eexists. split; [exact P|]. repeat (split; [eassumption|]). eassumption.
    - intros (x0 & x1 & x2 & x3 & x4 & x5 & P & H0 & H1 & H2 & H3 & H4 & H5). exists [x0; x1; x2; x3; x4; x5]. split; [exact P|]. repeat (apply Forall2_cons; [assumption|]). apply Forall2_nil.
  Qed.
  Lemma t_common : says (DStruct (flds_of m_common FNil)) (fun m => d_common sha (understood m) (other m)) (sW m_common).
  Proof using Type.
    apply (says_iff _ _ (sR m_common)); [exact is_common|]. apply s_says; [reflexivity|discriminate| |].
    - apply Forall_cons; [split; [exact s_dec|reflexivity]|].
      apply Forall_cons; [split; [exact s_u64_3|reflexivity]|].
      apply Forall_cons; [split; [exact s_pub|reflexivity]|].
      apply Forall_cons; [split; [exact s_x32|reflexivity]|].
      apply Forall_cons; [split; [exact s_x32|reflexivity]|].
      apply Forall_cons; [split; [exact s_memo|reflexivity]|].
      apply Forall_nil.
    - intros a a' F. unfold m_common in F. repeat (let X := fresh in pose proof (Forall_inv F) as X; apply Forall_inv_tail in F; cbn [m_p m_B] in X). destruct a, a'; cbn in *; repeat match goal with X : (_, _) = (_, _) |- _ => injection X; clear X; intros end; subst; reflexivity.
  Qed.
  Lemma s_common : says jPayloadCommon (fun m => d_common sha (understood m) (other m)) (wv (wv (wv (sW m_common)))).
  Proof using Type. exact (says3 _ _ _ _ t_common). Qed.
  Definition m_payment : list (mem (pubkey * pubkey * Z * Z)) :=
    [mk_mem "source_pk" jPub pubkey (fun _ => d_key sha true) (v2 w_key) (fun s => fst (fst (fst s)));
     mk_mem "receiver_pk" jPub pubkey (fun _ => d_key sha true) (v2 w_key) (fun s => snd (fst (fst s)));
     mk_mem "token_id" jU64_3 Z (fun _ => d_num 64 true) (v3 (w_num (2 ^ 64))) (fun s => snd (fst s));
     mk_mem "amount" jU64_2 Z (fun _ => d_num 64 true) (v2 (w_num (2 ^ 64))) (fun s => snd s)].
  Lemma is_payment : forall m j a, sR m_payment m j a <-> (fun m x s => exists a b c d, parts (other m) ["source_pk"; "receiver_pk"; "token_id"; "amount"] x [a; b; c; d] /\
    d_key sha (other m) a (fst (fst (fst s))) /\ d_key sha (other m) b (snd (fst (fst s))) /\ d_num 64 (other m) c (snd (fst s)) /\ d_num 64 (other m) d (snd s)) m j a.
  Proof using Type.
    intros m j a. split.
    - intros (xs & P & F). unfold m_payment in F. repeat (apply f2_cons in F; destruct F as (? & ? & -> & ? & F)). apply f2_nil in F. subst.
      do 4 eexists. split; [exact P|]. repeat (split; [eassumption|]). eassumption.
    - intros (x0 & x1 & x2 & x3 & P & H0 & H1 & H2 & H3). exists [x0; x1; x2; x3]. split; [exact P|]. repeat (apply Forall2_cons; [assumption|]). apply Forall2_nil.
  Qed.
  Lemma t_payment : says (DStruct (flds_of m_payment FNil)) (fun m x s => exists a b c d, parts (other m) ["source_pk"; "receiver_pk"; "token_id"; "amount"] x [a; b; c; d] /\
    d_key sha (other m) a (fst (fst (fst s))) /\ d_key sha (other m) b (snd (fst (fst s))) /\ d_num 64 (other m) c (snd (fst s)) /\ d_num 64 (other m) d (snd s)) (sW m_payment).
  Proof using Type.
    apply (says_iff _ _ (sR m_payment)); [exact is_payment|]. apply s_says; [reflexivity|discriminate| |].
    - apply Forall_cons; [split; [exact s_pub|reflexivity]|].
      apply Forall_cons; [split; [exact s_pub|reflexivity]|].
      apply Forall_cons; [split; [exact s_u64_3|reflexivity]|].
      apply Forall_cons; [split; [exact s_u64|reflexivity]|].
      apply Forall_nil.
    - intros a a' F. unfold m_payment in F. repeat (let X := fresh in pose proof (Forall_inv F) as X; apply Forall_inv_tail in F; cbn [m_p m_B] in X). destruct a, a'; repeat match goal with x : prod _ _ |- _ => destruct x end; cbn [fst snd] in *; congruence.
  Qed.
  Lemma s_payment : says jPayment (fun m x s => exists a b c d, parts (other m) ["source_pk"; "receiver_pk"; "token_id"; "amount"] x [a; b; c; d] /\
    d_key sha (other m) a (fst (fst (fst s))) /\ d_key sha (other m) b (snd (fst (fst s))) /\ d_num 64 (other m) c (snd (fst s)) /\ d_num 64 (other m) d (snd s)) (wv (wv (sW m_payment))).
  Proof using Type. exact (says2 _ _ _ _ t_payment). Qed.
  (** ** Variants *)
  Lemma tag_content : forall b name j x, tag_de (Listed b) j = Ok (JObj [(str_bytes name, x)]) <-> tagged true name j x.
  Proof using Type.
    intros b name j x. unfold tagged. generalize (str_bytes name) as k. intros k. split.
    - intros E. destruct j as [| | | | |l|]; try discriminate E. destruct l as [|y [|z [|w l]]]; try discriminate E.
      + right. split; [reflexivity|]. left. assert (y = JObj [(k, x)]) as -> by (destruct y; cbn [tag_de] in E; congruence). reflexivity.
      + left. cbn [tag_de] in E. destruct y; try discriminate E. injection E as -> ->. reflexivity.
      + right. split; [reflexivity|]. right. cbn [tag_de] in E. destruct y; try discriminate E. injection E as -> <-. eauto 6.
    - intros [->|(_ & [->|(y & z & l & -> & ->)])]; reflexivity.
  Qed.
  Lemma doc_tail : forall y l, doc (JArr (y :: l)) -> doc (JArr l).
  Proof using Type. intros y l ((L & _ & J) & (_ & D)). split; [split; [cbn [List.length] in *; lia|exact J]|exact D]. Qed.
  Lemma tagged_doc : forall any name j x, tagged any name j x -> doc j -> doc x.
  Proof using Type.
    intros any name j x T D. destruct T as [->|(_ & [->|(y & z & l & -> & ->)])]; [| |apply doc_tail in D; exact D]; apply doc_arr in D; destruct D as (D & _).
    - inversion D as [|? ? _ D']; subst. inversion D'; subst. assumption.
    - inversion D as [|? ? D' _]; subst. apply doc_obj in D'. destruct D' as (_ & D'). eapply D'. left. reflexivity.
  Qed.
  Lemma tag_written : forall b name j x, tag_ser (Listed b) (JObj [(str_bytes name, x)]) = Ok j -> (b = true -> forall l, x <> JArr l) -> tagged false name j x.
  Proof using Type.
    intros b name j x E N. left. cbn [tag_ser] in E. destruct b; [|injection E as <-; reflexivity].
    destruct x; try (injection E as <-; reflexivity). destruct (N eq_refl l eq_refl).
  Qed.
  Notation read := (jde checked sha (from_address sha)).
  Notation write := (jser checked sha (into_address sha)).
  Notation vread := (jde_vars checked sha (from_address sha)).
  Notation vwrite := (jser_vars checked sha (into_address sha)).
  (** reading a variant with a content *)
  Lemma enum_inv : forall b p ws j v, read (DEnum (Listed b) p ws) j = Ok v ->
    (exists k vs i, v = VEnum i vs /\ vread ws 0 k None = Ok (i, vs)) \/
    (exists k x vs i, tag_de (Listed b) j = Ok (JObj [(k, x)]) /\ v = VEnum i vs /\ vread ws 0 k (Some x) = Ok (i, vs)).
  Proof using Type.
    intros b p ws j v E.
    change (read (DEnum (Listed b) p ws) j) with (let* e := tag_de (Listed b) j in let* (i, vs) := ext_de (vread ws 0) e in Ok (VEnum i vs)) in E.
    apply bind_ok in E. destruct E as (e & T & E). apply bind_ok in E. destruct E as ((i & vs) & X & E). injection E as <-.
    destruct e as [| | | |k| |m]; try discriminate X; cbn [ext_de] in X; [left; eauto 6|].
    destruct m as [|(k, x) [|? ?]]; try discriminate X. right. exists k, x, vs, i. auto.
  Qed.
  Lemma enum_ok : forall b p ws j k x i vs, tag_de (Listed b) j = Ok (JObj [(k, x)]) -> vread ws 0 k (Some x) = Ok (i, vs) ->
    read (DEnum (Listed b) p ws) j = Ok (VEnum i vs).
  Proof using Type.
    intros b p ws j k x i vs T X.
    change (read (DEnum (Listed b) p ws) j) with (let* e := tag_de (Listed b) j in let* (i, vs) := ext_de (vread ws 0) e in Ok (VEnum i vs)).
    rewrite T. cbn [bind ext_de]. rewrite X. reflexivity.
  Qed.
  Lemma enum_written : forall b p ws i vs j, write (DEnum (Listed b) p ws) (VEnum i vs) = Ok j -> exists e, vwrite ws i vs = Ok e /\ tag_ser (Listed b) e = Ok j.
  Proof using Type. intros b p ws i vs j E. change (write (DEnum (Listed b) p ws) (VEnum i vs)) with (let* e := vwrite ws i vs in tag_ser (Listed b) e) in E. apply bind_ok in E. exact E. Qed.
  (** variants with one content *)
  Lemma new_read : forall nm d ws n k a, vread (WCons nm SNew (FCons "" None d FNil) ws) n k a =
    if key_eqb (str_bytes nm) k then match a with Some x => let* v := read d x in Ok (n, [v]) | None => Err JE end else vread ws (S n) k a.
  Proof using Type.
    intros nm d ws n k a.
    change (vread (WCons nm SNew (FCons "" None d FNil) ws) n k a) with
      (if key_eqb (str_bytes nm) k then let* vs := match a with Some x => let* v := read d x in Ok [v] | None => Err JE end in Ok (n, vs) else vread ws (S n) k a).
    destruct (key_eqb _ _); [|reflexivity]. destruct a as [x|]; [|reflexivity]. destruct (read d x); reflexivity.
  Qed.
  Lemma new_written : forall nm d ws v e, vwrite (WCons nm SNew (FCons "" None d FNil) ws) 0 [v] = Ok e -> exists x, write d v = Ok x /\ e = JObj [(str_bytes nm, x)].
  Proof using Type.
    intros nm d ws v e E.
    change (vwrite (WCons nm SNew (FCons "" None d FNil) ws) 0 [v]) with
      (let* m := (let* j := write d v in let* m := Ok [] in Ok ((str_bytes "", j) :: m)) in match m with [(_, j)] => Ok (JObj [(str_bytes nm, j)]) | _ => Err JE end) in E.
    destruct (write d v) as [x|err|]; try discriminate E. cbn [bind] in E. injection E as <-. eauto.
  Qed.

  (** *** Delegations *)
  Definition m_delegate : list (mem (pubkey * pubkey)) :=
    [mk_mem "delegator" jPub pubkey (fun _ => d_key sha true) (v2 w_key) fst; mk_mem "new_delegate" jPub pubkey (fun _ => d_key sha true) (v2 w_key) snd].
  Lemma t_delegate : says (DStruct (flds_of m_delegate FNil)) (sR m_delegate) (sW m_delegate).
  Proof using Type.
    apply s_says; [reflexivity|discriminate| |].
    - apply Forall_cons; [split; [exact s_pub|reflexivity]|]. apply Forall_cons; [split; [exact s_pub|reflexivity]|]. apply Forall_nil.
    - intros [a b] [a' b'] F. pose proof (Forall_inv F) as X. apply Forall_inv_tail, Forall_inv in F. cbn in X, F. congruence.
  Qed.
  Definition d_delegation (m : mode) (x : json) (s : pubkey * pubkey) : Prop :=
    exists y a b, tagged (other m) "Set_delegate" x y /\ parts false ["delegator"; "new_delegate"] y [a; b] /\ d_key sha (other m) a (fst s) /\ d_key sha (other m) b (snd s).
  Definition u_delegation (v : val) (s : pubkey * pubkey) : Prop := exists vs, v = VEnum 0 vs /\ sW m_delegate (VTup vs) s.
  Notation set_delegate := (WCons "Set_delegate" SStruct (flds_of m_delegate FNil) WNil).
  Lemma delegate_read : forall k a i vs, vread set_delegate 0 k a = Ok (i, vs) ->
    k = str_bytes "Set_delegate" /\ i = 0%nat /\ exists m, a = Some (JObj m) /\ read (DStruct (flds_of m_delegate FNil)) (JObj m) = Ok (VTup vs).
  Proof using Type.
    intros k a i vs E.
    change (vread set_delegate 0 k a) with (if key_eqb (str_bytes "Set_delegate") k then
      let* vs := match a with Some (JObj m) => let* r := obj_loop (fld_de checked sha (from_address sha) (flds_of m_delegate FNil)) m in assemble (flds_of m_delegate FNil) r | _ => Err JE end in Ok (0%nat, vs)
      else Err JE) in E.
    destruct (key_eqb _ _) eqn:K; [|discriminate]. apply key_eqb_iff in K. split; [auto|]. destruct a as [[| | | | | |m]|]; try discriminate E.
    apply bind_ok in E. destruct E as (vs' & E & E'). injection E' as <- <-. split; [reflexivity|]. exists m. split; [reflexivity|].
    change (read (DStruct (flds_of m_delegate FNil)) (JObj m)) with
      (let* r := obj_loop (fld_de checked sha (from_address sha) (flds_of m_delegate FNil)) m in rmap VTup (assemble (flds_of m_delegate FNil) r)).
    destruct (obj_loop _ m) as [r|e|]; try discriminate E. cbn [bind] in *. rewrite E. reflexivity.
  Qed.
  Lemma t_delegation : says (DEnum (Listed true) false set_delegate) d_delegation u_delegation.
  Proof using Type.
    destruct t_delegate as (T1 & T2 & T3 & T4). split; [|split; [|split]].
    - intros j v s E (vs & -> & W). apply enum_inv in E. destruct E as [(k & vs' & i & _ & E)|(k & x & vs' & i & T & Ev & E)].
      + apply delegate_read in E. destruct E as (_ & _ & m & E & _). discriminate.
      + apply delegate_read in E. destruct E as (-> & -> & m & Em & E). injection Em as ->. injection Ev as <-. apply tag_content in T.
        destruct (T1 _ _ _ E W) as (xs & P & F). repeat (apply f2_cons in F; destruct F as (? & ? & -> & ? & F)). apply f2_nil in F. subst.
        do 3 eexists. split; [exact T|]. split; [|split; eassumption]. destruct P as [P|(_ & P)]; [left; exact P|discriminate].
    - intros j v s E (vs & -> & W). apply enum_written in E. destruct E as (e & E & T).
      change (vwrite set_delegate 0 vs) with (let* m := jser_flds checked sha (into_address sha) (flds_of m_delegate FNil) vs in Ok (JObj [(str_bytes "Set_delegate", JObj m)])) in E.
      apply bind_ok in E. destruct E as (m & E & E'). injection E' as <-.
      assert (E2 : write (DStruct (flds_of m_delegate FNil)) (VTup vs) = Ok (JObj m)).
      { change (write (DStruct (flds_of m_delegate FNil)) (VTup vs)) with (rmap JObj (jser_flds checked sha (into_address sha) (flds_of m_delegate FNil) vs)). rewrite E. reflexivity. }
      apply (tag_written true "Set_delegate" j (JObj m)) in T; [|intros _ l; discriminate]. destruct (T2 _ _ _ E2 W) as (xs & P & F).
      repeat (apply f2_cons in F; destruct F as (? & ? & -> & ? & F)). apply f2_nil in F. subst. do 3 eexists. split; [exact T|]. split; [exact P|]. split; eassumption.
    - intros j s D (y & a & b & T & P & A & B). pose proof (tagged_doc _ _ _ _ T D) as Dy.
      assert (O : exists m, y = JObj m) by (destruct P as [P|(P & _)]; [|discriminate]; inversion P as [|? ? ? ? H _]; subst; apply has_in in H; destruct H as (m & -> & _); eauto).
      destruct O as (m & ->).
      destruct (T3 (JObj m) s Dy) as (v & E & W).
      { exists [a; b]. split; [left; destruct P as [P|(P & _)]; [exact P|discriminate]|]. apply Forall2_cons; [exact A|]. apply Forall2_cons; [exact B|]. apply Forall2_nil. }
      destruct W as (vs & ts & -> & F). exists (VEnum 0 (vs ++ ts)). split; [|exists (vs ++ ts); split; [reflexivity|exists vs, ts; auto]].
      apply (enum_ok true false set_delegate j (str_bytes "Set_delegate") (JObj m)); [apply tag_content; exact T|].
      change (read (DStruct (flds_of m_delegate FNil)) (JObj m)) with
        (let* r := obj_loop (fld_de checked sha (from_address sha) (flds_of m_delegate FNil)) m in rmap VTup (assemble (flds_of m_delegate FNil) r)) in E.
      apply bind_ok in E. destruct E as (r & O & E). apply rmap_ok in E. destruct E as (us & E & E'). injection E' as E'.
      change (vread set_delegate 0 (str_bytes "Set_delegate") (Some (JObj m))) with
        (if key_eqb (str_bytes "Set_delegate") (str_bytes "Set_delegate") then
          let* vs := let* r := obj_loop (fld_de checked sha (from_address sha) (flds_of m_delegate FNil)) m in assemble (flds_of m_delegate FNil) r in Ok (0%nat, vs) else Err JE).
      rewrite key_eqb_refl, O. cbn [bind]. rewrite E. cbn [bind]. congruence.
    - intros v a a' (vs & -> & W) (vs' & E & W'). injection E as <-. exact (T4 _ _ _ W W').
  Qed.
  Lemma s_delegation : says jStakeDelegation d_delegation (wv u_delegation).
  Proof using Type. exact (says_ver checked _ _ _ _ t_delegation). Qed.

  (** *** Bodies of commands *)
  Definition u_body (v : val) (b : Command.body) : Prop :=
    match b with
    | Payment s r t a => exists w, v = VEnum 0 [w] /\ v2 (sW m_payment) w (s, r, t, a)
    | SetDelegate d n => exists w, v = VEnum 1 [w] /\ wv u_delegation w (d, n)
    end.
  Notation bodies := (WCons "Payment" SNew (FCons "" None jPayment FNil) (WCons "Stake_delegation" SNew (FCons "" None jStakeDelegation FNil) WNil)).
  Lemma bodies_read : forall k a i vs, vread bodies 0 k a = Ok (i, vs) -> exists x v, a = Some x /\ vs = [v] /\
    ((k = str_bytes "Payment" /\ i = 0%nat /\ read jPayment x = Ok v) \/ (k = str_bytes "Stake_delegation" /\ i = 1%nat /\ read jStakeDelegation x = Ok v)).
  Proof using Type.
    intros k a i vs E. rewrite !new_read in E. destruct (key_eqb (str_bytes "Payment") k) eqn:K; [|destruct (key_eqb (str_bytes "Stake_delegation") k) eqn:K'; [|discriminate]];
      (destruct a as [x|]; [|discriminate]); apply bind_ok in E; destruct E as (v & E & E'); injection E' as <- <-; exists x, v; (split; [reflexivity|]; split; [reflexivity|]).
    - left. apply key_eqb_iff in K. auto.
    - right. apply key_eqb_iff in K'. auto.
  Qed.
  Lemma t_cbody : says (DEnum (Listed false) false bodies) (fun m => d_command_body sha (other m)) u_body.
  Proof using Type.
    destruct s_payment as (P1 & P2 & P3 & P4), s_delegation as (D1 & D2 & D3 & D4). split; [|split; [|split]].
    - intros j v b E U. apply enum_inv in E. destruct E as [(k & vs' & i & _ & E)|(k & x & vs' & i & T & Ev & E)].
      + apply bodies_read in E. destruct E as (x & w & E & _). discriminate.
      + apply bodies_read in E. destruct E as (x' & w & Ex & -> & E). injection Ex as <-. subst v. destruct b; cbn [u_body] in U; destruct U as (w' & Ew & W); injection Ew as -> ->.
        * destruct E as [(-> & _ & E)|(_ & E & _)]; [|discriminate]. apply tag_content in T. destruct (P1 _ _ _ E W) as (y1 & y2 & y3 & y4 & Q). exists x, y1, y2, y3, y4. auto.
        * destruct E as [(_ & E & _)|(-> & _ & E)]; [discriminate|]. apply tag_content in T. destruct (D1 _ _ _ E W) as (y & y1 & y2 & Q). exists x, y, y1, y2. auto.
    - intros j v b E U. destruct b; cbn [u_body] in U; destruct U as (w' & -> & W); apply enum_written in E; destruct E as (e & E & T).
      + apply new_written in E. destruct E as (x & E & ->). apply tag_written in T; [|discriminate]. destruct (P2 _ _ _ E W) as (y1 & y2 & y3 & y4 & Q). exists x, y1, y2, y3, y4. auto.
      + change (vwrite bodies 1 [w']) with (vwrite (WCons "Stake_delegation" SNew (FCons "" None jStakeDelegation FNil) WNil) 0 [w']) in E.
        apply new_written in E. destruct E as (x & E & ->). apply tag_written in T; [|discriminate]. destruct (D2 _ _ _ E W) as (y & y1 & y2 & Q). exists x, y, y1, y2. auto.
    - intros j b D R. destruct b; cbn [d_command_body] in R.
      + destruct R as (x & y1 & y2 & y3 & y4 & T & Q). destruct (P3 x (source_pk, receiver_pk, token_id, amount)) as (v & E & W); [eapply tagged_doc; eassumption|exists y1, y2, y3, y4; exact Q|].
        exists (VEnum 0 [v]). split; [|exists v; auto]. apply (enum_ok false false bodies j (str_bytes "Payment") x); [apply tag_content; exact T|].
        rewrite new_read, key_eqb_refl, E. reflexivity.
      + destruct R as (x & y & y1 & y2 & T & Q). destruct (D3 x (delegator, new_delegate)) as (v & E & W); [eapply tagged_doc; eassumption|exists y, y1, y2; exact Q|].
        exists (VEnum 1 [v]). split; [|exists v; auto]. apply (enum_ok false false bodies j (str_bytes "Stake_delegation") x); [apply tag_content; exact T|].
        rewrite !new_read, key_eqb_refl, E. rewrite key_neqb by (vm_compute; discriminate). reflexivity.
    - intros v b b' U U'. destruct b, b'; cbn [u_body] in U, U'; destruct U as (w & -> & W), U' as (w' & E & W'); try discriminate E; injection E as <-.
      + pose proof (P4 _ _ _ W W'). congruence.
      + pose proof (D4 _ _ _ W W'). congruence.
  Qed.
  Lemma s_cbody : says jPayloadBody (fun m => d_command_body sha (other m)) (v2 u_body).
  Proof using Type. exact (says2 _ _ _ _ t_cbody). Qed.

  Definition m_payload : list (mem payload) :=
    [mk_mem "common" jPayloadCommon (common) (fun m => d_common sha (understood m) (other m)) (wv (wv (wv (sW m_common)))) p_common;
     mk_mem "body" jPayloadBody Command.body (fun m => d_command_body sha (other m)) (v2 u_body) p_body].
  Lemma is_payload : forall m j a, sR m_payload m j a <-> (fun m => d_payload sha (understood m) (other m)) m j a.
  Proof using Type.
    intros m j a. split.
    - intros (xs & P & F). unfold m_payload in F. repeat (apply f2_cons in F; destruct F as (? & ? & -> & ? & F)). apply f2_nil in F. subst.
      do 2 eexists. split; [exact P|]. repeat (split; [eassumption|]). eassumption.
    - intros (x0 & x1 & P & H0 & H1). exists [x0; x1]. split; [exact P|]. repeat (apply Forall2_cons; [assumption|]). apply Forall2_nil.
  Qed.
  Lemma t_payload : says (DStruct (flds_of m_payload FNil)) (fun m => d_payload sha (understood m) (other m)) (sW m_payload).
  Proof using Type.
    apply (says_iff _ _ (sR m_payload)); [exact is_payload|]. apply s_says; [reflexivity|discriminate| |].
    - apply Forall_cons; [split; [exact s_common|reflexivity]|].
      apply Forall_cons; [split; [exact s_cbody|reflexivity]|].
      apply Forall_nil.
    - intros a a' F. unfold m_payload in F. repeat (let X := fresh in pose proof (Forall_inv F) as X; apply Forall_inv_tail in F; cbn [m_p m_B] in X). destruct a, a'; cbn in *; repeat match goal with X : (_, _) = (_, _) |- _ => injection X; clear X; intros end; subst; reflexivity.
  Qed.
  Lemma s_payload : says jPayload (fun m => d_payload sha (understood m) (other m)) (wv (wv (sW m_payload))).
  Proof using Type. exact (says2 _ _ _ _ t_payload). Qed.
  Definition m_command : list (mem (signed_command (Z * Z))) :=
    [mk_mem "payload" jPayload (payload) (fun m => d_payload sha (understood m) (other m)) (wv (wv (sW m_payload))) (c_payload (Z * Z));
     mk_mem "signer" jPub2 pubkey (fun _ => d_key sha true) (v3 w_key) (c_signer (Z * Z));
     mk_mem "signature" jSig (Z * Z) (fun _ => d_sig sha true) (wv (w_ver w_sig)) (c_signature (Z * Z))].
  Lemma is_command : forall m j a, sR m_command m j a <-> (fun m => d_command sha (understood m) (other m)) m j a.
  Proof using Type.
    intros m j a. split.
    - intros (xs & P & F). unfold m_command in F. repeat (apply f2_cons in F; destruct F as (? & ? & -> & ? & F)). apply f2_nil in F. subst.
      do 3 eexists. split; [exact P|]. repeat (split; [eassumption|]). eassumption.
    - intros (x0 & x1 & x2 & P & H0 & H1 & H2). exists [x0; x1; x2]. split; [exact P|]. repeat (apply Forall2_cons; [assumption|]). apply Forall2_nil.
  Qed.
  Lemma t_command : says (DStruct (flds_of m_command FNil)) (fun m => d_command sha (understood m) (other m)) (sW m_command).
  Proof using Type.
    apply (says_iff _ _ (sR m_command)); [exact is_command|]. apply s_says; [reflexivity|discriminate| |].
    - apply Forall_cons; [split; [exact s_payload|reflexivity]|].
      apply Forall_cons; [split; [exact s_pub2|reflexivity]|].
      apply Forall_cons; [split; [exact s_sig|reflexivity]|].
      apply Forall_nil.
    - intros a a' F. unfold m_command in F. repeat (let X := fresh in pose proof (Forall_inv F) as X; apply Forall_inv_tail in F; cbn [m_p m_B] in X). destruct a, a'; cbn in *; repeat match goal with X : (_, _) = (_, _) |- _ => injection X; clear X; intros end; subst; reflexivity.
  Qed.
  Lemma s_command : says jSignedCommand (fun m => d_command sha (understood m) (other m)) (wv (wv (sW m_command))).
  Proof using Type. exact (says2 _ _ _ _ t_command). Qed.
  (** ** Blocks: reading and writing only *)
  Definition rsays {A : Type} (d : dty) (R : mode -> json -> A -> Prop) (W : val -> A -> Prop) : Prop := rs checked d (R Taken) W /\ ws checked d (R Written) W.
  Lemma r_ver : forall A d (R : mode -> json -> A -> Prop) W, rsays d R W -> rsays (DV d) R (wv W).
  Proof using Type. intros A d R W (H1 & H2). split; [apply rs_ver|apply ws_ver]; assumption. Qed.
  Lemma r_list : forall A d (R : mode -> json -> A -> Prop) W, rsays d R W -> rsays (DVec d) (dl R) (fun v l => exists vs, v = VSeq vs /\ Forall2 W vs l).
  Proof using Type. intros A d R W (H1 & H2). split; [apply rs_list|apply ws_list]; assumption. Qed.
  Lemma r_iff : forall A d (R R' : mode -> json -> A -> Prop) W, (forall m j a, R m j a <-> R' m j a) -> rsays d R W -> rsays d R' W.
  Proof using Type.
    intros A d R R' W E (H1 & H2). split.
    - intros j v a X Y. apply E. eapply H1; eassumption.
    - intros j v a X Y. apply E. eapply H2; eassumption.
  Qed.
  Lemma r_struct : forall A (ms : list (mem A)) tail, nodupb (names ms) = true -> skips tail ->
    Forall (fun f => rsays (m_d f) (m_R f) (m_W f) /\ missing (m_d f) = None) ms -> rsays (DStruct (flds_of ms tail)) (sR ms) (sW ms).
  Proof using Type.
    intros A ms tail N S H. split.
    - apply s_rs; [exact N|exact S|]. eapply Forall_impl; [|exact H]. intros f ((H1 & _) & M). auto.
    - apply s_ws; [exact N|exact S|]. eapply Forall_impl; [|exact H]. intros f ((_ & H1) & M). auto.
  Qed.
  (** a member about which nothing is said *)
  Definition silent {A : Type} (name : string) (d : dty) : mem A := mk_mem name d unit (fun _ _ _ => True) (fun _ _ => True) (fun _ => tt).
  Lemma r_silent : forall d, rsays d (fun (_ : mode) (_ : json) (_ : unit) => True) (fun _ _ => True).
  Proof using Type. intros d. split; intros ? ? ? ? ?; exact I. Qed.

  Definition u_user (v : val) (u : user_command (Z * Z)) : Prop :=
    match u with SignedCommand _ c => exists a, v = VEnum 0 [a] /\ v2 (sW m_command) a c end.
  Notation signed := (WCons "Signed_command" SNew (FCons "" None jSignedCommand FNil) WNil).
  Lemma written_obj : forall fs v x, write (DV (DV (DStruct fs))) v = Ok x -> exists m, x = JObj m.
  Proof using Type.
    intros fs v x E. destruct v; try discriminate. destruct vs as [|[] [|y [|? ?]]]; try discriminate. destruct y; try discriminate. destruct vs as [|[] [|y [|? ?]]]; try discriminate.
    destruct y; try discriminate. cbn [jser] in E. apply rmap_ok in E. destruct E as (m & _ & ->). eauto.
  Qed.
  Lemma r_user : rsays jUserCommand (fun m => d_user_command sha (understood m) (other m)) (v2 u_user).
  Proof using Type.
    apply (r_ver _ (DV (DEnum (Listed true) false signed))), (r_ver _ (DEnum (Listed true) false signed)). destruct s_command as (C1 & C2 & _). split.
    - intros j v [c] E (w & -> & W). apply enum_inv in E. destruct E as [(k & vs' & i & _ & E)|(k & x & vs' & i & T & Ev & E)]; rewrite new_read in E;
        (destruct (key_eqb _ k) eqn:K; [|discriminate]); [discriminate|]. apply key_eqb_iff in K. subst k. apply bind_ok in E. destruct E as (w' & E & E'). injection E' as <- <-. injection Ev as <-.
      apply tag_content in T. exists x. split; [exact T|]. exact (C1 _ _ _ E W).
    - intros j v [c] E (w & -> & W). apply enum_written in E. destruct E as (e & E & T). apply new_written in E. destruct E as (x & E & ->).
      apply tag_written in T; [|intros _ l ->; apply written_obj in E; destruct E as (m & E); discriminate]. exists x. split; [exact T|]. exact (C2 _ _ _ E W).
  Qed.
  Definition m_with_status : list (mem (with_status (Z * Z) val)) :=
    [mk_mem "data" jUserCommand (user_command (Z * Z)) (fun m => d_user_command sha (understood m) (other m)) (v2 u_user) (data (Z * Z) val); silent "status" jStatus].
  Lemma r_with_status : rsays jCommandWithStatus (fun m => d_with_status sha (understood m) (other m)) (wv (sW m_with_status)).
  Proof using Type.
    apply (r_ver _ (DStruct (flds_of m_with_status FNil))). apply (r_iff _ _ (sR m_with_status)).
    - intros m j a. split.
      + intros (xs & P & F). repeat (apply f2_cons in F; destruct F as (? & ? & -> & ? & F)). apply f2_nil in F. subst. do 2 eexists. split; [exact P|assumption].
      + intros (x & y & P & H). exists [x; y]. split; [exact P|]. repeat (apply Forall2_cons; [first [exact H|exact I]|]). apply Forall2_nil.
    - apply r_struct; [reflexivity|exact I|]. apply Forall_cons; [split; [exact r_user|reflexivity]|]. apply Forall_cons; [split; [apply r_silent|reflexivity]|]. apply Forall_nil.
  Qed.
  Definition m_prediff : list (mem (prediff (Z * Z) val val)) :=
    [silent "completed_works" (DVec jSnarkWork);
     mk_mem "commands" (DVec jCommandWithStatus) (list (with_status (Z * Z) val)) (fun m => d_list (d_with_status sha (understood m)) (other m))
       (fun v l => exists vs, v = VSeq vs /\ Forall2 (wv (sW m_with_status)) vs l) (commands (Z * Z) val val);
     silent "coinbase" jCoinBase; silent "internal_command_balances" (DVec jInternalBalance)].
  Lemma r_prediff : rsays jPreDiff (fun m => d_prediff sha (understood m) (other m)) (v2 (sW m_prediff)).
  Proof using Type.
    apply (r_ver _ (DV (DStruct (flds_of m_prediff FNil)))), (r_ver _ (DStruct (flds_of m_prediff FNil))). apply (r_iff _ _ (sR m_prediff)).
    - intros m j a. split.
      + intros (xs & P & F). repeat (apply f2_cons in F; destruct F as (? & ? & -> & ? & F)). apply f2_nil in F. subst. do 4 eexists. split; [exact P|assumption].
      + intros (x & y & z & w & P & H). exists [x; y; z; w]. split; [exact P|]. repeat (apply Forall2_cons; [first [exact H|exact I]|]). apply Forall2_nil.
    - apply r_struct; [reflexivity|exact I|]. apply Forall_cons; [split; [apply r_silent|reflexivity]|].
      apply Forall_cons; [split; [exact (r_list _ _ _ _ r_with_status)|reflexivity]|].
      apply Forall_cons; [split; [apply r_silent|reflexivity]|]. apply Forall_cons; [split; [apply r_silent|reflexivity]|]. apply Forall_nil.
  Qed.
  Definition d_two (m : mode) (j : json) (d : diff (Z * Z) val val) : Prop :=
    exists a b, j = JArr [a; b] /\ d_prediff sha (understood m) (other m) a (diff_two _ _ _ d) /\
      match diff_one _ _ _ d with None => b = JNull | Some e => d_prediff sha (understood m) (other m) b e end.
  Definition u_two (v : val) (d : diff (Z * Z) val val) : Prop :=
    exists a b, v = VTup [a; b] /\ v2 (sW m_prediff) a (diff_two _ _ _ d) /\
      match diff_one _ _ _ d with None => b = VNone | Some e => exists w, b = VSome w /\ v2 (sW m_prediff) w e end.
  Notation two := (FCons "" None jPreDiff (FCons "" None (DOpt jPreDiff) FNil)).
  Lemma prediff_written : forall v x, write jPreDiff v = Ok x -> x <> JNull.
  Proof using Type. intros v x E. apply (written_obj (flds_of m_prediff FNil)) in E. destruct E as (m & ->). discriminate. Qed.
  Lemma r_two : rsays jDiffTuple d_two (wv u_two).
  Proof using Type.
    apply (r_ver _ (DTup two)). destruct r_prediff as (P1 & P2). split.
    - intros j v d E (a & b & -> & A & B). destruct j as [| | | | |l|]; try discriminate.
      change (read (DTup two) (JArr l)) with (rmap VTup (match l with [] => Err JE | j :: l => let* v := read jPreDiff j in
        let* vs := match l with [] => Err JE | j :: l => let* v := match j with JNull => Ok VNone | _ => rmap VSome (read jPreDiff j) end in let* vs := match l with [] => Ok [] | _ => Err JE end in Ok (v :: vs) end in Ok (v :: vs) end)) in E.
      apply rmap_ok in E. destruct E as (vs & E & E'). destruct l as [|j1 [|j2 l]]; try discriminate.
      { destruct (read jPreDiff j1); discriminate E. }
      apply bind_ok in E. destruct E as (v1 & R1 & E). apply bind_ok in E. destruct E as (us & E & E2). apply bind_ok in E. destruct E as (v2 & R2 & E). destruct l; [|discriminate E]. cbn [bind] in E.
      injection E as <-. injection E2 as <-. injection E' as <- <-. exists j1, j2. split; [reflexivity|]. split; [exact (P1 _ _ _ R1 A)|].
      destruct (diff_one _ _ _ d) as [e|].
      + destruct B as (w & -> & B). destruct j2; try discriminate R2; apply rmap_ok in R2; destruct R2 as (u & R2 & E); injection E as <-; exact (P1 _ _ _ R2 B).
      + subst b. destruct j2; try reflexivity; apply rmap_ok in R2; destruct R2 as (u & _ & E); discriminate E.
    - intros j v d E (a & b & -> & A & B).
      change (write (DTup two) (VTup [a; b])) with (rmap (fun m => JArr (map snd m)) (let* j := write jPreDiff a in let* m := (let* j := write (DOpt jPreDiff) b in let* m := Ok [] in Ok ((str_bytes "", j) :: m)) in Ok ((str_bytes "", j) :: m))) in E.
      apply rmap_ok in E. destruct E as (m & E & ->). apply bind_ok in E. destruct E as (x & W1 & E). apply bind_ok in E. destruct E as (m' & E & E2). apply bind_ok in E. destruct E as (y & W2 & E). cbn [bind] in E.
      assert (E3 : map snd m = [x; y]) by (assert (m' = [(str_bytes "", y)]) by congruence; subst m'; assert (E4 : m = [(str_bytes "", x); (str_bytes "", y)]) by congruence; rewrite E4; reflexivity). rewrite E3.
      exists x, y. split; [reflexivity|]. split; [exact (P2 _ _ _ W1 A)|]. destruct (diff_one _ _ _ d) as [e|].
      + destruct B as (w & -> & B). exact (P2 y w e W2 B).
      + subst b. injection W2 as <-. reflexivity.
  Qed.
  Definition m_diff : list (mem (diff (Z * Z) val val)) := [mk_mem "diff" jDiffTuple (diff (Z * Z) val val) d_two (wv u_two) (fun d => d)].
  Lemma r_diff : rsays jDiff (fun m => d_diff sha (understood m) (other m)) (wv (sW m_diff)).
  Proof using Type.
    apply (r_ver _ (DStruct (flds_of m_diff FNil))). apply (r_iff _ _ (sR m_diff)).
    - intros m j d. split.
      + intros (xs & P & F). repeat (apply f2_cons in F; destruct F as (? & ? & -> & ? & F)). apply f2_nil in F. subst. destruct H as (a & b & Q). exists x, a, b. auto.
      + intros (x & a & b & P & Q). exists [x]. split; [exact P|]. apply Forall2_cons; [exists a, b; exact Q|apply Forall2_nil].
    - apply r_struct; [reflexivity|exact I|]. apply Forall_cons; [split; [exact r_two|reflexivity]|apply Forall_nil].
  Qed.
  Definition m_block : list (mem (transition (Z * Z) val val state_legacy)) :=
    [mk_mem "protocol_state" jProtocolState state_legacy (fun m => d_state sha (other m)) (v2 (sW m_pstate)) (rest (Z * Z) val val state_legacy);
     silent "protocol_state_proof" jProtocolStateProof64;
     mk_mem "staged_ledger_diff" jDiff (diff (Z * Z) val val) (fun m => d_diff sha (understood m) (other m)) (wv (sW m_diff)) (staged_ledger_diff (Z * Z) val val state_legacy);
     silent "delta_transition_chain_proof" jDeltaProof].
  Notation block_tail := (FCons "current_protocol_version" (Some DEFAULT_PROTOCOL_VERSION) jProtocolVersion
    (FCons "proposed_protocol_version_opt" (Some VNone) (DOpt jProtocolVersion) (FCons "validation_callback" (Some VUnit) DUnit FNil))).
  Lemma r_block : rsays jExternalTransition (fun m => d_block sha (understood m) (other m)) (wv (sW m_block)).
  Proof using Type.
    apply (r_ver _ (DStruct (flds_of m_block block_tail))). apply (r_iff _ _ (sR m_block)).
    - intros m j t. split.
      + intros (xs & P & F). repeat (apply f2_cons in F; destruct F as (? & ? & -> & ? & F)). apply f2_nil in F. subst. do 4 eexists. split; [exact P|]. split; eassumption.
      + intros (x & y & z & w & P & H & H'). exists [x; y; z; w]. split; [exact P|]. repeat (apply Forall2_cons; [first [exact H|exact H'|exact I]|]). apply Forall2_nil.
    - apply r_struct; [reflexivity|exact I|].
      apply Forall_cons; [split; [split; apply s_pstate|reflexivity]|]. apply Forall_cons; [split; [apply r_silent|reflexivity]|].
      apply Forall_cons; [split; [exact r_diff|reflexivity]|]. apply Forall_cons; [split; [apply r_silent|reflexivity]|]. apply Forall_nil.
  Qed.
End Types.

(** ** What wire values say is what these types carry *)
Lemma ver_mono : forall A (W W' : val -> A -> Prop) v a, (forall w b, W w b -> W' w b) -> w_ver W v a -> wv W' v a.
Proof. intros A W W' v a H (n & w & -> & _ & X). exists n, w. auto. Qed.
Lemma ver2_mono : forall A (W W' : val -> A -> Prop) v a, (forall w b, W w b -> W' w b) -> w_ver2 W v a -> wv (wv W') v a.
Proof. intros A W W' v a H. apply ver_mono. intros w b. apply ver_mono. exact H. Qed.
Lemma ver3_mono : forall A (W W' : val -> A -> Prop) v a, (forall w b, W w b -> W' w b) -> w_ver3 W v a -> wv (wv (wv W')) v a.
Proof. intros A W W' v a H. apply ver_mono. intros w b. apply ver2_mono. exact H. Qed.
Lemma list_mono : forall A (W W' : val -> A -> Prop) v l, (forall w b, W w b -> W' w b) -> w_list W v l -> exists vs, v = VSeq vs /\ Forall2 W' vs l.
Proof. intros A W W' v l H (vs & -> & F). exists vs. split; [reflexivity|]. induction F; constructor; auto. Qed.
Ltac same :=
  cbn [m_W m_p m_B];
  first [assumption
        | exact I
        | eapply ver_mono; [intros ? ? X; exact X|eassumption]
        | eapply ver2_mono; [intros ? ? X; exact X|eassumption]
        | eapply ver3_mono; [intros ? ? X; exact X|eassumption]].
Ltac sames := repeat (apply Forall2_cons; [same|]); apply Forall2_nil.
Lemma uw_constants : forall v c, w_constants v c -> sW m_constants v c.
Proof. intros v c (a & b & d & e & f & -> & A & B & D & E & F). exists [a; b; d; e; f], []. split; [reflexivity|]. sames. Qed.
Lemma uw_staged : forall v s, w_staged v s -> sW m_staged v s.
Proof.
  intros v s (m & a & b & c & d & -> & A & B & C & D). exists [VTup [VInt m; VTup [a; b; c]]; d], []. split; [reflexivity|].
  apply Forall2_cons.
  - exists m, (VTup [a; b; c]). split; [reflexivity|]. exists [a; b; c], []. split; [reflexivity|]. sames.
  - apply Forall2_cons; [|apply Forall2_nil]. eapply ver_mono; [intros ? ? X; exact X|exact D].
Qed.
Lemma uw_blockchain : forall v s, w_blockchain v s -> sW m_blockchain v s.
Proof.
  intros v s (a & b & c & d & e & -> & A & B & C & D & E). exists [a; b; c; d; e], []. split; [reflexivity|].
  apply Forall2_cons; [eapply ver2_mono; [exact uw_staged|exact A]|]. sames.
Qed.
Lemma uw_epoch : forall v s, w_epoch v s -> sW m_epoch v s.
Proof.
  intros v s (m & n & a & b & c & d & e & f & -> & A & B & C & D & E & F). exists [VTup [VInt m; VTup [VInt n; VTup [a; b]]]; c; d; e; f], []. split; [reflexivity|].
  apply Forall2_cons.
  - exists m, (VTup [VInt n; VTup [a; b]]). split; [reflexivity|]. exists n, (VTup [a; b]). split; [reflexivity|]. exists [a; b], []. split; [reflexivity|]. sames.
  - sames.
Qed.
Lemma uw_consensus : forall v s, w_consensus v s -> sW m_consensus v s.
Proof.
  intros v s (m & n & a & b & c & d & e & f & g1 & g2 & h & i & j & k & l & m' & o & p & -> & A & B & C & D & E & F & G1 & G2 & H & Hi & J & K & L & M & O & P).
  exists [a; b; c; d; e; f; VTup [VInt m; VTup [VInt n; VTup [g1; g2]]]; h; i; j; k; l; m'; o; p], []. split; [reflexivity|].
  do 3 (apply Forall2_cons; [same|]). apply Forall2_cons; [eapply list_mono; [|exact D]; intros; same|].
  do 2 (apply Forall2_cons; [same|]). apply Forall2_cons.
  { exists m, (VTup [VInt n; VTup [g1; g2]]). split; [reflexivity|]. exists n, (VTup [g1; g2]). split; [reflexivity|]. exists [g1; g2], []. split; [reflexivity|]. sames. }
  apply Forall2_cons; [same|]. apply Forall2_cons; [eapply ver2_mono; [exact uw_epoch|exact Hi]|]. apply Forall2_cons; [eapply ver2_mono; [exact uw_epoch|exact J]|]. sames.
Qed.
Lemma uw_body : forall v s, w_body v s -> sW m_body v s.
Proof.
  intros v s (a & b & c & d & -> & A & B & C & D). exists [a; b; c; d], []. split; [reflexivity|]. apply Forall2_cons; [same|].
  apply Forall2_cons; [eapply ver2_mono; [exact uw_blockchain|exact B]|]. apply Forall2_cons; [eapply ver2_mono; [exact uw_consensus|exact C]|].
  apply Forall2_cons; [eapply ver2_mono; [exact uw_constants|exact D]|]. apply Forall2_nil.
Qed.
Lemma uw_state : forall v s, w_state v s -> wv (wv (sW m_pstate)) v s.
Proof.
  intros v s W. eapply ver2_mono; [|exact W]. clear. intros v s (a & b & -> & A & B). exists [a; b], []. split; [reflexivity|]. apply Forall2_cons; [same|].
  apply Forall2_cons; [eapply ver2_mono; [exact uw_body|exact B]|]. apply Forall2_nil.
Qed.
Lemma uw_common : forall v c, w_common v c -> sW m_common v c.
Proof. intros v c (a & b & d & e & f & g & -> & A & B & D & E & F & G). exists [a; b; d; e; f; g], []. split; [reflexivity|]. sames. Qed.
Lemma uw_command_body : forall v b, w_command_body v b -> u_body v b.
Proof.
  intros v [s r t z|d n]; cbn [w_command_body u_body].
  - intros (m & n & a & c & d & e & -> & A & C & D & E). eexists. split; [reflexivity|]. exists m, (VTup [VInt n; VTup [a; c; d; e]]). split; [reflexivity|].
    exists n, (VTup [a; c; d; e]). split; [reflexivity|]. exists [a; c; d; e], []. split; [reflexivity|]. sames.
  - intros (m & a & c & -> & A & C). eexists. split; [reflexivity|]. exists m, (VEnum 0 [a; c]). split; [reflexivity|]. exists [a; c]. split; [reflexivity|].
    exists [a; c], []. split; [reflexivity|]. sames.
Qed.
Lemma uw_payload : forall v p, w_payload v p -> sW m_payload v p.
Proof.
  intros v p (a & b & -> & A & B). exists [a; b], []. split; [reflexivity|]. apply Forall2_cons; [eapply ver3_mono; [exact uw_common|exact A]|].
  apply Forall2_cons; [eapply ver2_mono; [exact uw_command_body|exact B]|]. apply Forall2_nil.
Qed.
Lemma uw_command : forall v c, w_command v c -> wv (wv (sW m_command)) v c.
Proof.
  intros v c W. eapply ver2_mono; [|exact W]. clear. intros v c (a & b & d & -> & A & B & D). exists [a; b; d], []. split; [reflexivity|].
  apply Forall2_cons; [eapply ver2_mono; [exact uw_payload|exact A]|]. apply Forall2_cons; [same|]. apply Forall2_cons; [|apply Forall2_nil].
  eapply ver_mono; [intros ? ? X; exact X|exact D].
Qed.
Lemma uw_user : forall v u, w_user_command_inner v u -> u_user v u.
Proof. intros v [c] (a & -> & A). exists a. split; [reflexivity|]. apply uw_command. exact A. Qed.
Lemma uw_with_status : forall v c, w_with_status v c -> sW m_with_status v c.
Proof.
  intros v c (a & b & -> & A). exists [a; b], []. split; [reflexivity|]. apply Forall2_cons; [eapply ver2_mono; [exact uw_user|exact A]|]. sames.
Qed.
Lemma uw_prediff : forall v d, w_prediff v d -> sW m_prediff v d.
Proof.
  intros v c (a & b & d & e & -> & B). exists [a; b; d; e], []. split; [reflexivity|]. apply Forall2_cons; [exact I|].
  apply Forall2_cons; [eapply list_mono; [|exact B]; intros; eapply ver_mono; [exact uw_with_status|eassumption]|]. sames.
Qed.
Lemma uw_diff : forall v d, w_diff v d -> sW m_diff v d.
Proof.
  intros v d (m & a & b & -> & A & B). exists [VTup [VInt m; VTup [a; b]]], []. split; [reflexivity|]. apply Forall2_cons; [|apply Forall2_nil].
  exists m, (VTup [a; b]). split; [reflexivity|]. exists a, b. split; [reflexivity|]. split; [eapply ver2_mono; [exact uw_prediff|exact A]|].
  cbn [m_p]. destruct (diff_one _ _ _ d) as [e|]; [|exact B]. destruct B as (w & -> & B). exists w. split; [reflexivity|]. eapply ver2_mono; [exact uw_prediff|exact B].
Qed.
Lemma uw_block : forall v t, w_block v t -> wv (sW m_block) v t.
Proof.
  intros v t W. eapply ver_mono; [|exact W]. clear. intros v t (a & b & c & d & e & f & g & -> & A & C). exists [a; b; c; d], [e; f; g]. split; [reflexivity|].
  apply Forall2_cons; [apply uw_state; exact A|]. apply Forall2_cons; [exact I|]. apply Forall2_cons; [eapply ver_mono; [exact uw_diff|exact C]|]. sames.
Qed.
