(** The records of Convert/View.v against the relations of ViewSpec.v. *)

From Coq Require Import String ZArith List Bool Lia ZifyBool ZifyNat.
From Verif Require Import Lib.Res Lib.Bytes BinProt.Codec BinProt.CodecSpec Wire.Types Text.FieldText Hashing.ROInput Hashing.Command Hashing.State
  Ledger.AccountWire Ledger.AccountWireSpec Ledger.AccountWireFacts Convert.Conv Convert.BlockConv Convert.ConvSpec Convert.ConvFacts Convert.View
  Convert.ViewSpec.
Import ListNotations.
Local Open Scope list_scope.
Local Open Scope Z_scope.
Local Notation length := List.length.

(** [reads c t R f]: the base value of a wire value is, through [f], what [R] says. *)
Definition reads {A : Type} (c : conv) (t : ty) (R : val -> A -> Prop) (f : val -> A) : Prop :=
  forall v b, rust_val t v -> down c v = Ok b -> R v (f b).

Lemma reads_ver : forall A c t (R : val -> A -> Prop) f, reads c t R f -> reads (Ver c) (V t) (w_ver R) f.
Proof.
  intros A c t R f H v b T D. apply ver_shape in T. destruct T as (n & w & -> & N & W). cbn [down] in D. exists n, w. auto.
Qed.
Lemma reads_ver2 : forall A c t (R : val -> A -> Prop) f, reads c t R f -> reads (Ver (Ver c)) (V2 t) (w_ver2 R) f.
Proof. intros. unfold V2, w_ver2. apply reads_ver, reads_ver, H. Qed.
Lemma reads_ver3 : forall A c t (R : val -> A -> Prop) f, reads c t R f -> reads (Ver (Ver (Ver c))) (V3 t) (w_ver3 R) f.
Proof. intros. unfold V3, w_ver3. apply reads_ver, reads_ver2, H. Qed.
Lemma reads_u64 : reads Same TU64 (w_num (2 ^ 64)) int_of.
Proof. intros v b (H & K) [= <-]. destruct v; try contradiction. split; [reflexivity|exact H]. Qed.
Lemma reads_u32 : reads Same (TInt U32) (w_num (2 ^ 32)) int_of.
Proof. intros v b (H & K) [= <-]. destruct v; try contradiction. split; [reflexivity|exact H]. Qed.
Lemma reads_bool : reads Same TBool w_bool bool_of.
Proof. intros v b (H & K) [= <-]. destruct v; try contradiction. reflexivity. Qed.
Lemma reads_bytes : reads Same Bytes32 w_bytes vec_of.
Proof.
  intros v b H [= <-]. apply bytes32_iff in H. destruct H as (l & W). pose proof W as (-> & _). unfold vec_of. cbn [list_of].
  rewrite map_map. cbn [int_of]. rewrite map_id. exact W.
Qed.
Lemma reads_vec : reads Same (TSeq TU8) w_vec vec_of.
Proof.
  intros v b H [= <-]. apply rust_seq in H. destruct H as (vs & -> & L & H). apply typed_bytes in H. destruct H as (l & -> & Ll & B).
  unfold vec_of. cbn [list_of]. rewrite map_map. cbn [int_of]. rewrite map_id. split; [reflexivity|]. split; [exact B|]. lia.
Qed.
Lemma reads_key : reads Key CompressedCurvePoint w_key key_of.
Proof.
  intros v b T D. destruct fine_key as (F1 & F2 & F3 & F4). cbn [down] in D. destruct (F3 v T) as [(k & K)|(B & P)].
  - rewrite (F1 _ _ K) in D. cbn [bind] in D. injection D as <-. cbn [key_of]. destruct k. exact K.
  - rewrite P in D. discriminate.
Qed.
Lemma reads_sig : reads Sig SignatureV1 (w_ver2 w_sig) sig_of.
Proof.
  intros v b T D. apply sig_shape in T. destruct T as (m & n & r & s & k & l & -> & M & N & R & S). cbn [down] in D.
  rewrite (bytes_of_w _ _ R), (bytes_of_w _ _ S) in D. unfold fp_from_bytes, fq_from_bytes in D.
  destruct (Z.ltb_spec (le_val k) FP_MODULUS); cbn [expect bind] in D; [|discriminate].
  destruct (Z.ltb_spec (le_val l) FQ_MODULUS); cbn [expect bind] in D; [|discriminate].
  injection D as <-. exists m, (VTup [VInt n; VTup [r; s]]). split; [reflexivity|]. split; [exact M|].
  exists n, (VTup [r; s]). split; [reflexivity|]. split; [exact N|]. exists r, s, k, l. cbn [sig_of fst snd]. auto 10.
Qed.
Lemma reads_cast : reads Cast (TInt I32) w_cast int_of.
Proof.
  intros v b (H & K) D. destruct v; try contradiction. cbn [down] in D. injection D as <-. exists z. split; [reflexivity|]. split; [exact H|].
  cbn [int_of]. unfold wrapu. split; [apply Z.mod_pos_bound; lia|]. exists (- (z / 2 ^ 32)). pose proof (Z.div_mod z (2 ^ 32)). lia.
Qed.
Lemma reads_list : forall A c t (R : val -> A -> Prop) f, reads c t R f -> reads (Seq c) (TSeq t) (w_list R) (fun b => map f (list_of b)).
Proof.
  intros A c t R f H v b T D. apply rust_seq in T. destruct T as (vs & -> & _ & T). cbn [down] in D. apply bind_ok in D.
  destruct D as (bs & D & [= <-]). exists vs. split; [reflexivity|]. cbn [list_of]. revert bs D T. induction vs as [|v vs IH]; intros bs D T.
  - injection D as <-. constructor.
  - cbn [down_all] in D. fold (down_all (down c)) in D. apply bind_ok in D. destruct D as (b & Db & D). apply bind_ok in D.
    destruct D as (bs' & Ds & [= <-]). destruct T as (Tv & T). cbn [map]. constructor; [apply H; assumption|]. apply IH; assumption.
Qed.
Lemma reads_ext : forall A c t (R : val -> A -> Prop) f g, (forall b, f b = g b) -> reads c t R f -> reads c t R g.
Proof. intros A c t R f g E H v b T D. rewrite <- E. apply H; assumption. Qed.

(** Structs: the shape of the wire value, then the fields one by one. *)
Definition found (wire : list string) (vs : list val) (f : string * conv) (x : val) : Prop :=
  exists v, at_name (fst f) wire vs = Some v /\ down (snd f) v = Ok x.
Lemma down_struct : forall wire fields vs b, down (Struct wire fields) (VTup vs) = Ok b ->
  exists bs, b = VTup bs /\ Forall2 (found wire vs) fields bs.
Proof.
  intros wire fields vs b D. cbn [down] in D. apply bind_ok in D. destruct D as (bs & D & [= <-]). exists bs. split; [reflexivity|].
  revert bs D. induction fields as [|(n, c) fields IH]; intros bs D; cbn [down_fields] in D.
  - injection D as <-. constructor.
  - apply bind_ok in D. destruct D as (x & Dx & D). apply bind_ok in D. destruct D as (xs & Dxs & [= <-]). constructor; [|auto].
    unfold found. cbn [fst snd]. destruct (at_name n wire vs) as [v|]; [|discriminate]. eauto.
Qed.
Lemma forall2_cons : forall A B (P : A -> B -> Prop) a l bs, Forall2 P (a :: l) bs -> exists x bs', bs = x :: bs' /\ P a x /\ Forall2 P l bs'.
Proof. intros A B P a l bs H. inversion H; subst. eauto. Qed.
Lemma forall2_nil : forall A B (P : A -> B -> Prop) bs, Forall2 P [] bs -> bs = [].
Proof. intros A B P bs H. inversion H. reflexivity. Qed.
Ltac members D :=
  lazymatch type of D with
  | Forall2 _ (_ :: _) _ =>
      let x := fresh "x" in let v := fresh "v" in let E := fresh "E" in let F := fresh "F" in
      apply forall2_cons in D; destruct D as (x & ? & -> & (v & E & F) & D); cbn [fst snd at_name String.eqb Ascii.eqb Bool.eqb] in E, F;
      injection E as <-; members D
  | Forall2 _ [] _ => apply forall2_nil in D; subst
  end.

Lemma reads_n32 : reads (Ver (Ver Same)) (V2 (TInt U32)) n32 int_of.
Proof. apply reads_ver2, reads_u32. Qed.
Lemma reads_n64 : reads (Ver (Ver Same)) (V2 TU64) n64 int_of.
Proof. apply reads_ver2, reads_u64. Qed.
Lemma reads_token : reads (Ver (Ver (Ver Same))) (V3 TU64) (w_ver3 (w_num (2 ^ 64))) int_of.
Proof. apply reads_ver3, reads_u64. Qed.
Lemma reads_key2 : reads (Ver (Ver Key)) PublicKeyV1 key2 key_of.
Proof. apply reads_ver2, reads_key. Qed.
Lemma reads_key3 : reads (Ver (Ver (Ver Key))) PublicKey2V1 (w_ver3 w_key) key_of.
Proof. apply reads_ver3, reads_key. Qed.
Lemma reads_hash : reads (Ver Same) HashV1 (w_ver w_bytes) vec_of.
Proof. apply reads_ver, reads_bytes. Qed.
Lemma reads_hash2 : reads (Ver (Ver Same)) Hash2V1 (w_ver2 w_bytes) vec_of.
Proof. apply reads_ver2, reads_bytes. Qed.
Lemma reads_vec1 : reads (Ver Same) (V (TSeq TU8)) (w_ver w_vec) vec_of.
Proof. apply reads_ver, reads_vec. Qed.
Lemma reads_cast2 : reads (Ver (Ver Cast)) ExtendedU32 (w_ver2 w_cast) int_of.
Proof. apply reads_ver2, reads_cast. Qed.
Lemma reads_densities : reads (Seq (Ver (Ver Same))) (TSeq LengthV1) (w_list n32) (fun b => map int_of (list_of b)).
Proof. apply reads_list, reads_n32. Qed.

Lemma reads_constants : reads C_ProtocolConstants (TTup [LengthV1; LengthV1; LengthV1; LengthV1; BlockTimeV1]) w_constants constants_of.
Proof.
  intros v b T D. apply rust_tup in T. destruct T as (vs & -> & T). pose proof (typed_list_length _ _ T) as L.
  destruct vs as [|v1 [|v2 [|v3 [|v4 [|v5 [|? ?]]]]]]; try discriminate L. destruct T as (T1 & T2 & T3 & T4 & T5 & _).
  apply down_struct in D. destruct D as (bs & -> & D). members D.
  exists v1, v2, v3, v4, v5. split; [reflexivity|].
  split; [eapply reads_n32; eassumption|].
  split; [eapply reads_n32; eassumption|].
  split; [eapply reads_n32; eassumption|].
  split; [eapply reads_n32; eassumption|].
  eapply reads_n64; eassumption.
Qed.

(** a member that is itself a struct, opened *)
Definition w_three {A B C : Type} (P : val -> A -> Prop) (Q : val -> B -> Prop) (R : val -> C -> Prop) (v : val) (x : A * B * C) : Prop :=
  exists a b c, v = VTup [a; b; c] /\ P a (fst (fst x)) /\ Q b (snd (fst x)) /\ R c (snd x).
Definition w_two {A B : Type} (P : val -> A -> Prop) (Q : val -> B -> Prop) (v : val) (x : A * B) : Prop :=
  exists a b, v = VTup [a; b] /\ P a (fst x) /\ Q b (snd x).
Definition non_snark_of (b : val) : list Z * list Z * list Z :=
  (vec_of (field C_NonSnarkStagedLedgerHash "ledger_hash" b), vec_of (field C_NonSnarkStagedLedgerHash "aux_hash" b),
   vec_of (field C_NonSnarkStagedLedgerHash "pending_coinbase_aux" b)).
Definition epoch_ledger_of (b : val) : list Z * Z :=
  (vec_of (field C_EpochLedger "hash" b), int_of (field C_EpochLedger "total_currency" b)).
Definition slot_of (b : val) : Z * Z := (int_of (field C_GlobalSlot "slot_number" b), int_of (field C_GlobalSlot "slots_per_epoch" b)).
Lemma reads_non_snark : reads C_NonSnarkStagedLedgerHash (TTup [HashV1; ByteVecV1; ByteVecV1]) (w_three (w_ver w_bytes) (w_ver w_vec) (w_ver w_vec)) non_snark_of.
Proof.
  intros v b T D. apply rust_tup in T. destruct T as (vs & -> & T). pose proof (typed_list_length _ _ T) as L.
  destruct vs as [|v1 [|v2 [|v3 [|? ?]]]]; try discriminate L. destruct T as (T1 & T2 & T3 & _).
  apply down_struct in D. destruct D as (bs & -> & D). members D.
  exists v1, v2, v3. split; [reflexivity|].
  split; [eapply reads_hash; eassumption|].
  split; [eapply reads_vec1; eassumption|].
  eapply reads_vec1; eassumption.
Qed.
Lemma reads_epoch_ledger : reads C_EpochLedger (TTup [HashV1; AmountV1]) (w_two (w_ver w_bytes) n64) epoch_ledger_of.
Proof.
  intros v b T D. apply rust_tup in T. destruct T as (vs & -> & T). pose proof (typed_list_length _ _ T) as L.
  destruct vs as [|v1 [|v2 [|? ?]]]; try discriminate L. destruct T as (T1 & T2 & _).
  apply down_struct in D. destruct D as (bs & -> & D). members D.
  exists v1, v2. split; [reflexivity|].
  split; [eapply reads_hash; eassumption|].
  eapply reads_n64; eassumption.
Qed.
Lemma reads_slot : reads C_GlobalSlot (TTup [GlobalSlotNumberV1; LengthV1]) (w_two n32 n32) slot_of.
Proof.
  intros v b T D. apply rust_tup in T. destruct T as (vs & -> & T). pose proof (typed_list_length _ _ T) as L.
  destruct vs as [|v1 [|v2 [|? ?]]]; try discriminate L. destruct T as (T1 & T2 & _).
  apply down_struct in D. destruct D as (bs & -> & D). members D.
  exists v1, v2. split; [reflexivity|].
  split; [eapply reads_n32; eassumption|].
  eapply reads_n32; eassumption.
Qed.

Lemma reads_staged : reads C_StagedLedgerHash (TTup [NonSnarkStagedLedgerHashV1; Hash2V1]) w_staged staged_of.
Proof.
  intros v b T D. apply rust_tup in T. destruct T as (vs & -> & T). pose proof (typed_list_length _ _ T) as L.
  destruct vs as [|v1 [|v2 [|? ?]]]; try discriminate L. destruct T as (T1 & T2 & _).
  apply down_struct in D. destruct D as (bs & -> & D). members D.
  destruct (reads_ver _ _ _ _ _ reads_non_snark _ _ T1 F) as (m & w & -> & M & (a & c & d & -> & A & C & G)).
  exists m, a, c, d, v2. split; [reflexivity|]. split; [exact A|]. split; [exact C|]. split; [exact G|]. eapply reads_hash2; eassumption.
Qed.
Lemma reads_blockchain : reads C_BlockchainState (TTup [StagedLedgerHashV1; HashV1; HashV1; TokenIdV1; BlockTimeV1]) w_blockchain blockchain_of.
Proof.
  intros v b T D. apply rust_tup in T. destruct T as (vs & -> & T). pose proof (typed_list_length _ _ T) as L.
  destruct vs as [|v1 [|v2 [|v3 [|v4 [|v5 [|? ?]]]]]]; try discriminate L. destruct T as (T1 & T2 & T3 & T4 & T5 & _).
  apply down_struct in D. destruct D as (bs & -> & D). members D.
  exists v1, v2, v3, v4, v5. split; [reflexivity|].
  split; [eapply (reads_ver2 _ _ _ _ _ reads_staged); eassumption|].
  split; [eapply reads_hash; eassumption|].
  split; [eapply reads_hash; eassumption|].
  split; [eapply reads_token; eassumption|].
  eapply reads_n64; eassumption.
Qed.
Lemma reads_epoch : reads C_EpochData (TTup [EpochLedgerV1; HashV1; HashV1; HashV1; LengthV1]) w_epoch epoch_of.
Proof.
  intros v b T D. apply rust_tup in T. destruct T as (vs & -> & T). pose proof (typed_list_length _ _ T) as L.
  destruct vs as [|v1 [|v2 [|v3 [|v4 [|v5 [|? ?]]]]]]; try discriminate L. destruct T as (T1 & T2 & T3 & T4 & T5 & _).
  apply down_struct in D. destruct D as (bs & -> & D). members D.
  destruct (reads_ver2 _ _ _ _ _ reads_epoch_ledger _ _ T1 F) as (m & w & -> & M & (n & w' & -> & N & (a & c & -> & A & C))).
  exists m, n, a, c, v2, v3, v4, v5. split; [reflexivity|]. split; [exact A|]. split; [exact C|].
  split; [eapply reads_hash; eassumption|]. split; [eapply reads_hash; eassumption|]. split; [eapply reads_hash; eassumption|].
  eapply reads_n32; eassumption.
Qed.
Lemma reads_consensus : reads C_ConsensusState (TTup [LengthV1; LengthV1; LengthV1; TSeq LengthV1; VrfOutputTruncatedV1; AmountV1;
    GlobalSlotV1; GlobalSlotNumberV1; EpochDataV1; EpochDataV1; TBool; PublicKeyV1; PublicKeyV1; PublicKeyV1; TBool]) w_consensus consensus_of.
Proof.
  intros v b T D. apply rust_tup in T. destruct T as (vs & -> & T). pose proof (typed_list_length _ _ T) as L.
  destruct vs as [|v1 [|v2 [|v3 [|v4 [|v5 [|v6 [|v7 [|v8 [|v9 [|v10 [|v11 [|v12 [|v13 [|v14 [|v15 [|? ?]]]]]]]]]]]]]]]]; try discriminate L.
  destruct T as (T1 & T2 & T3 & T4 & T5 & T6 & T7 & T8 & T9 & T10 & T11 & T12 & T13 & T14 & T15 & _).
  apply down_struct in D. destruct D as (bs & -> & D). members D.
  destruct (reads_ver2 _ _ _ _ _ reads_slot _ _ T7 F5) as (m & w & -> & M & (n & w' & -> & N & (a & c & -> & A & C))).
  exists m, n, v1, v2, v3, v4, v5, v6, a, c, v8, v9, v10, v11, v12, v13, v14, v15. split; [reflexivity|].
  split; [eapply reads_n32; eassumption|]. split; [eapply reads_n32; eassumption|]. split; [eapply reads_n32; eassumption|].
  split; [eapply reads_densities; eassumption|]. split; [eapply reads_vec1; eassumption|]. split; [eapply reads_n64; eassumption|].
  split; [exact A|]. split; [exact C|]. split; [eapply reads_n32; eassumption|].
  split; [eapply (reads_ver2 _ _ _ _ _ reads_epoch); eassumption|]. split; [eapply (reads_ver2 _ _ _ _ _ reads_epoch); eassumption|].
  split; [eapply reads_bool; eassumption|]. split; [eapply reads_key2; eassumption|]. split; [eapply reads_key2; eassumption|].
  split; [eapply reads_key2; eassumption|]. eapply reads_bool; eassumption.
Qed.
Lemma reads_body : reads C_ProtocolStateBody (TTup [HashV1; BlockchainStateV1; ConsensusStateV1; ProtocolConstantsV1]) w_body body_of.
Proof.
  intros v b T D. apply rust_tup in T. destruct T as (vs & -> & T). pose proof (typed_list_length _ _ T) as L.
  destruct vs as [|v1 [|v2 [|v3 [|v4 [|? ?]]]]]; try discriminate L. destruct T as (T1 & T2 & T3 & T4 & _).
  apply down_struct in D. destruct D as (bs & -> & D). members D.
  exists v1, v2, v3, v4. split; [reflexivity|].
  split; [eapply reads_hash; eassumption|].
  split; [eapply (reads_ver2 _ _ _ _ _ reads_blockchain); eassumption|].
  split; [eapply (reads_ver2 _ _ _ _ _ reads_consensus); eassumption|].
  eapply (reads_ver2 _ _ _ _ _ reads_constants); eassumption.
Qed.
Lemma reads_state_body : reads C_ProtocolState (TTup [HashV1; ProtocolStateBodyV1]) w_state_body state_of.
Proof.
  intros v b T D. apply rust_tup in T. destruct T as (vs & -> & T). pose proof (typed_list_length _ _ T) as L.
  destruct vs as [|v1 [|v2 [|? ?]]]; try discriminate L. destruct T as (T1 & T2 & _).
  apply down_struct in D. destruct D as (bs & -> & D). members D.
  exists v1, v2. split; [reflexivity|].
  split; [eapply reads_hash; eassumption|].
  eapply (reads_ver2 _ _ _ _ _ reads_body); eassumption.
Qed.
Lemma reads_state : reads C_state ProtocolStateV1 w_state state_of.
Proof. apply reads_ver2, reads_state_body. Qed.

Lemma reads_common : reads C_SignedCommandPayloadCommon (TTup [AmountV1; SignedCommandFeeTokenV1; PublicKeyV1; ExtendedU32; ExtendedU32; SignedCommandMemoV1]) w_common common_of.
Proof.
  intros v b T D. apply rust_tup in T. destruct T as (vs & -> & T). pose proof (typed_list_length _ _ T) as L.
  destruct vs as [|v1 [|v2 [|v3 [|v4 [|v5 [|v6 [|? ?]]]]]]]; try discriminate L. destruct T as (T1 & T2 & T3 & T4 & T5 & T6 & _).
  apply down_struct in D. destruct D as (bs & -> & D). members D.
  exists v1, v2, v3, v4, v5, v6. split; [reflexivity|].
  split; [eapply reads_n64; eassumption|].
  split; [eapply reads_token; eassumption|].
  split; [eapply reads_key2; eassumption|].
  split; [eapply reads_cast2; eassumption|].
  split; [eapply reads_cast2; eassumption|].
  eapply reads_vec1; eassumption.
Qed.

Definition w_four {A B C D : Type} (P : val -> A -> Prop) (Q : val -> B -> Prop) (R : val -> C -> Prop) (S : val -> D -> Prop) (v : val) (x : A * B * C * D) : Prop :=
  exists a b c d, v = VTup [a; b; c; d] /\ P a (fst (fst (fst x))) /\ Q b (snd (fst (fst x))) /\ R c (snd (fst x)) /\ S d (snd x).
Definition payment_of (b : val) : pubkey * pubkey * Z * Z :=
  let f n := field C_PaymentPayload n b in
  (key_of (f "source_pk"%string), key_of (f "receiver_pk"%string), int_of (f "token_id"%string), int_of (f "amount"%string)).
Lemma reads_payment : reads C_PaymentPayload (TTup [PublicKeyV1; PublicKeyV1; ExtendedU64_3; AmountV1]) (w_four key2 key2 (w_ver3 (w_num (2 ^ 64))) n64) payment_of.
Proof.
  intros v b T D. apply rust_tup in T. destruct T as (vs & -> & T). pose proof (typed_list_length _ _ T) as L.
  destruct vs as [|v1 [|v2 [|v3 [|v4 [|? ?]]]]]; try discriminate L. destruct T as (T1 & T2 & T3 & T4 & _).
  apply down_struct in D. destruct D as (bs & -> & D). members D.
  exists v1, v2, v3, v4. split; [reflexivity|].
  split; [eapply reads_key2; eassumption|].
  split; [eapply reads_key2; eassumption|].
  split; [eapply reads_token; eassumption|].
  eapply reads_n64; eassumption.
Qed.

(** Enums: the variant of the wire value. *)
Lemma down_list_cons : forall c cs vs bs, down_list down (c :: cs) vs = Ok bs -> exists v vs' b bs', vs = v :: vs' /\ bs = b :: bs' /\
  down c v = Ok b /\ down_list down cs vs' = Ok bs'.
Proof.
  intros c cs vs bs D. destruct vs as [|v vs]; [discriminate|]. cbn [down_list] in D. apply bind_ok in D. destruct D as (b & Db & D).
  apply bind_ok in D. destruct D as (bs' & Ds & [= <-]). eauto 10.
Qed.
Lemma down_list_nil : forall vs bs, down_list down [] vs = Ok bs -> vs = [] /\ bs = [].
Proof. intros [|v vs] bs D; [|discriminate]. injection D as <-. auto. Qed.
Lemma reads_command_body : reads C_SignedCommandPayloadBody (TEnum [[PaymentPayloadV1]; [StakeDelegationV1]]) w_command_body command_body_of.
Proof.
  intros v b T D. apply rust_enum in T. destruct T as (i & vs & ts & -> & N & T). unfold C_SignedCommandPayloadBody in D. cbn [down] in D.
  destruct i as [|[|[|i]]]; cbn [nth_error] in N, D; try discriminate; injection N as <-;
    cbn [down_variant String.eqb Ascii.eqb Bool.eqb] in D; apply bind_ok in D; destruct D as (bs & D & [= <-]);
    apply down_list_cons in D; destruct D as (x & vs' & y & bs' & -> & -> & D & Dn); apply down_list_nil in Dn; destruct Dn as (-> & ->);
    destruct T as (T & _).
  - destruct (reads_ver2 _ _ _ _ _ reads_payment _ _ T D) as (m & w & -> & M & (n & w' & -> & N & (a & c & d & e & -> & A & C & G & H))).
    cbn [command_body_of w_command_body]. exists m, n, a, c, d, e. auto.
  - apply ver_shape in T. destruct T as (m & w & -> & M & T). cbn [down] in D. apply rust_enum in T. destruct T as (i & vs & ts & -> & N & T).
    destruct i as [|[|i]]; cbn [nth_error] in N; try discriminate. injection N as <-. unfold C_StakeDelegation in D.
    cbn [down nth_error down_variant String.eqb Ascii.eqb Bool.eqb] in D. apply bind_ok in D. destruct D as (bs & D & [= <-]).
    apply down_list_cons in D; destruct D as (x & vs' & y' & bs' & -> & -> & D & Dn).
    apply down_list_cons in Dn; destruct Dn as (x' & vs & y2 & bs & -> & -> & D' & Dn). apply down_list_nil in Dn; destruct Dn as (-> & ->).
    destruct T as (T1 & T2 & _). cbn [command_body_of w_command_body]. exists m, x, x'. split; [reflexivity|].
    split; eapply reads_key2; eassumption.
Qed.
Lemma reads_payload : reads C_SignedCommandPayload (TTup [SignedCommandPayloadCommonV1; SignedCommandPayloadBodyV1]) w_payload payload_of.
Proof.
  intros v b T D. apply rust_tup in T. destruct T as (vs & -> & T). pose proof (typed_list_length _ _ T) as L.
  destruct vs as [|v1 [|v2 [|? ?]]]; try discriminate L. destruct T as (T1 & T2 & _).
  apply down_struct in D. destruct D as (bs & -> & D). members D.
  exists v1, v2. split; [reflexivity|].
  split; [eapply (reads_ver3 _ _ _ _ _ reads_common); eassumption|].
  eapply (reads_ver2 _ _ _ _ _ reads_command_body); eassumption.
Qed.
Lemma reads_command_inner : reads C_SignedCommand (TTup [SignedCommandPayloadV1; PublicKey2V1; SignatureV1]) w_command_inner command_of.
Proof.
  intros v b T D. apply rust_tup in T. destruct T as (vs & -> & T). pose proof (typed_list_length _ _ T) as L.
  destruct vs as [|v1 [|v2 [|v3 [|? ?]]]]; try discriminate L. destruct T as (T1 & T2 & T3 & _).
  apply down_struct in D. destruct D as (bs & -> & D). members D.
  exists v1, v2, v3. split; [reflexivity|].
  split; [eapply (reads_ver2 _ _ _ _ _ reads_payload); eassumption|].
  split; [eapply reads_key3; eassumption|].
  eapply reads_sig; eassumption.
Qed.
Lemma reads_command : reads C_command SignedCommandV1 w_command command_of.
Proof. apply reads_ver2, reads_command_inner. Qed.
Lemma reads_user_command : reads C_UserCommand (TEnum [[SignedCommandV1]]) w_user_command_inner user_command_of.
Proof.
  intros v b T D. apply rust_enum in T. destruct T as (i & vs & ts & -> & N & T). unfold C_UserCommand in D. cbn [down] in D.
  destruct i as [|[|i]]; cbn [nth_error] in N, D; try discriminate. injection N as <-.
  cbn [down_variant String.eqb Ascii.eqb Bool.eqb] in D. apply bind_ok in D. destruct D as (bs & D & [= <-]).
  apply down_list_cons in D; destruct D as (x & vs' & y & bs' & -> & -> & D & Dn). apply down_list_nil in Dn; destruct Dn as (-> & ->).
  destruct T as (T & _). cbn [user_command_of w_user_command_inner]. exists x. split; [reflexivity|]. apply reads_command; assumption.
Qed.
Lemma reads_with_status : reads C_UserCommandWithStatus (TTup [UserCommandV1; TransactionStatusV1]) w_with_status with_status_of.
Proof.
  intros v b T D. apply rust_tup in T. destruct T as (vs & -> & T). pose proof (typed_list_length _ _ T) as L. destruct vs as [|v1 [|v2 [|? ?]]]; try discriminate L.
  destruct T as (T1 & T2 & _). apply down_struct in D. destruct D as (bs & -> & D). members D. exists v1, v2. split; [reflexivity|].
  eapply (reads_ver2 _ _ _ _ _ reads_user_command); eassumption.
Qed.
Lemma reads_prediff : reads C_StagedLedgerPreDiff (TTup [TSeq TransactionSnarkWorkV1; TSeq UserCommandWithStatusV1; CoinBaseV1;
  TSeq InternalCommandBalanceDataV1]) w_prediff prediff_of.
Proof.
  intros v b T D. apply rust_tup in T. destruct T as (vs & -> & T). pose proof (typed_list_length _ _ T) as L. destruct vs as [|v1 [|v2 [|v3 [|v4 [|? ?]]]]]; try discriminate L.
  destruct T as (T1 & T2 & T3 & T4 & _). apply down_struct in D. destruct D as (bs & -> & D). members D. exists v1, v2, v3, v4. split; [reflexivity|].
  eapply (reads_list _ _ _ _ _ (reads_ver _ _ _ _ _ reads_with_status)); eassumption.
Qed.
Definition pair_of (b : val) : prediff (Z * Z) val val * option (prediff (Z * Z) val val) :=
  match b with
  | VTup [two; VSome one] => (prediff_of two, Some (prediff_of one))
  | VTup [two; _] => (prediff_of two, None)
  | _ => (prediff_of VUnit, None)
  end.
Lemma reads_pair : reads C_StagedLedgerDiffTuple (TTup [StagedLedgerPreDiffV1; TOpt StagedLedgerPreDiffV1])
  (w_two (w_ver2 w_prediff) (w_option (w_ver2 w_prediff))) pair_of.
Proof.
  intros v b T D. apply rust_tup in T. destruct T as (vs & -> & T). pose proof (typed_list_length _ _ T) as L. destruct vs as [|v1 [|v2 [|? ?]]]; try discriminate L.
  destruct T as (T1 & T2 & _). unfold C_StagedLedgerDiffTuple in D. cbn [down] in D. apply bind_ok in D. destruct D as (bs & D & [= <-]).
  apply down_list_cons in D; destruct D as (x & vs' & y & bs' & E & -> & D & Dn). injection E as <- <-.
  apply down_list_cons in Dn; destruct Dn as (x' & vs & y' & bs & E & -> & D' & Dn). injection E as <- <-.
  apply down_list_nil in Dn; destruct Dn as (_ & ->). exists v1, v2. split; [reflexivity|].
  pose proof (reads_ver2 _ _ _ _ _ reads_prediff _ _ T1 D) as R.
  destruct T2 as (_ & T2). destruct v2 as [| | | | | | |v2| | |]; try contradiction.
  - cbn [down] in D'. injection D' as <-. cbn [pair_of fst snd w_option]. auto.
  - change (down (Opt (Ver (Ver C_StagedLedgerPreDiff))) (VSome v2)) with (let* b := down (Ver (Ver C_StagedLedgerPreDiff)) v2 in Ok (VSome b)) in D'.
    apply bind_ok in D'. destruct D' as (z & D' & [= <-]). cbn [pair_of fst snd w_option]. split; [exact R|]. exists v2. split; [reflexivity|].
    eapply (reads_ver2 _ _ _ _ _ reads_prediff); eassumption.
Qed.
Lemma reads_diff : reads C_StagedLedgerDiff (TTup [StagedLedgerDiffTupleV1]) w_diff diff_of.
Proof.
  intros v b T D. apply rust_tup in T. destruct T as (vs & -> & T). pose proof (typed_list_length _ _ T) as L. destruct vs as [|v1 [|? ?]]; try discriminate L. destruct T as (T1 & _).
  apply down_struct in D. destruct D as (bs & -> & D). members D.
  destruct (reads_ver _ _ _ _ _ reads_pair _ _ T1 F) as (m & w & -> & M & (a & c & -> & A & C)). exists m, a, c. split; [reflexivity|].
  assert (Q : diff_of (VTup [x]) = mk_diff _ _ _ (fst (pair_of x)) (snd (pair_of x))).
  { unfold diff_of. change (field C_StagedLedgerDiff "diff" (VTup [x])) with x.
    destruct x as [| | | | | | | | |l|]; try reflexivity. destruct l as [|y [|z [|? ?]]]; try reflexivity; destruct z; reflexivity. }
  rewrite Q. cbn [diff_two diff_one]. auto.
Qed.
Lemma reads_block_inner : reads C_ExternalTransition (TTup [ProtocolStateV1; ProtocolStateProofV1; StagedLedgerDiffV1; DeltaTransitionChainProof;
  ProtocolVersionV1; TOpt ProtocolVersionV1; TUnit]) w_block_inner block_of.
Proof.
  intros v b T D. apply rust_tup in T. destruct T as (vs & -> & T). pose proof (typed_list_length _ _ T) as L.
  destruct vs as [|v1 [|v2 [|v3 [|v4 [|v5 [|v6 [|v7 [|? ?]]]]]]]]; try discriminate L. destruct T as (T1 & T2 & T3 & T4 & T5 & T6 & T7 & _).
  apply down_struct in D. destruct D as (bs & -> & D). members D. exists v1, v2, v3, v4, v5, v6, v7. split; [reflexivity|].
  split; [eapply reads_state; eassumption|]. eapply (reads_ver _ _ _ _ _ reads_diff); eassumption.
Qed.
Lemma reads_block : reads C_block ExternalTransitionV1 w_block block_of.
Proof. apply reads_ver, reads_block_inner. Qed.
