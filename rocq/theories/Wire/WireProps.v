(** Property C11: the concrete wire types through the codec. *)
From Coq Require Import ZArith List Bool String Lia ZifyBool ZifyNat.
From Verif Require Import Lib.Res Lib.Bytes BinProt.Prim BinProt.PrimSpec BinProt.PrimSpecProofs
  BinProt.Codec BinProt.CodecSpec BinProt.CodecProofs BinProt.CodecFacts BinProt.BufRead
  BinProt.BufReadProofs BinProt.CodecProps BinProt.FormatSpec BinProt.FormatProps BinProt.AcceptProps
  Wire.Types Wire.Fixture.
Import ListNotations.
Open Scope string_scope.
Open Scope list_scope.
Open Scope Z_scope.

(** ** Specification *)
(** Every u64 inside the value is below 2^63. *)
Definition u64s_below : ty -> val -> Prop :=
  typed (fun t v => match t, v with TU64, VInt z => z < 2 ^ 63 | _, _ => True end).

(** The types covered: blocks, protocol states, proofs, ledger diffs, commands
    and accounts. *)
Definition wire_types : list ty :=
  [ExternalTransitionV1; ProtocolStateV1; ProtocolStateProofV1; StagedLedgerDiffV1;
   ConsensusStateV1; BlockchainStateV1; ProtocolConstantsV1; DeltaTransitionChainProof;
   ProtocolVersionV1; TransactionSnarkWorkV1; UserCommandWithStatusV1; SignedCommandV1;
   SignedCommandPayloadV1; SignatureV1; PublicKey2V1; HashV1; AccountV1; AccountV0].

(** ** Decidable side conditions on a descriptor *)
Definition one_two (names : list string) : bool :=
  match names with
  | [a; b] => String.eqb a "One" && String.eqb b "Two"
  | _ => false
  end.
Fixpoint plain (t : ty) : bool :=
  let all := fix all (ts : list ty) : bool :=
    match ts with [] => true | t :: ts' => plain t && all ts' end in
  match t with
  | TChar | TStr => false
  | TOpt t => plain t
  | TSeq t => Nat.leb 1 (min_size t) && plain t
  | TTup ts => all ts
  | TEnum vs => Nat.leb (List.length vs) 256 &&
      (fix go (vs : list (list ty)) : bool :=
         match vs with [] => true | ts :: vs' => all ts && go vs' end) vs
  | TPoly vs => one_two (map fst vs) &&
      (fix go (vs : list (string * list ty)) : bool :=
         match vs with [] => true | (_, ts) :: vs' => all ts && go vs' end) vs
  | _ => true
  end.
Definition plain_list : list ty -> bool :=
  fix all (ts : list ty) : bool := match ts with [] => true | t :: ts' => plain t && all ts' end.
Definition plain_vars : list (list ty) -> bool :=
  fix go (vs : list (list ty)) : bool :=
    match vs with [] => true | ts :: vs' => plain_list ts && go vs' end.
Definition plain_poly : list (string * list ty) -> bool :=
  fix go (vs : list (string * list ty)) : bool :=
    match vs with [] => true | (_, ts) :: vs' => plain_list ts && go vs' end.

Lemma plain_nth : forall vs i ts, plain_vars vs = true -> nth_error vs i = Some ts -> plain_list ts = true.
Proof.
  induction vs as [|u vs IH]; intros [|i] ts H N; try discriminate; cbn in H; apply andb_true_iff in H.
  - injection N as ->. tauto.
  - apply (IH i); tauto.
Qed.
Lemma plain_poly_nth : forall vs i nm ts, plain_poly vs = true -> nth_error vs i = Some (nm, ts) -> plain_list ts = true.
Proof.
  induction vs as [|(u, us) vs IH]; intros [|i] nm ts H N; try discriminate; cbn in H; apply andb_true_iff in H.
  - injection N as -> ->. tauto.
  - apply (IH i nm); tauto.
Qed.

Lemma one_two_ok : forall c names i, one_two names = true -> (i < List.length names)%nat -> poly_ok c names i.
Proof.
  intros c names i H L. destruct names as [|a [|b [|x names]]]; try discriminate.
  cbn in H. apply andb_true_iff in H. destruct H as (Ha & Hb).
  apply String.eqb_eq in Ha, Hb. subst a b. destruct i as [|[|i]]; [| |cbn in L; lia].
  - split; [lia|]. exists "One". split; [reflexivity|]. split; [vm_compute; reflexivity|].
    intros j nm Hj E. assert (j = 0)%nat by lia. subst j. injection E as <-.
    split; [apply ascii_names; reflexivity|split; [intros; vm_compute; reflexivity|lia]].
  - exact (str2_poly_ok c).
Qed.

(** ** A plain type carries every value whose u64s are small *)
Section Plain.
  Variable c : bool.
  Definition lifts (t : ty) : Prop := plain t = true ->
    forall v, rust_val t v -> u64s_below t v -> fits c t v.
  Lemma lifts_list : forall ts, Forall lifts ts -> plain_list ts = true -> forall vs,
    typed_list rust_ok ts vs ->
    typed_list (fun t v => match t, v with TU64, VInt z => z < 2 ^ 63 | _, _ => True end) ts vs ->
    typed_list (fun t v => rust_ok t v /\ wire_ok c t v) ts vs.
  Proof.
    induction ts as [|t ts IH]; intros HF HP [|v vs] H1 H2; try contradiction; auto.
    cbn in HP. apply andb_true_iff in HP. inversion HF; subst.
    destruct H1 as (A1 & B1), H2 as (A2 & B2). split.
    - apply H3; tauto.
    - apply IH; tauto.
  Qed.
  Lemma lifts_all : forall t, lifts t.
  Proof.
    induction t using ty_ind'; intros HP v H1 H2; unfold rust_val, u64s_below, fits in *.
    all: try discriminate.
    1-7: destruct H1 as (A1 & B1), H2 as (A2 & B2), v; try contradiction;
         (split; [split; [exact A1|cbn; auto]|exact I]).
    - destruct H1 as (A1 & B1), H2 as (A2 & B2). destruct v; try contradiction.
      + split; [split; exact I|exact I].
      + split; [split; exact I|]. apply (IHt HP); auto.
    - apply typed_seq in H1. apply typed_seq in H2. apply typed_seq.
      destruct H1 as (A1 & vs & -> & B1), H2 as (A2 & vs' & E & B2). injection E as <-.
      split; [split; [exact A1|exact I]|]. exists vs. split; auto. clear A1 A2.
      cbn in HP. apply andb_true_iff in HP. destruct HP as (_ & HP).
      induction vs as [|v vs IH]; [exact I|]. destruct B1 as (C1 & D1), B2 as (C2 & D2).
      split; [apply (IHt HP)|apply IH]; auto.
    - apply typed_tup in H1. apply typed_tup in H2. apply typed_tup.
      destruct H1 as (A1 & vs & -> & B1), H2 as (A2 & vs' & E & B2). injection E as <-.
      split; [split; exact I|]. exists vs. split; auto. apply lifts_list; auto.
    - apply typed_enum in H1. apply typed_enum in H2. apply typed_enum.
      destruct H1 as (A1 & i & ws & ts & -> & N1 & B1), H2 as (A2 & i' & vs' & ts' & E & N2 & B2).
      injection E as <- <-. rewrite N1 in N2. injection N2 as <-.
      change (plain (TEnum vs)) with (Nat.leb (List.length vs) 256 && plain_vars vs) in HP.
      apply andb_true_iff in HP. destruct HP as (HL & HP). apply Nat.leb_le in HL.
      pose proof (nth_error_In _ _ N1) as HI.
      assert (i < List.length vs)%nat by (apply nth_error_Some; congruence).
      split; [split; [exact I|cbn; lia]|]. exists i, ws, ts. split; auto. split; auto.
      apply lifts_list; auto.
      + rewrite Forall_forall in H. auto.
      + eapply plain_nth; eauto.
    - apply typed_poly in H1. apply typed_poly in H2. apply typed_poly.
      destruct H1 as (A1 & i & ws & nm & ts & -> & N1 & B1), H2 as (A2 & i' & vs' & nm' & ts' & E & N2 & B2).
      injection E as <- <-. rewrite N1 in N2. injection N2 as <- <-.
      change (plain (TPoly vs)) with (one_two (map fst vs) && plain_poly vs) in HP.
      apply andb_true_iff in HP. destruct HP as (HL & HP).
      pose proof (nth_error_In _ _ N1) as HI.
      assert (i < List.length vs)%nat by (apply nth_error_Some; congruence).
      split; [split; [exact I|]|].
      { cbn [wire_ok]. apply one_two_ok; auto. rewrite map_length. auto. }
      exists i, ws, nm, ts. split; auto. split; auto.
      apply lifts_list; auto.
      + rewrite Forall_forall in H. apply (H _ HI).
      + eapply plain_poly_nth; eauto.
  Qed.
End Plain.

(** ** No panic, bounded growth *)
Lemma plain_no_panic : forall c t, plain t = true -> no_panic_ty c t.
Proof.
  intros c. assert (L : forall ts, Forall (fun t => plain t = true -> no_panic_ty c t) ts ->
    plain_list ts = true -> no_panic_list c ts).
  { induction ts as [|t ts IH]; intros HF HP; [exact I|]. cbn in HP. apply andb_true_iff in HP.
    inversion HF; subst. split; [apply H1|apply IH]; tauto. }
  induction t using ty_ind'; intros HP; try exact I; try discriminate.
  - apply IHt; exact HP.
  - cbn in HP. apply andb_true_iff in HP. apply IHt; tauto.
  - apply L; auto.
  - change (plain (TEnum vs)) with (Nat.leb (List.length vs) 256 && plain_vars vs) in HP.
    apply andb_true_iff in HP. destruct HP as (_ & HP). cbn [no_panic_ty].
    induction vs as [|ts vs IH]; [exact I|]. inversion H; subst. cbn in HP. apply andb_true_iff in HP.
    split; [apply L; tauto|apply IH; tauto].
  - change (plain (TPoly vs)) with (one_two (map fst vs) && plain_poly vs) in HP.
    apply andb_true_iff in HP. destruct HP as (HL & HP). cbn [no_panic_ty].
    destruct vs as [|(a, ta) [|(b, tb) [|x vs]]]; try discriminate.
    cbn in HL. apply andb_true_iff in HL. destruct HL as (Ha & Hb).
    apply String.eqb_eq in Ha, Hb. subst a b.
    inversion H as [|? ? F1 F2]; subst. inversion F2 as [|? ? F3 F4]; subst.
    cbn [plain_poly] in HP. apply andb_true_iff in HP. destruct HP as (P1 & HP).
    apply andb_true_iff in HP. destruct HP as (P2 & _).
    split; [intros; vm_compute; reflexivity|]. split; [apply L; auto|].
    split; [intros; vm_compute; reflexivity|]. split; [apply L; auto|exact I].
Qed.
Lemma plain_seqs : forall t, plain t = true -> seq_elems_nonempty t.
Proof.
  assert (L : forall ts, Forall (fun t => plain t = true -> seq_elems_nonempty t) ts ->
    plain_list ts = true -> seqs_nonempty_list ts).
  { induction ts as [|t ts IH]; intros HF HP; [exact I|]. cbn in HP. apply andb_true_iff in HP.
    inversion HF; subst. split; [apply H1|apply IH]; tauto. }
  induction t using ty_ind'; intros HP; try exact I; try discriminate.
  - apply IHt; exact HP.
  - change (plain (TSeq t)) with (Nat.leb 1 (min_size t) && plain t) in HP.
    apply andb_true_iff in HP. destruct HP as (HM & HP). apply Nat.leb_le in HM.
    split; [exact HM|apply IHt; exact HP].
  - apply L; auto.
  - change (plain (TEnum vs)) with (Nat.leb (List.length vs) 256 && plain_vars vs) in HP.
    apply andb_true_iff in HP. destruct HP as (_ & HP). cbn [seq_elems_nonempty].
    induction vs as [|ts vs IH]; [exact I|]. inversion H; subst. cbn in HP. apply andb_true_iff in HP.
    split; [apply L; tauto|apply IH; tauto].
  - change (plain (TPoly vs)) with (one_two (map fst vs) && plain_poly vs) in HP.
    apply andb_true_iff in HP. destruct HP as (_ & HP). cbn [seq_elems_nonempty].
    induction vs as [|(nm, ts) vs IH]; [exact I|]. inversion H; subst. cbn in HP. apply andb_true_iff in HP.
    split; [apply L; tauto|apply IH; tauto].
Qed.

(** ** Whatever the decoder yields has small u64s *)
Scheme acc_mind := Minimality for acc Sort Prop
  with accs_mind := Minimality for accs Sort Prop.
Lemma int_form_small : forall bs z, int_form bs z -> z < 2 ^ 63.
Proof.
  intros bs z H. inversion H; subst; clear H; unfold le8 in *; unfold is_byte, twos, le2, le4 in *;
    try match goal with |- context [if ?b then _ else _] => destruct b eqn:? end;
    rewrite ?Z.ltb_lt, ?Z.ltb_ge in *;
    change (8 - 1) with 7 in *; change (16 - 1) with 15 in *; change (32 - 1) with 31 in *;
    change (64 - 1) with 63 in *; lia.
Qed.
Lemma acc_small : forall t v bs, acc t v bs -> u64s_below t v.
Proof.
  apply (acc_mind (fun t v _ => u64s_below t v)
    (fun ts vs _ => typed_list (fun t v => match t, v with TU64, VInt z => z < 2 ^ 63 | _, _ => True end) ts vs));
    unfold u64s_below; intros; try (split; exact I).
  - split; [|exact I]. eapply int_form_small; eauto.
  - split; [exact I|]. auto.
  - apply typed_seq. split; [exact I|]. exists vs. split; auto. clear H H0.
    induction vs as [|v vs IH]; [exact I|]. destruct H1 as (A & B). split; auto.
  - apply typed_tup. eauto.
  - apply typed_enum. split; [exact I|]. exists i, vs, ts. auto.
  - apply typed_poly. split; [exact I|]. exists (rank (map fst vars) i mod 256)%nat, vs, nm, ts. auto.
  - split; auto.
Qed.

Lemma wire_plain : forall t, In t wire_types -> plain t = true.
Proof.
  assert (H : forallb plain wire_types = true) by (vm_compute; reflexivity).
  rewrite forallb_forall in H. exact H.
Qed.

(** ** Theorems *)
(** A value of a wire type survives the codec if its u64s are below 2^63. *)
Theorem C11_round_trip : forall checked t v, In t wire_types ->
  rust_val t v -> u64s_below t v ->
  exists bs, to_bytes checked t v = Ok bs /\ bytes_ok bs /\
    forall rest, from_slice checked t (bs ++ rest) = Ok (v, rest).
Proof.
  intros c t v Ht Hv Hu. apply round_trip. apply lifts_all; auto. apply wire_plain; auto.
Qed.

(** In a release build this is exactly the condition. *)
Theorem C11_survives_iff : forall t v, In t wire_types -> rust_val t v ->
  ((exists bs, bytes_ok bs /\ to_bytes false t v = Ok bs /\ from_slice false t bs = Ok (v, [])) <->
   u64s_below t v).
Proof.
  intros t v Ht Hv. split.
  - intros (bs & Hb & _ & D). apply C64_accepted in D; auto. destruct D as (pre & _ & A).
    eapply acc_small; eauto.
  - intros Hu. destruct (C11_round_trip false t v Ht Hv Hu) as (bs & S & B & D).
    exists bs. repeat split; auto. rewrite <- (app_nil_r bs). apply D.
Qed.

(** Two different values of a wire type never share an encoding. *)
Theorem C11_injective : forall checked t v w bs, In t wire_types ->
  rust_val t v -> u64s_below t v -> rust_val t w -> u64s_below t w ->
  to_bytes checked t v = Ok bs -> to_bytes checked t w = Ok bs -> v = w.
Proof.
  intros c t v w bs Ht Hv Uv Hw Uw Sv Sw.
  destruct (C11_round_trip c t v Ht Hv Uv) as (b1 & S1 & _ & D1).
  destruct (C11_round_trip c t w Ht Hw Uw) as (b2 & S2 & _ & D2).
  assert (b1 = bs) by congruence. assert (b2 = bs) by congruence. subst.
  specialize (D1 []). specialize (D2 []). congruence.
Qed.

(** A truncated encoding is rejected with an error. *)
Theorem C11_truncated_rejected : forall checked t v bs n, In t wire_types ->
  rust_val t v -> u64s_below t v -> to_bytes checked t v = Ok bs -> (n < List.length bs)%nat ->
  is_err (from_slice checked t (firstn n bs)).
Proof.
  intros c t v bs n Ht Hv Hu S L. eapply truncated; eauto. apply lifts_all; auto. apply wire_plain; auto.
Qed.

(** Through the public reader [from_reader_strict] (used by
    [try_from_binprot]), however the reader chunks the bytes. *)
Theorem C11_strict_round_trip : forall cap checked t v bs i, In t wire_types ->
  rust_val t v -> u64s_below t v -> to_bytes checked t v = Ok bs ->
  1 <= cap -> Forall (fun ch => ch <> []) i -> List.concat i = bs ->
  from_reader_strict cap checked t i = Ok v.
Proof.
  intros cap c t v bs i Ht Hv Hu S Hc Hi Hcat.
  destruct (C11_round_trip c t v Ht Hv Hu) as (b1 & S1 & _ & D1).
  assert (b1 = bs) by congruence. subst b1. specialize (D1 []). rewrite app_nil_r in D1.
  pose proof (buf_de cap Hc c t i Hi) as B. rewrite Hcat, D1 in B.
  destruct B as ((buf, i') & E & C & _). unfold from_reader_strict. rewrite E. cbn [bind fst].
  unfold content in C. cbn in C. apply app_eq_nil in C. destruct C as (-> & _). reflexivity.
Qed.

(** Whatever the bytes, decoding a wire type returns a value or an error; and a
    decoded value has no list longer than the input. *)
Theorem C11_no_panic : forall checked t bs, In t wire_types -> from_slice checked t bs <> Panic.
Proof. intros c t bs Ht. apply C12_no_panic. apply plain_no_panic. apply wire_plain; auto. Qed.
Theorem C11_growth : forall checked t bs v rest, In t wire_types ->
  from_slice checked t bs = Ok (v, rest) -> (longest v <= List.length bs)%nat.
Proof.
  intros c t bs v rest Ht D. eapply C62_growth; eauto. apply plain_seqs. apply wire_plain; auto.
Qed.

(** ** The fixture block *)
Definition leqb (a b : list Z) : bool := if list_eq_dec Z.eq_dec a b then true else false.
Definition check (bs : list Z) : bool :=
  match from_slice false ExternalTransitionV1 bs with
  | Ok (v, []) => match to_bytes false ExternalTransitionV1 v with Ok bs' => leqb bs bs' | _ => false end
  | _ => false
  end.
Lemma check_ok : forall bs, check bs = true -> exists v,
  from_slice false ExternalTransitionV1 bs = Ok (v, []) /\ to_bytes false ExternalTransitionV1 v = Ok bs.
Proof.
  intros bs H. unfold check in H.
  destruct (from_slice false ExternalTransitionV1 bs) as [(v, [|x r])|e|]; try discriminate.
  exists v. split; auto. destruct (to_bytes false ExternalTransitionV1 v) as [b|e|]; try discriminate.
  unfold leqb in H. destruct (list_eq_dec Z.eq_dec bs b); [congruence|discriminate].
Qed.
Lemma fixture_bytes : forall bs, forallb (fun b => (0 <=? b) && (b <? 256)) bs = true -> bytes_ok bs.
Proof.
  intros bs H. apply Forall_forall. intros x Hx. rewrite forallb_forall in H. apply H in Hx.
  unfold byte_ok. lia.
Qed.
(** The real mainnet block is read and written back byte for byte, and
    its value meets the hypotheses above. *)
Example C11_block_77749 : List.length block_77749_bytes = Z.to_nat 9938 /\ exists v,
  from_slice false ExternalTransitionV1 block_77749_bytes = Ok (v, []) /\
  to_bytes false ExternalTransitionV1 v = Ok block_77749_bytes /\
  rust_val ExternalTransitionV1 v /\ u64s_below ExternalTransitionV1 v.
Proof.
  split; [vm_compute; reflexivity|].
  destruct (check_ok block_77749_bytes) as (v & D & S); [vm_compute; reflexivity|].
  assert (B : bytes_ok block_77749_bytes) by (apply fixture_bytes; vm_compute; reflexivity).
  exists v. split; auto. split; auto. split.
  - eapply C61_decode_sound; eauto.
  - apply C64_accepted in D; auto. destruct D as (pre & _ & A). eapply acc_small; eauto.
Qed.

(** The condition on u64s is not vacuous: an account with a balance of 2^63 is
    a Rust value that its own reader refuses. *)
Definition zeros32 : val := VTup (List.repeat (VInt 0) 32).
Definition ver (v : val) : val := VTup [VInt 1; v].
Definition account_v0 (balance : Z) : val :=
  VTup [VTup [zeros32; VBool true]; VInt 1; VEnum 0 [VBool false]; zeros32; VInt balance; VInt 7;
        zeros32; VSome (VTup [zeros32; VBool false]); zeros32;
        VEnum 1 [VTup [VInt 1; VInt 2; VInt 3; VInt 4; VInt 5]];
        VTup (List.repeat (VEnum 3 []) 11); VNone; VNone].
Lemma account_v0_ok : forall b, 0 <= b < 2 ^ 64 -> rust_val AccountV0 (account_v0 b).
Proof.
  intros b Hb. unfold rust_val, account_v0, zeros32. cbn -[Z.pow]. repeat split; lia.
Qed.
Theorem C11_refuted : exists t v bs, In t wire_types /\ rust_val t v /\
  to_bytes false t v = Ok bs /\ from_slice false t bs <> Ok (v, []).
Proof.
  exists AccountV0, (account_v0 (2 ^ 63)). eexists. split; [cbn; tauto|].
  split; [apply account_v0_ok; lia|]. split; [vm_compute; reflexivity|vm_compute; discriminate].
Qed.
Example C11_account_ex : rust_val AccountV0 (account_v0 1000) /\ u64s_below AccountV0 (account_v0 1000).
Proof.
  split; [apply account_v0_ok; lia|]. unfold u64s_below, account_v0, zeros32. cbn -[Z.pow]. repeat split; lia.
Qed.

Print Assumptions C11_round_trip.
Print Assumptions C11_survives_iff.
Print Assumptions C11_injective.
Print Assumptions C11_truncated_rejected.
Print Assumptions C11_strict_round_trip.
Print Assumptions C11_no_panic.
Print Assumptions C11_growth.
Print Assumptions C11_refuted.
