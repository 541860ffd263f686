(** C103: the layouts the project ships against its typed decoders. *)
From Coq Require Import ZArith List Bool String Lia ZifyBool ZifyNat.
From Verif Require Import Lib.Res Lib.Bytes BinProt.Prim BinProt.Codec BinProt.CodecSpec BinProt.CodecProofs
  BinProt.PrimSpec BinProt.PrimProofs BinProt.PrimSpecProofs BinProt.FormatSpec BinProt.AcceptProps Loose.Loose Loose.LooseSpec Loose.LooseFacts
  Loose.LooseProofs Loose.LooseWire Loose.LooseProps Wire.Types Wire.WireProps Convert.BlockFacts Layout.Shipped Layout.FitSpec Layout.FitFacts.
Import ListNotations.
Open Scope string_scope.
Open Scope list_scope.
Open Scope Z_scope.

(** * Any layout that fits a type *)
(** sizes for which no capacity is exceeded: of a rule in memory, of the input *)
Definition sizes (sz : Z) (bs : list Z) : Prop := 0 < sz < 2 ^ 31 /\ Z.of_nat (List.length bs) < 2 ^ 32.

Lemma loose_lenient : forall sz layout bs w rest, bytes_ok bs ->
  (loose_value sz layout bs = Ok (w, rest) <-> exists pre q, bs = pre ++ rest /\ lenient sz None layout w pre q).
Proof.
  intros sz layout bs w rest B. rewrite loose_dec. split.
  - intros H. apply bind_ok in H. destruct H as ((v & q & s) & H & E). inversion E; subst.
    apply (dec_takes sz (depth layout) layout (le_n _)) in H; auto. destruct H as (pre & -> & W). eauto.
  - intros (pre & q & -> & W).
    rewrite (proj2 (dec_takes sz (depth layout) layout (le_n _) None (pre ++ rest) w q rest B)); [reflexivity|eauto].
Qed.
Theorem C103_fit_read : forall skip bad f layout t sz bs v rest, fit skip bad f [layout] [t] = true ->
  bytes_ok bs -> sizes sz bs -> from_slice false t bs = Ok (v, rest) -> avoids skip t v ->
  exists w, loose_value sz layout bs = Ok (w, rest) /\ to_bytes false t v = Ok (vser w) /\ clean bad w = true.
Proof.
  intros skip bad f layout t sz bs v rest F B S D N. apply C64_accepted in D; auto. destruct D as (pre & -> & A).
  destruct S as (S1 & S2). rewrite app_length in S2.
  assert (SM : 32 * sz < 2 ^ 63) by lia.
  destruct (many_one sz skip bad layout t (fit_forward sz skip bad (proj1 S1) SM f [layout] [t] F) None v pre A N) as (w & q & W & E & C).
  - unfold short. nia.
  - exists w. split; [apply loose_lenient; eauto|auto].
Qed.
Theorem C103_fit_read_back : forall skip bad f layout t sz bs w rest, fit skip bad f [layout] [t] = true ->
  bytes_ok bs -> loose_value sz layout bs = Ok (w, rest) -> clean bad w = true ->
  match from_slice false t bs with
  | Ok (v, s) => s = rest /\ to_bytes false t v = Ok (vser w) /\ avoids skip t v
  | Err e => e = EDestinationIntegerOverflow \/ e = ECustom \/ exists tag, e = EUnknownPolyvarTag tag
  | Panic => False
  end.
Proof.
  intros skip bad f layout t sz bs w rest F B D C. apply loose_lenient in D; auto. destruct D as (pre & q & -> & W).
  pose proof (bmany_one sz skip bad layout t (fit_backward sz skip bad f [layout] [t] F) None w pre q rest W C B) as M.
  fold (from_slice false t (pre ++ rest)) in M.
  destruct (from_slice false t (pre ++ rest)) as [(v & s)|e|]; auto.
  destruct e; try discriminate; eauto.
Qed.

(** * The shipped layouts *)
(** The two variants in which the Rust types and the layouts differ:
    [TransactionStatus::Failed] and [CoinBase::Two] *)
Definition exempt (ts : list ty) : bool :=
  match ts with [TSeq _; _] | [TOpt _; TOpt _] => true | _ => false end.
Definition exempt_name (s : string) : bool := String.eqb s "Failed" || String.eqb s "Two".
Definition nothing {A} (_ : A) : bool := false.

Lemma block_fits : fit exempt exempt_name (Z.to_nat 100000) [external_transition_layout] [ExternalTransitionV1] = true.
Proof. vm_compute. reflexivity. Qed.
Lemma state_fits : fit nothing nothing (Z.to_nat 10000) [protocol_state_layout] [ProtocolStateV1] = true.
Proof. vm_compute. reflexivity. Qed.
Lemma work_fits : fit nothing nothing (Z.to_nat 10000) [snark_work_layout] [TransactionSnarkWorkV1] = true.
Proof. vm_compute. reflexivity. Qed.

(** [exempt] picks no other variant of the enums in a block. *)
Fixpoint variants (t : ty) : list (list ty) :=
  match t with
  | TOpt t | TSeq t => variants t
  | TTup ts => flat_map variants ts
  | TEnum vs => vs ++ flat_map (flat_map variants) vs
  | TPoly vs => flat_map (fun v => flat_map variants (snd v)) vs
  | _ => []
  end.
Theorem C103_exempt : forall ts, In ts (variants ExternalTransitionV1) -> exempt ts = true ->
  ts = [TSeq TransactionStatusFailedTypeV1; TransactionStatusBalanceDataV1] \/
  ts = [TOpt CoinBaseFeeTransferV1; TOpt CoinBaseFeeTransferV1].
Proof.
  intros ts I E.
  assert (L : filter exempt (variants ExternalTransitionV1) =
    [[TSeq TransactionStatusFailedTypeV1; TransactionStatusBalanceDataV1];
     [TOpt CoinBaseFeeTransferV1; TOpt CoinBaseFeeTransferV1];
     [TSeq TransactionStatusFailedTypeV1; TransactionStatusBalanceDataV1];
     [TOpt CoinBaseFeeTransferV1; TOpt CoinBaseFeeTransferV1]]) by (vm_compute; reflexivity).
  assert (K : In ts (filter exempt (variants ExternalTransitionV1))) by (apply filter_In; auto).
  rewrite L in K. cbn [In] in K. intuition.
Qed.

(** What the typed decoder reads without these variants, the layout-driven decoder
    reads without them; they stop at the same byte and write the same bytes. *)
Theorem C103_block : forall sz bs v rest, bytes_ok bs -> sizes sz bs ->
  from_slice false ExternalTransitionV1 bs = Ok (v, rest) -> avoids exempt ExternalTransitionV1 v ->
  exists w, loose_value sz external_transition_layout bs = Ok (w, rest) /\
    to_bytes false ExternalTransitionV1 v = Ok (vser w) /\ clean exempt_name w = true.
Proof. intros. eapply C103_fit_read; eauto. exact block_fits. Qed.
Lemma typed_impl : forall (P Q : ty -> val -> Prop), (forall t v, P t v -> Q t v) -> forall t v, typed P t v -> typed Q t v.
Proof.
  intros P Q I. induction t using ty_ind'; intros v H';
    try (destruct H' as (H1 & H2); split; [apply I; exact H1|]; destruct v; try contradiction; auto; fail).
  - apply CodecProofs.typed_seq in H'. destruct H' as (H1 & vs & -> & H2). apply CodecProofs.typed_seq.
    split; [auto|]. exists vs. split; auto. clear H1. induction vs as [|u vs IH]; [exact Logic.I|].
    destruct H2 as (A & B). split; [apply IHt; exact A|apply IH; exact B].
  - apply CodecProofs.typed_tup in H'. destruct H' as (H1 & vs & -> & H2). apply CodecProofs.typed_tup.
    split; [auto|]. exists vs. split; auto. clear H1. revert vs H2. induction H; intros [|u vs] H2; try contradiction; auto.
    destruct H2. split; auto.
  - apply CodecProofs.typed_enum in H'. destruct H' as (H1 & i & us & ts & -> & E & H2). apply CodecProofs.typed_enum.
    split; [auto|]. exists i, us, ts. repeat split; auto. clear H1. rewrite Forall_forall in H.
    specialize (H ts (nth_error_In _ _ E)). clear E. revert us H2. induction H; intros [|u us] H2; try contradiction; auto.
    destruct H2. split; auto.
  - apply CodecProofs.typed_poly in H'. destruct H' as (H1 & i & us & nm & ts & -> & E & H2). apply CodecProofs.typed_poly.
    split; [auto|]. exists i, us, nm, ts. repeat split; auto. clear H1. rewrite Forall_forall in H.
    specialize (H (nm, ts) (nth_error_In _ _ E)). cbn [snd] in H. clear E. revert us H2. induction H; intros [|u us] H2; try contradiction; auto.
    destruct H2. split; auto.
Qed.
Lemma avoids_nothing : forall t v, rust_val t v -> avoids nothing t v.
Proof.
  intros t v H. eapply typed_impl; [|exact H]. intros u w _. destruct u; try exact I. destruct w; try exact I.
  unfold avoid. destruct (nth_error vs i); reflexivity || exact I.
Qed.
Theorem C103_state : forall sz bs v rest, bytes_ok bs -> sizes sz bs ->
  from_slice false ProtocolStateV1 bs = Ok (v, rest) ->
  exists w, loose_value sz protocol_state_layout bs = Ok (w, rest) /\ to_bytes false ProtocolStateV1 v = Ok (vser w).
Proof.
  intros sz bs v rest B S D. pose proof (CodecProps.C61_decode_sound false _ bs v rest B D) as (N & _).
  destruct (C103_fit_read _ _ _ _ _ sz bs v rest state_fits B S D (avoids_nothing _ _ N)) as (w & A & E & _). eauto.
Qed.
Theorem C103_snark_work : forall sz bs v rest, bytes_ok bs -> sizes sz bs ->
  from_slice false TransactionSnarkWorkV1 bs = Ok (v, rest) ->
  exists w, loose_value sz snark_work_layout bs = Ok (w, rest) /\ to_bytes false TransactionSnarkWorkV1 v = Ok (vser w).
Proof.
  intros sz bs v rest B S D. pose proof (CodecProps.C61_decode_sound false _ bs v rest B D) as (N & _).
  destruct (C103_fit_read _ _ _ _ _ sz bs v rest work_fits B S D (avoids_nothing _ _ N)) as (w & A & E & _). eauto.
Qed.

(** What the layout-driven decoder reads, the typed decoder reads, with the same
    end and the same bytes written; or it does not know a number or a variant. *)
Theorem C103_block_back : forall sz bs w rest, bytes_ok bs ->
  loose_value sz external_transition_layout bs = Ok (w, rest) -> clean exempt_name w = true ->
  match from_slice false ExternalTransitionV1 bs with
  | Ok (v, s) => s = rest /\ to_bytes false ExternalTransitionV1 v = Ok (vser w) /\ avoids exempt ExternalTransitionV1 v
  | Err e => e = EDestinationIntegerOverflow \/ e = ECustom \/ exists tag, e = EUnknownPolyvarTag tag
  | Panic => False
  end.
Proof. intros. eapply C103_fit_read_back; eauto. exact block_fits. Qed.
Lemma clean_nothing : forall w, clean nothing w = true.
Proof.
  fix IH 1. intros w. destruct w; try reflexivity.
  - destruct o as [v|]; [cbn [clean]; apply IH|reflexivity].
  - cbn [clean]. induction fs as [|f fs IHf]; [reflexivity|]. cbn [forallb]. rewrite IH. exact IHf.
  - cbn [clean]. induction vs as [|v vs IHv]; [reflexivity|]. cbn [forallb]. rewrite IH. exact IHv.
  - cbn [clean]. apply IH.
  - cbn [clean]. apply IH.
  - cbn [clean]. induction vs as [|v vs IHv]; [reflexivity|]. cbn [forallb]. rewrite IH. exact IHv.
Qed.
Theorem C103_state_back : forall sz bs w rest, bytes_ok bs ->
  loose_value sz protocol_state_layout bs = Ok (w, rest) ->
  match from_slice false ProtocolStateV1 bs with
  | Ok (v, s) => s = rest /\ to_bytes false ProtocolStateV1 v = Ok (vser w)
  | Err e => e = EDestinationIntegerOverflow \/ e = ECustom \/ exists tag, e = EUnknownPolyvarTag tag
  | Panic => False
  end.
Proof.
  intros sz bs w rest B D. pose proof (C103_fit_read_back _ _ _ _ _ sz bs w rest state_fits B D (clean_nothing w)) as M.
  match goal with |- match ?x with _ => _ end => destruct x as [(v & s)|e|]; auto end.
  destruct M as (-> & E & _). auto.
Qed.
Theorem C103_snark_work_back : forall sz bs w rest, bytes_ok bs ->
  loose_value sz snark_work_layout bs = Ok (w, rest) ->
  match from_slice false TransactionSnarkWorkV1 bs with
  | Ok (v, s) => s = rest /\ to_bytes false TransactionSnarkWorkV1 v = Ok (vser w)
  | Err e => e = EDestinationIntegerOverflow \/ e = ECustom \/ exists tag, e = EUnknownPolyvarTag tag
  | Panic => False
  end.
Proof.
  intros sz bs w rest B D. pose proof (C103_fit_read_back _ _ _ _ _ sz bs w rest work_fits B D (clean_nothing w)) as M.
  match goal with |- match ?x with _ => _ end => destruct x as [(v & s)|e|]; auto end.
  destruct M as (-> & E & _). auto.
Qed.

(** * Failed commands and two coinbase transfers *)
Lemma read_small : forall rg b s, 0 <= b < 128 -> bin_read_integer _ slice_read_exact rg (b :: s) = from_prim _ rg b s.
Proof.
  intros rg b s R. unfold bin_read_integer. rewrite read_u8_cons. cbn [bind].
  unfold CODE_INT16, CODE_INT32, CODE_INT64, CODE_NEG_INT8.
  destruct (Z.eqb_spec b 254); [lia|]. destruct (Z.eqb_spec b 253); [lia|]. destruct (Z.eqb_spec b 252); [lia|].
  destruct (Z.eqb_spec b 255); [lia|]. destruct (Z.ltb_spec 128 b); [lia|]. reflexivity.
Qed.
Lemma de_version : forall t b s, 0 <= b < 128 ->
  from_slice false (V t) (b :: s) = let* (v, s) := from_slice false t s in Ok (VTup [VInt b; v], s).
Proof.
  intros t b s R. unfold from_slice, V. rewrite (de_tup false (list Z) slice_read_exact). cbn [de_list]. cbn [de irange].
  rewrite read_small by auto. unfold from_prim, in_range, R_u16. cbn [lo hi].
  replace ((0 <=? b) && (b <=? 65535)) with true by lia. cbn [bind].
  destruct (de false (list Z) slice_read_exact t s) as [(v & s')|e|]; reflexivity.
Qed.
Lemma de_variant : forall vars i ts s, nth_error vars i = Some ts -> from_slice false (TEnum vars) (Z.of_nat i :: s) =
  let* (vs, s) := de_list false _ slice_read_exact ts s in Ok (VEnum i vs, s).
Proof.
  intros vars i ts s E. unfold from_slice. rewrite (de_enum false (list Z) slice_read_exact). unfold bin_read_variant_index.
  rewrite read_u8_cons. cbn [bind]. rewrite Nat2Z.id, E. reflexivity.
Qed.
Lemma de_seq_small : forall t n s, 0 <= n < 128 -> from_slice false (TSeq t) (n :: s) =
  let* (vs, s) := de_rep false _ slice_read_exact t (Z.to_nat n) s in Ok (VSeq vs, s).
Proof.
  intros t n s R. unfold from_slice. rewrite (de_seq false (list Z) slice_read_exact). unfold bin_read_nat0.
  rewrite read_u8_cons. cbn [bind]. unfold CODE_INT16, CODE_INT32, CODE_INT64.
  destruct (Z.eqb_spec n 254); [lia|]. destruct (Z.eqb_spec n 253); [lia|]. destruct (Z.eqb_spec n 252); [lia|].
  destruct (Z.ltb_spec 128 n); [lia|]. unfold from_prim, in_range, R_u64. cbn [lo hi].
  replace ((0 <=? n) && (n <=? 18446744073709551615)) with true by lia. reflexivity.
Qed.

(** A failed command's status as the layout has it: version, the variant, version
    and kind of the failure, then the balances, which begin with their version 1. *)
Definition failed_bytes (k : Z) (balances : list Z) : list Z := [1; 1; 1; k; 1] ++ balances.
(** Whatever the kind of the failure, the typed decoder sees a list of length one
    (the version), whose element has the version [k] and the kind 1 (the version of
    the balances), and goes on reading one byte too late. *)
Theorem C103_failed_misread : forall k bs, 0 <= k < 15 ->
  from_slice false TransactionStatusV1 (failed_bytes k bs) =
  let* (b, rest) := from_slice false TransactionStatusBalanceDataV1 bs in
  Ok (VTup [VInt 1; VEnum 1 [VSeq [VTup [VInt k; VEnum 1 []]]; b]], rest).
Proof.
  intros k bs K. unfold failed_bytes, TransactionStatusV1. cbn [app]. rewrite de_version by lia.
  change (1 :: 1 :: k :: 1 :: bs) with (Z.of_nat 1 :: 1 :: k :: 1 :: bs).
  rewrite (de_variant _ 1 [TSeq TransactionStatusFailedTypeV1; TransactionStatusBalanceDataV1]) by reflexivity.
  cbn [de_list].
  pose proof (de_seq_small TransactionStatusFailedTypeV1 1 (k :: 1 :: bs) ltac:(lia)) as E.
  change (Z.to_nat 1) with 1%nat in E. rewrite de_rep_S in E.
  pose proof (de_version (TEnum (List.repeat [] 15)) k (1 :: bs) ltac:(lia)) as E2.
  pose proof (de_variant (List.repeat [] 15) 1 [] bs eq_refl) as E3. cbn [de_list bind] in E3.
  change (Z.of_nat 1) with 1 in E3. rewrite E3 in E2. cbn [bind] in E2.
  change (V (TEnum (List.repeat [] 15))) with TransactionStatusFailedTypeV1 in E2.
  unfold from_slice in E, E2. rewrite E2 in E. cbn [bind] in E. rewrite de_rep_0 in E. cbn [bind] in E. rewrite E. cbn [bind].
  unfold from_slice.
  destruct (de false (list Z) slice_read_exact TransactionStatusBalanceDataV1 bs) as [(v & s)|e|]; reflexivity.
Qed.
(** The layout-driven decoder reads the kind that was written. *)
Definition failures : list string :=
  ["Predicate"; "Source_not_present"; "Receiver_not_present"; "Amount_insufficient_to_create_account";
   "Cannot_pay_creation_fee_in_token"; "Source_insufficient_balance"; "Source_minimum_balance_violation";
   "Receiver_already_exists"; "Not_token_owner"; "Mismatched_token_permissions"; "Overflow";
   "Signed_command_on_snapp_account"; "Snapp_account_not_present"; "Update_not_permitted"; "Incorrect_nonce"].
Lemma wire_versioned : forall sz p r v bs q, lenient sz p r v bs q ->
  lenient sz p (RRecord [("version", RInt); ("t", r)]) (LRecord [("version", LInt 1); ("t", v)]) (1 :: bs) q.
Proof.
  intros sz p r v bs q W.
  change [("version", LInt 1); ("t", v)] with
    (combine (map fst [("version", RInt); ("t", r)]) [LInt 1; v]). apply W_record. cbn [map snd].
  change (1 :: bs) with ([1] ++ bs). eapply W_cons; [apply W_int; auto; constructor; lia|].
  rewrite <- (app_nil_r bs). eapply W_cons; [exact W|apply W_nil].
Qed.
Theorem C103_failed_layout : forall sz k name b bs rest, bytes_ok bs -> nth_error failures (Z.to_nat k) = Some name -> 0 <= k ->
  loose_value sz l712 (1 :: bs) = Ok (b, rest) ->
  loose_value sz l720 (failed_bytes k bs) =
  Ok (LRecord [("version", LInt 1);
               ("t", LSum "Failed" 1 (LTuple [LRecord [("version", LInt 1); ("t", LSum name k (LTuple []))]; b]))], rest).
Proof.
  intros sz k name b bs rest B E K D.
  assert (L : (Z.to_nat k < 15)%nat) by (apply (nth_error_Some failures); rewrite E; discriminate).
  assert (B1 : bytes_ok (1 :: bs)) by (apply bytes_ok_cons; split; [unfold is_byte; lia|auto]).
  assert (B2 : bytes_ok (failed_bytes k bs)).
  { unfold failed_bytes. cbn [app]. repeat (apply bytes_ok_cons; split; [unfold is_byte; lia|]). auto. }
  apply loose_lenient in D; auto. destruct D as (pre & q & EB & W). apply loose_lenient; auto.
  assert (W' : forall p, lenient sz p l712 b pre q).
  { intros p. unfold l712 in W |- *. inversion W; subst; try (intuition discriminate). apply W_ref. auto. }
  exists ([1; 1; 1; k] ++ pre), q. split.
  { unfold failed_bytes. rewrite <- app_assoc, <- EB. reflexivity. }
  apply W_ref. apply wire_versioned. apply W_ref. unfold l717.
  eapply (W_sum _ _ _ _ _ _ 1 "Failed" 1); [reflexivity|lia|unfold is_byte; lia|].
  apply (W_cons _ _ _ _ _ _ _ _ _ [1; k] pre (Some "Transaction_status.Failure.Stable.V1")).
  - apply W_ref. apply wire_versioned. apply W_ref. unfold l713.
    replace [k] with (Z.of_nat (Z.to_nat k) :: []) by (f_equal; lia).
    eapply W_sum; [|lia|unfold is_byte; lia|apply W_nil].
    destruct (Z.to_nat k) as [|n] eqn:Q; [replace k with 0 in * by lia; cbn in E; inversion E; reflexivity|].
    do 14 (destruct n as [|n]; [match type of Q with _ = ?m => replace k with (Z.of_nat m) in * by lia end;
      cbn in E; inversion E; reflexivity|]). lia.
  - rewrite <- (app_nil_r pre). eapply W_cons; [apply W'|apply W_nil].
Qed.
(** So a failed command is not read as it was written: another kind, and another end. *)
Theorem C103_failed_refuted : ~ (forall sz bs w rest, bytes_ok bs -> loose_value sz l720 bs = Ok (w, rest) ->
  exists v, from_slice false TransactionStatusV1 bs = Ok (v, rest) /\ to_bytes false TransactionStatusV1 v = Ok (vser w)).
Proof.
  intros H.
  assert (B : bytes_ok (failed_bytes 5 [0; 0; 0; 0])).
  { unfold failed_bytes. cbn [app]. repeat (apply bytes_ok_cons; split; [unfold is_byte; lia|]). constructor. }
  assert (D : loose_value 64 l720 (failed_bytes 5 [0; 0; 0; 0]) =
    Ok (LRecord [("version", LInt 1);
          ("t", LSum "Failed" 1 (LTuple [LRecord [("version", LInt 1); ("t", LSum "Source_insufficient_balance" 5 (LTuple []))];
             LRecord [("version", LInt 1); ("t", LRecord [("fee_payer_balance", LOption None);
               ("source_balance", LOption None); ("receiver_balance", LOption None)])]]))], [0])) by (vm_compute; reflexivity).
  destruct (H _ _ _ _ B D) as (v & E & _). vm_compute in E. discriminate.
Qed.

(** The first coinbase field.  [Two] with a first transfer is the same in both;
    without one, the layout has no second option, and the typed decoder takes what
    follows for it. *)
Lemma wire_version : forall sz p r v b n bs q, int_form b n -> lenient sz p r v bs q ->
  lenient sz p (RRecord [("version", RInt); ("t", r)]) (LRecord [("version", LInt n); ("t", v)]) (b ++ bs) q.
Proof.
  intros sz p r v b n bs q F W.
  change [("version", LInt n); ("t", v)] with
    (combine (map fst [("version", RInt); ("t", r)]) [LInt n; v]). apply W_record. cbn [map snd].
  eapply W_cons; [apply W_int; auto|].
  rewrite <- (app_nil_r bs). eapply W_cons; [exact W|apply W_nil].
Qed.
Lemma transfer_fits : fit nothing nothing 500 [l731; l732] [CoinBaseFeeTransferV1; TOpt CoinBaseFeeTransferV1] = true.
Proof. vm_compute. reflexivity. Qed.
Lemma two_parts : forall bs n a b rest, bytes_ok bs -> from_slice false CoinBaseV1 bs = Ok (VTup [VInt n; VEnum 2 [a; b]], rest) ->
  exists vb abs bbs, bs = vb ++ 2 :: abs ++ bbs ++ rest /\ int_form vb n /\
    acc (TOpt CoinBaseFeeTransferV1) a abs /\ acc (TOpt CoinBaseFeeTransferV1) b bbs.
Proof.
  intros bs n a b rest B D. apply C64_accepted in D; auto. destruct D as (pre & -> & A). unfold CoinBaseV1, V in A.
  inversion A as [| | | | | | | | | | | | |ts vs bs' H| |]; subst.
  inversion H as [|t ts v vs x y H1 H2]; subst. inversion H1 as [| | | | |k0 z0 b0 F0 R0| | | | | | | | | |]; subst.
  inversion H2 as [|t ts v vs x' y' H3 H4]; subst. inversion H4; subst; clear H4.
  inversion H3 as [| | | | | | | | | | | | | |vars i ts vs bs' N L H5|]; subst. cbn [nth_error] in N. inversion N; subst.
  inversion H5 as [|t ts v vs z1 z2 H6 H7]; subst. inversion H7 as [|t ts v vs z3 z4 H8 H9]; subst. inversion H9; subst; clear H9.
  exists x, z1, z3. rewrite !app_nil_r, <- !app_assoc. cbn [app]. change (Z.of_nat 2) with 2. rewrite <- app_assoc. auto.
Qed.
Theorem C103_two : forall sz bs n a b rest, bytes_ok bs -> sizes sz bs ->
  from_slice false CoinBaseV1 bs = Ok (VTup [VInt n; VEnum 2 [VSome a; b]], rest) ->
  exists w, loose_value sz l738 bs = Ok (w, rest) /\
    to_bytes false CoinBaseV1 (VTup [VInt n; VEnum 2 [VSome a; b]]) = Ok (vser w).
Proof.
  intros sz bs n a b rest B S D. pose proof D as D'. apply two_parts in D'; auto.
  destruct D' as (vb & abs & bbs & -> & F & A1 & A2). inversion A1; subst.
  destruct S as (S1 & S2). rewrite !app_length in S2. cbn [List.length app] in S2. rewrite !app_length in S2.
  assert (SM : 32 * sz < 2 ^ 63) by lia.
  pose proof (CodecProps.C61_decode_sound false _ _ _ _ B D) as (T & _).
  apply CodecProofs.typed_tup in T. destruct T as (_ & us & E & T). inversion E; subst us. destruct T as (_ & T & _).
  apply CodecProofs.typed_enum in T. destruct T as (_ & i & us & ts & E2 & N & T). inversion E2; subst i us.
  cbn [nth_error] in N. inversion N; subst ts. destruct T as ((_ & T1) & T2 & _).
  destruct (fit_forward sz nothing nothing (proj1 S1) SM 500 _ _ transfer_fits (Some "Staged_ledger_diff.At_most_two.Stable.V1") [a; b] (bs ++ bbs)) as (ws & q & W & K & _).
  - rewrite <- (app_nil_r bbs). econstructor; eauto. econstructor; eauto. constructor.
  - split; [apply avoids_nothing; exact T1|]. split; [apply avoids_nothing; exact T2|exact I].
  - unfold short. rewrite app_length. nia.
  - exists (LRecord [("version", LInt n); ("t", LSum "Two" 2 (LTuple [LOption (Some (LTuple ws))]))]). split.
    + apply loose_lenient; auto. exists (vb ++ 2 :: 1 :: bs ++ bbs), q. split.
      { rewrite <- !app_assoc. cbn [app]. rewrite <- app_assoc. reflexivity. }
      apply W_ref. apply wire_version; auto. apply W_ref.
      eapply (W_sum _ _ _ _ _ _ 2 "Two" 2); [reflexivity|lia|unfold is_byte; lia|].
      rewrite <- (app_nil_r (1 :: bs ++ bbs)). eapply W_cons; [|apply W_nil]. apply W_some. apply W_tuple. exact W.
    + cbn [ser_list] in K. unfold to_bytes, CoinBaseV1, V. rewrite ser_tup. cbn [ser_list]. rewrite ser_enum.
      cbn [nth_error ser_list]. cbn [ser].
      destruct (ser false CoinBaseFeeTransferV1 a) as [x|e|]; cbn [bind] in K |- *; try discriminate.
      destruct b; cbn [ser] in K |- *; try discriminate.
      * cbn [bind] in K |- *. inversion K as [K1]. cbn [vser flat_map snd map]. rewrite <- K1. cbn. rewrite !app_nil_r. reflexivity.
      * destruct (ser false CoinBaseFeeTransferV1 b) as [y|e|]; cbn [bind] in K |- *; try discriminate.
        inversion K as [K1]. cbn [vser flat_map snd map]. rewrite <- K1. cbn. rewrite !app_nil_r. reflexivity.
Qed.
(** Without a first transfer: the layout-driven decoder stops before the bytes of the second one. *)
Theorem C103_two_none : forall sz bs n b rest, bytes_ok bs ->
  from_slice false CoinBaseV1 bs = Ok (VTup [VInt n; VEnum 2 [VNone; b]], rest) ->
  exists second, second <> [] /\ from_slice false (TOpt CoinBaseFeeTransferV1) (second ++ rest) = Ok (b, rest) /\
    loose_value sz l738 bs = Ok (LRecord [("version", LInt n); ("t", LSum "Two" 2 (LTuple [LOption None]))], second ++ rest).
Proof.
  intros sz bs n b rest B D. pose proof D as D'. apply two_parts in D'; auto.
  destruct D' as (vb & abs & bbs & -> & F & A1 & A2). inversion A1; subst.
  assert (B2 : bytes_ok (bbs ++ rest)).
  { apply bytes_ok_app in B. destruct B as (_ & B). cbn [app] in B. do 2 (apply bytes_ok_cons in B; destruct B as (_ & B)). exact B. }
  exists bbs. split; [inversion A2; discriminate|]. split; [apply C64_accepted; eauto|].
  apply loose_lenient; auto. exists (vb ++ [2; 0]). eexists. split; [rewrite <- app_assoc; reflexivity|].
  apply W_ref. apply wire_version; auto. apply W_ref.
  eapply (W_sum _ _ _ _ _ _ 2 "Two" 2); [reflexivity|lia|unfold is_byte; lia|].
  change [0] with ([0] ++ []). eapply W_cons; [|apply W_nil]. apply W_none.
Qed.
(** The second coinbase field, of which the layout knows [Zero] and [One] only: the
    layout-driven decoder panics where the typed decoder reads [Two]. *)
Theorem C103_two_second : forall sz bs n a b rest, bytes_ok bs ->
  from_slice false CoinBaseV1 bs = Ok (VTup [VInt n; VEnum 2 [a; b]], rest) -> loose_value sz l761 bs = Panic.
Proof.
  intros sz bs n a b rest B D. apply two_parts in D; auto.
  destruct D as (vb & abs & bbs & -> & F & _ & _). rewrite loose_dec.
  assert (E : dec sz (list Z) slice_read_exact RInt (Some "Staged_ledger_diff.At_most_one", vb ++ 2 :: abs ++ bbs ++ rest) =
    Ok (LInt n, (Some "Staged_ledger_diff.At_most_one", 2 :: abs ++ bbs ++ rest))).
  { apply (dec_takes sz (depth RInt) RInt (le_n _)); auto. exists vb. split; auto. apply W_int; auto. }
  assert (P : dec sz (list Z) slice_read_exact l758 (Some "Staged_ledger_diff.At_most_one.Stable.V1", 2 :: abs ++ bbs ++ rest) = Panic).
  { unfold l758. cbn [dec]. unfold sum_of, keep, bin_read_variant_index. cbn [fst snd]. rewrite read_u8_cons. reflexivity. }
  unfold l761, l760, l759. remember l758 as r eqn:R. clear R. cbn [dec] in E. cbn [dec map snd fst]. cbn [all]. rewrite E. cbn [bind snd]. rewrite P. reflexivity.
Qed.
Theorem C103_two_none_refuted : ~ (forall sz bs w rest, bytes_ok bs -> loose_value sz l738 bs = Ok (w, rest) ->
  exists v s, from_slice false CoinBaseV1 bs = Ok (v, s)).
Proof.
  intros H. destruct (H 64 [1; 2; 0] (LRecord [("version", LInt 1); ("t", LSum "Two" 2 (LTuple [LOption None]))]) [])
    as (v & s & E); [repeat constructor; unfold is_byte; lia|vm_compute; reflexivity|vm_compute in E; discriminate].
Qed.
(** The types are narrower than the layouts: version numbers have 16 bits, and the
    layouts have kinds of commands that the types lack. *)
Theorem C103_narrow_refuted : ~ (forall sz bs w rest, bytes_ok bs -> loose_value sz l720 bs = Ok (w, rest) ->
  clean exempt_name w = true -> exists v s, from_slice false TransactionStatusV1 bs = Ok (v, s)).
Proof.
  intros H. destruct (H 64 [253; 0; 0; 1; 0; 0; 1; 0; 0; 0; 1; 0; 0; 0] (LRecord [("version", LInt 65536);
    ("t", LSum "Applied" 0 (LTuple [
       LRecord [("version", LInt 1); ("t", LRecord [("fee_payer_account_creation_fee_paid", LOption None);
         ("receiver_account_creation_fee_paid", LOption None); ("created_token", LOption None)])];
       LRecord [("version", LInt 1); ("t", LRecord [("fee_payer_balance", LOption None);
         ("source_balance", LOption None); ("receiver_balance", LOption None)])]]))]) []) as (v & s & E).
  - repeat constructor; unfold is_byte; lia.
  - vm_compute. reflexivity.
  - reflexivity.
  - vm_compute in E. discriminate.
Qed.
Theorem C103_token_commands : forall i bs, 2 <= i < 256 ->
  from_slice false SignedCommandPayloadBodyV1 (1 :: 1 :: i :: bs) = Err ECustom.
Proof.
  intros i bs R. unfold SignedCommandPayloadBodyV1, V2. rewrite !de_version by lia.
  assert (E : from_slice false (TEnum [[PaymentPayloadV1]; [StakeDelegationV1]]) (i :: bs) = Err ECustom).
  { unfold from_slice. rewrite (de_enum false (list Z) slice_read_exact). unfold bin_read_variant_index.
    rewrite read_u8_cons. cbn [bind]. rewrite (proj2 (nth_error_None _ _)); [reflexivity|]. cbn [List.length]. lia. }
  rewrite E. reflexivity.
Qed.
Example C103_token_ex : exists w, loose_value 64 l365 ([1; 1; 2; 1; 1; 1] ++ List.repeat 7 32 ++ [1; 1]) = Ok (w, []).
Proof. eexists. vm_compute. reflexivity. Qed.

(** * Cases *)
(** a block with one of everything, whose variants are the first ones *)
Fixpoint first_kept (skip : list ty -> bool) (t : ty) : bool :=
  match t with
  | TOpt t | TSeq t => first_kept skip t
  | TTup ts => forallb (first_kept skip) ts
  | TEnum (ts :: _) => negb (skip ts) && forallb (first_kept skip) ts
  | TPoly ((_, ts) :: _) => forallb (first_kept skip) ts
  | TEnum [] | TPoly [] => false
  | _ => true
  end.
Lemma sample_avoids : forall skip b n t, first_kept skip t = true -> avoids skip t (sample b n t).
Proof.
  intros skip b n t.
  assert (L : forall ts, Forall (fun t => first_kept skip t = true -> avoids skip t (sample b n t)) ts -> forallb (first_kept skip) ts = true ->
    typed_list (avoid skip) ts (map (sample b n) ts)).
  { intros ts F. induction F as [|u ts H F IH]; intros E; [exact I|]. cbn [forallb] in E. apply andb_true_iff in E.
    split; [apply H, E|apply IH, E]. }
  induction t using ty_ind'; intros F.
  1-9: try match goal with j : ikind |- _ => destruct j end; (split; exact I).
  - split; [exact I|]. exact (IHt F).
  - apply CodecProofs.typed_seq. split; [exact I|]. eexists. split; [reflexivity|]. split; [exact (IHt F)|exact I].
  - change (sample b n (TTup ts)) with (VTup (map (sample b n) ts)). apply CodecProofs.typed_tup. split; [exact I|]. eexists. split; [reflexivity|]. apply L; assumption.
  - destruct vs as [|ts vs]; [discriminate|]. cbn [first_kept] in F. apply andb_true_iff in F. destruct F as (F1 & F2).
    apply CodecProofs.typed_enum. split; [cbn [sample avoid nth_error]; apply negb_true_iff; auto|].
    exists 0%nat, (map (sample b n) ts), ts. split; [reflexivity|]. split; [reflexivity|]. inversion H; subst. apply L; assumption.
  - destruct vs as [|(nm, ts) vs]; [discriminate|]. apply CodecProofs.typed_poly. split; [exact I|].
    exists 0%nat, (map (sample b n) ts), nm, ts. split; [reflexivity|]. split; [reflexivity|]. inversion H; subst. apply L; assumption.
Qed.
Lemma block_short :
  match to_bytes false ExternalTransitionV1 (sample 7 3 ExternalTransitionV1) with
  | Ok bs => (Z.of_nat (List.length bs) <? 2 ^ 32) = true
  | _ => False
  end.
Proof. vm_compute. reflexivity. Qed.
Example C103_block_ex : exists bs w, bytes_ok bs /\ sizes 64 bs /\
  from_slice false ExternalTransitionV1 bs = Ok (sample 7 3 ExternalTransitionV1, []) /\
  avoids exempt ExternalTransitionV1 (sample 7 3 ExternalTransitionV1) /\
  loose_value 64 external_transition_layout bs = Ok (w, []) /\ clean exempt_name w = true /\ vser w = bs.
Proof.
  assert (F : full ExternalTransitionV1 = true) by (vm_compute; reflexivity).
  assert (N : avoids exempt ExternalTransitionV1 (sample 7 3 ExternalTransitionV1)) by (apply sample_avoids; vm_compute; reflexivity).
  pose proof block_short as S.
  destruct (C11_round_trip false ExternalTransitionV1 (sample 7 3 ExternalTransitionV1)) as (bs & E & B & D).
  - unfold wire_types. cbn [In]. tauto.
  - apply sample_typed; auto; unfold byte_ok; lia.
  - apply sample_small. exact F.
  - specialize (D []). rewrite app_nil_r in D. rewrite E in S.
    assert (Z : sizes 64 bs) by (unfold sizes; lia).
    destruct (C103_block 64 bs _ [] B Z D N) as (w & W & E2 & C).
    exists bs, w. repeat (split; auto). rewrite E in E2. inversion E2. reflexivity.
Qed.
Example C103_state_ex : exists bs w, bytes_ok bs /\ sizes 64 bs /\
  from_slice false ProtocolStateV1 bs = Ok (sample 7 3 ProtocolStateV1, []) /\
  loose_value 64 protocol_state_layout bs = Ok (w, []) /\ vser w = bs.
Proof.
  destruct (C11_round_trip false ProtocolStateV1 (sample 7 3 ProtocolStateV1)) as (bs & E & B & D).
  - unfold wire_types. cbn [In]. tauto.
  - apply sample_typed; [unfold byte_ok; lia|lia|vm_compute; reflexivity].
  - apply sample_small. vm_compute. reflexivity.
  - specialize (D []). rewrite app_nil_r in D.
    assert (S : match to_bytes false ProtocolStateV1 (sample 7 3 ProtocolStateV1) with
      Ok bs => (Z.of_nat (List.length bs) <? 2 ^ 32) = true | _ => False end) by (vm_compute; reflexivity).
    rewrite E in S. assert (Z : sizes 64 bs) by (unfold sizes; lia).
    destruct (C103_state 64 bs _ [] B Z D) as (w & W & E2). exists bs, w. repeat (split; auto).
    rewrite E in E2. inversion E2. reflexivity.
Qed.
Example C103_work_ex : exists bs w, bytes_ok bs /\ sizes 64 bs /\
  from_slice false TransactionSnarkWorkV1 bs = Ok (sample 7 3 TransactionSnarkWorkV1, []) /\
  loose_value 64 snark_work_layout bs = Ok (w, []) /\ vser w = bs.
Proof.
  destruct (C11_round_trip false TransactionSnarkWorkV1 (sample 7 3 TransactionSnarkWorkV1)) as (bs & E & B & D).
  - unfold wire_types. cbn [In]. tauto.
  - apply sample_typed; [unfold byte_ok; lia|lia|vm_compute; reflexivity].
  - apply sample_small. vm_compute. reflexivity.
  - specialize (D []). rewrite app_nil_r in D.
    assert (S : match to_bytes false TransactionSnarkWorkV1 (sample 7 3 TransactionSnarkWorkV1) with
      Ok bs => (Z.of_nat (List.length bs) <? 2 ^ 32) = true | _ => False end) by (vm_compute; reflexivity).
    rewrite E in S. assert (Z : sizes 64 bs) by (unfold sizes; lia).
    destruct (C103_snark_work 64 bs _ [] B Z D) as (w & W & E2). exists bs, w. repeat (split; auto).
    rewrite E in E2. inversion E2. reflexivity.
Qed.
Definition transfer_bytes : list Z := [1; 1; 1; 1] ++ List.repeat 7 32 ++ [1; 1; 1; 9].
Example C103_two_ex :
  (exists a b, from_slice false CoinBaseV1 ([1; 2; 1] ++ transfer_bytes ++ [1] ++ transfer_bytes) = Ok (VTup [VInt 1; VEnum 2 [VSome a; VSome b]], [])) /\
  (exists b, from_slice false CoinBaseV1 ([1; 2; 0; 1] ++ transfer_bytes) = Ok (VTup [VInt 1; VEnum 2 [VNone; VSome b]], [])) /\
  from_slice false CoinBaseV1 [1; 2; 0; 0] = Ok (VTup [VInt 1; VEnum 2 [VNone; VNone]], []).
Proof. split; [do 2 eexists; vm_compute; reflexivity|]. split; [eexists; vm_compute; reflexivity|vm_compute; reflexivity]. Qed.
Example C103_failed_ex :
  from_slice false TransactionStatusV1 (failed_bytes 14 [0; 0; 0; 0]) =
    Ok (VTup [VInt 1; VEnum 1 [VSeq [VTup [VInt 14; VEnum 1 []]]; VTup [VInt 0; VTup [VNone; VNone; VNone]]]], []) /\
  nth_error failures (Z.to_nat 14) = Some "Incorrect_nonce" /\
  exists b, loose_value 64 l712 (1 :: [0; 0; 0]) = Ok (b, []).
Proof. split; [vm_compute; reflexivity|]. split; [reflexivity|]. eexists. vm_compute. reflexivity. Qed.

(** * What C15 and C17 give for the shipped layouts *)
(** What was read from a shipped layout and written again is read as the same
    value, and a custom type belongs to the reference around it. *)
Theorem C103_shipped : forall layout, In layout [protocol_state_layout; snark_work_layout; verification_key_layout; external_transition_layout] ->
  (forall sz bs w rest x, bytes_ok bs -> bytes_ok x ->
     loose_value sz layout bs = Ok (w, rest) -> loose_value sz layout (vser w ++ x) = Ok (w, x)) /\
  (forall sz bs, loose_value sz layout bs = sdec sz (list Z) slice_read_exact layout None bs).
Proof.
  intros layout I.
  assert (N : numbered layout = true /\ direct false layout = true)
    by (destruct I as [<-|[<-|[<-|[<-|[]]]]]; split; vm_compute; reflexivity).
  destruct N as (N & D). clear I. split.
  - intros sz bs w rest x B X H. exact (LooseProps.C15_normal sz layout bs w rest x N B X H).
  - intros sz bs. rewrite loose_dec. apply LooseProps.C17_scoped. exact D.
Qed.

Print Assumptions C103_fit_read.
Print Assumptions C103_fit_read_back.
Print Assumptions C103_exempt.
Print Assumptions C103_block.
Print Assumptions C103_state.
Print Assumptions C103_snark_work.
Print Assumptions C103_block_back.
Print Assumptions C103_state_back.
Print Assumptions C103_snark_work_back.
Print Assumptions C103_failed_misread.
Print Assumptions C103_failed_layout.
Print Assumptions C103_failed_refuted.
Print Assumptions C103_two.
Print Assumptions C103_two_none.
Print Assumptions C103_two_second.
Print Assumptions C103_two_none_refuted.
Print Assumptions C103_narrow_refuted.
Print Assumptions C103_token_commands.
Print Assumptions C103_shipped.
