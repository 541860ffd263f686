(** Hex texts: theorems. *)

From Coq Require Import ZArith List Bool Lia ZifyBool ZifyNat.
From Verif Require Import Lib.Res Lib.Bytes Text.Hex Text.HexSpec.
Import ListNotations.
Local Open Scope Z_scope.

Lemma list_pair_ind : forall (P : list Z -> Prop), P [] -> (forall a, P [a]) ->
  (forall a b l, P l -> P (a :: b :: l)) -> forall l, P l.
Proof.
  intros P H0 H1 H2 l. assert (P l /\ forall a, P (a :: l)) as [H _]; [|exact H].
  induction l as [|x l [I J]]; split; auto.
Qed.

Lemma hex_val_ok : forall c i d, hex_val c i = Ok d <-> hex_digit c d.
Proof.
  intros c i d. unfold hex_val, hex_digit.
  destruct ((48 <=? c) && (c <=? 57)) eqn:A; [split; [intros [= <-]|intros H; apply f_equal]; lia|].
  destruct ((65 <=? c) && (c <=? 70)) eqn:B; [split; [intros [= <-]|intros H; apply f_equal]; lia|].
  destruct ((97 <=? c) && (c <=? 102)) eqn:C; [split; [intros [= <-]|intros H; apply f_equal]; lia|].
  split; [discriminate|lia].
Qed.
Lemma hex_val_no_panic : forall c i, hex_val c i <> Panic.
Proof. intros c i. unfold hex_val. repeat (match goal with |- context [if ?b then _ else _] => destruct b end); discriminate. Qed.
Lemma hex_digit_range : forall c d, hex_digit c d -> 0 <= d < 16 /\ c <> 120.
Proof. unfold hex_digit. lia. Qed.
Lemma hex_digit_fun : forall c d d', hex_digit c d -> hex_digit c d' -> d = d'.
Proof. unfold hex_digit. lia. Qed.
Lemma hex_char_digit : forall d, 0 <= d < 16 -> hex_digit (hex_char d) d.
Proof. intros d H. unfold hex_char, hex_digit. destruct (d <? 10) eqn:E; lia. Qed.

Lemma hex_pairs_ok : forall s i bs, Nat.odd (length s) = false -> (hex_pairs s i = Ok bs <-> hexes s bs).
Proof.
  induction s as [|a|a b s IH] using list_pair_ind; intros i bs H.
  - cbn [hex_pairs]. split; [intros [= <-]; constructor|]. intros X. now inversion X.
  - discriminate.
  - cbn [hex_pairs]. split.
    + intros E. apply bind_ok in E. destruct E as (d1 & E1 & E). apply bind_ok in E. destruct E as (d2 & E2 & E).
      apply bind_ok in E. destruct E as (bs' & E3 & E). injection E as <-.
      apply hex_val_ok in E1, E2. apply IH in E3; [|exact H]. constructor; assumption.
    + intros X. inversion X as [|? ? d1 d2 ? bs' X1 X2 X3]; subst.
      rewrite (proj2 (hex_val_ok a i d1) X1). cbn [bind]. rewrite (proj2 (hex_val_ok b (S i) d2) X2). cbn [bind].
      rewrite (proj2 (IH (S (S i)) bs' H) X3). reflexivity.
Qed.
Lemma hex_pairs_no_panic : forall s i, hex_pairs s i <> Panic.
Proof.
  induction s as [|a|a b s IH] using list_pair_ind; intros i; cbn [hex_pairs]; try discriminate.
  intros E. apply bind_panic in E. destruct E as [E|(d1 & _ & E)]; [exact (hex_val_no_panic _ _ E)|].
  apply bind_panic in E. destruct E as [E|(d2 & _ & E)]; [exact (hex_val_no_panic _ _ E)|].
  apply bind_panic in E. destruct E as [E|(bs & _ & E)]; [exact (IH _ E)|discriminate].
Qed.

Lemma hexes_length : forall s bs, hexes s bs -> length s = (2 * length bs)%nat.
Proof. intros s bs H. induction H; cbn [length]; lia. Qed.
Lemma hexes_odd : forall s bs, hexes s bs -> Nat.odd (length s) = false.
Proof. intros s bs H. apply hexes_length in H. rewrite H. rewrite Nat.odd_mul. reflexivity. Qed.
Lemma hexes_bytes : forall s bs, hexes s bs -> bytes_ok bs.
Proof.
  intros s bs H. induction H as [|c1 c2 d1 d2 s bs H1 H2 H IH]; constructor; [|exact IH].
  apply hex_digit_range in H1, H2. unfold byte_ok. lia.
Qed.
Lemma hexes_fun : forall s bs bs', hexes s bs -> hexes s bs' -> bs = bs'.
Proof.
  intros s bs bs' H. revert bs'. induction H as [|c1 c2 d1 d2 s bs H1 H2 H IH]; intros bs' H'; inversion H'; subst; [reflexivity|].
  repeat f_equal; eauto using hex_digit_fun.
Qed.
Lemma hexes_app : forall s bs s' bs', hexes s bs -> hexes s' bs' -> hexes (s ++ s') (bs ++ bs').
Proof. intros s bs s' bs' H H'. induction H; cbn [app]; [exact H'|]. constructor; assumption. Qed.
Lemma hexes_encode : forall bs, bytes_ok bs -> hexes (hex_encode bs) bs.
Proof.
  intros bs H. induction H as [|b bs B H IH]; cbn [hex_encode]; [constructor|]. unfold byte_ok in B.
  replace (b :: bs) with (16 * (b / 16) + b mod 16 :: bs) by (f_equal; lia).
  constructor; [apply hex_char_digit; lia|apply hex_char_digit; lia|exact IH].
Qed.

Lemma hex_decode_ok : forall s bs, hex_decode s = Ok bs <-> hexes s bs.
Proof.
  intros s bs. unfold hex_decode. destruct (Nat.odd (length s)) eqn:O.
  - split; [discriminate|]. intros H. apply hexes_odd in H. congruence.
  - apply hex_pairs_ok. exact O.
Qed.
Lemma hex_decode_no_panic : forall s, hex_decode s <> Panic.
Proof. intros s. unfold hex_decode. destruct (Nat.odd (length s)); [discriminate|apply hex_pairs_no_panic]. Qed.

(** The text behind a prefix: a text of hex digits has no prefix to skip. *)
Lemma skip_prefix : forall s s' bs, hexes s' bs -> (skip_0x s = s' <-> exists p, hex_prefix p /\ s = p ++ s').
Proof.
  intros s s' bs X. split.
  - intros E. unfold skip_0x in E. destruct s as [|c0 [|c1 r]]; try (exists []; split; [left; reflexivity|exact E]).
    destruct ((c1 =? 120) && ((c0 =? 48) || (c0 =? 92))) eqn:C.
    + exists [c0; c1]. split; [|cbn; congruence]. right. assert (c1 = 120) by lia. subst c1.
      assert (c0 = 48 \/ c0 = 92) as [-> | ->] by lia; auto.
    + exists []. split; [left; reflexivity|exact E].
  - intros (p & [->|[->| ->]] & ->); [|reflexivity|reflexivity]. cbn [app]. inversion X; subst; [reflexivity|].
    cbn [skip_0x]. apply hex_digit_range in H0. destruct (c2 =? 120) eqn:C; [lia|reflexivity].
Qed.

(** ** C52 *)

(** The accepted texts: a prefix or none, then the 64 hex digits of the value. *)
Theorem C52_accepts_iff : forall s b, field_from_hex s = Ok b <->
  exists p s', hex_prefix p /\ s = p ++ s' /\ hexes s' b /\ length b = 32%nat.
Proof.
  intros s b. unfold field_from_hex. split.
  - intros H. apply bind_ok in H. destruct H as (bs & D & H). destruct (Nat.eqb (length bs) 32) eqn:L; [|discriminate].
    injection H as <-. apply hex_decode_ok in D. destruct (proj1 (skip_prefix s _ _ D) eq_refl) as (p & P & E).
    exists p, (skip_0x s). repeat split; auto. lia.
  - intros (p & s' & P & E & X & L). rewrite (proj2 (skip_prefix s s' b X)) by eauto.
    rewrite (proj2 (hex_decode_ok s' b) X). cbn [bind]. rewrite L. reflexivity.
Qed.
Theorem C52_round_trip : forall p b, hex_prefix p -> bytes_ok b -> length b = 32%nat ->
  field_from_hex (p ++ field_to_hex b) = Ok b /\ field_json_de (field_json_ser b) = Ok b.
Proof.
  assert (A : forall p b, hex_prefix p -> bytes_ok b -> length b = 32%nat -> field_from_hex (p ++ field_to_hex b) = Ok b).
  { intros p b P B L. apply C52_accepts_iff. exists p, (field_to_hex b). auto using hexes_encode. }
  intros p b P B L. split; [apply A; assumption|]. unfold field_json_de, field_json_ser.
  apply (A [48; 120] b); [right; left; reflexivity|assumption|assumption].
Qed.
(** Reading crashes exactly on well-formed hex of another length. *)
Theorem C52_panics_iff : forall s, field_from_hex s = Panic <->
  exists p s' b, hex_prefix p /\ s = p ++ s' /\ hexes s' b /\ length b <> 32%nat.
Proof.
  intros s. unfold field_from_hex. split.
  - intros H. apply bind_panic in H. destruct H as [H|(bs & D & H)]; [exfalso; exact (hex_decode_no_panic _ H)|].
    destruct (Nat.eqb (length bs) 32) eqn:L; [discriminate|].
    apply hex_decode_ok in D. destruct (proj1 (skip_prefix s _ _ D) eq_refl) as (p & P & E).
    exists p, (skip_0x s), bs. repeat split; auto. lia.
  - intros (p & s' & b & P & E & X & L). rewrite (proj2 (skip_prefix s s' b X)) by eauto.
    rewrite (proj2 (hex_decode_ok s' b) X). cbn [bind]. destruct (Nat.eqb (length b) 32) eqn:Q; [lia|reflexivity].
Qed.
Theorem C52_malformed_refuted : ~ (forall s, field_from_hex s <> Panic) /\
  field_from_hex [] = Panic /\ field_from_hex [48; 120] = Panic.
Proof. split; [|split; reflexivity]. intros H. exact (H [] eq_refl). Qed.

(** Different values have different texts, of 64 characters, and the text
    denotes the value. *)
Theorem C52_text_denotes : forall b, bytes_ok b ->
  hexes (field_to_hex b) b /\ length (field_to_hex b) = (2 * length b)%nat /\
  Forall (fun c => 48 <= c <= 57 \/ 97 <= c <= 102) (field_to_hex b).
Proof.
  intros b B. pose proof (hexes_encode b B) as X. split; [exact X|]. split; [apply hexes_length; exact X|].
  unfold field_to_hex. clear X. induction B as [|x b X B IH]; cbn [hex_encode]; [constructor|]. unfold byte_ok in X.
  constructor; [|constructor; [|exact IH]]; unfold hex_char.
  - destruct (x / 16 <? 10) eqn:E; lia.
  - destruct (x mod 16 <? 10) eqn:E; lia.
Qed.

(** Vectors of field elements. *)

Lemma chunks_concat : forall v fuel, Forall (fun x => length x = 64%nat) v -> (length (concat v) <= fuel)%nat ->
  chunks_fuel 64 fuel (concat v) = v.
Proof.
  intros v fuel H. revert fuel. induction H as [|x v X H IH]; intros fuel L; [destruct fuel; reflexivity|].
  cbn [concat] in *. rewrite app_length in L. destruct fuel as [|f]; [lia|].
  destruct x as [|c x]; [discriminate|]. cbn [app chunks_fuel].
  change (c :: x ++ concat v) with ((c :: x) ++ concat v).
  rewrite <- X. rewrite firstn_app, skipn_app, Nat.sub_diag, firstn_all, skipn_all. cbn [firstn skipn app].
  rewrite X. rewrite app_nil_r, IH by lia. reflexivity.
Qed.
Lemma vec_loop_ok : forall v, Forall (fun b => bytes_ok b /\ length b = 32%nat) v -> vec_loop (map field_to_hex v) = Ok v.
Proof.
  intros v H. induction H as [|b v [B L] H IH]; [reflexivity|]. cbn [map vec_loop].
  rewrite (proj2 (C52_accepts_iff (field_to_hex b) b)).
  - cbn [bind]. rewrite IH. reflexivity.
  - exists [], (field_to_hex b). repeat split; auto using hexes_encode. left. reflexivity.
Qed.
Theorem C52_vec_round_trip : forall p v, hex_prefix p -> Forall (fun b => bytes_ok b /\ length b = 32%nat) v ->
  vec_from_hex (p ++ vec_to_hex v) = Ok v.
Proof.
  intros p v P H. unfold vec_from_hex.
  assert (X : hexes (vec_to_hex v) (concat v)).
  { unfold vec_to_hex. induction H as [|b v [B L] H IH]; cbn [map concat]; [constructor|]. apply hexes_app; [apply hexes_encode; exact B|exact IH]. }
  rewrite (proj2 (skip_prefix _ _ _ X)) by eauto. unfold chunks, vec_to_hex. rewrite chunks_concat; [apply vec_loop_ok; exact H| |lia].
  clear X. induction H as [|b v [B L] H IH]; cbn [map]; constructor; [|exact IH].
  unfold field_to_hex. rewrite (hexes_length _ _ (hexes_encode b B)), L. reflexivity.
Qed.

Lemma chunks_spec : forall fuel s, (length s <= fuel)%nat ->
  concat (chunks_fuel 64 fuel s) = s /\ Forall (fun c => (length c <= 64)%nat) (chunks_fuel 64 fuel s).
Proof.
  induction fuel as [|f IH]; intros s L.
  - destruct s; [split; [reflexivity|constructor]|cbn in L; lia].
  - destruct s as [|c s]; [split; [reflexivity|constructor]|]. cbn [chunks_fuel concat].
    destruct (IH (skipn 64 (c :: s))) as [I J].
    { rewrite skipn_length. cbn [length] in *. lia. }
    rewrite I. split; [apply firstn_skipn|]. constructor; [rewrite firstn_length; lia|exact J].
Qed.
(** Every accepted text denotes the vector read. *)
Theorem C52_vec_sound : forall s v, vec_from_hex s = Ok v ->
  Forall (fun b => length b = 32%nat) v /\ exists p s', hex_prefix p /\ s = p ++ s' /\ hexes s' (concat v).
Proof.
  intros s v H. unfold vec_from_hex in H.
  assert (A : forall cs v, Forall (fun c => (length c <= 64)%nat) cs -> vec_loop cs = Ok v ->
    Forall (fun b => length b = 32%nat) v /\ hexes (concat cs) (concat v)).
  { clear. induction cs as [|c cs IH]; intros v F H; cbn [vec_loop] in H.
    - injection H as <-. split; constructor.
    - inversion F as [|? ? L F']; subst. apply bind_ok in H. destruct H as (x & X & H). apply bind_ok in H. destruct H as (xs & Y & H).
      injection H as <-. apply IH in Y; [|exact F']. destruct Y as [Y1 Y2].
      apply C52_accepts_iff in X. destruct X as (p & s' & P & -> & X & LX).
      split; [constructor; assumption|]. cbn [concat]. apply hexes_app; [|exact Y2].
      pose proof (hexes_length _ _ X) as LL. rewrite app_length in L.
      destruct P as [->|[->| ->]]; [exact X|cbn [length] in L; lia|cbn [length] in L; lia]. }
  destruct (chunks_spec (length (skip_0x s)) (skip_0x s) (Nat.le_refl _)) as [C F].
  apply A in H; [|exact F]. destruct H as [H1 H2]. unfold chunks in H2. rewrite C in H2. split; [exact H1|].
  destruct (proj1 (skip_prefix s _ _ H2) eq_refl) as (p & P & E). exists p, (skip_0x s). auto.
Qed.

(** Body references: no prefix, no crash. *)
Theorem C52_body_iff : forall s b, body_from_hex s = Ok b <-> hexes s b /\ length b = 32%nat.
Proof.
  intros s b. unfold body_from_hex, hex_decode_to_slice. destruct (Nat.odd (length s)) eqn:O.
  - split; [discriminate|]. intros [H _]. apply hexes_odd in H. congruence.
  - destruct (negb (Nat.eqb (Nat.div2 (length s)) 32)) eqn:L.
    + split; [discriminate|]. intros [H L']. apply hexes_length in H. rewrite H, Nat.div2_double in L. lia.
    + rewrite hex_pairs_ok by exact O. split; [|tauto]. intros H. split; [exact H|]. apply hexes_length in H.
      rewrite H, Nat.div2_double in L. lia.
Qed.
Theorem C52_body_no_panic : forall s, body_from_hex s <> Panic.
Proof.
  intros s. unfold body_from_hex, hex_decode_to_slice. destruct (Nat.odd (length s)); [discriminate|].
  destruct (negb _); [discriminate|apply hex_pairs_no_panic].
Qed.

(** ** Examples *)

Example C52_ex : field_from_hex ([92; 120] ++ flat_map (fun _ => [65; 102]) (seq 0 32)) = Ok (repeat 0xaf 32) /\
  field_json_ser (repeat 0xaf 32) = [48; 120] ++ flat_map (fun _ => [97; 102]) (seq 0 32) /\
  field_from_hex [49; 120] = Err (HInvalidHexCharacter 120 1) /\
  vec_from_hex (vec_to_hex [repeat 1 32; repeat 254 32]) = Ok [repeat 1 32; repeat 254 32] /\
  body_from_hex (field_to_hex (repeat 7 32)) = Ok (repeat 7 32) /\
  body_from_hex (field_json_ser (repeat 7 32)) = Err HInvalidStringLength.
Proof. vm_compute. auto 8. Qed.

Print Assumptions C52_accepts_iff.
Print Assumptions C52_round_trip.
Print Assumptions C52_panics_iff.
Print Assumptions C52_malformed_refuted.
Print Assumptions C52_text_denotes.
Print Assumptions C52_vec_round_trip.
Print Assumptions C52_vec_sound.
Print Assumptions C52_body_iff.
Print Assumptions C52_body_no_panic.
