(** Hashing of protocol states: theorems. *)

From Coq Require Import String ZArith List Bool Lia ZifyBool ZifyNat.
From Verif Require Import Lib.Res Lib.Bytes Text.FieldText Hashing.ROInput Hashing.ROInputProps Hashing.Items Hashing.Command Hashing.Account Hashing.State Hashing.StateParts.
Import ListNotations.
Local Open Scope string_scope.
Local Open Scope list_scope.
Local Open Scope Z_scope.
Notation length := List.length.

(** ** Equal items, equal values *)

Definition same_items (a b : list part) : Prop := map part_item a = map part_item b.
Lemma same_split : forall a b c d, length a = length c -> same_items (a ++ b) (c ++ d) -> same_items a c /\ same_items b d.
Proof.
  unfold same_items. intros a b c d L E. rewrite !map_app in E. apply app_split; [rewrite !map_length; exact L|exact E].
Qed.
Lemma same_cons : forall a b c d, same_items (a :: b) (c :: d) -> part_item a = part_item c /\ same_items b d.
Proof.
  unfold same_items. intros a b c d E. cbn [map] in E. revert E. generalize (part_item a), (part_item c), (map part_item b), (map part_item d).
  intros x y xs ys E. injection E as -> ->. auto.
Qed.
Lemma hash_inj : forall h g, bytes32 h -> bytes32 g -> part_item (Hs h) = part_item (Hs g) -> h = g.
Proof.
  intros h g [L1 K1] [L2 K2] E. unfold part_item in E. assert (E' : le_val h = le_val g) by congruence.
  rewrite <- (le_bytes_le_val h K1), <- (le_bytes_le_val g K2), L1, L2, E'. reflexivity.
Qed.
Tactic Notation "next" ident(E) ident(X) := apply same_cons in E; destruct E as [X E].

Lemma constants_inj : forall c d, same_items (constants_parts c) (constants_parts d) -> c = d.
Proof.
  intros [a1 a2 a3 a4 a5] [b1 b2 b3 b4 b5] E. unfold constants_parts, same_items in E. cbn in E. congruence.
Qed.
Lemma epoch_inj : forall c d, epoch_ok c -> epoch_ok d -> same_items (epoch_parts c) (epoch_parts d) -> c = d.
Proof.
  intros [a1 a2 a3 a4 a5 a6] [b1 b2 b3 b4 b5 b6] (A1 & A2 & A3 & A4 & A5 & A6) (B1 & B2 & B3 & B4 & B5 & B6) E.
  unfold epoch_parts in E. cbn [e_ledger_hash e_total_currency seed start_checkpoint lock_checkpoint epoch_length] in *.
  next E E1. next E E2. next E E3. next E E4. next E E5. next E E6. apply hash_inj in E1, E2, E4, E6; try assumption.
  cbn [part_item] in E3, E5. congruence.
Qed.
Lemma dens_inj : forall a b, length a = length b -> same_items (dens_parts a) (dens_parts b) -> a = b.
Proof.
  induction a as [|x a IH]; intros [|y b] L E; cbn [length] in L; try lia; [reflexivity|]. cbn [dens_parts map] in E. next E E1.
  cbn [part_item] in E1. f_equal; [congruence|]. apply IH; [lia|exact E].
Qed.
Lemma low_bits : forall x, 0 <= x < 256 -> bits_val (map (Z.testbit x) [0; 1; 2; 3; 4]) = x mod 32.
Proof.
  assert (A : forallb (fun n => let x := Z.of_nat n in bits_val (map (Z.testbit x) [0; 1; 2; 3; 4]) =? x mod 32) (seq 0 256) = true) by (vm_compute; reflexivity).
  intros x X. rewrite forallb_forall in A. specialize (A (Z.to_nat x)). cbv zeta in A. rewrite Z2Nat.id in A by lia. apply Z.eqb_eq, A, in_seq. lia.
Qed.
Lemma nth_byte : forall v n, bytes_ok v -> 0 <= nth n v 0 < 256.
Proof.
  intros v n H. destruct (le_lt_dec (length v) n) as [L|L]; [rewrite nth_overflow by exact L; lia|].
  unfold bytes_ok in H. rewrite Forall_forall in H. apply H, nth_In, L.
Qed.
Lemma vrf_length : forall v, length (vrf_parts v) = if (length v <=? 31)%nat then 1%nat else 6%nat.
Proof. intros. unfold vrf_parts. destruct (length v <=? 31)%nat; reflexivity. Qed.
Lemma vrf_inj : forall v w, bytes_ok v -> bytes_ok w -> Nat.min 32 (length v) = Nat.min 32 (length w) ->
  same_items (vrf_parts v) (vrf_parts w) <-> trunc v = trunc w.
Proof.
  intros v w V W L. unfold vrf_parts, trunc. destruct (length v <=? 31)%nat eqn:Lv, (length w <=? 31)%nat eqn:Lw; try lia.
  - split; [|intros ->; reflexivity]. intros E. next E E1. cbn [part_item] in E1. congruence.
  - split.
    + intros E. unfold same_items in E. cbn [map part_item] in E. assert (E1 : firstn 31 v = firstn 31 w) by congruence.
      assert (E2 : map (Z.testbit (nth 31 v 0)) [0; 1; 2; 3; 4] = map (Z.testbit (nth 31 w 0)) [0; 1; 2; 3; 4]) by (cbn [map]; congruence).
      apply (f_equal bits_val) in E2. rewrite !low_bits in E2 by (apply nth_byte; assumption). rewrite E1, E2. reflexivity.
    + intros E. apply app_inj_tail in E. destruct E as [E1 E2].
      rewrite <- !low_bits in E2 by (apply nth_byte; assumption). apply bits_val_inj in E2; [|reflexivity].
      unfold same_items. rewrite E1. cbn [map part_item] in *. congruence.
Qed.
Lemma key_inj : forall x y, same_items (key_parts x) (key_parts y) -> x = y.
Proof. intros [x o] [y p] E. unfold key_parts, same_items in E. cbn in E. congruence. Qed.
Lemma w32_inj : forall x y, W32 x = W32 y -> x = y.
Proof. intros x y E. injection E as E. exact E. Qed.
Lemma w64_inj : forall x y, W64 x = W64 y -> x = y.
Proof. intros x y E. injection E as E. exact E. Qed.
Lemma b_inj : forall x y, B x = B y -> x = y.
Proof. intros x y E. injection E as E. exact E. Qed.
Lemma bs_inj : forall x y, Bs x = Bs y -> x = y.
Proof. intros x y E. injection E as E. exact E. Qed.
Lemma pair_inj : forall (X Y : Type) (a c : X) (b d : Y), (a, b) = (c, d) -> a = c /\ b = d.
Proof. intros X Y a c b d E. injection E as -> ->. auto. Qed.
Tactic Notation "unpair" ident(E) ident(F) := apply pair_inj in E; destruct E as [E F].
Lemma consensus_inj : forall c d, consensus_ok c -> consensus_ok d -> same_shape c d ->
  same_items (consensus_parts c) (consensus_parts d) <-> norm_consensus c = norm_consensus d.
Proof.
  intros c d (A1 & A2 & A3 & A4 & A5 & A6 & A7 & A8 & A9 & A10 & A11) (B1 & B2 & B3 & B4 & B5 & B6 & B7 & B8 & B9 & B10 & B11) [S1 S2].
  split.
  - intros E. unfold consensus_parts in E.
    apply same_split in E; [|reflexivity]. destruct E as [E1 E]. next E1 Ea. next E1 Eb. next E1 Ec. cbn [part_item] in Ea, Eb, Ec.
    apply same_split in E; [|unfold dens_parts; rewrite !map_length; exact S1]. destruct E as [E2 E]. apply dens_inj in E2; [|exact S1].
    apply same_split in E; [|rewrite !vrf_length; destruct (length (last_vrf_output c) <=? 31)%nat eqn:X, (length (last_vrf_output d) <=? 31)%nat eqn:Y; try reflexivity; lia].
    destruct E as [E3 E]. apply vrf_inj in E3; [|assumption|assumption|exact S2].
    apply same_split in E; [|reflexivity]. destruct E as [E4 E]. next E4 Ed. next E4 Ee. next E4 Ef. next E4 Eg. next E4 Eh. next E4 Ei. cbn [part_item] in Ed, Ee, Ef, Eg, Eh, Ei.
    apply same_split in E; [|reflexivity]. destruct E as [E5 E]. apply epoch_inj in E5; [|assumption|assumption].
    apply same_split in E; [|reflexivity]. destruct E as [E6 E]. apply epoch_inj in E6; [|assumption|assumption].
    apply same_split in E; [|reflexivity]. destruct E as [E7 E]. apply key_inj in E7.
    apply same_split in E; [|reflexivity]. destruct E as [E8 E]. apply key_inj in E8, E.
    apply w32_inj in Ea, Eb, Ec, Ee, Ef, Eg. apply w64_inj in Ed. apply b_inj in Eh, Ei.
    unfold norm_consensus. rewrite Ea, Eb, Ec, E2, E3, Ed, Ee, Ef, Eg, Eh, Ei, E5, E6, E7, E8, E. reflexivity.
  - intros E. 
    assert (T : trunc (last_vrf_output c) = trunc (last_vrf_output d)) by exact (f_equal last_vrf_output E). apply vrf_inj in T; [|assumption|assumption|exact S2].
    assert (F1 : blockchain_length c = blockchain_length d) by exact (f_equal blockchain_length E). assert (F2 : epoch_count c = epoch_count d) by exact (f_equal epoch_count E).
    assert (F3 : min_window_density c = min_window_density d) by exact (f_equal min_window_density E). assert (F4 : sub_window_densities c = sub_window_densities d) by exact (f_equal sub_window_densities E).
    assert (F5 : total_currency c = total_currency d) by exact (f_equal total_currency E). assert (F6 : slot_number c = slot_number d) by exact (f_equal slot_number E).
    assert (F7 : cs_slots_per_epoch c = cs_slots_per_epoch d) by exact (f_equal cs_slots_per_epoch E). assert (F8 : global_slot_since_genesis c = global_slot_since_genesis d) by exact (f_equal global_slot_since_genesis E).
    assert (F9 : staking_epoch_data c = staking_epoch_data d) by exact (f_equal staking_epoch_data E). assert (F10 : next_epoch_data c = next_epoch_data d) by exact (f_equal next_epoch_data E).
    assert (F11 : has_ancestor c = has_ancestor d) by exact (f_equal has_ancestor E). assert (F12 : supercharge_coinbase c = supercharge_coinbase d) by exact (f_equal supercharge_coinbase E).
    assert (F13 : block_stake_winner c = block_stake_winner d) by exact (f_equal block_stake_winner E). assert (F14 : block_creator c = block_creator d) by exact (f_equal block_creator E).
    assert (F15 : coinbase_receiver c = coinbase_receiver d) by exact (f_equal coinbase_receiver E).
    unfold same_items, consensus_parts in *. rewrite !map_app. rewrite T, F1, F2, F3, F4, F5, F6, F7, F8, F9, F10, F11, F12, F13, F14, F15. reflexivity.
Qed.
Lemma local_inj : forall l m, local_ok l -> local_ok m -> same_items (local_parts l) (local_parts m) <-> norm_local l = norm_local m.
Proof.
  intros [a1 a2 a3 a4 a5 a6 a7 a8 a9 a10 a11] [b1 b2 b3 b4 b5 b6 b7 b8 b9 b10 b11] (A1 & A2 & A3 & A4 & A5 & A6 & A7 & A8) (B1 & B2 & B3 & B4 & B5 & B6 & B7 & B8).
  unfold local_parts, norm_local.
  cbn [stack_frame call_stack transaction_commitment full_transaction_commitment ls_token_id excess excess_sign ls_ledger success party_index] in *. split.
  - intros E. next E E1. next E E2. next E E3. next E E4. next E E5. next E E6. next E E7. next E E8. next E E9. next E E10.
    apply hash_inj in E1, E2, E3, E4, E8; try assumption. cbn [part_item] in *. congruence.
  - intros E. assert (X : (a1, a2, a3, a4, a5, a6, a7, a8, a9, a10) = (b1, b2, b3, b4, b5, b6, b7, b8, b9, b10)) by congruence. injection X; intros; subst. reflexivity.
Qed.

(** Goodness of parts is that of the hashes. *)
Definition hashes_good (l : list (list Z)) : bool := forallb (fun h => le_val h <? FP_MODULUS) l.
Lemma hashes_good_iff : forall l, hashes_good l = true <-> Forall canonical l.
Proof.
  intros l. unfold hashes_good. rewrite forallb_forall, Forall_forall. unfold canonical. split; intros H x I; specialize (H x I); lia.
Qed.
Lemma hashes_app : forall a b, hashes_good (a ++ b) = hashes_good a && hashes_good b.
Proof. intros. apply forallb_app. Qed.
Lemma dens_good : forall l, forallb goodb (dens_parts l) = true.
Proof. induction l as [|x l IH]; [reflexivity|exact IH]. Qed.
Lemma vrf_good : forall l, forallb goodb (vrf_parts l) = true.
Proof. intros. unfold vrf_parts. destruct (length l <=? 31)%nat; reflexivity. Qed.
Lemma epoch_good : forall e, forallb goodb (epoch_parts e) = hashes_good (epoch_hashes e).
Proof. reflexivity. Qed.
Lemma consensus_good : forall c, forallb goodb (consensus_parts c) = hashes_good (consensus_hashes c).
Proof.
  intros c. unfold consensus_parts, consensus_hashes. rewrite !forallb_app, dens_good, vrf_good, !epoch_good, hashes_app. cbn [forallb goodb andb].
  rewrite andb_true_r. reflexivity.
Qed.

(** Parts of the same kinds, within range. *)
Definition pkind (p : part) : kind := kind_of (part_item p).
Lemma parts_ok : forall l, Forall part_ok l -> Forall item_ok (map part_item l).
Proof. intros l K. induction K as [|[h|i] l H K IH]; cbn [map]; constructor; try exact IH; [exact I|exact H]. Qed.
Ltac oks := repeat (apply Forall_cons; [first [exact I|assumption|cbn [part_ok item_ok]; assumption]|]); try apply Forall_nil.
Lemma constants_pok : forall c, constants_ok c -> Forall part_ok (constants_parts c).
Proof. intros c (A & A1 & A2 & A3 & A4). unfold constants_parts. oks. Qed.
Lemma epoch_pok : forall c, epoch_ok c -> Forall part_ok (epoch_parts c).
Proof. intros c (A & A1 & A2 & A3 & A4 & A5). unfold epoch_parts. oks. Qed.
Lemma firstn_ok : forall n l, bytes_ok l -> bytes_ok (firstn n l).
Proof. intros n l H. rewrite <- (firstn_skipn n l) in H. apply bytes_ok_app in H. apply H. Qed.
Lemma vrf_pok : forall v, bytes_ok v -> Forall part_ok (vrf_parts v).
Proof.
  intros v V. unfold vrf_parts. pose proof (firstn_ok 31 v V). destruct (length v <=? 31)%nat; cbn [map]; oks.
Qed.
Lemma dens_pok : forall l, Forall u32 l -> Forall part_ok (dens_parts l).
Proof. intros l K. induction K; [constructor|]. cbn [dens_parts map]. constructor; [assumption|exact IHK]. Qed.
Lemma consensus_pok : forall c, consensus_ok c -> Forall part_ok (consensus_parts c).
Proof.
  intros c (A1 & A2 & A3 & A4 & A5 & A6 & A7 & A8 & A9 & A10 & A11). unfold consensus_parts. repeat rewrite Forall_app.
  repeat split; try (apply epoch_pok; assumption); try (apply vrf_pok; assumption); try (apply dens_pok; assumption); unfold key_parts; oks.
Qed.
Lemma local_pok : forall l, local_ok l -> Forall part_ok (local_parts l).
Proof. intros l (A & A1 & A2 & A3 & A4 & A5 & A6 & A7). unfold local_parts. oks. Qed.
Lemma consensus_kinds : forall c d, same_shape c d -> map pkind (consensus_parts c) = map pkind (consensus_parts d).
Proof.
  intros c d [S1 S2]. unfold consensus_parts. rewrite !map_app.
  assert (D : map pkind (dens_parts (sub_window_densities c)) = map pkind (dens_parts (sub_window_densities d))).
  { revert S1. generalize (sub_window_densities c), (sub_window_densities d). induction l as [|x l IH]; intros [|y m] L; cbn in L; try lia; [reflexivity|].
    cbn [dens_parts map]. f_equal. apply IH. lia. }
  assert (V : map pkind (vrf_parts (last_vrf_output c)) = map pkind (vrf_parts (last_vrf_output d))).
  { revert S2. generalize (last_vrf_output c), (last_vrf_output d). intros v w S2. unfold vrf_parts.
    destruct (length v <=? 31)%nat eqn:X, (length w <=? 31)%nat eqn:Y; try lia; unfold pkind; cbn [map part_item kind_of].
    - replace (length v) with (length w) by lia. reflexivity.
    - rewrite !firstn_length. replace (Nat.min 31 (length v)) with (Nat.min 31 (length w)) by lia. reflexivity. }
  rewrite D, V. reflexivity.
Qed.

Section Hash.
  Variable sha256 : list Z -> list Z.
  Variable checked : bool.
  Notation digest := (digest sha256).

  (** What is hashed of a body: of the staged ledger hash the digest only. *)
  Definition body_legacy_view (b : body_legacy) :=
    let c := bodyl_blockchain b in
    (bodyl_constants b, bodyl_genesis_state_hash b, digest (bl_staged c), pending_coinbase_hash (bl_staged c), bl_snarked_ledger_hash c,
     bl_genesis_ledger_hash c, bl_token c, bl_timestamp c, norm_consensus (bodyl_consensus b)).
  Definition body_view (b : body) :=
    let c := body_blockchain b in
    (body_constants b, body_genesis_state_hash b, digest (b_staged c), pending_coinbase_hash (b_staged c), b_genesis_ledger_hash c,
     registers_ledger c, norm_local (registers_local c), b_timestamp c, body_reference c, norm_consensus (body_consensus b)).
  (** The fields fed to the hash. *)
  Definition body_legacy_fields (b : body_legacy) : res unit (list Z) := rmap l_to_fields (body_legacy_roinput sha256 b).
  Definition body_fields (b : body) : res unit (list Z) :=
    let* c := body_chunked sha256 b in rmap l_to_fields (roinput_of_chunked checked c).

  Lemma body_legacy_good : forall b, forallb goodb (body_legacy_parts sha256 b) = hashes_good (body_legacy_hashes b).
  Proof.
    intros b. unfold body_legacy_parts, body_legacy_hashes. rewrite !forallb_app, consensus_good. cbn [forallb goodb constants_parts blockchain_legacy_parts andb].
    rewrite !andb_true_r.
    change (hashes_good (bodyl_genesis_state_hash b :: blockchain_legacy_hashes (bodyl_blockchain b) ++ consensus_hashes (bodyl_consensus b))) with
      ((le_val (bodyl_genesis_state_hash b) <? FP_MODULUS) && hashes_good (blockchain_legacy_hashes (bodyl_blockchain b) ++ consensus_hashes (bodyl_consensus b))).
    rewrite hashes_app. cbn [hashes_good forallb blockchain_legacy_hashes]. rewrite andb_true_r. reflexivity.
  Qed.
  Lemma body_good : forall b, forallb goodb (body_parts sha256 b) = hashes_good (body_hashes b).
  Proof.
    intros b. unfold body_parts, body_hashes, blockchain_parts. rewrite !forallb_app, consensus_good. cbn [forallb goodb constants_parts local_parts andb].
    rewrite !andb_true_r.
    change (hashes_good (body_genesis_state_hash b :: blockchain_hashes (body_blockchain b) ++ consensus_hashes (body_consensus b))) with
      ((le_val (body_genesis_state_hash b) <? FP_MODULUS) && hashes_good (blockchain_hashes (body_blockchain b) ++ consensus_hashes (body_consensus b))).
    rewrite hashes_app. cbn [hashes_good forallb blockchain_hashes]. rewrite andb_true_r, <- !andb_assoc. reflexivity.
  Qed.
End Hash.

Lemma exists_bad : forall l, Exists (fun h => ~ canonical h) l <-> hashes_good l = false.
Proof.
  intros l. induction l as [|h l IH]; [split; [intros E; inversion E|discriminate]|].
  change (hashes_good (h :: l)) with ((le_val h <? FP_MODULUS) && hashes_good l). rewrite Exists_cons, IH. unfold canonical.
  destruct (Z.ltb_spec (le_val h) FP_MODULUS); cbn [andb]; split; intros; auto; try lia; intuition lia.
Qed.

Section Ok.
  Variable sha256 : list Z -> list Z.
  Variable checked : bool.
  Hypothesis sha_ok : forall x, bytes32 (sha256 x).
  Notation digest := (digest sha256).
  Notation body_legacy_view := (body_legacy_view sha256).
  Notation body_view := (body_view sha256).
  Notation body_legacy_fields := (body_legacy_fields sha256).
  Notation body_fields := (body_fields sha256 checked).

  Lemma digest_ok : forall s, bytes_ok (digest s).
  Proof. intros. apply sha_ok. Qed.
  Lemma digest_length : forall s, length (digest s) = 32%nat.
  Proof. intros. apply sha_ok. Qed.
  Lemma body_legacy_pok : forall b, body_legacy_ok b -> Forall part_ok (body_legacy_parts sha256 b).
  Proof.
    intros b (A1 & A2 & A3 & A4). unfold body_legacy_parts. repeat rewrite Forall_app. repeat split; [apply constants_pok; assumption|oks| |apply consensus_pok; assumption].
    destruct A2 as (B1 & B2 & B3 & B4 & B5). unfold blockchain_legacy_parts. pose proof (digest_ok (bl_staged (bodyl_blockchain b))). oks.
  Qed.
  Lemma body_pok : forall b, body_ok b -> Forall part_ok (body_parts sha256 b).
  Proof.
    intros b (A1 & A2 & A3 & A4). unfold body_parts, blockchain_parts. destruct A2 as (B1 & B2 & B3 & B4 & B5 & B6 & B7). repeat rewrite Forall_app.
    pose proof (digest_ok (b_staged (body_blockchain b))).
    repeat split; [apply constants_pok; assumption|oks|oks|apply local_pok; assumption|oks|apply consensus_pok; assumption].
  Qed.
  Lemma body_legacy_kinds : forall a b, same_shape (bodyl_consensus a) (bodyl_consensus b) ->
    map pkind (body_legacy_parts sha256 a) = map pkind (body_legacy_parts sha256 b).
  Proof.
    intros a b S. unfold body_legacy_parts. rewrite !map_app, (consensus_kinds _ _ S). unfold blockchain_legacy_parts, pkind. cbn [map part_item kind_of].
    rewrite !digest_length. reflexivity.
  Qed.
  Lemma body_kinds : forall a b, body_ok a -> body_ok b -> same_shape (body_consensus a) (body_consensus b) ->
    map pkind (body_parts sha256 a) = map pkind (body_parts sha256 b).
  Proof.
    intros a b (_ & (_ & _ & _ & _ & _ & La & _) & _) (_ & (_ & _ & _ & _ & _ & Lb & _) & _) S. unfold body_parts, blockchain_parts.
    rewrite !map_app, (consensus_kinds _ _ S). unfold pkind. cbn [map part_item kind_of]. rewrite !digest_length, La, Lb. reflexivity.
  Qed.
  Lemma body_legacy_same : forall a b, body_legacy_ok a -> body_legacy_ok b -> same_shape (bodyl_consensus a) (bodyl_consensus b) ->
    same_items (body_legacy_parts sha256 a) (body_legacy_parts sha256 b) <-> body_legacy_view a = body_legacy_view b.
  Proof.
    intros a b (A1 & A2 & A3 & A4) (B1 & B2 & B3 & B4) S. unfold body_legacy_parts, StateProps.body_legacy_view. cbv zeta. split.
    - intros E. apply same_split in E; [|reflexivity]. destruct E as [E1 E]. apply constants_inj in E1.
      apply same_split in E; [|reflexivity]. destruct E as [E2 E]. next E2 E2'. apply hash_inj in E2'; [|assumption|assumption].
      apply same_split in E; [|reflexivity]. destruct E as [E3 E]. apply consensus_inj in E; [|assumption|assumption|assumption].
      destruct A2 as (C1 & C2 & C3 & C4 & C5), B2 as (D1 & D2 & D3 & D4 & D5). unfold blockchain_legacy_parts in E3.
      next E3 X1. next E3 X2. next E3 X3. next E3 X4. next E3 X5. next E3 X6. apply hash_inj in X2, X3, X4; try assumption. cbn [part_item] in X1, X5, X6.
      apply bs_inj in X1. apply w64_inj in X5, X6. rewrite E1, E2', X1, X2, X3, X4, X5, X6, E. reflexivity.
    - intros E. 
      unpair E N. unpair E F8. unpair E F7. unpair E F6. unpair E F5. unpair E F4. unpair E F3. unpair E F2. rename E into F1.
      apply consensus_inj in N; [|assumption|assumption|assumption].
      unfold same_items, blockchain_legacy_parts in *. rewrite !map_app, N, F1, F2, F3, F4, F5, F6, F7, F8. reflexivity.
  Qed.
  Lemma body_same : forall a b, body_ok a -> body_ok b -> same_shape (body_consensus a) (body_consensus b) ->
    same_items (body_parts sha256 a) (body_parts sha256 b) <-> body_view a = body_view b.
  Proof.
    intros a b (A1 & A2 & A3 & A4) (B1 & B2 & B3 & B4) S. unfold body_parts, StateProps.body_view, blockchain_parts. cbv zeta.
    destruct A2 as (C1 & C2 & C3 & C4 & C5 & C6 & C7), B2 as (D1 & D2 & D3 & D4 & D5 & D6 & D7). split.
    - intros E. apply same_split in E; [|reflexivity]. destruct E as [E1 E]. apply constants_inj in E1.
      apply same_split in E; [|reflexivity]. destruct E as [E2 E]. next E2 E2'. apply hash_inj in E2'; [|assumption|assumption].
      apply same_split in E; [|reflexivity]. destruct E as [E3 E]. apply consensus_inj in E; [|assumption|assumption|assumption].
      apply same_split in E3; [|reflexivity]. destruct E3 as [X E3]. next X X1. next X X2. next X X3. next X X4.
      apply hash_inj in X2, X3, X4; try assumption. cbn [part_item] in X1.
      apply same_split in E3; [|reflexivity]. destruct E3 as [Lo E3]. apply local_inj in Lo; [|assumption|assumption].
      next E3 X5. next E3 X6. cbn [part_item] in X5, X6. apply bs_inj in X1, X6. apply w64_inj in X5. rewrite E1, E2', X1, X2, X3, X4, Lo, X5, X6, E. reflexivity.
    - intros E.
      unpair E N. unpair E F8. unpair E F7. unpair E M. unpair E F6. unpair E F5. unpair E F4. unpair E F3. unpair E F2. rename E into F1.
      apply consensus_inj in N; [|assumption|assumption|assumption]. apply local_inj in M; [|assumption|assumption].
      unfold same_items in *. rewrite !map_app. cbn [map part_item]. rewrite N, M, F1, F2, F3, F4, F5, F6, F7, F8. reflexivity.
  Qed.

  (** ** C90 *)

  (** Bodies with as many densities and VRF bytes are hashed from the same
      fields exactly when they agree on everything that is hashed. *)
  Theorem C90_legacy_iff : forall a b, body_legacy_ok a -> body_legacy_ok b -> same_shape (bodyl_consensus a) (bodyl_consensus b) ->
    Forall canonical (body_legacy_hashes a) -> Forall canonical (body_legacy_hashes b) ->
    body_legacy_fields a = body_legacy_fields b <-> body_legacy_view a = body_legacy_view b.
  Proof.
    intros a b A Bk S Ha Hb. apply hashes_good_iff in Ha, Hb. unfold StateProps.body_legacy_fields. rewrite !body_l. unfold lpart.
    rewrite !body_legacy_good, Ha, Hb. cbn [rmap]. rewrite <- (body_legacy_same a b A Bk S). unfold same_items.
    pose proof (parts_ok _ (body_legacy_pok a A)) as Ia. pose proof (parts_ok _ (body_legacy_pok b Bk)) as Ib.
    pose proof (body_legacy_kinds a b S) as K. unfold pkind in K. rewrite <- !(map_map part_item kind_of) in K.
    revert Ia Ib K. generalize (map part_item (body_legacy_parts sha256 a)), (map part_item (body_legacy_parts sha256 b)). intros x y Ia Ib K. split.
    - intros E. apply legacy_fields_inj; [assumption|assumption|assumption|]. revert E. generalize (l_to_fields (litems x)), (l_to_fields (litems y)). intros p q E. congruence.
    - intros ->. reflexivity.
  Qed.
  Theorem C90_iff : forall a b, body_ok a -> body_ok b -> same_shape (body_consensus a) (body_consensus b) ->
    Forall canonical (body_hashes a) -> Forall canonical (body_hashes b) ->
    body_fields a = body_fields b <-> body_view a = body_view b.
  Proof.
    intros a b A Bk S Ha Hb. apply hashes_good_iff in Ha, Hb. unfold StateProps.body_fields. rewrite !body_c by assumption. unfold cpart.
    rewrite !body_good, Ha, Hb. cbn [bind]. rewrite <- (body_same a b A Bk S). unfold same_items.
    pose proof (parts_ok _ (body_pok a A)) as Ia. pose proof (parts_ok _ (body_pok b Bk)) as Ib.
    pose proof (body_kinds a b A Bk S) as K. unfold pkind in K. rewrite <- !(map_map part_item kind_of) in K.
    revert Ia Ib K. generalize (map part_item (body_parts sha256 a)), (map part_item (body_parts sha256 b)). intros x y Ia Ib K.
    destruct (roinput_total checked x Ia) as [r R], (roinput_total checked y Ib) as [s T]. split.
    - intros E. apply (chunked_fields_inj checked x y r s); try assumption. rewrite R, T in E. cbn [rmap] in E.
      revert E. generalize (l_to_fields r), (l_to_fields s). intros p q E. congruence.
    - intros ->. reflexivity.
  Qed.

  Definition collision (h : string -> list Z -> Z) : Prop := exists d x y, x <> y /\ h d x = h d y.
  (** States with the same hash agree on everything that is hashed, or show a
      collision of the hash function. *)
  Theorem C90_state_legacy : forall (legacy : string -> list Z -> Z) s t h, bytes32 (sl_previous s) -> bytes32 (sl_previous t) -> body_legacy_ok (sl_body s) -> body_legacy_ok (sl_body t) ->
    same_shape (bodyl_consensus (sl_body s)) (bodyl_consensus (sl_body t)) ->
    state_hash_legacy sha256 legacy s = Ok h -> state_hash_legacy sha256 legacy t = Ok h ->
    (sl_previous s = sl_previous t /\ body_legacy_view (sl_body s) = body_legacy_view (sl_body t)) \/ collision legacy.
  Proof.
    intros legacy s t h Ps Pt Os Ot S Hs Ht. unfold state_hash_legacy in Hs, Ht. rewrite body_l, hash_l in Hs, Ht. unfold lpart in Hs, Ht.
    rewrite body_legacy_good in Hs, Ht. cbn [forallb goodb] in Hs, Ht. rewrite andb_true_r in Hs, Ht.
    destruct (hashes_good (body_legacy_hashes (sl_body s))) eqn:Gs; [|discriminate]. destruct (hashes_good (body_legacy_hashes (sl_body t))) eqn:Gt; [|discriminate].
    cbn [bind] in Hs, Ht. destruct (le_val (sl_previous s) <? FP_MODULUS); [|discriminate]. destruct (le_val (sl_previous t) <? FP_MODULUS); [|discriminate].
    rewrite l_new_items, l_hashable_items in Hs, Ht. cbn [bind app map part_item] in Hs, Ht. rewrite l_field_items in Hs, Ht. cbn [app] in Hs, Ht.
    pose proof (proj1 (hashes_good_iff _) Gs) as Cs. pose proof (proj1 (hashes_good_iff _) Gt) as Ct.
    pose proof (C90_legacy_iff (sl_body s) (sl_body t) Os Ot S Cs Ct) as I. unfold StateProps.body_legacy_fields in I. rewrite !body_l in I. unfold lpart in I.
    rewrite !body_legacy_good, Gs, Gt in I. cbn [rmap] in I.
    revert Hs Ht I. generalize (l_to_fields (litems (map part_item (body_legacy_parts sha256 (sl_body s))))), (l_to_fields (litems (map part_item (body_legacy_parts sha256 (sl_body t))))).
    intros x y Hs Ht I.
    assert (X : forall z w, l_to_fields (litems [F z; F w]) = [z; w]) by reflexivity. rewrite X in Hs, Ht.
    assert (E : legacy "CodaProtoState" [le_val (sl_previous s); legacy "CodaProtoStateBody" x] = legacy "CodaProtoState" [le_val (sl_previous t); legacy "CodaProtoStateBody" y]) by congruence.
    destruct (list_eq_dec Z.eq_dec [le_val (sl_previous s); legacy "CodaProtoStateBody" x] [le_val (sl_previous t); legacy "CodaProtoStateBody" y]) as [Q|Q].
    - destruct (list_eq_dec Z.eq_dec x y) as [R|R].
      + left. split; [|apply I; congruence]. apply hash_inj; [assumption|assumption|]. cbn [part_item]. congruence.
      + right. exists "CodaProtoStateBody", x, y. split; [exact R|congruence].
    - right. exists "CodaProtoState". eexists _, _. split; [exact Q|exact E].
  Qed.
  Lemma two_fields : forall z w, roinput_of_chunked checked (citems [F z; F w]) = Ok (mk_lroi [z; w] []).
  Proof. reflexivity. Qed.
  Theorem C90_state : forall (kimchi : string -> list Z -> Z) s t h, bytes32 (s_previous s) -> bytes32 (s_previous t) -> body_ok (s_body s) -> body_ok (s_body t) ->
    same_shape (body_consensus (s_body s)) (body_consensus (s_body t)) ->
    state_hash sha256 kimchi checked s = Ok h -> state_hash sha256 kimchi checked t = Ok h ->
    (s_previous s = s_previous t /\ body_view (s_body s) = body_view (s_body t)) \/ collision kimchi.
  Proof.
    intros kimchi s t h Ps Pt Os Ot S Hs Ht. unfold state_hash in Hs, Ht. rewrite body_c, hash_c in Hs, Ht by assumption. unfold cpart in Hs, Ht.
    rewrite body_good in Hs, Ht. cbn [forallb goodb] in Hs, Ht. rewrite andb_true_r in Hs, Ht.
    destruct (hashes_good (body_hashes (s_body s))) eqn:Gs; [|discriminate]. destruct (hashes_good (body_hashes (s_body t))) eqn:Gt; [|discriminate].
    cbn [bind] in Hs, Ht.
    pose proof (proj1 (hashes_good_iff _) Gs) as Cs. pose proof (proj1 (hashes_good_iff _) Gt) as Ct.
    pose proof (C90_iff (s_body s) (s_body t) Os Ot S Cs Ct) as I. unfold StateProps.body_fields in I. rewrite !body_c in I by assumption. unfold cpart in I.
    rewrite !body_good, Gs, Gt in I. cbn [bind] in I.
    destruct (roinput_of_chunked checked (citems (map part_item (body_parts sha256 (s_body s))))) as [x| |]; try discriminate.
    destruct (roinput_of_chunked checked (citems (map part_item (body_parts sha256 (s_body t))))) as [y| |]; try discriminate. cbn [bind rmap] in *.
    destruct (le_val (s_previous s) <? FP_MODULUS); [|discriminate]. destruct (le_val (s_previous t) <? FP_MODULUS); [|discriminate].
    rewrite c_new_items, c_chunked_items in Hs, Ht. cbn [bind app map part_item] in Hs, Ht. rewrite c_field_items in Hs, Ht. cbn [app] in Hs, Ht.
    rewrite two_fields in Hs, Ht. cbn [bind] in Hs, Ht. revert Hs Ht I. generalize (l_to_fields x), (l_to_fields y). clear x y. intros x y Hs Ht I.
    assert (X : forall z w, l_to_fields (mk_lroi [z; w] []) = [z; w]) by reflexivity. rewrite X in Hs, Ht.
    assert (E : kimchi "CodaProtoState" [le_val (s_previous s); kimchi "CodaProtoStateBody" x] = kimchi "CodaProtoState" [le_val (s_previous t); kimchi "CodaProtoStateBody" y]) by congruence.
    destruct (list_eq_dec Z.eq_dec [le_val (s_previous s); kimchi "CodaProtoStateBody" x] [le_val (s_previous t); kimchi "CodaProtoStateBody" y]) as [Q|Q].
    - destruct (list_eq_dec Z.eq_dec x y) as [R|R].
      + left. split; [|apply I; congruence]. apply hash_inj; [assumption|assumption|]. cbn [part_item]. congruence.
      + right. exists "CodaProtoStateBody", x, y. split; [exact R|congruence].
    - right. exists "CodaProtoState". eexists _, _. split; [exact Q|exact E].
  Qed.

  (** ** C91: hashing panics exactly when some hash inside is not a field
      element. *)
  Theorem C91_legacy_panics_iff : forall (legacy : string -> list Z -> Z) s, state_hash_legacy sha256 legacy s = Panic <->
    Exists (fun h => ~ canonical h) (sl_previous s :: body_legacy_hashes (sl_body s)).
  Proof using sha256.
    intros legacy s. rewrite exists_bad. change (hashes_good (sl_previous s :: body_legacy_hashes (sl_body s))) with
      ((le_val (sl_previous s) <? FP_MODULUS) && hashes_good (body_legacy_hashes (sl_body s))).
    unfold state_hash_legacy. rewrite body_l, hash_l. unfold lpart. rewrite body_legacy_good. cbn [forallb goodb]. rewrite andb_true_r.
    destruct (hashes_good (body_legacy_hashes (sl_body s))); cbn [bind]; [|rewrite andb_false_r; split; reflexivity].
    destruct (le_val (sl_previous s) <? FP_MODULUS); cbn [andb]; [|split; reflexivity].
    rewrite l_new_items, l_hashable_items. cbn [bind]. split; discriminate.
  Qed.
  Theorem C91_panics_iff : forall (kimchi : string -> list Z -> Z) s, body_ok (s_body s) -> state_hash sha256 kimchi checked s = Panic <->
    Exists (fun h => ~ canonical h) (s_previous s :: body_hashes (s_body s)).
  Proof.
    intros kimchi s O. rewrite exists_bad. change (hashes_good (s_previous s :: body_hashes (s_body s))) with
      ((le_val (s_previous s) <? FP_MODULUS) && hashes_good (body_hashes (s_body s))).
    unfold state_hash. rewrite body_c, hash_c by assumption. unfold cpart. rewrite body_good. cbn [forallb goodb]. rewrite andb_true_r.
    destruct (hashes_good (body_hashes (s_body s))); cbn [bind]; [|rewrite andb_false_r; split; reflexivity].
    destruct (roinput_total checked _ (parts_ok _ (body_pok (s_body s) O))) as [r ->]. cbn [bind].
    destruct (le_val (s_previous s) <? FP_MODULUS); cbn [andb bind]; [|split; reflexivity].
    rewrite c_new_items, c_chunked_items. cbn [bind]. rewrite c_field_items. cbn [app map part_item]. rewrite two_fields. cbn [bind]. split; discriminate.
  Qed.

  (** ** C58 *)

  (** Moving a byte between the two auxiliary parts keeps the digest. *)
  Theorem C58_refuted : forall l a x p c,
    digest (mk_staged l (a ++ [x]) p c) = digest (mk_staged l a (x :: p) c) /\ mk_staged l (a ++ [x]) p c <> mk_staged l a (x :: p) c.
  Proof using sha256.
    clear sha_ok. intros. split.
    - unfold State.digest. cbn [ledger_hash aux_hash pending_coinbase_aux]. rewrite <- app_assoc. reflexivity.
    - intros E. assert (L : length (a ++ [x]) = length a) by congruence. rewrite app_length in L. cbn in L. lia.
  Qed.
  (** With parts of fixed lengths, equal digests come from equal parts, or
      show a collision of SHA-256. *)
  Theorem C58_fixed_lengths : forall s t, length (ledger_hash s) = 32%nat -> length (ledger_hash t) = 32%nat ->
    length (aux_hash s) = length (aux_hash t) -> digest s = digest t ->
    (ledger_hash s = ledger_hash t /\ aux_hash s = aux_hash t /\ pending_coinbase_aux s = pending_coinbase_aux t) \/
    (exists x y, x <> y /\ sha256 x = sha256 y).
  Proof.
    intros s t Ls Lt La E. unfold State.digest in E.
    destruct (list_eq_dec Z.eq_dec (rev (ledger_hash s) ++ aux_hash s ++ pending_coinbase_aux s) (rev (ledger_hash t) ++ aux_hash t ++ pending_coinbase_aux t)) as [Q|Q].
    - left. apply app_split in Q; [|rewrite !rev_length; congruence]. destruct Q as [Q1 Q]. apply app_split in Q; [|assumption]. destruct Q as [Q2 Q3].
      split; [|auto]. rewrite <- (rev_involutive (ledger_hash s)), Q1. apply rev_involutive.
    - right. eauto.
  Qed.
End Ok.

(** ** The lengths are not hashed *)

(** A consensus state with other densities and another VRF output. *)
Definition with_window (c : consensus) (ds v : list Z) : consensus :=
  mk_consensus (blockchain_length c) (epoch_count c) (min_window_density c) ds v (total_currency c) (slot_number c) (cs_slots_per_epoch c)
    (global_slot_since_genesis c) (staking_epoch_data c) (next_epoch_data c) (has_ancestor c) (block_stake_winner c) (block_creator c)
    (coinbase_receiver c) (supercharge_coinbase c).
Definition with_window_legacy (s : state_legacy) (ds v : list Z) : state_legacy :=
  mk_state_legacy (sl_previous s) (mk_body_legacy (bodyl_genesis_state_hash (sl_body s)) (bodyl_blockchain (sl_body s))
    (with_window (bodyl_consensus (sl_body s)) ds v) (bodyl_constants (sl_body s))).
Definition with_window_current (s : state) (ds v : list Z) : state :=
  mk_state (s_previous s) (mk_body (body_genesis_state_hash (s_body s)) (body_blockchain (s_body s))
    (with_window (body_consensus (s_body s)) ds v) (body_constants (s_body s))).

Lemma map_dens : forall l, map part_item (dens_parts l) = map W32 l.
Proof. intros. unfold dens_parts. rewrite map_map. reflexivity. Qed.
Lemma vrf_short : forall v, (length v <= 31)%nat -> vrf_parts v = [It (Bs v)].
Proof. intros v L. unfold vrf_parts. replace (length v <=? 31)%nat with true by lia. reflexivity. Qed.
Lemma window_bits : forall ds d v, (length v <= 27)%nat ->
  litems (map part_item (dens_parts (ds ++ [d]) ++ vrf_parts v)) = litems (map part_item (dens_parts ds ++ vrf_parts (le_bytes 4 d ++ v))).
Proof.
  intros ds d v L. rewrite (vrf_short v) by lia. rewrite (vrf_short (le_bytes 4 d ++ v)) by (rewrite app_length, le_bytes_length; lia).
  rewrite !map_app, !map_dens, map_app, <- app_assoc. cbn [map app part_item]. rewrite <- !litems_app. unfold litems, l_append. cbn [l_fields l_bits flat_map item_fields item_bits].
  rewrite !app_nil_r, byte_bits_app. reflexivity.
Qed.

Definition consensus_head (c : consensus) : list part :=
  [It (W32 (blockchain_length c)); It (W32 (epoch_count c)); It (W32 (min_window_density c))].
Definition consensus_tail (c : consensus) : list part :=
  [It (W64 (total_currency c)); It (W32 (slot_number c)); It (W32 (cs_slots_per_epoch c)); It (W32 (global_slot_since_genesis c));
   It (B (has_ancestor c)); It (B (supercharge_coinbase c))] ++
  epoch_parts (staking_epoch_data c) ++ epoch_parts (next_epoch_data c) ++
  key_parts (block_stake_winner c) ++ key_parts (block_creator c) ++ key_parts (coinbase_receiver c).
Lemma window_parts : forall c ds v, consensus_parts (with_window c ds v) = consensus_head c ++ (dens_parts ds ++ vrf_parts v) ++ consensus_tail c.
Proof. intros. unfold consensus_parts. rewrite <- app_assoc. reflexivity. Qed.

(** The last density moved into the VRF output: another state, the same hash,
    whatever the hash functions. *)
Theorem C90_legacy_refuted : forall sha256 legacy s ds d v, (length v <= 27)%nat ->
  with_window_legacy s (ds ++ [d]) v <> with_window_legacy s ds (le_bytes 4 d ++ v) /\
  state_hash_legacy sha256 legacy (with_window_legacy s (ds ++ [d]) v) = state_hash_legacy sha256 legacy (with_window_legacy s ds (le_bytes 4 d ++ v)).
Proof.
  intros sha256 legacy s ds d v L. split.
  - intros E. apply (f_equal (fun t => length (sub_window_densities (bodyl_consensus (sl_body t))))) in E. cbn [sl_body bodyl_consensus with_window_legacy sub_window_densities with_window] in E.
    rewrite app_length in E. cbn [length] in E. lia.
  - unfold state_hash_legacy. rewrite !body_l. cbn [sl_body sl_previous with_window_legacy].
    apply (f_equal (fun r => let* b := r in _ b)). unfold lpart, body_legacy_parts. cbn [bodyl_constants bodyl_genesis_state_hash bodyl_blockchain bodyl_consensus].
    rewrite !window_parts. rewrite !forallb_app, !dens_good, !vrf_good. cbn [andb].
    match goal with |- (if ?c then _ else _) = _ => destruct c end; [|reflexivity]. apply f_equal.
    rewrite !(map_app part_item (constants_parts _)), !(map_app part_item [Hs _]), !(map_app part_item (blockchain_legacy_parts _ _)), !(map_app part_item (consensus_head _)),
      !(map_app part_item (dens_parts _ ++ vrf_parts _)).
    rewrite <- !litems_app, window_bits by exact L. reflexivity.
Qed.

(** The same for the current form, for a density of 0 after ten others. *)
Definition final (acc : Z) (ws : list Z) : Z := fold_left (fun a n => if a + n <=? 254 then a + n else n) ws acc.
Lemma pack_zeros : forall checked n l acc s, 0 <= acc -> acc + Z.of_nat n <= 254 -> 0 <= s < 2 ^ acc ->
  pack checked acc s (repeat (0, 1) n ++ l) = pack checked (acc + Z.of_nat n) (s * 2 ^ Z.of_nat n) l.
Proof.
  intros checked n. induction n as [|n IH]; intros l acc s A L S.
  - cbn [repeat app Z.of_nat]. rewrite Z.add_0_r, Z.mul_1_r. reflexivity.
  - cbn [repeat app]. rewrite pack_step; [|lia|exact S|unfold chunk_ok; cbn [fst snd]; lia].
    replace (acc + 1 <=? 254) with true by lia.
    rewrite IH; [|lia|lia|rewrite Z.pow_add_r by lia; lia]. f_equal; [lia|]. rewrite pow2_S. lia.
Qed.
Lemma pack_word : forall checked n l acc s, 0 <= acc -> (1 <= n)%nat -> acc + Z.of_nat n <= 254 -> 0 <= s < 2 ^ acc ->
  pack checked acc s ((0, Z.of_nat n) :: l) = pack checked acc s (repeat (0, 1) n ++ l).
Proof.
  intros checked n l acc s A N L S. rewrite pack_zeros by assumption.
  rewrite pack_step; [|lia|exact S|unfold chunk_ok; cbn [fst snd]; split; [lia|split; [lia|apply Z.pow_pos_nonneg; lia]]].
  replace (acc + Z.of_nat n <=? 254) with true by lia. rewrite Z.add_0_r. reflexivity.
Qed.
Lemma pack_prefix : forall checked p x y acc s, Forall chunk_ok p -> 0 <= acc <= 254 -> 0 <= s < 2 ^ acc ->
  (forall s', 0 <= s' < 2 ^ final acc (map snd p) -> pack checked (final acc (map snd p)) s' x = pack checked (final acc (map snd p)) s' y) ->
  pack checked acc s (p ++ x) = pack checked acc s (p ++ y).
Proof.
  intros checked p x y. induction p as [|[f n] p IH]; intros acc s K A S H.
  - apply H. exact S.
  - inversion K as [|? ? C K']; subst. cbn [app]. rewrite !pack_step by assumption. cbn [map final fold_left snd] in H.
    destruct C as [C1 C2]. cbn [fst snd] in C1, C2. destruct (acc + n <=? 254) eqn:E.
    + apply IH; [exact K'|lia|apply sum_range; lia|exact H].
    + rewrite (IH n f K' ltac:(lia) C2 H). reflexivity.
Qed.
Definition kwidths (k : kind) : list Z :=
  match k with KF => [] | K32 => [32] | K64 => [64] | KB => [1] | KBs n => repeat 1 (8 * n) | KP n => [n] end.
Lemma item_kwidths : forall i, map snd (item_packed i) = kwidths (kind_of i).
Proof.
  destruct i as [z|z|z|b|l|v n]; cbn [item_packed kind_of kwidths]; try reflexivity.
  rewrite <- byte_bits_length. induction (byte_bits l) as [|b l' IH]; [reflexivity|]. cbn [map length repeat snd]. rewrite IH. reflexivity.
Qed.
Lemma parts_widths : forall l, map snd (flat_map item_packed (map part_item l)) = flat_map kwidths (map pkind l).
Proof.
  induction l as [|x l IH]; [reflexivity|]. cbn [map flat_map]. rewrite map_app, IH, item_kwidths. reflexivity.
Qed.
Lemma parts_chunks : forall l, Forall part_ok l -> Forall chunk_ok (flat_map item_packed (map part_item l)).
Proof. intros l K. apply parts_ok in K. apply citems_bounded in K. exact K. Qed.
Lemma fields_of_words : forall a b, flat_map item_fields (map part_item (a ++ b)) = flat_map item_fields (map part_item a) ++ flat_map item_fields (map part_item b).
Proof. intros. rewrite map_app, flat_map_app. reflexivity. Qed.

Theorem C90_refuted : forall sha256 kimchi checked s ds v, (forall x, bytes32 (sha256 x)) -> body_ok (s_body s) ->
  length ds = 10%nat -> Forall u32 ds -> (length v <= 27)%nat -> bytes_ok v ->
  with_window_current s (ds ++ [0]) v <> with_window_current s ds ([0; 0; 0; 0] ++ v) /\
  state_hash sha256 kimchi checked (with_window_current s (ds ++ [0]) v) = state_hash sha256 kimchi checked (with_window_current s ds ([0; 0; 0; 0] ++ v)).
Proof.
  intros sha256 kimchi checked s ds v Sha O Ld Kd L V. split.
  - intros E. apply (f_equal (fun t => length (sub_window_densities (body_consensus (s_body t))))) in E. cbn [s_body body_consensus with_window_current sub_window_densities with_window] in E.
    rewrite app_length in E. cbn [length] in E. lia.
  - destruct O as (O1 & O2 & O3 & O4). assert (Z4 : bytes_ok [0; 0; 0; 0]) by (unfold bytes_ok, byte_ok; repeat (apply Forall_cons; [lia|]); apply Forall_nil).
    assert (W : forall a b, Forall u32 a -> bytes_ok b -> consensus_ok (with_window (body_consensus (s_body s)) a b)).
    { intros a b Ka Kb. destruct O3 as (A1 & A2 & A3 & A4 & A5 & A6 & A7 & A8 & A9 & A10 & A11). exact (conj A1 (conj A2 (conj A3 (conj Ka (conj Kb (conj A6 (conj A7 (conj A8 (conj A9 (conj A10 A11)))))))))). }
    unfold state_hash. rewrite !body_c; [| |].
    2:{ split; [exact O1|]. split; [exact O2|]. split; [apply W; [exact Kd|apply bytes_ok_app; auto]|exact O4]. }
    2:{ split; [exact O1|]. split; [exact O2|]. split; [apply W; [apply Forall_app; split; [exact Kd|apply Forall_cons; [unfold u32; lia|apply Forall_nil]]|exact V]|exact O4]. }
    cbn [s_body s_previous with_window_current]. unfold cpart. cbn [body_constants body_genesis_state_hash body_blockchain body_consensus].
    unfold body_parts. cbn [body_constants body_genesis_state_hash body_blockchain body_consensus].
    rewrite !window_parts, !forallb_app, !dens_good, !vrf_good. cbn [andb].
    match goal with |- (let* _ := (if ?c then _ else _) in _) = _ => destruct c end; [|reflexivity]. cbn [bind].
    apply (f_equal (fun r => let* b := r in _ b)). unfold roinput_of_chunked. apply (f_equal (fun r => let* b := r in _ b)).
    set (pre := constants_parts (body_constants (s_body s)) ++ [Hs (body_genesis_state_hash (s_body s))] ++ blockchain_parts sha256 (body_blockchain (s_body s)) ++
                consensus_head (body_consensus (s_body s)) ++ dens_parts ds).
    set (T := consensus_tail (body_consensus (s_body s))).
    assert (E1 : constants_parts (body_constants (s_body s)) ++ [Hs (body_genesis_state_hash (s_body s))] ++ blockchain_parts sha256 (body_blockchain (s_body s)) ++
                 consensus_head (body_consensus (s_body s)) ++ (dens_parts (ds ++ [0]) ++ vrf_parts v) ++ T = pre ++ (It (W32 0) :: It (Bs v) :: T)).
    { unfold pre. rewrite (vrf_short v) by lia. unfold dens_parts. rewrite map_app. repeat rewrite <- app_assoc. reflexivity. }
    assert (E2 : constants_parts (body_constants (s_body s)) ++ [Hs (body_genesis_state_hash (s_body s))] ++ blockchain_parts sha256 (body_blockchain (s_body s)) ++
                 consensus_head (body_consensus (s_body s)) ++ (dens_parts ds ++ vrf_parts ([0; 0; 0; 0] ++ v)) ++ T = pre ++ (It (Bs ([0; 0; 0; 0] ++ v)) :: T)).
    { unfold pre. rewrite (vrf_short ([0; 0; 0; 0] ++ v)) by (rewrite app_length; cbn [length]; lia). repeat rewrite <- app_assoc. reflexivity. }
    rewrite E1, E2. clear E1 E2. unfold into_fields, citems. cbn [c_packed c_fields]. rewrite !fields_of_words.
    cbn [map part_item flat_map item_fields app]. 
    match goal with |- bind ?a _ = bind ?b _ => assert (E : a = b); [|rewrite E; reflexivity] end.
    rewrite !map_app, !flat_map_app. cbn [map part_item flat_map item_packed].
    assert (P0 : Forall part_ok pre).
    { unfold pre. repeat rewrite Forall_app. split; [apply constants_pok; exact O4|]. split; [oks|]. split.
      - destruct O2 as (B1 & B2 & B3 & B4 & B5 & B6). unfold blockchain_parts. repeat rewrite Forall_app. pose proof (digest_ok sha256 Sha (b_staged (body_blockchain (s_body s)))).
        split; [oks|]. split; [apply local_pok; exact B4|]. destruct B6 as [B6 B7]. oks.
      - split; [destruct O3 as (A1 & A2 & A3 & _); unfold consensus_head; oks|apply dens_pok, Kd]. }
    assert (Fin : final 0 (map snd (flat_map item_packed (map part_item pre))) = 128).
    { rewrite parts_widths. unfold pre. destruct O2 as (_ & _ & _ & _ & _ & [B6 _]).
      do 10 (destruct ds as [|? ds]; [discriminate Ld|]). destruct ds; [|discriminate Ld].
      unfold blockchain_parts, pkind. rewrite !map_app. cbn [map part_item kind_of dens_parts constants_parts local_parts consensus_head].
      rewrite (digest_length sha256 Sha), B6. vm_compute. reflexivity. }
    apply pack_prefix; [apply parts_chunks; exact P0|lia|cbn; lia|]. rewrite Fin. intros s' S'.
    change (0 :: 0 :: 0 :: 0 :: v) with ([0; 0; 0; 0] ++ v). rewrite byte_bits_app, map_app, <- app_assoc. apply (pack_word checked 32); [lia|lia|reflexivity || lia|exact S'].
Qed.

(** Bytes of the VRF output after the 32nd are not hashed at all, and the
    failure table of the local state neither. *)
Theorem C90_vrf_refuted : forall sha256 kimchi checked s ds v e, length v = 32%nat ->
  state_hash sha256 kimchi checked (with_window_current s ds (v ++ e)) = state_hash sha256 kimchi checked (with_window_current s ds v).
Proof.
  intros sha256 kimchi checked s ds v e L. unfold state_hash, body_chunked, consensus_chunked. cbn [s_body s_previous with_window_current body_constants
    body_genesis_state_hash body_blockchain body_consensus with_window sub_window_densities last_vrf_output total_currency slot_number cs_slots_per_epoch
    global_slot_since_genesis staking_epoch_data next_epoch_data has_ancestor block_stake_winner block_creator coinbase_receiver supercharge_coinbase
    blockchain_length epoch_count min_window_density].
  rewrite !vrf_c. replace (vrf_parts (v ++ e)) with (vrf_parts v); [reflexivity|].
  unfold vrf_parts. rewrite app_length, L. replace (32 <=? 31)%nat with false by reflexivity. replace (32 + length e <=? 31)%nat with false by lia.
  rewrite app_nth1 by lia. rewrite firstn_app. replace (31 - length v)%nat with 0%nat by lia. rewrite firstn_O, app_nil_r. reflexivity.
Qed.

(** ** A concrete state *)
Definition h7 : list Z := repeat 7 32.
Definition ex_epoch : epoch_data := mk_epoch h7 805385692840039233 h7 h7 h7 7140.
Definition ex_consensus : consensus :=
  mk_consensus 77 3 62 [1; 7; 7; 7; 7; 7; 7; 7; 7; 7; 7] (repeat 200 32) 1013238001000001000 2230 7140 23650 ex_epoch ex_epoch true
    (mk_pk 5 true) (mk_pk 6 false) (mk_pk 5 true) false.
Definition ex_staged : staged := mk_staged h7 (repeat 3 32) (repeat 4 32) h7.
Definition ex_constants : constants := mk_constants 290 7140 7 0 1615939200000.
Definition ex_legacy : state_legacy :=
  mk_state_legacy h7 (mk_body_legacy h7 (mk_bl ex_staged h7 h7 2 1656092341000) ex_consensus ex_constants).
Definition ex_local (h : list Z) : local_state := mk_local h h7 h7 h7 1 12 true h7 true 2 1.
Definition ex_state (h : list Z) : state :=
  mk_state h7 (mk_body h7 (mk_blockchain ex_staged h7 h7 (ex_local h) 1656092341000 (repeat 9 32)) ex_consensus ex_constants).
Lemma repeat_ok : forall x, 0 <= x < 256 -> bytes32 (repeat x 32).
Proof. intros x X. split; [apply repeat_length|]. apply Forall_forall. intros y I. apply repeat_spec in I. subst. exact X. Qed.
Lemma ex_epoch_ok : epoch_ok ex_epoch.
Proof. assert (bytes32 h7) by (apply repeat_ok; lia). unfold epoch_ok, ex_epoch, u64, u32. cbn. intuition lia. Qed.
Lemma ex_consensus_ok : consensus_ok ex_consensus.
Proof.
  pose proof ex_epoch_ok. unfold consensus_ok, ex_consensus.
  cbn [blockchain_length epoch_count min_window_density sub_window_densities last_vrf_output total_currency slot_number cs_slots_per_epoch global_slot_since_genesis staking_epoch_data next_epoch_data].
  unfold u32, u64. repeat split; try lia; try assumption; try (apply (repeat_ok 200); lia); try apply ex_epoch_ok.
  repeat (apply Forall_cons; [lia|]). apply Forall_nil.
Qed.
Lemma ex_ok : forall h, bytes32 h -> body_ok (s_body (ex_state h)).
Proof.
  intros h H. assert (bytes32 h7) by (apply repeat_ok; lia). pose proof ex_consensus_ok. assert (bytes32 (repeat 9 32)) by (apply repeat_ok; lia).
  unfold body_ok, blockchain_ok, local_ok, constants_ok, ex_state, u32, u64. cbn -[bytes32 h7 repeat ex_consensus consensus_ok].
  intuition lia.
Qed.
Example C90_ex : body_ok (s_body (ex_state h7)) /\ Forall canonical (s_previous (ex_state h7) :: body_hashes (s_body (ex_state h7))) /\
  body_legacy_ok (sl_body ex_legacy) /\ Forall canonical (sl_previous ex_legacy :: body_legacy_hashes (sl_body ex_legacy)) /\
  same_shape ex_consensus (with_window ex_consensus [1; 7; 7; 7; 7; 7; 7; 7; 7; 7; 8] (repeat 200 32)) /\
  norm_consensus ex_consensus <> norm_consensus (with_window ex_consensus [1; 7; 7; 7; 7; 7; 7; 7; 7; 7; 8] (repeat 200 32)).
Proof.
  assert (H : bytes32 h7) by (apply repeat_ok; lia). assert (C : canonical h7) by reflexivity. pose proof ex_consensus_ok as K.
  split; [apply ex_ok; exact H|]. split.
  { cbn -[canonical h7]. repeat (apply Forall_cons; [exact C|]). apply Forall_nil. }
  split.
  { unfold body_legacy_ok, blockchain_legacy_ok, constants_ok, ex_legacy, u32, u64. cbn -[bytes32 h7 ex_consensus consensus_ok]. intuition lia. }
  split.
  { cbn -[canonical h7]. repeat (apply Forall_cons; [exact C|]). apply Forall_nil. }
  split; [split; reflexivity|]. intros E. apply (f_equal sub_window_densities) in E. discriminate E.
Qed.

(** ** C91: a stack frame hash that is not a field element crashes the hash *)
Theorem C91_refuted : forall sha256 kimchi checked, (forall x, bytes32 (sha256 x)) ->
  exists s, body_ok (s_body s) /\ state_hash sha256 kimchi checked s = Panic.
Proof.
  intros sha256 kimchi checked Sha. exists (ex_state (repeat 255 32)). assert (O : body_ok (s_body (ex_state (repeat 255 32)))) by (apply ex_ok, repeat_ok; lia).
  split; [exact O|]. apply (C91_panics_iff sha256 checked Sha kimchi _ O). apply Exists_exists. exists (repeat 255 32). split; [cbn; tauto|].
  unfold canonical. vm_compute. congruence.
Qed.
Theorem C91_legacy_refuted : forall sha256 legacy, exists s, body_legacy_ok (sl_body s) /\ state_hash_legacy sha256 legacy s = Panic.
Proof.
  intros sha256 legacy. exists (mk_state_legacy (repeat 255 32) (sl_body ex_legacy)). split; [apply C90_ex|].
  apply C91_legacy_panics_iff. cbn [sl_previous sl_body]. apply Exists_cons_hd. unfold canonical. vm_compute. congruence.
Qed.
Example C58_ex : length (ledger_hash ex_staged) = 32%nat /\ ex_staged <> mk_staged h7 (repeat 3 32) (repeat 5 32) h7.
Proof. split; [reflexivity|discriminate]. Qed.

Print Assumptions C90_legacy_iff.
Print Assumptions C90_iff.
Print Assumptions C90_state_legacy.
Print Assumptions C90_state.
Print Assumptions C91_legacy_panics_iff.
Print Assumptions C91_panics_iff.
Print Assumptions C58_refuted.
Print Assumptions C58_fixed_lengths.
Print Assumptions C90_legacy_refuted.
Print Assumptions C90_refuted.
Print Assumptions C90_vrf_refuted.
Print Assumptions C91_refuted.
Print Assumptions C91_legacy_refuted.
