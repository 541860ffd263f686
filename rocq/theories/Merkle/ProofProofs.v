(** Inclusion proofs and Merkle paths: lemmas. *)
From Coq Require Import ZArith List Bool Lia ZifyBool ZifyNat.
From Verif Require Import Lib.Res Lib.Vec Merkle.Tree Merkle.MerkleSpec Merkle.TreeProofs.
Import ListNotations.
Open Scope Z_scope.
Ltac Zify.zify_post_hook ::= Z.div_mod_to_equations.

Lemma uadd_ok : forall E checked a b, a + b <= usize_max -> @uadd E checked a b = Ok (a + b).
Proof. intros. unfold uadd. replace (a + b <=? usize_max) with true by lia. reflexivity. Qed.
Lemma usub_ok : forall E checked a b, b <= a -> @usub E checked a b = Ok (a - b).
Proof. intros. unfold usub. replace (b <=? a) with true by lia. reflexivity. Qed.
Lemma parent_index_ok : forall checked I, 2 <= I -> parent_index checked (I - 1) = Ok (I / 2 - 1).
Proof. intros. unfold parent_index. rewrite usub_ok by lia. cbn [bind]. f_equal. lia. Qed.

Lemma lev_parent : forall V k I, lev V k I -> k < V -> lev V (k + 1) (I / 2).
Proof.
  intros V k I [A B] H. split; [lia|]. replace (V - (k + 1) + 1) with (V - k) by lia.
  pose proof (pow2_S (V - (k + 1)) ltac:(lia)) as E. replace (V - (k + 1) + 1) with (V - k) in E by lia.
  pose proof (pow2_S (V - k) ltac:(lia)) as E2. rewrite E2, E in B. lia.
Qed.
Lemma lev_bound : forall V k I, V <= 62 -> lev V k I -> 1 <= I < 2 ^ 63.
Proof.
  intros V k I HV L. pose proof (lev_pos _ _ _ L). destruct L as [A B].
  pose proof (pow2_le (V - k + 1) 63 ltac:(lia)). lia.
Qed.
Lemma lev_ge2 : forall V k I, lev V k I -> k < V -> 2 <= I.
Proof.
  intros V k I [A B] H. pose proof (pow2_le 1 (V - k) ltac:(lia)). change (2 ^ 1) with 2 in *. lia.
Qed.

Lemma sibling_mod : forall i, sibling i = if i mod 2 =? 0 then i - 1 else i + 1.
Proof.
  intros i. unfold sibling. rewrite Zeven_mod. unfold Zeq_bool.
  destruct (i mod 2 ?= 0) eqn:E; destruct (i mod 2 =? 0) eqn:F; auto; exfalso.
  - apply Z.compare_eq in E. lia.
  - rewrite Z.compare_lt_iff in E. lia.
  - rewrite Z.compare_gt_iff in E. lia.
Qed.

Section Proofs.
Context {Item Hash : Type}.
Variable hasher : Item -> meta -> Hash.
Variable merger : option Hash -> option Hash -> meta -> option Hash.
Notation tree := (tree Item Hash).
Notation val := (val hasher merger).
Notation inv := (inv hasher merger).

(** After the root has been read every hash is cached. *)
Lemma all_done : forall t items, inv t items -> done t 1 ->
  forall I, 1 <= I -> I < 2 * 2 ^ vheight t -> done t I.
Proof.
  intros t items Hinv D1.
  assert (G : forall n I, I <= Z.of_nat n -> 1 <= I -> I < 2 * 2 ^ vheight t -> done t I).
  { induction n as [|n IH]; intros I Hn HI HB; [lia|].
    destruct (Z.eq_dec I 1) as [->|N]; auto.
    pose proof (inv_len _ _ _ _ Hinv) as Hl.
    apply (inv_closed _ _ _ _ Hinv); [lia|].
    destruct (IH (I / 2)) as [A _]; try lia. apply A. lia. }
  intros I HI HB. apply (G (Z.to_nat I)); lia.
Qed.

(** All hashes available in the cache, by position. *)
Record cached (t : tree) (items : list Item) : Prop := {
  c_items : map fst (leafs t) = items;
  c_len : zlen (nodes t) = 2 ^ vheight t - 1;
  c_node : forall k I, lev (vheight t) (Z.of_nat k) I -> (0 < k)%nat ->
    znth (nodes t) (I - 1) = Some (val (vheight t) items k I);
  c_leaf : forall p, 0 <= p < 2 ^ vheight t ->
    match znth (leafs t) p with Some (_, h) => h | None => None end = val (vheight t) items 0 (2 ^ vheight t + p) }.

Lemma inv_cached : merger_total merger -> forall t items, inv t items -> done t 1 -> cached t items.
Proof.
  intros T t items Hinv D1. pose proof (inv_height _ _ _ _ Hinv) as HH.
  destruct (calculate_height_range (zlen items) (zlen_nonneg _ _)) as (R1 & R2 & _). rewrite <- HH in *.
  pose proof (inv_len _ _ _ _ Hinv) as Hl.
  constructor.
  - exact (inv_items _ _ _ _ Hinv).
  - exact Hl.
  - intros k I L Hk. pose proof (lev_inner _ _ _ L ltac:(lia)) as A. pose proof (lev_pos _ _ _ L) as B.
    destruct (all_done t items Hinv D1 I) as [C _]; [lia|lia|].
    destruct C as [h C]; [lia|]. fold (node_at t I). rewrite C. f_equal. symmetry.
    eapply inv_node; eauto.
  - intros p Hp. cbn [TreeProofs.val]. replace (2 ^ vheight t + p - 2 ^ vheight t) with p by lia.
    rewrite <- (inv_items _ _ _ _ Hinv), znth_map.
    destruct (znth (leafs t) p) as [[x c]|] eqn:E; [|reflexivity]. cbn [option_map fst].
    destruct (all_done t items Hinv D1 (2 ^ vheight t + p)) as [_ C]; [lia|lia|].
    assert (c <> None).
    { apply (C ltac:(lia) x). rewrite Hl. replace (2 ^ vheight t + p - 1 - (2 ^ vheight t - 1)) with p by lia. exact E. }
    destruct c as [h|]; [|congruence]. f_equal. eapply inv_leaf; eauto.
Qed.

(** The part of a proof above the stored tree. *)
Lemma loop_virtual : merger_ignores_depth merger -> forall checked F ns j fuel acc,
  F <= 62 -> (Z.of_nat j <= F) -> (j <= fuel)%nat ->
  exists rest, proof_loop checked fuel ns 0 (2 ^ Z.of_nat j - 1) = Ok rest /\ length rest = j /\
    map fst rest = sibling_indices j (2 ^ Z.of_nat j - 1) /\
    root_loop merger checked F (map fst rest) (map snd rest) (2 ^ Z.of_nat j - 1) acc
      = Ok (extend merger j (Z.to_nat F - j) acc).
Proof.
  intros MD checked F ns. induction j as [|j IH]; intros fuel acc HF Hj Hfu.
  - exists []. destruct fuel; cbn; auto.
  - destruct fuel as [|fuel]; [lia|].
    pose proof (pow2_S (Z.of_nat j) ltac:(lia)) as E. pose proof (pow2_pos (Z.of_nat j) ltac:(lia)) as P.
    pose proof (pow2_le (Z.of_nat j + 1) 63 ltac:(lia)) as B. change (2 ^ 63) with 9223372036854775808 in B.
    pose proof usize_max_val as UM.
    replace (Z.of_nat (S j)) with (Z.of_nat j + 1) by lia. rewrite E in *.
    destruct (IH fuel (merger acc None {| m_depth := Z.of_nat j; m_height := F - Z.of_nat j |})) as (rest & A & LN & SI & R); try lia.
    exists ((2 * 2 ^ Z.of_nat j, None) :: rest). cbn [proof_loop].
    replace (2 * 2 ^ Z.of_nat j - 1 <=? 0) with false by lia. cbn [Z.ltb Z.compare].
    rewrite uadd_ok by lia. cbn [bind].
    rewrite parent_index_ok by lia. cbn [bind].
    replace (2 * 2 ^ Z.of_nat j / 2 - 1) with (2 ^ Z.of_nat j - 1) by lia. rewrite A. cbn [bind].
    replace (2 * 2 ^ Z.of_nat j - 1 + 1) with (2 * 2 ^ Z.of_nat j) by lia.
    split; [reflexivity|]. split; [cbn; lia|]. split.
    { cbn [map fst sibling_indices]. f_equal.
      - rewrite sibling_mod. replace ((2 * 2 ^ Z.of_nat j - 1) mod 2 =? 0) with false by lia. lia.
      - rewrite SI. f_equal. lia. }
    cbn [map fst snd root_loop]. unfold get_ordered_siblings. rewrite uadd_ok by lia. cbn [bind].
    replace (2 * 2 ^ Z.of_nat j - 1 + 1 =? 2 * 2 ^ Z.of_nat j) with true by lia. cbn [bind].
    rewrite parent_index_ok by lia. cbn [bind].
    replace (2 * 2 ^ Z.of_nat j / 2 - 1) with (2 ^ Z.of_nat j - 1) by lia.
    rewrite (mk_meta_lev checked F (F - Z.of_nat j)); [|lia|].
    2:{ split; [lia|]. replace (F - (F - Z.of_nat j)) with (Z.of_nat j) by lia. rewrite E. lia. }
    cbn [bind]. replace (F - (F - Z.of_nat j)) with (Z.of_nat j) by lia.
    rewrite R. cbn [extend]. replace (S (Z.to_nat F - S j)) with (Z.to_nat F - j)%nat by lia.
    do 2 f_equal. apply MD. cbn. lia.
Qed.

Definition sib (I : Z) : Z := if I mod 2 =? 0 then I + 1 else I - 1.

Lemma sib_sibling : forall I, sib I - 1 = sibling (I - 1).
Proof.
  intros I. unfold sib. rewrite sibling_mod.
  destruct (I mod 2 =? 0) eqn:E; destruct ((I - 1) mod 2 =? 0) eqn:F; lia.
Qed.

Lemma ordered_ok : forall checked I (a b : option Hash), 2 <= I -> I < 2 ^ 63 + 2 ^ 62 ->
  get_ordered_siblings checked (I - 1) a (sib I - 1) b
  = Ok (if I mod 2 =? 0 then (a, b) else (b, a)).
Proof.
  intros checked I a b H B. unfold get_ordered_siblings, sib.
  change (2 ^ 63) with 9223372036854775808 in B. change (2 ^ 62) with 4611686018427387904 in B.
  pose proof usize_max_val as UM.
  rewrite uadd_ok by lia. cbn [bind]. destruct (I mod 2 =? 0) eqn:E.
  - replace (I - 1 + 1 =? I + 1 - 1) with true by lia. reflexivity.
  - replace (I - 1 + 1 =? I - 1 - 1) with false by lia. rewrite uadd_ok by lia. cbn [bind].
    replace (I - 1 =? I - 1 - 1 + 1) with true by lia. reflexivity.
Qed.

(** Merging a node with its sibling gives the parent. *)
Lemma val_parent : forall V items s P, 
  val V items (S s) (P / 2)
  = (let '(l, r) := (if P mod 2 =? 0 then (val V items s P, val V items s (sib P))
                     else (val V items s (sib P), val V items s P)) in
     merger l r {| m_depth := V - Z.of_nat (S s); m_height := Z.of_nat (S s) |}).
Proof.
  intros V items s P. cbn [TreeProofs.val]. unfold sib. destruct (P mod 2 =? 0) eqn:E.
  - replace (2 * (P / 2)) with P by lia. reflexivity.
  - replace (2 * (P / 2) + 1) with P by lia. replace (2 * (P / 2)) with (P - 1) by lia. reflexivity.
Qed.

(** One step of root_hash from level s to s + 1 in a tree of height F. *)
Lemma root_step : forall checked F items V s P PO is hs,
  F <= 62 -> lev V (Z.of_nat s) P -> Z.of_nat s < V -> V <= F -> lev F (Z.of_nat s) PO ->
  PO mod 2 = P mod 2 -> (F = V \/ merger_ignores_depth merger) ->
  root_loop merger checked F ((sib PO - 1) :: is) (val V items s (sib P) :: hs) (PO - 1) (val V items s P)
  = root_loop merger checked F is hs (PO / 2 - 1) (val V items (S s) (P / 2)).
Proof.
  intros checked F items V s P PO is hs HF LP Hs HVF LO EQ MD.
  pose proof (lev_bound _ _ _ HF LO) as B. pose proof (lev_ge2 _ _ _ LO ltac:(lia)) as G.
  cbn [root_loop].
  rewrite ordered_ok by (change (2 ^ 62) with 4611686018427387904; lia). rewrite EQ.
  rewrite val_parent.
  assert (MM : forall l r, merger l r {| m_depth := F - (Z.of_nat s + 1); m_height := Z.of_nat s + 1 |}
    = merger l r {| m_depth := V - Z.of_nat (S s); m_height := Z.of_nat (S s) |}).
  { intros l r. destruct MD as [->|MD].
    - replace (Z.of_nat (S s)) with (Z.of_nat s + 1) by lia. reflexivity.
    - apply MD. cbn [m_height]. lia. }
  rewrite parent_index_ok by lia.
  pose proof (mk_meta_lev checked F (Z.of_nat s + 1) (PO / 2) HF (lev_parent _ _ _ LO ltac:(lia))) as ME.
  destruct (P mod 2 =? 0); cbn [bind]; rewrite ME; cbn [bind]; rewrite MM; reflexivity.
Qed.

Lemma lev_sib : forall V k I, lev V k I -> k < V -> lev V k (sib I).
Proof.
  intros V k I [A B] H. split; [auto|]. unfold sib.
  pose proof (pow2_S (V - k - 1) ltac:(lia)) as E. replace (V - k - 1 + 1) with (V - k) in E by lia.
  pose proof (pow2_S (V - k) ltac:(lia)) as E2. rewrite E2 in *. destruct (I mod 2 =? 0) eqn:M; lia.
Qed.

(** The part of a proof inside the stored tree. *)
Lemma loop_real : forall checked F t items,
  F <= 62 -> vheight t <= F -> cached t items -> (F = vheight t \/ merger_ignores_depth merger) ->
  forall j s fuel P,
  Z.of_nat s = vheight t - Z.of_nat j -> (0 < s)%nat -> (Z.to_nat F - s <= fuel)%nat ->
  lev (vheight t) (Z.of_nat s) P ->
  let PO := P + (2 ^ (F - Z.of_nat s) - 2 ^ (vheight t - Z.of_nat s)) in
  exists rest, proof_loop checked fuel (nodes t) (P - 1) (PO - 1) = Ok rest
    /\ length rest = (Z.to_nat F - s)%nat
    /\ map fst rest = sibling_indices (Z.to_nat F - s) (PO - 1)
    /\ root_loop merger checked F (map fst rest) (map snd rest) (PO - 1) (val (vheight t) items s P)
       = Ok (extend merger (Z.to_nat F - Z.to_nat (vheight t)) (Z.to_nat (vheight t))
               (val (vheight t) items (Z.to_nat (vheight t)) 1)).
Proof.
  intros checked F t items HF HVF Hc MD. set (V := vheight t) in *.
  induction j as [|j IH]; intros s fuel P Hs H0 Hfu L PO.
  - assert (EV : V = Z.of_nat s) by lia.
    assert (P = 1) as ->.
    { destruct L as [_ L]. replace (V - Z.of_nat s) with 0 in L by lia. cbn in L. lia. }
    subst PO. replace (V - Z.of_nat s) with 0 by lia.
    replace (1 + (2 ^ (F - Z.of_nat s) - 2 ^ 0) - 1) with (2 ^ (F - Z.of_nat s) - 1) by (change (2 ^ 0) with 1; lia).
    replace (1 - 1) with 0 by lia.
    destruct MD as [->|MD].
    + replace (V - Z.of_nat s) with 0 by lia. exists []. cbn [map root_loop].
      replace (Z.to_nat V - Z.to_nat V)%nat with O by lia. cbn [extend].
      replace (Z.to_nat V) with s by lia. replace (s - s)%nat with O by lia. repeat split; auto.
      destruct fuel; reflexivity.
    + destruct (loop_virtual MD checked F (nodes t) (Z.to_nat F - s)%nat fuel (val V items s 1)) as (rest & A & LN & SI & R); try lia.
      replace (Z.of_nat (Z.to_nat F - s)) with (F - Z.of_nat s) in * by lia.
      exists rest. split; [exact A|]. split; [exact LN|]. split; [exact SI|]. rewrite R.
      replace (Z.to_nat V) with s by lia. do 2 f_equal. lia.
  - assert (Hlt : Z.of_nat s < V) by lia.
    pose proof (pow2_S (V - Z.of_nat s - 1) ltac:(lia)) as E1. replace (V - Z.of_nat s - 1 + 1) with (V - Z.of_nat s) in E1 by lia.
    pose proof (pow2_S (F - Z.of_nat s - 1) ltac:(lia)) as E2. replace (F - Z.of_nat s - 1 + 1) with (F - Z.of_nat s) in E2 by lia.
    assert (LO : lev F (Z.of_nat s) PO).
    { destruct L as [L1 L2]. split; [lia|]. unfold PO.
      pose proof (pow2_S (F - Z.of_nat s) ltac:(lia)) as E3. pose proof (pow2_S (V - Z.of_nat s) ltac:(lia)) as E4.
      pose proof (pow2_le (V - Z.of_nat s) (F - Z.of_nat s) ltac:(lia)). lia. }
    assert (EM : PO mod 2 = P mod 2) by (unfold PO; rewrite E1, E2; lia).
    assert (EH : PO / 2 = P / 2 + (2 ^ (F - Z.of_nat (S s)) - 2 ^ (V - Z.of_nat (S s)))).
    { unfold PO. rewrite E1, E2. replace (F - Z.of_nat (S s)) with (F - Z.of_nat s - 1) by lia.
      replace (V - Z.of_nat (S s)) with (V - Z.of_nat s - 1) by lia. lia. }
    pose proof (lev_parent _ _ _ L Hlt) as LP. replace (Z.of_nat s + 1) with (Z.of_nat (S s)) in LP by lia.
    destruct fuel as [|fuel]; [lia|].
    destruct (IH (S s) fuel (P / 2)) as (rest & A & LN & SI & R); try lia; [exact LP|].
    rewrite <- EH in *.
    pose proof (lev_bound _ _ _ HF LO) as B. pose proof (lev_ge2 _ _ _ LO ltac:(lia)) as G.
    pose proof (lev_ge2 _ _ _ L Hlt) as G2.
    pose proof (lev_bound V _ _ ltac:(lia) L) as B2.
    change (2 ^ 63) with 9223372036854775808 in B, B2. pose proof usize_max_val as UM.
    exists ((sib PO - 1, val V items s (sib P)) :: rest). split; [|split; [|split]].
    + cbn [proof_loop]. replace (PO - 1 <=? 0) with false by lia. replace (0 <? P - 1) with true by lia.
      assert (E : (if (P - 1) mod 2 =? 0 then usub checked (P - 1) 1 else uadd checked (P - 1) 1)
        = @Ok merkle_error Z (sib P - 1)).
      { unfold sib. destruct ((P - 1) mod 2 =? 0) eqn:M.
        - replace (P mod 2 =? 0) with false by lia. rewrite usub_ok by lia. reflexivity.
        - replace (P mod 2 =? 0) with true by lia. rewrite uadd_ok by lia. f_equal. lia. }
      rewrite E. cbn [bind].
      assert (SB : sib P - P = sib PO - PO) by (unfold sib; rewrite EM; destruct (P mod 2 =? 0); lia).
      assert (SB2 : P - 1 <= sib P <= P + 1) by (unfold sib; destruct (P mod 2 =? 0); lia).
      rewrite uadd_ok by lia. cbn [bind]. rewrite usub_ok by lia. cbn [bind].
      rewrite (c_node _ _ Hc s (sib P) (lev_sib _ _ _ L Hlt) H0).
      rewrite !parent_index_ok by lia. cbn [bind]. rewrite A. cbn [bind]. do 3 f_equal. lia.
    + cbn [length]. lia.
    + replace (Z.to_nat F - s)%nat with (S (Z.to_nat F - S s)) by lia. cbn [map fst sibling_indices].
      f_equal; [apply sib_sibling|]. rewrite SI. f_equal. lia.
    + cbn [map fst snd]. rewrite root_step; auto.
Qed.

(** A proof issued for a leaf computes the root. *)
Lemma get_proof_ok : merger_total merger -> hasher_ignores_depth hasher ->
  forall checked t items i x,
  inv t items -> 2 <= zlen items < 2 ^ 62 -> znth items i = Some x ->
  (fixed t = None \/ exists F, fixed t = Some F /\ vheight t <= F <= 62 /\ merger_ignores_depth merger) ->
  exists t' p r, get_proof hasher merger checked t i = Ok (t', Some p)
    /\ inv t' items /\ fixed t' = fixed t
    /\ extend merger (Z.to_nat (height t) - Z.to_nat (vheight t)) (Z.to_nat (vheight t))
         (mroot hasher merger (Z.to_nat (vheight t)) 0 items) = Some r
    /\ root_hash hasher merger checked p = Ok r
    /\ p_item p = x /\ well_formed_proof (Z.to_nat (height t)) i p.
Proof.
  intros T D checked t items i x Hinv Hn Hx Hm.
  destruct (top_ok hasher merger T D checked items t Hinv ltac:(lia)) as (t' & A & I' & FX & VX & D1).
  pose proof (inv_cached T t' items I' D1) as Hc.
  pose proof (inv_height _ _ _ _ I') as HH.
  pose proof (calculate_height_bound (zlen items) ltac:(lia)) as HB.
  destruct (calculate_height_range (zlen items)) as (R1 & R2 & R3); [lia|].
  assert (HV1 : 1 <= vheight t').
  { destruct (Z.eq_dec (calculate_height (zlen items)) 0) as [E|E]; [|lia]. rewrite E in R2. change (2 ^ 0) with 1 in R2. lia. }
  rewrite <- HH in *.
  set (V := vheight t') in *. set (F := height t').
  assert (HF : V <= F <= 62 /\ (F = V \/ merger_ignores_depth merger)).
  { unfold F, height. rewrite FX. destruct Hm as [->|(F0 & -> & B & M)]; [lia|].
    rewrite VX in *. auto. }
  assert (EHT : height t = F) by (unfold F, height; rewrite FX; fold V; rewrite VX; reflexivity).
  destruct HF as [HF MD].
  pose proof (pow2_le F 62 ltac:(lia)) as B62. change (2 ^ 62) with 4611686018427387904 in *.
  pose proof (pow2_le V F ltac:(lia)) as BVF. pose proof (pow2_pos V ltac:(lia)) as PV.
  pose proof usize_max_val as UM.
  pose proof (znth_range _ _ _ _ Hx) as Ri.
  pose proof (c_len _ _ Hc) as Hl. fold V in Hl.
  pose proof (pow2_S (V - 1) ltac:(lia)) as EV. replace (V - 1 + 1) with V in EV by lia.
  pose proof (pow2_S (F - 1) ltac:(lia)) as EF. replace (F - 1 + 1) with F in EF by lia.
  assert (L0 : lev V (Z.of_nat 0) (2 ^ V + i)).
  { split; [lia|]. replace (V - Z.of_nat 0) with V by lia. rewrite pow2_S by lia. lia. }
  assert (LO : lev F (Z.of_nat 0) (2 ^ F + i)).
  { split; [lia|]. replace (F - Z.of_nat 0) with F by lia. rewrite pow2_S by lia. lia. }
  destruct (loop_real checked F t' items ltac:(lia) ltac:(lia) Hc MD (Z.to_nat (V - 1)) 1%nat 64%nat ((2 ^ V + i) / 2))
    as (rest & PL & LN & SI & RL); try (fold V; lia).
  { fold V. exact (lev_parent _ _ _ L0 ltac:(lia)). }
  fold V in PL, SI, RL. change (Z.of_nat 1) with 1 in *.
  assert (EPO : (2 ^ V + i) / 2 + (2 ^ (F - 1) - 2 ^ (V - 1)) = (2 ^ F + i) / 2) by lia.
  rewrite EPO in *.
  set (peer := if i mod 2 =? 0 then i + 1 else i - 1).
  assert (EP : 2 ^ V + peer = sib (2 ^ V + i)).
  { unfold peer, sib. rewrite EV. replace ((2 * 2 ^ (V - 1) + i) mod 2) with (i mod 2) by lia.
    destruct (i mod 2 =? 0); lia. }
  assert (EPF : 2 ^ F - 1 + peer = sib (2 ^ F + i) - 1).
  { unfold peer, sib. rewrite EF. replace ((2 * 2 ^ (F - 1) + i) mod 2) with (i mod 2) by lia.
    destruct (i mod 2 =? 0); lia. }
  assert (Rpeer : 0 <= peer < 2 ^ V).
  { pose proof (lev_sib _ _ _ L0 ltac:(lia)) as [_ X]. rewrite <- EP in X.
    replace (V - Z.of_nat 0) with V in X by lia. rewrite pow2_S in X by lia. lia. }
  destruct (val_total hasher merger T V items (Z.to_nat V) 1 ltac:(lia)) as [rv Hrv].
  assert (MR : mroot hasher merger (Z.to_nat (vheight t)) 0 items = val V items (Z.to_nat V) 1).
  { rewrite val_mroot by (rewrite ?Z2Nat.id; lia). rewrite Z2Nat.id by lia.
    replace (1 * 2 ^ V - 2 ^ V) with 0 by lia. cbn [skipn Z.to_nat].
    rewrite firstn_all2; [|apply Nat2Z.inj_le; rewrite pow2_nat, Z2Nat.id by lia; exact R2].
    replace (V - V) with 0 by lia. rewrite <- VX. reflexivity. }
  assert (ER : exists r, extend merger (Z.to_nat F - Z.to_nat V) (Z.to_nat V) (val V items (Z.to_nat V) 1) = Some r).
  { rewrite Hrv. generalize (Z.to_nat F - Z.to_nat V)%nat as n. generalize (Z.to_nat V) as k. generalize rv as r0.
    intros r0 k n. revert r0 k. induction n as [|n IHn]; intros r0 k; cbn [extend]; [eauto|].
    destruct (merger (Some r0) None _) eqn:EM; [apply IHn|exfalso; eapply T; eauto]. }
  destruct ER as [r ER].
  assert (LS : SI = SI) by reflexivity. clear LS.
  set (pr := {| p_index := 2 ^ F - 1 + i; p_item := x;
                p_peer_indices := (2 ^ F - 1 + peer) :: map fst rest;
                p_peer_hashes := val V items 0 (sib (2 ^ V + i)) :: map snd rest |}).
  exists t', pr, r. split.
  { unfold get_proof. rewrite A. cbn [bind]. rewrite MR, Hrv.
    assert (NC : calculate_node_count checked (height t') = Ok (2 ^ F - 1)).
    { fold F. unfold calculate_node_count. replace (F <? 64) with true by lia. reflexivity. }
    rewrite NC. cbn [bind].
    assert (LX : exists c, znth (leafs t') i = Some (x, c)).
    { rewrite <- (c_items _ _ Hc), znth_map in Hx. destruct (znth (leafs t') i) as [[y c]|]; [|discriminate].
      injection Hx as ->. eauto. }
    destruct LX as [c LX]. rewrite LX. rewrite uadd_ok by lia. cbn [bind]. fold peer.
    rewrite uadd_ok by lia. cbn [bind]. rewrite Hl.
    replace (2 ^ V - 1 + i) with (2 ^ V + i - 1) by lia. rewrite parent_index_ok by lia. cbn [bind].
    replace (2 ^ F - 1 + i) with (2 ^ F + i - 1) by lia. rewrite parent_index_ok by lia. cbn [bind].
    rewrite PL. cbn [bind]. rewrite (c_leaf _ _ Hc peer ltac:(fold V; lia)). fold V. rewrite EP.
    unfold mk_proof. replace (0 <? 2 ^ F + i - 1) with true by lia. cbn [negb].
    unfold zlen. cbn [length]. rewrite !map_length. rewrite Z.eqb_refl. cbn [negb bind].
    unfold pr. replace (2 ^ F - 1 + i) with (2 ^ F + i - 1) by lia. reflexivity. }
  split; [exact I'|]. split; [exact FX|]. rewrite EHT, MR.
  split; [rewrite <- VX; exact ER|].
  assert (ZL : zlen (p_peer_indices pr) = F).
  { unfold pr, zlen. cbn [p_peer_indices length]. rewrite map_length, LN. lia. }
  split; [|split; [reflexivity|]].
  - unfold root_hash. cbn [p_index]. replace (0 <? p_index pr) with true by (unfold pr; cbn [p_index]; lia).
    rewrite ZL. rewrite Z.mod_small by lia. change (p_index pr) with (2 ^ F - 1 + i).
    replace (2 ^ F - 1 + i) with (2 ^ F + i - 1) by lia.
    rewrite (mk_meta_lev checked F (Z.of_nat 0)) by (auto; lia). cbn [bind].
    assert (HX : Some (hasher (p_item pr) {| m_depth := F - Z.of_nat 0; m_height := Z.of_nat 0 |})
      = val V items 0 (2 ^ V + i)).
    { cbn [TreeProofs.val]. replace (2 ^ V + i - 2 ^ V) with i by lia. rewrite Hx. cbn [option_map p_item pr].
      f_equal. apply D. reflexivity. }
    rewrite HX. unfold pr. cbn [p_peer_indices p_peer_hashes]. rewrite EPF.
    rewrite root_step; auto; try (cbn; lia).
    + rewrite RL, ER. reflexivity.
  - split; [rewrite Z2Nat.id by lia; reflexivity|]. split; [rewrite Z2Nat.id by lia; lia|]. split.
    + unfold pr. cbn [p_peer_indices p_index]. replace (Z.to_nat F) with (S (Z.to_nat F - 1)) by lia.
      cbn [sibling_indices]. f_equal.
      * rewrite EPF, sib_sibling. f_equal. lia.
      * rewrite SI. f_equal. lia.
    + unfold pr. cbn [p_peer_hashes length]. rewrite map_length, LN. lia.
Qed.
End Proofs.
