(** The cached tree computes the specified root: invariant of tree_impl.rs. *)
From Coq Require Import ZArith List Bool Lia ZifyBool ZifyNat.
From Verif Require Import Lib.Res Lib.Vec Merkle.Tree Merkle.MerkleSpec.
Import ListNotations.
Open Scope Z_scope.
Ltac Zify.zify_post_hook ::= Z.div_mod_to_equations.

Lemma pow2_pos : forall k, 0 <= k -> 0 < 2 ^ k.
Proof. intros. apply Z.pow_pos_nonneg; lia. Qed.
Lemma pow2_S : forall k, 0 <= k -> 2 ^ (k + 1) = 2 * 2 ^ k.
Proof. intros. rewrite Z.pow_add_r by lia. lia. Qed.
Lemma pow2_le : forall a b, 0 <= a <= b -> 2 ^ a <= 2 ^ b.
Proof. intros. apply Z.pow_le_mono_r; lia. Qed.
Lemma pow2_nat : forall k, Z.of_nat (2 ^ k) = 2 ^ Z.of_nat k.
Proof. intros. rewrite Nat2Z.inj_pow. reflexivity. Qed.
Lemma usize_max_val : usize_max = 18446744073709551615. Proof. reflexivity. Qed.

Lemma calculate_height_range : forall n, 0 <= n ->
  0 <= calculate_height n /\ n <= 2 ^ calculate_height n /\
  (1 < n -> 2 ^ (calculate_height n - 1) < n).
Proof.
  intros n Hn. unfold calculate_height. destruct (n <? 2) eqn:E.
  - cbn. lia.
  - pose proof (Z.log2_up_spec n ltac:(lia)) as H. pose proof (Z.log2_up_nonneg n).
    replace (Z.log2_up n - 1) with (Z.pred (Z.log2_up n)) by lia. lia.
Qed.

Lemma calculate_height_least : forall n, least_height n (Z.to_nat (calculate_height (Z.of_nat n))).
Proof.
  intros n. destruct (calculate_height_range (Z.of_nat n)) as (A & B & C); [lia|]. split.
  - apply Nat2Z.inj_le. rewrite pow2_nat, Z2Nat.id by lia. exact B.
  - intros j Hj. apply Nat2Z.inj_le in Hj. rewrite pow2_nat in Hj.
    destruct (le_lt_dec (Z.to_nat (calculate_height (Z.of_nat n))) j) as [|L]; auto.
    exfalso. assert (1 < Z.of_nat n).
    { destruct (Z_lt_dec 1 (Z.of_nat n)); auto. unfold calculate_height in L.
      replace (Z.of_nat n <? 2) with true in L by lia. cbn in L. lia. }
    specialize (C H). pose proof (pow2_le (Z.of_nat j) (calculate_height (Z.of_nat n) - 1)). lia.
Qed.
Lemma least_height_unique : forall n a b, least_height n a -> least_height n b -> a = b.
Proof. intros n a b [A1 A2] [B1 B2]. apply A2 in B1. apply B2 in A1. lia. Qed.

Lemma calculate_height_bound : forall n, 0 <= n <= 2 ^ 62 -> calculate_height n <= 62.
Proof.
  intros n Hn. unfold calculate_height. destruct (n <? 2) eqn:E; [lia|].
  apply Z.log2_up_le_pow2; lia.
Qed.

(** Metadata of node [I - 1] at level [k] of a tree of height [V]. *)
Definition lev (V k I : Z) : Prop := 0 <= k <= V /\ 2 ^ (V - k) <= I < 2 ^ (V - k + 1).

Lemma lev_root : forall V, 0 <= V -> lev V V 1.
Proof. intros V H. split; [lia|]. replace (V - V) with 0 by lia. cbn. lia. Qed.
Lemma lev_pos : forall V k I, lev V k I -> 1 <= I.
Proof. intros V k I [A B]. pose proof (pow2_pos (V - k) ltac:(lia)). lia. Qed.
Lemma lev_children : forall V k I, lev V (k + 1) I -> 0 <= k ->
  lev V k (2 * I) /\ lev V k (2 * I + 1).
Proof.
  intros V k I [A B] Hk. replace (V - (k + 1) + 1) with (V - k) in B by lia.
  pose proof (pow2_S (V - (k + 1)) ltac:(lia)) as E. replace (V - (k + 1) + 1) with (V - k) in E by lia.
  pose proof (pow2_S (V - k) ltac:(lia)) as E2.
  unfold lev. rewrite E2, E in *. lia.
Qed.
Lemma lev_inner : forall V k I, lev V k I -> 0 < k -> I <= 2 ^ V - 1.
Proof.
  intros V k I [A B] Hk. pose proof (pow2_le (V - k + 1) V ltac:(lia)). lia.
Qed.
Lemma lev_leaf : forall V I, lev V 0 I -> 2 ^ V <= I < 2 ^ (V + 1).
Proof. intros V I [A B]. replace (V - 0) with V in B by lia. exact B. Qed.
Lemma lev_exists : forall V I, 0 <= V -> 1 <= I < 2 ^ V -> exists k, lev V k I /\ 0 < k.
Proof.
  intros V I HV HI. exists (V - Z.log2 I).
  pose proof (Z.log2_spec I ltac:(lia)) as S. pose proof (Z.log2_nonneg I).
  assert (Z.log2 I < V) by (apply Z.log2_lt_pow2; lia).
  split; [split; [lia|]|lia]. replace (V - (V - Z.log2 I)) with (Z.log2 I) by lia.
  replace (Z.log2 I + 1) with (Z.succ (Z.log2 I)) by lia. lia.
Qed.

Lemma mk_meta_lev : forall checked V k I, V <= 62 -> lev V k I ->
  mk_meta checked (I - 1) V = Ok {| m_depth := V - k; m_height := k |}.
Proof.
  intros checked V k I HV [A B]. unfold mk_meta, meta_depth.
  pose proof (pow2_le (V - k + 1) 63 ltac:(lia)).
  assert (E : I - 1 + 2 <=? usize_max = true).
  { rewrite usize_max_val. change (2 ^ 63) with 9223372036854775808 in *. lia. }
  rewrite E. cbn [bind].
  assert (L : Z.log2_up (I - 1 + 2) = V - k + 1).
  { apply Z.log2_up_unique; [lia|]. replace (Z.pred (V - k + 1)) with (V - k) by lia. lia. }
  rewrite L. replace (V - k + 1 - 1) with (V - k) by lia.
  replace (V - k <=? V) with true by lia. do 2 f_equal. lia.
Qed.

Section Proofs.
Context {Item Hash : Type}.
Variable hasher : Item -> meta -> Hash.
Variable merger : option Hash -> option Hash -> meta -> option Hash.
Notation tree := (tree Item Hash).

(** Value of node [I - 1] at level [k], by recursion on the level. *)
Fixpoint val (V : Z) (items : list Item) (k : nat) (I : Z) : option Hash :=
  match k with
  | O => option_map (fun x => hasher x {| m_depth := V; m_height := 0 |}) (znth items (I - 2 ^ V))
  | S k' => merger (val V items k' (2 * I)) (val V items k' (2 * I + 1))
              {| m_depth := V - Z.of_nat k; m_height := Z.of_nat k |}
  end.

Lemma skipn_skipn' : forall A (l : list A) a b, skipn a (skipn b l) = skipn (a + b) l.
Proof.
  induction l as [|x l IH]; intros a b; [rewrite !skipn_nil; reflexivity|].
  destruct b as [|b]; [rewrite Nat.add_0_r; reflexivity|].
  rewrite Nat.add_succ_r. cbn [skipn]. apply IH.
Qed.

Lemma val_ext : forall V a b k I, 
  (forall p, I * 2 ^ Z.of_nat k - 2 ^ V <= p < (I + 1) * 2 ^ Z.of_nat k - 2 ^ V -> znth a p = znth b p) ->
  val V a k I = val V b k I.
Proof.
  intros V a b k. induction k as [|k IH]; intros I H; cbn [val].
  - rewrite H; [reflexivity|]. cbn. lia.
  - replace (Z.of_nat (S k)) with (Z.of_nat k + 1) in H by lia.
    rewrite pow2_S in H by lia. pose proof (pow2_pos (Z.of_nat k) ltac:(lia)) as P.
    rewrite (IH (2 * I)), (IH (2 * I + 1)); [reflexivity| |]; intros p Hp; apply H; nia.
Qed.

Lemma val_mroot : forall V items k I, 0 <= V -> 0 <= I * 2 ^ Z.of_nat k - 2 ^ V ->
  val V items k I = mroot hasher merger k (V - Z.of_nat k)
    (firstn (2 ^ k) (skipn (Z.to_nat (I * 2 ^ Z.of_nat k - 2 ^ V)) items)).
Proof.
  intros V items k. induction k as [|k IH]; intros I HV HI.
  - cbn [val mroot Z.of_nat]. replace (I * 2 ^ 0 - 2 ^ V) with (I - 2 ^ V) in * by lia.
    set (p := I - 2 ^ V) in *. cbn [Nat.pow]. replace (V - 0) with V by lia.
    unfold znth. destruct (p <? zlen items) eqn:E.
    + replace (0 <=? p) with true by lia. cbn [andb].
      destruct (nth_error items (Z.to_nat p)) as [x|] eqn:N.
      * apply nth_error_split in N. destruct N as (l1 & l2 & -> & L).
        rewrite skipn_app, skipn_all2, <- L by lia. replace (length l1 - length l1)%nat with O by lia.
        reflexivity.
      * apply nth_error_None in N. unfold zlen in E. lia.
    + rewrite andb_false_r. rewrite skipn_all2 by (unfold zlen in E; lia). reflexivity.
  - cbn [val mroot].
    replace (Z.of_nat (S k)) with (Z.of_nat k + 1) in * by lia.
    rewrite pow2_S in * by lia. pose proof (pow2_pos (Z.of_nat k) ltac:(lia)) as P.
    rewrite (IH (2 * I)), (IH (2 * I + 1)) by nia.
    set (a := Z.to_nat (I * (2 * 2 ^ Z.of_nat k) - 2 ^ V)).
    replace (Z.to_nat (2 * I * 2 ^ Z.of_nat k - 2 ^ V)) with a by (unfold a; f_equal; lia).
    replace (Z.to_nat ((2 * I + 1) * 2 ^ Z.of_nat k - 2 ^ V)) with (2 ^ k + a)%nat.
    2:{ unfold a. apply Nat2Z.inj. rewrite Nat2Z.inj_add, pow2_nat, !Z2Nat.id by nia. lia. }
    replace (V - (Z.of_nat k + 1) + 1) with (V - Z.of_nat k) by lia.
    f_equal.
    + f_equal. rewrite firstn_firstn. f_equal. cbn [Nat.pow]. lia.
    + f_equal. rewrite skipn_firstn_comm, skipn_skipn'. f_equal. cbn [Nat.pow]. lia.
Qed.

Lemma val_total : merger_total merger -> forall V items k I, (0 < k)%nat -> exists h, val V items k I = Some h.
Proof.
  intros T V items [|k] I H; [lia|]. cbn [val].
  destruct (merger _ _ _) eqn:E; eauto. exfalso. eapply T; eauto.
Qed.

Lemma map_fst_zset : forall (l : list (Item * option Hash)) p x c c',
  znth l p = Some (x, c) -> map fst (zset l p (x, c')) = map fst l.
Proof.
  intros l p x c c' E. unfold zset. pose proof (znth_range _ _ _ _ E) as R.
  unfold znth in E. replace ((0 <=? p) && (p <? zlen l)) with true in E by lia.
  clear R. revert E. generalize (Z.to_nat p) as n.
  induction l as [|y l IHl]; intros [|n] E; cbn in *; try discriminate.
  - injection E as ->. reflexivity.
  - f_equal. auto.
Qed.

Definition node_at (t : tree) (I : Z) := znth (nodes t) (I - 1).

(** The hash of node or leaf [I - 1] is available in the cache. *)
Definition done (t : tree) (I : Z) : Prop :=
  (I - 1 < zlen (nodes t) -> exists h, node_at t I = Some (Some h)) /\
  (zlen (nodes t) <= I - 1 -> forall x c, znth (leafs t) (I - 1 - zlen (nodes t)) = Some (x, c) -> c <> None).

Record inv (t : tree) (items : list Item) : Prop := {
  inv_items : map fst (leafs t) = items;
  inv_height : vheight t = calculate_height (zlen items);
  inv_len : zlen (nodes t) = 2 ^ vheight t - 1;
  inv_leaf : forall p x h, znth (leafs t) p = Some (x, Some h) ->
    h = hasher x {| m_depth := vheight t; m_height := 0 |};
  inv_node : forall k I h, lev (vheight t) (Z.of_nat k) I -> node_at t I = Some (Some h) ->
    val (vheight t) items k I = Some h;
  inv_closed : forall I, 2 <= I -> (exists h, node_at t (I / 2) = Some (Some h)) -> done t I }.

Lemma inv_new : forall mode, inv (new_tree mode) [].
Proof.
  intros mode. constructor; cbn; auto; try reflexivity.
  - intros p x h H. unfold znth in H. cbn in H. destruct ((0 <=? p) && (p <? 0)); [|discriminate].
    destruct (Z.to_nat p); discriminate.
  - intros k I h L H. apply znth_range in H. cbn in H. lia.
  - intros I HI [h H]. apply znth_range in H. cbn in H. lia.
Qed.

(** Reading a hash. *)
Lemma calc_ok : merger_total merger -> hasher_ignores_depth hasher ->
  forall checked items k fuel t I, inv t items -> vheight t <= 62 -> lev (vheight t) (Z.of_nat k) I ->
  (k < fuel)%nat ->
  exists t', calc hasher merger checked fuel t (I - 1) = Ok (t', val (vheight t) items k I)
    /\ inv t' items /\ fixed t' = fixed t /\ vheight t' = vheight t
    /\ (forall J, done t J -> done t' J) /\ done t' I.
Proof.
  intros T D checked items k.
  induction k as [|k IH]; intros fuel t I Hinv HV L Hf; (destruct fuel as [|fuel]; [lia|]); cbn [calc].
  - apply lev_leaf in L as LL. pose proof (inv_len _ _ Hinv) as Hlen.
    replace (znth (nodes t) (I - 1)) with (@None (option Hash)) by (symmetry; apply znth_none; lia).
    rewrite Hlen. replace (I - 1 - (2 ^ vheight t - 1)) with (I - 2 ^ vheight t) by lia.
    cbn [val].
    assert (IT : znth items (I - 2 ^ vheight t) = option_map fst (znth (leafs t) (I - 2 ^ vheight t)))
      by (rewrite <- (inv_items _ _ Hinv); apply znth_map).
    rewrite IT. clear IT.
    destruct (znth (leafs t) (I - 2 ^ vheight t)) as [[x [h|]]|] eqn:E.
    + exists t. rewrite (inv_leaf _ _ Hinv _ _ _ E). do 5 (split; [solve [reflexivity | auto]|]). split.
      * intros B. lia.
      * intros _ x0 c Hc. rewrite Hlen in Hc. replace (I - 1 - (2 ^ vheight t - 1)) with (I - 2 ^ vheight t) in Hc by lia.
        congruence.
    + rewrite (mk_meta_lev checked _ _ _ HV L). cbn [bind option_map fst].
      replace (vheight t - Z.of_nat 0) with (vheight t) by lia. change (Z.of_nat 0) with 0.
      eexists. split; [reflexivity|].
      set (p := I - 2 ^ vheight t) in *. set (hh := hasher x _).
      pose proof (znth_range _ _ _ _ E) as Hp.
      assert (ST : forall J, done t J -> done (set_leaf t p x (Some hh)) J).
      { intros J [D1 D2]. split; cbn [nodes leafs set_leaf]; [exact D1|].
        intros B x0 c Hc. destruct (Z.eq_dec p (J - 1 - zlen (nodes t))) as [EE|N].
        - rewrite <- EE in Hc. rewrite znth_zset_eq in Hc by auto. congruence.
        - rewrite znth_zset_neq in Hc by lia. eauto. }
      split; [|do 3 (split; [solve [reflexivity | auto]|]); split].
      * destruct Hinv as [i1 i2 i3 i4 i5 i6]. constructor; cbn [set_leaf vheight nodes leafs]; auto.
        -- rewrite <- i1. eapply map_fst_zset; eauto.
        -- intros q y h Hq. destruct (Z.eq_dec p q) as [EE|N].
           ++ rewrite <- EE in Hq. rewrite znth_zset_eq in Hq by auto. injection Hq as <- <-. reflexivity.
           ++ rewrite znth_zset_neq in Hq by lia. eauto.
      * cbn [nodes set_leaf]. intros B. lia.
      * cbn [nodes leafs set_leaf]. intros _ x0 c Hc. rewrite Hlen in Hc.
        replace (I - 1 - (2 ^ vheight t - 1)) with p in Hc by (unfold p; lia).
        rewrite znth_zset_eq in Hc by auto. congruence.
    + exists t. do 5 (split; [solve [reflexivity | auto]|]). split.
      * intros B. lia.
      * intros _ x0 c Hc. rewrite Hlen in Hc. replace (I - 1 - (2 ^ vheight t - 1)) with (I - 2 ^ vheight t) in Hc by lia.
        congruence.
  - pose proof (lev_inner _ _ _ L ltac:(lia)) as Hin. pose proof (lev_pos _ _ _ L) as Hpos.
    pose proof (inv_len _ _ Hinv) as Hlen.
    destruct (znth_some _ (nodes t) (I - 1)) as [c Hc]; [lia|]. rewrite Hc.
    destruct c as [h|].
    + exists t. rewrite (inv_node _ _ Hinv (S k) I h L Hc). do 5 (split; [solve [reflexivity | auto]|]). split.
      * intros _. exists h. exact Hc.
      * intros B. lia.
    + replace (Z.of_nat (S k)) with (Z.of_nat k + 1) in L by lia.
      destruct (lev_children _ _ _ L ltac:(lia)) as [L1 L2].
      replace ((I - 1) * 2 + 1) with (2 * I - 1) by lia.
      replace ((I - 1) * 2 + 2) with (2 * I + 1 - 1) by lia.
      destruct (IH fuel t (2 * I) Hinv HV L1 ltac:(lia)) as (t1 & C1 & I1 & F1 & V1 & M1 & D1).
      rewrite C1. cbn [bind].
      rewrite <- V1 in HV, L2.
      destruct (IH fuel t1 (2 * I + 1) I1 HV L2 ltac:(lia)) as (t2 & C2 & I2 & F2 & V2 & M2 & D2).
      rewrite C2. cbn [bind]. rewrite V2, V1.
      rewrite (mk_meta_lev checked _ (Z.of_nat k + 1) I); [|lia|auto]. cbn [bind].
      replace (merger (val (vheight t) items k (2 * I)) (val (vheight t) items k (2 * I + 1))
        {| m_depth := vheight t - (Z.of_nat k + 1); m_height := Z.of_nat k + 1 |})
        with (val (vheight t) items (S k) I) by (cbn [val]; do 2 f_equal; lia).
      eexists. split; [reflexivity|].
      destruct (val_total T (vheight t) items (S k) I ltac:(lia)) as [hh Hh].
      assert (N2 : zlen (nodes t2) = 2 ^ vheight t - 1) by (rewrite (inv_len _ _ I2); f_equal; f_equal; congruence).
      assert (R : 0 <= I - 1 < zlen (nodes t2)) by lia.
      set (t3 := set_node t2 (I - 1) (val (vheight t) items (S k) I)).
      assert (NA : node_at t3 I = Some (Some hh)).
      { unfold node_at, t3. cbn [nodes set_node]. rewrite znth_zset_eq by auto. congruence. }
      assert (NB : forall J, J <> I -> node_at t3 J = node_at t2 J).
      { intros J HJ. unfold node_at, t3. cbn [nodes set_node]. apply znth_zset_neq; lia. }
      assert (ST : forall J, done t2 J -> done t3 J).
      { intros J [A B]. split.
        - unfold t3 at 1. cbn [nodes set_node]. rewrite zlen_zset. intros BB.
          destruct (Z.eq_dec J I) as [->|NE]; [eauto|]. rewrite NB; auto.
        - unfold t3. cbn [nodes leafs set_node]. rewrite zlen_zset. exact B. }
      split; [|split; [|split; [|split; [solve [reflexivity | auto]|split]]]].
      * destruct I2 as [i1 i2 i3 i4 i5 i6]. constructor; auto.
        -- unfold t3. cbn [nodes set_node vheight]. rewrite zlen_zset. exact i3.
        -- intros k0 J h L0 Hn. change (vheight t3) with (vheight t2) in *.
           destruct (Z.eq_dec J I) as [->|NE].
           ++ assert (k0 = S k) as ->.
              { rewrite V2, V1 in L0. clear -L L0. destruct L as [A B], L0 as [A0 B0].
                destruct (Z.lt_trichotomy (Z.of_nat k0) (Z.of_nat k + 1)) as [X|[X|X]]; [|lia|].
                - pose proof (pow2_le (vheight t - (Z.of_nat k + 1) + 1) (vheight t - Z.of_nat k0)). lia.
                - pose proof (pow2_le (vheight t - Z.of_nat k0 + 1) (vheight t - (Z.of_nat k + 1))). lia. }
              rewrite V2, V1. congruence.
           ++ rewrite NB in Hn by auto. eauto.
        -- intros J HJ [h Hn]. destruct (Z.eq_dec (J / 2) I) as [E|NE].
           ++ assert (J = 2 * I \/ J = 2 * I + 1) as [-> | ->] by lia; apply ST; auto.
           ++ rewrite NB in Hn by auto. apply ST. apply i6; eauto.
      * change (fixed t3) with (fixed t2). congruence.
      * change (vheight t3) with (vheight t2). congruence.
      * intros _. eauto.
      * unfold t3. cbn [nodes set_node]. rewrite zlen_zset. lia.
Qed.

(** Clearing the ancestors of a leaf. *)
Definition anc (m : nat) (I : Z) : Z := I / 2 ^ Z.of_nat m.
Lemma anc_0 : forall I, anc 0 I = I.
Proof. intros. unfold anc. cbn. rewrite Z.div_1_r. reflexivity. Qed.
Lemma anc_S : forall m I, anc (S m) I = anc m (I / 2).
Proof.
  intros. unfold anc. replace (Z.of_nat (S m)) with (1 + Z.of_nat m) by lia.
  rewrite Z.pow_add_r by lia. rewrite Z.div_div; [reflexivity|lia|apply pow2_pos; lia].
Qed.
Lemma anc_S' : forall m I, anc (S m) I = anc m I / 2.
Proof.
  intros. unfold anc. replace (Z.of_nat (S m)) with (Z.of_nat m + 1) by lia.
  rewrite Z.pow_add_r by lia. pose proof (pow2_pos (Z.of_nat m) ltac:(lia)).
  rewrite Z.div_div; [reflexivity|lia|lia].
Qed.
Lemma anc_le : forall m I, 0 <= I -> anc m I <= I.
Proof.
  induction m; intros I H; [rewrite anc_0; lia|]. rewrite anc_S'. specialize (IHm I H). lia.
Qed.

Definition at1 (ns : list (option Hash)) (I : Z) := znth ns (I - 1).

Lemma up_none : forall ns I0 P, 1 <= P -> P < I0 ->
  (forall J, 2 <= J -> J <> I0 -> J - 1 < zlen ns -> (exists h, at1 ns (J / 2) = Some (Some h)) -> exists h, at1 ns J = Some (Some h)) ->
  at1 ns P = Some None -> P - 1 < zlen ns ->
  forall m, 1 <= anc m P -> at1 ns (anc m P) = Some None.
Proof.
  intros ns I0 P H1 H2 Cl HP Hlt m. induction m as [|m IH]; intros Hm.
  - rewrite anc_0 in *. auto.
  - rewrite anc_S' in *. pose proof (anc_le m P ltac:(lia)). specialize (IH ltac:(lia)).
    destruct (at1 ns (anc m P / 2)) as [[h|]|] eqn:E; auto.
    + exfalso. destruct (Cl (anc m P)) as [h' Hh']; [lia|lia|lia|eauto|]. congruence.
    + exfalso. apply znth_none in E. lia.
Qed.

Lemma clear_loop_ok : forall checked fuel ns I,
  1 <= I -> I < Z.of_nat fuel + 2 -> I / 2 - 1 < zlen ns ->
  (forall J, 2 <= J -> J <> I -> J - 1 < zlen ns -> (exists h, at1 ns (J / 2) = Some (Some h)) -> exists h, at1 ns J = Some (Some h)) ->
  exists ns', clear_loop checked fuel ns (I - 1) = Ok ns' /\ zlen ns' = zlen ns /\
    (forall m, 1 <= anc (S m) I -> at1 ns' (anc (S m) I) = Some None) /\
    (forall J h, 1 <= J -> at1 ns' J = Some (Some h) -> at1 ns J = Some (Some h)) /\
    (forall J h, 1 <= J -> at1 ns J = Some (Some h) -> at1 ns' J = Some (Some h) \/ exists m, J = anc (S m) I).
Proof.
  intros checked fuel. induction fuel as [|fuel IH]; intros ns I HI Hf Hlt Cl; cbn [clear_loop].
  - assert (I = 1) as -> by lia. exists ns. repeat split; auto.
    intros m Hm. rewrite anc_S in Hm. change (1 / 2) with 0 in Hm. pose proof (anc_le m 0). lia.
  - destruct (I - 1 <=? 0) eqn:E1.
    { assert (I = 1) as -> by lia. exists ns. repeat split; auto.
      intros m Hm. rewrite anc_S in Hm. change (1 / 2) with 0 in Hm. pose proof (anc_le m 0). lia. }
    assert (P : parent_index checked (I - 1) = Ok (I / 2 - 1)).
    { unfold parent_index, usub. replace (1 <=? I - 1) with true by lia. cbn [bind]. f_equal. lia. }
    rewrite P. cbn [bind]. fold (at1 ns (I / 2)).
    destruct (at1 ns (I / 2)) as [[h|]|] eqn:E2.
    + destruct (IH (zset ns (I / 2 - 1) None) (I / 2)) as (ns' & A & B & C & D & F).
      * lia.
      * lia.
      * rewrite zlen_zset. lia.
      * rewrite zlen_zset. intros J HJ HN HJ2 [h' Hh'].
        assert (NE : J / 2 <> I / 2). { intros EE. unfold at1 in Hh'. rewrite EE, znth_zset_eq in Hh' by lia. discriminate. }
        unfold at1 in *. rewrite znth_zset_neq in Hh' by lia. rewrite znth_zset_neq by lia.
        destruct (Z.eq_dec J I) as [->|NI]; [lia|]. eapply Cl; eauto.
      * exists ns'. split; [exact A|]. rewrite zlen_zset in B. split; [exact B|]. split; [|split].
        -- intros m Hm. rewrite anc_S in *. destruct m as [|m].
           ++ rewrite anc_0 in *. destruct (at1 ns' (I / 2)) as [[x|]|] eqn:E3; auto.
              ** apply D in E3; [|lia]. unfold at1 in E3. rewrite znth_zset_eq in E3 by lia. discriminate.
              ** apply znth_none in E3. lia.
           ++ apply C. auto.
        -- intros J h' HJ HH. apply D in HH; auto. unfold at1 in *.
           destruct (Z.eq_dec (I / 2) J) as [EE|NE].
           ++ subst J. rewrite znth_zset_eq in HH by lia. discriminate.
           ++ rewrite znth_zset_neq in HH by lia. exact HH.
        -- intros J h' HJ HH. destruct (Z.eq_dec (I / 2) J) as [EE|NE].
           ++ right. exists O. rewrite anc_S, anc_0. auto.
           ++ destruct (F J h' HJ) as [G|[m G]]; auto.
              ** unfold at1. rewrite znth_zset_neq by lia. exact HH.
              ** right. exists (S m). rewrite anc_S. exact G.
    + exists ns. repeat split; auto.
      intros m Hm. rewrite anc_S in *. eapply (up_none ns I (I / 2)); auto; lia.
    + apply znth_none in E2. lia.
Qed.

Lemma clear_range_ok : forall checked n ns I,
  1 <= I -> (forall p, I <= p < I + Z.of_nat n -> p / 2 - 1 < zlen ns) -> zlen ns < I ->
  (forall J, 2 <= J -> J - 1 < zlen ns -> (exists h, at1 ns (J / 2) = Some (Some h)) -> exists h, at1 ns J = Some (Some h)) ->
  exists ns', clear_range checked n (I - 1) ns = Ok ns' /\ zlen ns' = zlen ns /\
    (forall p m, I <= p < I + Z.of_nat n -> 1 <= anc (S m) p -> at1 ns' (anc (S m) p) = Some None) /\
    (forall J h, 1 <= J -> at1 ns' J = Some (Some h) -> at1 ns J = Some (Some h)) /\
    (forall J, 2 <= J -> J - 1 < zlen ns' -> (exists h, at1 ns' (J / 2) = Some (Some h)) -> exists h, at1 ns' J = Some (Some h)).
Proof.
  intros checked n. induction n as [|n IH]; intros ns I HI Hlt HL Cl; cbn [clear_range].
  - exists ns. repeat split; auto. intros p m Hp. lia.
  - unfold clear_dirty_hashes.
    destruct (clear_loop_ok checked (Z.to_nat (I - 1)) ns I) as (n1 & A & B & C & D & F); auto; try lia.
    { apply Hlt. lia. }
    rewrite A. cbn [bind].
    assert (Cl1 : forall J, 2 <= J -> J - 1 < zlen n1 -> (exists h, at1 n1 (J / 2) = Some (Some h)) -> exists h, at1 n1 J = Some (Some h)).
    { intros J HJ HJ2 [h Hh]. pose proof (D (J / 2) h ltac:(lia) Hh) as Hh'.
      destruct (Cl J HJ ltac:(lia) (ex_intro _ h Hh')) as [h2 H2].
      destruct (F J h2 ltac:(lia) H2) as [G|[m G]]; [eauto|].
      exfalso. pose proof (C (S m)) as CC. rewrite (anc_S' (S m)), <- G in CC. rewrite CC in Hh by lia. discriminate. }
    replace (I - 1 + 1) with ((I + 1) - 1) by lia.
    destruct (IH n1 (I + 1)) as (n2 & A2 & B2 & C2 & D2 & F2); auto; try lia.
    { intros p Hp. rewrite B. apply Hlt. lia. }
    exists n2. split; [exact A2|]. split; [lia|]. split; [|split].
    + intros p m Hp Hm. destruct (Z.eq_dec p I) as [->|NE].
      * destruct (at1 n2 (anc (S m) I)) as [[h|]|] eqn:E; auto.
        -- apply D2 in E; auto. rewrite C in E by auto. discriminate.
        -- apply znth_none in E. pose proof (C m Hm) as X. apply znth_range in X. lia.
      * apply C2; auto. lia.
    + intros J h HJ Hh. apply D; auto.
    + exact F2.
Qed.

Lemma calculate_height_mono : forall a b, 0 <= a <= b -> calculate_height a <= calculate_height b.
Proof.
  intros a b H. unfold calculate_height. destruct (a <? 2) eqn:E; destruct (b <? 2) eqn:F; try lia.
  - apply Z.log2_up_nonneg.
  - apply Z.log2_up_le_mono. lia.
Qed.

Lemma add_batch_ok : hasher_ignores_depth hasher -> forall checked t items new,
  inv t items ->
  exists t', add_batch checked t new = Ok t' /\ inv t' (items ++ new) /\ fixed t' = fixed t.
Proof.
  intros D checked t items new Hinv. unfold add_batch.
  set (nw := map (fun x => (x, None)) new).
  assert (Zn : zlen nw = zlen new) by (unfold nw; apply zlen_map).
  assert (Zl : zlen (leafs t) = zlen items) by (rewrite <- (inv_items _ _ Hinv), zlen_map; reflexivity).
  pose proof (zlen_nonneg _ items) as P1. pose proof (zlen_nonneg _ new) as P2.
  destruct (calculate_height_range (zlen items + zlen new)) as (R1 & R2 & R3); [lia|].
  assert (LF : forall V p x h, znth (leafs t ++ nw) p = Some (x, Some h) -> h = hasher x {| m_depth := V; m_height := 0 |}).
  { intros V p x h H. destruct (Z_lt_dec p (zlen (leafs t))) as [L|L].
    - rewrite znth_app_l in H by auto. rewrite (inv_leaf _ _ Hinv _ _ _ H). apply D. reflexivity.
    - rewrite znth_app_r in H by lia. unfold nw in H. rewrite znth_map in H.
      destruct (znth new _); discriminate. }
  assert (MI : map fst (leafs t ++ nw) = items ++ new).
  { rewrite map_app, (inv_items _ _ Hinv). f_equal. unfold nw. rewrite map_map. apply map_id. }
  rewrite Zl, Zn. destruct (calculate_height (zlen items + zlen new) =? vheight t) eqn:E.
  - assert (EV : vheight t = calculate_height (zlen items + zlen new)) by lia.
    pose proof (inv_len _ _ Hinv) as Hlen. rewrite <- EV in *.
    assert (Hlen2 : length nw = length new) by (unfold nw; apply map_length). rewrite Hlen2.
    destruct (clear_range_ok checked (length new) (nodes t) (2 ^ vheight t + zlen items)) as (ns & A & B & C & DD & F).
    + pose proof (pow2_pos (vheight t) ltac:(lia)). lia.
    + intros p Hp. fold (zlen new) in Hp. rewrite Hlen. lia.
    + lia.
    + intros J HJ HJ2 Hh. destruct (inv_closed _ _ Hinv J HJ Hh) as [X _]. apply X. lia.
    + replace (zlen (nodes t) + zlen items) with (2 ^ vheight t + zlen items - 1) by lia.
      rewrite A. cbn [bind]. eexists. split; [reflexivity|]. split; [|reflexivity].
      constructor; cbn [vheight leafs nodes].
      * exact MI.
      * rewrite zlen_app. exact EV.
      * lia.
      * apply LF.
      * intros k I h L Hn. unfold node_at in Hn. cbn [nodes] in Hn. fold (at1 ns I) in Hn.
        pose proof (lev_pos _ _ _ L) as HI. pose proof (DD I h HI Hn) as Hn2.
        rewrite <- (inv_node _ _ Hinv k I h L Hn2). apply val_ext. intros p Hp.
        destruct (Z_lt_dec p (zlen items)) as [L1|L1]; [apply znth_app_l; auto|].
        destruct (Z_lt_dec p (zlen items + zlen new)) as [L2|L2].
        -- exfalso. assert (HK : (0 < k)%nat).
           { destruct k; [|lia]. apply lev_leaf in L. apply znth_range in Hn2. lia. }
           assert (EA : anc k (2 ^ vheight t + p) = I).
           { unfold anc. symmetry. pose proof (pow2_pos (Z.of_nat k) ltac:(lia)).
             apply (Z.div_unique_pos _ _ _ (2 ^ vheight t + p - 2 ^ Z.of_nat k * I)); nia. }
           destruct k as [|k]; [lia|]. rewrite <- EA in Hn, HI.
           rewrite (C (2 ^ vheight t + p) k) in Hn; [discriminate| |exact HI]. unfold zlen in *. lia.
        -- transitivity (@None Item); [|symmetry]; apply znth_none; rewrite ?zlen_app; lia.
      * intros I HI [h Hh]. unfold node_at in Hh. cbn [nodes] in Hh. fold (at1 ns (I / 2)) in Hh.
        split; cbn [nodes leafs].
        -- intros HL. unfold node_at. cbn [nodes]. apply F; eauto.
        -- intros HL x c Hc. rewrite B in *.
           destruct (Z_lt_dec (I - 1 - zlen (nodes t)) (zlen (leafs t))) as [L|L].
           ++ rewrite znth_app_l in Hc by auto. apply DD in Hh; [|lia].
              destruct (inv_closed _ _ Hinv I HI (ex_intro _ h Hh)) as [_ X]. eapply X; eauto.
           ++ exfalso. pose proof (znth_range _ _ _ _ Hc) as RR. rewrite zlen_app in RR.
              pose proof (C I O) as X. rewrite anc_S', anc_0 in X. rewrite X in Hh; [discriminate| |lia].
              unfold zlen in *. lia.
  - cbn [bind]. eexists. split; [reflexivity|]. split; [|reflexivity].
    constructor; cbn [vheight leafs nodes]; auto.
    + rewrite zlen_app. reflexivity.
    + rewrite zlen_repeat. pose proof (pow2_pos _ R1). lia.
    + intros p x h. apply LF.
    + intros k I h L Hn. exfalso. unfold node_at in Hn. cbn [nodes] in Hn.
      pose proof (znth_range _ _ _ _ Hn) as RR. rewrite zlen_repeat in RR. rewrite znth_repeat in Hn by auto. discriminate.
    + intros I HI [h Hn]. exfalso. unfold node_at in Hn. cbn [nodes] in Hn.
      pose proof (znth_range _ _ _ _ Hn) as RR. rewrite zlen_repeat in RR. rewrite znth_repeat in Hn by auto. discriminate.
Qed.

(** Reading the top hash. *)
Lemma top_ok : merger_total merger -> hasher_ignores_depth hasher ->
  forall checked items t, inv t items -> zlen items < 2 ^ 62 ->
  exists t', calculate_hash_if_needed hasher merger checked t 0
      = Ok (t', mroot hasher merger (Z.to_nat (vheight t)) 0 items)
    /\ inv t' items /\ fixed t' = fixed t /\ vheight t' = vheight t /\ done t' 1.
Proof.
  intros T D checked items t Hinv Hn. unfold calculate_hash_if_needed.
  pose proof (inv_height _ _ Hinv) as HH. pose proof (zlen_nonneg _ items) as P.
  pose proof (calculate_height_bound (zlen items) ltac:(lia)) as B.
  destruct (calculate_height_range (zlen items) P) as (R1 & R2 & _). rewrite <- HH in *.
  change 0 with (1 - 1) at 1.
  destruct (calc_ok T D checked items (Z.to_nat (vheight t)) (S (Z.to_nat (vheight t))) t 1)
    as (t' & A & I' & F & V' & _ & DN); auto.
  - rewrite Z2Nat.id by lia. apply lev_root. lia.
  - exists t'. rewrite A. rewrite val_mroot; rewrite ?Z2Nat.id by lia; [|lia|lia].
    replace (1 * 2 ^ vheight t - 2 ^ vheight t) with 0 by lia. cbn [skipn Z.to_nat].
    rewrite firstn_all2; [|apply Nat2Z.inj_le; rewrite pow2_nat, Z2Nat.id by lia; exact R2].
    replace (vheight t - vheight t) with 0 by lia. auto.
Qed.

Lemma mk_meta_0 : forall checked h, 0 <= h -> mk_meta checked 0 h = Ok {| m_depth := 0; m_height := h |}.
Proof.
  intros checked h H. unfold mk_meta, meta_depth.
  change (0 + 2 <=? usize_max) with true. cbn [bind]. change (Z.log2_up (0 + 2) - 1) with 0.
  replace (0 <=? h) with true by lia. replace (h - 0) with h by lia. reflexivity.
Qed.

Lemma pad_loop_ok : forall checked n k r,
  pad_loop merger checked n (Z.of_nat k + 1) r = Ok (extend merger n k r).
Proof.
  intros checked n. induction n as [|n IH]; intros k r; cbn [pad_loop extend]; [reflexivity|].
  rewrite mk_meta_0 by lia. cbn [bind].
  replace (Z.of_nat k + 1 + 1) with (Z.of_nat (S k) + 1) by lia. rewrite IH.
  replace (Z.of_nat (S k)) with (Z.of_nat k + 1) by lia. reflexivity.
Qed.

Lemma root_ok : merger_total merger -> hasher_ignores_depth hasher ->
  forall checked items t k, inv t items -> zlen items < 2 ^ 62 -> least_height (length items) k ->
  match fixed t with
  | Some f => if f <? Z.of_nat k then root hasher merger checked t = Panic
              else exists t', root hasher merger checked t
                  = Ok (t', extend merger (Z.to_nat f - k) k (mroot hasher merger k 0 items))
                /\ inv t' items /\ fixed t' = fixed t
  | None => exists t', root hasher merger checked t = Ok (t', mroot hasher merger k 0 items)
      /\ inv t' items /\ fixed t' = fixed t
  end.
Proof.
  intros T D checked items t k Hinv Hn Hk.
  assert (EK : Z.of_nat k = vheight t).
  { rewrite (inv_height _ _ Hinv). rewrite (least_height_unique _ _ _ Hk (calculate_height_least _)).
    apply Z2Nat.id. apply calculate_height_range. apply zlen_nonneg. }
  destruct (top_ok T D checked items t Hinv Hn) as (t' & A & I' & F & V' & _).
  unfold root. rewrite A. cbn [bind]. rewrite V', <- EK, Nat2Z.id.
  destruct (fixed t) as [f|].
  - destruct (f <? Z.of_nat k) eqn:E; [reflexivity|]. exists t'.
    replace (Z.to_nat (f - Z.of_nat k)) with (Z.to_nat f - k)%nat by lia.
    rewrite pad_loop_ok. cbn [bind]. auto.
  - eauto.
Qed.

Lemma get_proof_inv : merger_total merger -> hasher_ignores_depth hasher ->
  forall checked items t i t' p, inv t items -> zlen items < 2 ^ 62 ->
  get_proof hasher merger checked t i = Ok (t', p) -> inv t' items /\ fixed t' = fixed t.
Proof.
  intros T D checked items t i t' p Hinv Hn H.
  destruct (top_ok T D checked items t Hinv Hn) as (t1 & A & I' & F & V' & _).
  unfold get_proof in H. rewrite A in H. cbn [bind] in H.
  destruct (mroot _ _ _ _ _).
  - apply bind_ok in H. destruct H as (o & _ & H).
    destruct (znth (leafs t1) i) as [[x c]|]; [|discriminate].
    repeat (apply bind_ok in H; destruct H as (? & _ & H)). injection H as <- _. auto.
  - injection H as <- _. auto.
Qed.

Lemma step_inv : merger_total merger -> hasher_ignores_depth hasher ->
  forall checked items t o t', inv t items -> zlen (items ++ op_leaves o) < 2 ^ 62 ->
  step hasher merger checked t o = Ok t' -> inv t' (items ++ op_leaves o) /\ fixed t' = fixed t.
Proof.
  intros T D checked items t o t' Hinv Hn H. destruct o as [l|x| |i]; cbn [step op_leaves] in *.
  - destruct (add_batch_ok D checked t items l Hinv) as (t1 & A & I1 & F). rewrite A in H.
    injection H as <-. auto.
  - unfold add in H. destruct (add_batch_ok D checked t items [x] Hinv) as (t1 & A & I1 & F).
    rewrite A in H. injection H as <-. auto.
  - rewrite app_nil_r in *. apply bind_ok in H. destruct H as ([t1 r] & R & H). injection H as <-.
    pose proof (root_ok T D checked items t _ Hinv Hn (calculate_height_least _)) as RK.
    destruct (fixed t) as [f|].
    + destruct (f <? _).
      * congruence.
      * destruct RK as (t2 & E & I2 & F2). assert (t2 = t1) by congruence. subst. auto.
    + destruct RK as (t2 & E & I2 & F2). assert (t2 = t1) by congruence. subst. auto.
  - rewrite app_nil_r in *. apply bind_ok in H. destruct H as ([t1 r] & R & H). injection H as <-.
    eapply get_proof_inv; eauto.
Qed.

Lemma run_inv : merger_total merger -> hasher_ignores_depth hasher ->
  forall checked ops items t t', inv t items -> zlen (items ++ leaves_of ops) < 2 ^ 62 ->
  run hasher merger checked t ops = Ok t' -> inv t' (items ++ leaves_of ops) /\ fixed t' = fixed t.
Proof.
  intros T D checked ops. induction ops as [|o ops IH]; intros items t t' Hinv Hn H.
  - cbn in *. injection H as <-. rewrite app_nil_r. auto.
  - cbn [run] in H. apply bind_ok in H. destruct H as (t1 & S1 & H).
    unfold leaves_of in *. cbn [flat_map] in *. rewrite app_assoc in *.
    destruct (step_inv T D checked items t o t1 Hinv) as [I1 F1]; auto.
    { rewrite zlen_app in Hn. pose proof (zlen_nonneg _ (flat_map op_leaves ops)). lia. }
    destruct (IH _ t1 t' I1 Hn H) as [I2 F2]. split; [exact I2|congruence].
Qed.

End Proofs.
