(** Property C119: the depth and height of a node, computed with [f64]. *)
From Coq Require Import ZArith List Bool Lia ZifyBool ZifyNat Floats.SpecFloat.
From Verif Require Import Lib.Res Lib.Vec Merkle.Tree.
From Verif Require Import Merkle.Float.
Import ListNotations.
Open Scope Z_scope.
Ltac Zify.zify_post_hook ::= Z.div_mod_to_equations.

(** ** Specification *)

(** The level of a node is its number of steps to the root, node 0. *)
Inductive level : Z -> Z -> Prop :=
| level_root : level 0 0
| level_child : forall i d, 0 < i -> level ((i - 1) / 2) d -> level i (d + 1).

(** [q] differs from the logarithm of [x] to base 2 by at most [2 ^ -t].  With
    [q = m / 2 ^ s] this is [2 ^ (q - 2 ^ -t) <= x <= 2 ^ (q + 2 ^ -t)], raised
    to the power [2 ^ (s + t)] to have integers only. *)
Definition within (t : Z) (q : dyadic) (x : Z) : Prop :=
  let s := Z.of_N (dy_s q) in
  2 ^ (dy_m q * 2 ^ t - 2 ^ s) <= x ^ (2 ^ (s + t)) <= 2 ^ (dy_m q * 2 ^ t + 2 ^ s).

(** What is asked of the library: an error of at most 2^-45 up to 2^44.  (There
    the [f64] next to the logarithm is at most 2^-48 away from it.) *)
Definition accurate (lib : Z -> dyadic) : Prop := forall x, 2 <= x <= 2 ^ 44 -> within 45 (lib x) x.
(** [q <= k], for an integer [k] *)
Definition at_most (q : dyadic) (k : Z) : Prop := dy_m q <= k * 2 ^ Z.of_N (dy_s q).

(** ** Levels *)

Lemma level_bounds : forall i d, level i d -> 0 <= d /\ 2 ^ d - 1 <= i <= 2 ^ (d + 1) - 2.
Proof.
  intros i d H. induction H as [|i d Hi _ [Hd [L U]]]; [cbn; lia|].
  rewrite (Z.pow_add_r 2 (d + 1) 1), (Z.pow_add_r 2 d 1) in * by lia. change (2 ^ 1) with 2 in *. lia.
Qed.

Lemma level_unique : forall i d, 0 <= d -> 2 ^ d - 1 <= i <= 2 ^ (d + 1) - 2 -> level i d.
Proof.
  intros i d Hd. revert i. pattern d. apply natlike_ind; [| |exact Hd].
  - intros i. cbn. intros H. replace i with 0 by lia. constructor.
  - intros n Hn IH i. rewrite <- Z.add_1_r, (Z.pow_add_r 2 (n + 1) 1), (Z.pow_add_r 2 n 1) by lia.
    change (2 ^ 1) with 2. intros H. constructor.
    + pose proof (Z.pow_pos_nonneg 2 n). lia.
    + apply IH. rewrite (Z.pow_add_r 2 n 1) by lia. change (2 ^ 1) with 2. lia.
Qed.

(** ** Growth of powers *)

Lemma bernoulli : forall a n, 0 <= a -> 0 <= n -> a ^ (n + 1) + (n + 1) * a ^ n <= (a + 1) ^ (n + 1).
Proof.
  intros a n Ha Hn. revert n Hn. apply natlike_ind; [cbn; lia|].
  intros n Hn IH. rewrite <- Z.add_1_r.
  rewrite (Z.pow_add_r a (n + 1) 1), (Z.pow_add_r (a + 1) (n + 1) 1), (Z.pow_add_r a n 1), !Z.pow_1_r in * by lia.
  pose proof (Z.pow_nonneg a n Ha). nia.
Qed.

Lemma double_above : forall a, 1 <= a -> 2 * a ^ a <= (a + 1) ^ a.
Proof.
  intros a Ha. pose proof (bernoulli a (a - 1) ltac:(lia) ltac:(lia)) as H.
  replace (a - 1 + 1) with a in H by lia.
  replace (a ^ a) with (a * a ^ (a - 1)) in *; [lia|].
  rewrite <- Z.pow_succ_r by lia. f_equal. lia.
Qed.

Lemma halve_below : forall b, 1 <= b -> 2 * b ^ (b + 1) <= (b + 1) ^ (b + 1).
Proof.
  intros b Hb. pose proof (double_above b Hb). rewrite !Z.pow_add_r, !Z.pow_1_r by lia.
  pose proof (Z.pow_nonneg b b ltac:(lia)). nia.
Qed.

(** Above [2 ^ d] the power [2 ^ S] gains a factor [2 ^ 2 ^ (S - d)]. *)
Lemma power_above : forall x d S, 0 <= d <= S -> 2 ^ d < x -> 2 ^ (2 ^ (S - d) + d * 2 ^ S) <= x ^ (2 ^ S).
Proof.
  intros x d S Hd Hx. set (a := 2 ^ d) in *. set (c := 2 ^ (S - d)).
  assert (A : 1 <= a) by (unfold a; pose proof (Z.pow_pos_nonneg 2 d); lia).
  assert (C : 0 <= c) by (apply Z.pow_nonneg; lia).
  assert (E : 2 ^ S = a * c) by (unfold a, c; rewrite <- Z.pow_add_r by lia; f_equal; lia).
  rewrite E. apply Z.le_trans with ((a + 1) ^ (a * c)); [|apply Z.pow_le_mono_l; lia].
  rewrite (Z.pow_mul_r (a + 1)) by lia.
  apply Z.le_trans with ((2 * a ^ a) ^ c); [|apply Z.pow_le_mono_l; split; [pose proof (Z.pow_nonneg a a ltac:(lia)); lia|apply double_above; lia]].
  assert (P : forall n, 0 <= n -> a ^ n = 2 ^ (d * n)) by (intros n Hn; unfold a; rewrite Z.pow_mul_r; lia).
  rewrite Z.pow_mul_l, <- Z.pow_mul_r, Z.pow_add_r by nia. rewrite P by nia. reflexivity.
Qed.

(** Below [2 ^ e] it loses a factor [2 ^ 2 ^ (S - e)]. *)
Lemma power_below : forall x e S, 0 <= e <= S -> 0 < x < 2 ^ e -> 2 ^ (2 ^ (S - e)) * x ^ (2 ^ S) <= 2 ^ (e * 2 ^ S).
Proof.
  intros x e S He Hx. set (B := 2 ^ e) in *. set (c := 2 ^ (S - e)).
  assert (C : 0 <= c) by (apply Z.pow_nonneg; lia).
  assert (E : 2 ^ S = B * c) by (unfold B, c; rewrite <- Z.pow_add_r by lia; f_equal; lia).
  pose proof (halve_below (B - 1) ltac:(lia)) as H. replace (B - 1 + 1) with B in H by lia.
  rewrite E. apply Z.le_trans with (2 ^ c * (B - 1) ^ (B * c)).
  { apply Z.mul_le_mono_nonneg_l; [apply Z.pow_nonneg; lia|]. apply Z.pow_le_mono_l. lia. }
  rewrite (Z.pow_mul_r (B - 1)), <- Z.pow_mul_l by lia.
  apply Z.le_trans with ((B ^ B) ^ c).
  { apply Z.pow_le_mono_l. split; [|exact H]. pose proof (Z.pow_nonneg (B - 1) B ltac:(lia)). lia. }
  assert (P : forall n, 0 <= n -> B ^ n = 2 ^ (e * n)) by (intros n Hn; unfold B; rewrite Z.pow_mul_r; lia).
  rewrite <- Z.pow_mul_r, P by nia. reflexivity.
Qed.

Lemma pow2_le_inv : forall a b, 0 <= b -> 2 ^ a <= 2 ^ b -> a <= b.
Proof. intros a b Hb H. destruct (Z.le_gt_cases a b); auto. pose proof (Z.pow_lt_mono_r 2 b a). lia. Qed.

(** ** Rounding upwards *)

Lemma ceil_spec : forall q k, (k - 1) * 2 ^ Z.of_N (dy_s q) < dy_m q -> at_most q k -> ceil q = k.
Proof.
  intros q k H1 H2. unfold ceil, at_most in *. pose proof (Z.pow_pos_nonneg 2 (Z.of_N (dy_s q)) ltac:(lia) ltac:(lia)) as P.
  set (u := 2 ^ _) in *. assert (- dy_m q / u = - k); [|lia].
  symmetry. apply Z.div_unique with (k * u - dy_m q); [left|]; lia.
Qed.

(** Strictly between two powers of two the computed logarithm is between the exponents. *)
Lemma between : forall q x d t, 0 <= d -> d + 1 < t -> 2 ^ d < x < 2 ^ (d + 1) -> within t q x -> ceil q = d + 1.
Proof.
  intros q x d t Hd Ht Hx [L U]. set (s := Z.of_N (dy_s q)) in *. assert (Hs : 0 <= s) by (unfold s; lia).
  assert (PS : 2 ^ (s + t) = 2 ^ s * 2 ^ t) by (apply Z.pow_add_r; lia).
  pose proof (Z.pow_pos_nonneg 2 s ltac:(lia) Hs). pose proof (Z.pow_pos_nonneg 2 t ltac:(lia) ltac:(lia)).
  pose proof (Z.pow_pos_nonneg 2 d ltac:(lia) Hd).
  apply ceil_spec; fold s; unfold at_most; fold s.
  - pose proof (power_above x d (s + t) ltac:(lia) ltac:(lia)) as A.
    assert (G : 2 ^ s < 2 ^ (s + t - d)) by (apply Z.pow_lt_mono_r; lia).
    assert (dy_m q * 2 ^ t + 2 ^ s >= 0).
    { destruct (Z.lt_ge_cases (dy_m q * 2 ^ t + 2 ^ s) 0) as [N|]; [|lia]. rewrite (Z.pow_neg_r 2 (dy_m q * 2 ^ t + 2 ^ s)) in U by lia.
      pose proof (Z.pow_pos_nonneg x (2 ^ (s + t)) ltac:(lia) ltac:(lia)). lia. }
    assert (I : 2 ^ (s + t - d) + d * 2 ^ (s + t) <= dy_m q * 2 ^ t + 2 ^ s) by (apply pow2_le_inv; lia).
    rewrite PS in I. replace (d + 1 - 1) with d by lia. nia.
  - pose proof (power_below x (d + 1) (s + t) ltac:(lia) ltac:(lia)) as A.
    assert (G : 2 ^ s < 2 ^ (s + t - (d + 1))) by (apply Z.pow_lt_mono_r; lia).
    assert (I : 2 ^ (s + t - (d + 1)) + (dy_m q * 2 ^ t - 2 ^ s) <= (d + 1) * 2 ^ (s + t)).
    { destruct (Z.lt_ge_cases (dy_m q * 2 ^ t - 2 ^ s) 0) as [N|N].
      - assert (2 ^ (s + t - (d + 1)) <= 2 ^ (s + t)) by (apply Z.pow_le_mono_r; lia).
        assert (T : 0 < 2 ^ (s + t)) by (apply Z.pow_pos_nonneg; lia).
        assert (2 ^ (s + t) <= (d + 1) * 2 ^ (s + t)) by (clear - T Hd; nia). lia.
      - apply pow2_le_inv; [nia|]. rewrite Z.pow_add_r by lia.
        apply Z.le_trans with (2 ^ 2 ^ (s + t - (d + 1)) * x ^ 2 ^ (s + t)); [|exact A].
        apply Z.mul_le_mono_nonneg_l; [apply Z.pow_nonneg; lia|exact L]. }
    rewrite PS in I. nia.
Qed.

(** At a power of two it is off by at most one, and only upwards. *)
Lemma at_power : forall q k t, 0 <= k -> 0 < t -> within t q (2 ^ k) ->
  (k - 1) * 2 ^ Z.of_N (dy_s q) < dy_m q /\ at_most q (k + 1).
Proof.
  intros q k t Hk Ht [L U]. unfold at_most. set (s := Z.of_N (dy_s q)) in *. assert (Hs : 0 <= s) by (unfold s; lia).
  rewrite <- Z.pow_mul_r in L, U by (try apply Z.pow_nonneg; lia).
  rewrite Z.pow_add_r in L, U by lia.
  pose proof (Z.pow_pos_nonneg 2 s ltac:(lia) Hs). pose proof (proj1 (Z.pow_gt_1 2 t ltac:(lia)) ltac:(lia)).
  apply pow2_le_inv in L; [|nia].
  assert (U' : k * (2 ^ s * 2 ^ t) <= dy_m q * 2 ^ t + 2 ^ s).
  { destruct (Z.lt_ge_cases (dy_m q * 2 ^ t + 2 ^ s) 0) as [N|N].
    - rewrite (Z.pow_neg_r 2 (dy_m q * 2 ^ t + 2 ^ s)) in U by lia.
      pose proof (Z.pow_pos_nonneg 2 (k * (2 ^ s * 2 ^ t)) ltac:(lia) ltac:(nia)). lia.
    - apply pow2_le_inv; lia. }
  split; nia.
Qed.

Lemma as_f64_small : forall x, 0 <= x < 2 ^ 53 -> as_f64 x = x.
Proof.
  intros x Hx. unfold as_f64. replace (Z.log2 x - 52 <=? 0) with true; [reflexivity|]. symmetry.
  destruct (Z.eq_dec x 0) as [->|N]; [reflexivity|].
  assert (Z.log2 x < 53) by (apply Z.log2_lt_pow2; lia). lia.
Qed.

Lemma small_index : forall i d, level i d -> i + 2 <= 2 ^ 44 -> 0 <= d <= 43 /\ 0 <= i /\ i + 2 < 2 ^ 53 /\ i + 2 <= usize_max.
Proof.
  intros i d H B. destruct (level_bounds i d H) as [D [L U]].
  assert (0 <= i) by (pose proof (Z.pow_pos_nonneg 2 d ltac:(lia) D); lia).
  assert (d < 44). { apply (Z.pow_lt_mono_r_iff 2); lia. }
  change (2 ^ 44) with 17592186044416 in *. change (2 ^ 53) with 9007199254740992. change usize_max with 18446744073709551615. lia.
Qed.

Lemma depth_from_ceil : forall lib checked i d, 0 <= i -> i + 2 < 2 ^ 53 -> 0 <= d <= 44 ->
  ceil (lib (i + 2)) = d + 1 -> depth_f64 lib checked i = Ok d.
Proof.
  intros lib checked i d Hi Hx Hd E. unfold depth_f64, uadd.
  replace (i + 2 <=? usize_max) with true by (change (2 ^ 53) with 9007199254740992 in *; change usize_max with 18446744073709551615; lia).
  cbn [bind]. rewrite as_f64_small by lia. rewrite E. unfold as_u32.
  replace (Z.max 0 (Z.min (d + 1) (2 ^ 32 - 1))) with (d + 1) by (change (2 ^ 32) with 4294967296; lia).
  replace (1 <=? d + 1) with true by lia. f_equal. lia.
Qed.

(** ** Theorems *)

(** The depth computed is the level, for every node but the last of its level. *)
Theorem C119_depth : forall lib checked i d, accurate lib -> level i d -> i + 2 <= 2 ^ 44 ->
  ~ level (i + 1) (d + 1) -> depth_f64 lib checked i = Ok d.
Proof.
  intros lib checked i d A L B N. destruct (small_index i d L B) as (D & I & X & _).
  apply depth_from_ceil; try lia. destruct (level_bounds i d L) as [_ [L1 L2]].
  assert (i <> 2 ^ (d + 1) - 2).
  { intros E. apply N. apply level_unique; [lia|]. rewrite (Z.pow_add_r 2 (d + 1) 1) by lia.
    pose proof (Z.pow_pos_nonneg 2 (d + 1) ltac:(lia) ltac:(lia)). change (2 ^ 1) with 2. lia. }
  apply (between (lib (i + 2)) (i + 2) d 45); try lia.
  apply A. split; [lia|exact B].
Qed.

(** For the last one it is the level or one more; which, depends on the library alone. *)
Theorem C119_last : forall lib checked d, accurate lib -> 0 <= d <= 43 -> let i := 2 ^ (d + 1) - 2 in
  level i d /\
  (at_most (lib (2 ^ (d + 1))) (d + 1) -> depth_f64 lib checked i = Ok d) /\
  (~ at_most (lib (2 ^ (d + 1))) (d + 1) -> depth_f64 lib checked i = Ok (d + 1)).
Proof.
  intros lib checked d A D i. assert (P : 2 <= 2 ^ (d + 1)).
  { change 2 with (2 ^ 1) at 1. apply Z.pow_le_mono_r; lia. }
  assert (Q : 2 ^ (d + 1) <= 2 ^ 44) by (apply Z.pow_le_mono_r; lia).
  assert (Q' : 2 ^ 44 < 2 ^ 53) by reflexivity.
  assert (W := A (2 ^ (d + 1)) ltac:(lia)).
  destruct (at_power _ (d + 1) 45 ltac:(lia) ltac:(lia) W) as [LO HI].
  repeat match goal with |- _ /\ _ => split end.
  - apply level_unique; [lia|]. unfold i. split; [|lia]. rewrite Z.pow_add_r by lia. change (2 ^ 1) with 2.
    pose proof (Z.pow_pos_nonneg 2 d ltac:(lia) ltac:(lia)). lia.
  - intros H. apply depth_from_ceil; unfold i; try lia. replace (2 ^ (d + 1) - 2 + 2) with (2 ^ (d + 1)) by lia.
    apply ceil_spec; [exact LO|exact H].
  - intros H. apply depth_from_ceil; unfold i; try lia. replace (2 ^ (d + 1) - 2 + 2) with (2 ^ (d + 1)) by lia.
    apply ceil_spec; [|exact HI]. unfold at_most in H. replace (d + 1 + 1 - 1) with (d + 1) by lia. lia.
Qed.

Lemma meta_depth_level : forall checked i d, level i d -> i + 2 <= usize_max -> meta_depth checked i = Ok d.
Proof.
  intros checked i d L B. destruct (level_bounds i d L) as [D [L1 L2]]. unfold meta_depth.
  replace (i + 2 <=? usize_max) with true by lia. f_equal.
  assert (Z.log2_up (i + 2) = d + 1); [|lia]. apply Z.log2_up_unique; [lia|].
  replace (Z.pred (d + 1)) with d by lia. lia.
Qed.

(** [a] is the node [i] or an ancestor of it. *)
Inductive above (a : Z) : Z -> Prop :=
| above_self : above a a
| above_child : forall i, 0 < i -> above a ((i - 1) / 2) -> above a i.

(** The library does not answer more than [d + 1] at [2 ^ (d + 1)], for the
    nodes on the way from [i] to the root that are last of their level. *)
Definition right_on_the_way (lib : Z -> dyadic) (i : Z) : Prop :=
  forall d, 0 <= d -> above (2 ^ (d + 1) - 2) i -> at_most (lib (2 ^ (d + 1))) (d + 1).

Lemma depth_right : forall lib checked i d, accurate lib -> level i d -> i + 2 <= 2 ^ 44 ->
  (i = 2 ^ (d + 1) - 2 -> at_most (lib (2 ^ (d + 1))) (d + 1)) -> depth_f64 lib checked i = Ok d.
Proof.
  intros lib checked i d A L B R. destruct (small_index i d L B) as [D _].
  destruct (Z.eq_dec i (2 ^ (d + 1) - 2)) as [E|N].
  - destruct (C119_last lib checked d A D) as (_ & H & _). rewrite E. apply H. auto.
  - apply C119_depth; auto. intros N'. apply N. destruct (level_bounds _ _ L) as [_ [_ U]].
    destruct (level_bounds _ _ N') as [_ [U' _]]. lia.
Qed.

Lemma meta_same : forall lib checked i d h, accurate lib -> level i d -> i + 2 <= 2 ^ 44 -> right_on_the_way lib i ->
  mk_meta_f64 lib checked i h = mk_meta checked i h.
Proof.
  intros lib checked i d h A L B R. unfold mk_meta_f64, mk_meta.
  destruct (small_index i d L B) as (D & _ & _ & M).
  rewrite (depth_right lib checked i d A L B), (meta_depth_level checked i d L M); [reflexivity|].
  intros E. apply R; [lia|]. rewrite <- E. constructor.
Qed.

Lemma way_parent : forall lib i, 0 < i -> right_on_the_way lib i -> right_on_the_way lib ((i - 1) / 2).
Proof. intros lib i Hi R d Hd A. apply R; [exact Hd|]. constructor; assumption. Qed.

Lemma root_loop_same : forall Hash (merger : option Hash -> option Hash -> meta -> option Hash) lib checked h is hs i acc,
  accurate lib -> level i (zlen is) -> i + 2 <= 2 ^ 44 -> right_on_the_way lib i ->
  root_loop_f64 lib merger checked h is hs i acc = root_loop merger checked h is hs i acc.
Proof.
  intros Hash merger lib checked h is. induction is as [|j is IH]; intros hs i acc A L B R; [reflexivity|].
  cbn [root_loop_f64 root_loop]. destruct hs as [|ph hs]; [reflexivity|].
  unfold zlen in L. cbn [length] in L. rewrite Nat2Z.inj_succ, <- Z.add_1_r in L.
  inversion L as [E1 E2|i' d Hi L' E1 E2]; [lia|]. subst i'.
  assert (d = zlen is) by (unfold zlen; lia). subst d.
  apply bind_ext. intros [l r]. unfold parent_index, usub. replace (1 <=? i) with true by lia.
  cbn [bind]. destruct (level_bounds _ _ L') as [D [L1 _]].
  assert (0 <= (i - 1) / 2) by lia.
  rewrite (meta_same lib checked _ (zlen is) h A L' ltac:(lia) (way_parent lib i Hi R)).
  apply bind_ext. intros m. apply IH; auto; [lia|]. apply way_parent; assumption.
Qed.

(** Checking a proof then gives what it would with exact logarithms. *)
Theorem C119_proof : forall Item Hash (hasher : Item -> meta -> Hash) merger hash_eqb lib checked p root,
  accurate lib -> level (p_index p) (zlen (p_peer_indices p)) -> p_index p + 2 <= 2 ^ 44 ->
  right_on_the_way lib (p_index p) ->
  verify_f64 lib hasher merger hash_eqb checked p root = verify hasher merger hash_eqb checked p root.
Proof.
  intros Item Hash hasher merger hash_eqb lib checked p root A L B R. unfold verify_f64, verify, root_hash_f64, root_hash.
  destruct (0 <? p_index p); [|reflexivity].
  rewrite (meta_same lib checked _ _ _ A L B R). 
  destruct (mk_meta checked (p_index p) _) as [m|e|]; try reflexivity. cbn [bind].
  rewrite (root_loop_same Hash merger lib checked _ _ _ _ _ A L B R). reflexivity.
Qed.

(** In particular below 28 levels, if the library is right at the powers of two up to [2 ^ 28]. *)
Theorem C119_small : forall Item Hash (hasher : Item -> meta -> Hash) merger hash_eqb lib checked p root,
  accurate lib -> (forall k, 1 <= k <= 28 -> at_most (lib (2 ^ k)) k) ->
  level (p_index p) (zlen (p_peer_indices p)) -> zlen (p_peer_indices p) <= 27 ->
  verify_f64 lib hasher merger hash_eqb checked p root = verify hasher merger hash_eqb checked p root.
Proof.
  intros Item Hash hasher merger hash_eqb lib checked p root A K L Z. destruct (level_bounds _ _ L) as [D [L1 L2]].
  assert (B : 2 ^ (zlen (p_peer_indices p) + 1) <= 2 ^ 28) by (apply Z.pow_le_mono_r; lia).
  assert (B' : 2 ^ 28 < 2 ^ 44) by reflexivity.
  apply C119_proof; auto; [lia|]. intros d Hd V. apply K. split; [lia|].
  assert (U : 2 ^ (d + 1) - 2 <= p_index p).
  { clear - V. induction V as [|i Hi V IH]; [lia|]. lia. }
  assert (d + 1 < 29); [|lia]. apply (Z.pow_lt_mono_r_iff 2); lia.
Qed.

(** ** What goes wrong *)

(** The last leaf of a full tree of [d] levels, if the library answers more than
    [d + 1] at [2 ^ (d + 1)]: checking its proof panics in a checked build, and
    otherwise the hasher is told a height of [u32::MAX]. *)
Theorem C119_panic_refuted : forall Item Hash (hasher : Item -> meta -> Hash) merger hash_eqb lib d p root,
  accurate lib -> 1 <= d <= 43 -> ~ at_most (lib (2 ^ (d + 1))) (d + 1) ->
  p_index p = 2 ^ (d + 1) - 2 -> zlen (p_peer_indices p) = d ->
  verify_f64 lib hasher merger hash_eqb true p root = Panic /\
  mk_meta_f64 lib false (p_index p) d = Ok {| m_depth := d + 1; m_height := 2 ^ 32 - 1 |}.
Proof.
  intros Item Hash hasher merger hash_eqb lib d p root A D N E L.
  assert (0 < p_index p).
  { rewrite E. assert (2 ^ 2 <= 2 ^ (d + 1)) by (apply Z.pow_le_mono_r; lia). lia. }
  assert (M : forall checked, depth_f64 lib checked (p_index p) = Ok (d + 1)).
  { intros checked. rewrite E. destruct (C119_last lib checked d A ltac:(lia)) as (_ & _ & HM). auto. }
  split.
  - unfold verify_f64, root_hash_f64. replace (0 <? p_index p) with true by lia. rewrite L.
    rewrite Z.mod_small by (change (2 ^ 32) with 4294967296; lia). unfold mk_meta_f64. rewrite M. cbn [bind].
    replace (d + 1 <=? d) with false by lia. reflexivity.
  - unfold mk_meta_f64. rewrite M. cbn [bind]. replace (d + 1 <=? d) with false by lia. do 2 f_equal. lia.
Qed.

(** A tree of more levels: hashes as trees of symbols, a merger without collisions. *)
Inductive sym := SLeaf (x : Z) | SNode (l r : option sym) (h : Z).
Definition sym_hasher (x : Z) (_ : meta) : sym := SLeaf x.
Definition sym_merger (l r : option sym) (m : meta) : option sym := Some (SNode l r (m_height m)).

(** The left siblings of the last node of level [n] and its ancestors. *)
Fixpoint left_siblings (n : nat) : list Z :=
  match n with O => [] | S k => (2 ^ (Z.of_nat n + 1) - 3) :: left_siblings k end.
(** What the hashes on the way become if node [k] of the way gets the height [ht k]. *)
Fixpoint spine (ht : nat -> Z) (n : nat) (hs : list (option sym)) (acc : option sym) : option sym :=
  match n, hs with
  | S k, ph :: hs' => spine ht k hs' (Some (SNode ph acc (ht k)))
  | _, _ => acc
  end.

Lemma spine_inj : forall ht ht' n hs acc acc', length hs = n -> spine ht n hs acc = spine ht' n hs acc' ->
  acc = acc' /\ forall k, (k < n)%nat -> ht k = ht' k.
Proof.
  intros ht ht' n. induction n as [|n IH]; intros hs acc acc' L E; destruct hs as [|ph hs]; try discriminate.
  - split; [exact E|]. intros k Hk. lia.
  - cbn [spine] in E. cbn [length] in L. destruct (IH hs _ _ ltac:(lia) E) as [Q H].
    injection Q as Q1 Q2. split; [exact Q1|]. intros k Hk.
    destruct (Nat.eq_dec k n) as [->|]; [exact Q2|]. apply H. lia.
Qed.
Lemma spine_some : forall ht n hs x, exists y, spine ht n hs (Some x) = Some y.
Proof.
  intros ht n. induction n as [|n IH]; intros hs x; [eexists; reflexivity|].
  destruct hs as [|ph hs]; [eexists; reflexivity|]. cbn [spine]. apply IH.
Qed.

Lemma loop_spine : forall lib checked (dep : nat -> Z) h n hs acc, Z.of_nat n <= 43 -> length hs = n ->
  (forall k, (k < n)%nat -> depth_f64 lib checked (2 ^ (Z.of_nat k + 1) - 2) = Ok (dep k) /\ dep k <= h) ->
  root_loop_f64 lib sym_merger checked h (left_siblings n) hs (2 ^ (Z.of_nat n + 1) - 2) acc =
  Ok (spine (fun k => h - dep k) n hs acc).
Proof.
  intros lib checked dep h n. induction n as [|n IH]; intros hs acc Hn L D; [destruct hs; reflexivity|].
  destruct hs as [|ph hs]; [discriminate|]. cbn [left_siblings root_loop_f64 spine].
  assert (P : 2 ^ (Z.of_nat (S n) + 1) = 2 * 2 ^ (Z.of_nat n + 1)).
  { rewrite Nat2Z.inj_succ, <- Z.add_1_r, (Z.pow_add_r 2 (Z.of_nat n + 1) 1) by lia. change (2 ^ 1) with 2. lia. }
  assert (Q : 2 <= 2 ^ (Z.of_nat n + 1)) by (change 2 with (2 ^ 1) at 1; apply Z.pow_le_mono_r; lia).
  assert (Q' : 2 ^ (Z.of_nat n + 1) <= 2 ^ 44) by (apply Z.pow_le_mono_r; lia).
  change (2 ^ 44) with 17592186044416 in Q'.
  destruct (D n ltac:(lia)) as [D1 D2].
  rewrite P. remember (2 ^ (Z.of_nat n + 1)) as u eqn:EU.
  unfold get_ordered_siblings, parent_index, uadd, usub. change usize_max with 18446744073709551615.
  replace (2 * u - 2 + 1 <=? 18446744073709551615) with true by lia. cbn [bind].
  replace (2 * u - 2 + 1 =? 2 * u - 3) with false by lia.
  replace (2 * u - 3 + 1 <=? 18446744073709551615) with true by lia. cbn [bind].
  replace (2 * u - 2 =? 2 * u - 3 + 1) with true by lia. cbn [bind].
  replace (1 <=? 2 * u - 2) with true by lia. cbn [bind].
  replace ((2 * u - 2 - 1) / 2) with (u - 2) by lia.
  unfold mk_meta_f64 at 1. rewrite D1. cbn [bind]. replace (dep n <=? h) with true by lia. cbn [bind].
  unfold sym_merger at 2. cbn [m_height]. apply IH; [lia|cbn [length] in L; lia|]. intros k Hk. apply D. lia.
Qed.

Lemma loop_exact : forall checked h n hs acc, Z.of_nat n <= 43 -> length hs = n -> Z.of_nat n <= h ->
  root_loop sym_merger checked h (left_siblings n) hs (2 ^ (Z.of_nat n + 1) - 2) acc =
  Ok (spine (fun k => h - Z.of_nat k) n hs acc).
Proof.
  intros checked h n. induction n as [|n IH]; intros hs acc Hn L D; [destruct hs; reflexivity|].
  destruct hs as [|ph hs]; [discriminate|]. cbn [left_siblings root_loop spine].
  assert (P : 2 ^ (Z.of_nat (S n) + 1) = 2 * 2 ^ (Z.of_nat n + 1)).
  { rewrite Nat2Z.inj_succ, <- Z.add_1_r, (Z.pow_add_r 2 (Z.of_nat n + 1) 1) by lia. change (2 ^ 1) with 2. lia. }
  assert (Q : 2 <= 2 ^ (Z.of_nat n + 1)) by (change 2 with (2 ^ 1) at 1; apply Z.pow_le_mono_r; lia).
  assert (Q' : 2 ^ (Z.of_nat n + 1) <= 2 ^ 44) by (apply Z.pow_le_mono_r; lia).
  change (2 ^ 44) with 17592186044416 in Q'.
  assert (LV : level (2 ^ (Z.of_nat n + 1) - 2) (Z.of_nat n)).
  { apply level_unique; [lia|]. split; [|lia]. rewrite Z.pow_add_r by lia. change (2 ^ 1) with 2.
    pose proof (Z.pow_pos_nonneg 2 (Z.of_nat n) ltac:(lia) ltac:(lia)). lia. }
  assert (M : meta_depth checked (2 ^ (Z.of_nat n + 1) - 2) = Ok (Z.of_nat n)).
  { apply meta_depth_level; [exact LV|]. change usize_max with 18446744073709551615. lia. }
  rewrite P. remember (2 ^ (Z.of_nat n + 1)) as u eqn:EU.
  unfold get_ordered_siblings, parent_index, uadd, usub. change usize_max with 18446744073709551615.
  replace (2 * u - 2 + 1 <=? 18446744073709551615) with true by lia. cbn [bind].
  replace (2 * u - 2 + 1 =? 2 * u - 3) with false by lia.
  replace (2 * u - 3 + 1 <=? 18446744073709551615) with true by lia. cbn [bind].
  replace (2 * u - 2 =? 2 * u - 3 + 1) with true by lia. cbn [bind].
  replace (1 <=? 2 * u - 2) with true by lia. cbn [bind].
  replace ((2 * u - 2 - 1) / 2) with (u - 2) by lia.
  unfold mk_meta at 1. rewrite M. cbn [bind]. replace (Z.of_nat n <=? h) with true by lia. cbn [bind].
  unfold sym_merger at 2. cbn [m_height]. apply IH; [lia|cbn [length] in L; lia|lia].
Qed.

Definition at_mostb (q : dyadic) (k : Z) : bool := dy_m q <=? k * 2 ^ Z.of_N (dy_s q).
Lemma at_mostb_spec : forall q k, at_mostb q k = true <-> at_most q k.
Proof. intros q k. unfold at_mostb, at_most. lia. Qed.

(** The proof of the last leaf of a full tree of [n] levels, if the library
    errs at a level [d] on the way: whatever the sibling hashes are, the root is
    not the one that exact depths give, and a true proof is refused. *)
Theorem C119_rejected_refuted : forall lib checked d n x hs (hash_eqb : sym -> sym -> bool),
  accurate lib -> (d < n)%nat -> Z.of_nat n <= 43 -> length hs = n ->
  ~ at_most (lib (2 ^ (Z.of_nat d + 1))) (Z.of_nat d + 1) -> at_most (lib (2 ^ (Z.of_nat n + 1))) (Z.of_nat n + 1) ->
  (forall a b, hash_eqb a b = true <-> a = b) ->
  let p := {| p_index := 2 ^ (Z.of_nat n + 1) - 2; p_item := x; p_peer_indices := left_siblings n; p_peer_hashes := hs |} in
  exists root, root_hash sym_hasher sym_merger checked p = Ok root /\
    verify sym_hasher sym_merger hash_eqb checked p root = Ok true /\
    verify_f64 lib sym_hasher sym_merger hash_eqb checked p root = Ok false.
Proof.
  intros lib checked d n x hs hash_eqb A Hd Hn L N R EQ p.
  assert (LS : forall m, length (left_siblings m) = m) by (induction m; cbn [left_siblings length]; lia).
  assert (P : 2 < 2 ^ (Z.of_nat n + 1)).
  { assert (2 ^ 2 <= 2 ^ (Z.of_nat n + 1)) by (apply Z.pow_le_mono_r; lia). lia. }
  assert (Q : 2 ^ (Z.of_nat n + 1) <= 2 ^ 44) by (apply Z.pow_le_mono_r; lia).
  destruct (C119_last lib checked (Z.of_nat n) A ltac:(lia)) as (LV & DN & _). cbn zeta in LV. specialize (DN R).
  assert (H : zlen (left_siblings n) mod 2 ^ 32 = Z.of_nat n).
  { unfold zlen. rewrite LS. apply Z.mod_small. change (2 ^ 32) with 4294967296. lia. }
  assert (PI : (0 <? 2 ^ (Z.of_nat n + 1) - 2) = true) by lia.
  pose (dep := fun k => if at_mostb (lib (2 ^ (Z.of_nat k + 1))) (Z.of_nat k + 1) then Z.of_nat k else Z.of_nat k + 1).
  assert (F := loop_spine lib checked dep (Z.of_nat n) n hs (Some (SLeaf x)) Hn L).
  assert (E := loop_exact checked (Z.of_nat n) n hs (Some (SLeaf x)) Hn L ltac:(lia)).
  destruct (spine_some (fun k => Z.of_nat n - Z.of_nat k) n hs (SLeaf x)) as [root SR].
  destruct (spine_some (fun k => Z.of_nat n - dep k) n hs (SLeaf x)) as [root' SR'].
  assert (RH : root_hash sym_hasher sym_merger checked p = Ok root).
  { unfold root_hash, p. cbn [p_index p_item p_peer_indices p_peer_hashes]. rewrite PI, H.
    unfold mk_meta at 1. rewrite (meta_depth_level checked _ _ LV) by (change usize_max with 18446744073709551615; change (2 ^ 44) with 17592186044416 in Q; lia).
    cbn [bind]. rewrite Z.leb_refl. cbn [bind]. unfold sym_hasher. rewrite E. cbn [bind]. rewrite SR. reflexivity. }
  assert (RF : root_hash_f64 lib sym_hasher sym_merger checked p = Ok root').
  { unfold root_hash_f64, p. cbn [p_index p_item p_peer_indices p_peer_hashes]. rewrite PI, H.
    unfold mk_meta_f64 at 1. rewrite DN.
    cbn [bind]. rewrite Z.leb_refl. cbn [bind]. unfold sym_hasher. rewrite F; [cbn [bind]; rewrite SR'; reflexivity|].
    intros k Hk. destruct (C119_last lib checked (Z.of_nat k) A ltac:(lia)) as (_ & K1 & K2). unfold dep.
    destruct (at_mostb _ _) eqn:EB.
    - split; [|lia]. apply K1. apply at_mostb_spec. exact EB.
    - split; [|lia]. apply K2. intros C. apply at_mostb_spec in C. congruence. }
  exists root. split; [exact RH|]. unfold verify, verify_f64. rewrite RH, RF. split.
  - f_equal. apply EQ. reflexivity.
  - f_equal. apply not_true_is_false. intros C. apply EQ in C. subst root'.
    destruct (spine_inj _ _ n hs _ _ L (eq_trans SR (eq_sym SR'))) as [_ K]. specialize (K d Hd). cbn beta in K.
    assert (dep d = Z.of_nat d + 1); [|lia]. unfold dep.
    destruct (at_mostb _ _) eqn:EB; [|reflexivity]. exfalso. apply N. apply at_mostb_spec. exact EB.
Qed.

(** No library can be right everywhere: 2^53 + 1 is not an [f64]. *)
Theorem C119_rounding_refuted : forall lib checked, exists i j d, level i d /\ level j (d + 1) /\
  depth_f64 lib checked i = depth_f64 lib checked j.
Proof.
  intros lib checked. exists (2 ^ 53 - 2), (2 ^ 53 - 1), 52.
  split; [apply level_unique; cbn; lia|]. split; [apply level_unique; cbn; lia|].
  unfold depth_f64, uadd. reflexivity.
Qed.

(** The height of a tree, from the library's [log2], which is exact at powers of two. *)
Theorem C119_tree_height : forall lib size, accurate lib -> (forall k, 1 <= k <= 44 -> at_most (lib (2 ^ k)) k) ->
  0 <= size <= 2 ^ 44 -> calculate_height_f64 lib size = calculate_height size.
Proof.
  intros lib size A K S. unfold calculate_height_f64, calculate_height. destruct (size <? 2) eqn:E; [reflexivity|].
  rewrite as_f64_small by (assert (2 ^ 44 < 2 ^ 53) by reflexivity; lia).
  pose proof (Z.log2_up_spec size ltac:(lia)) as U. set (k := Z.log2_up size) in *.
  assert (K1 : 1 <= k) by (apply (Z.log2_up_le_mono 2 size); lia).
  assert (K2 : k <= 44) by (change 44 with (Z.log2_up (2 ^ 44)); apply Z.log2_up_le_mono; lia).
  assert (C : ceil (lib size) = k).
  { destruct (Z.eq_dec size (2 ^ k)) as [Q|N].
    - rewrite Q. apply ceil_spec; [|apply K; lia].
      apply (at_power (lib (2 ^ k)) k 45); try lia. rewrite <- Q. apply A. lia.
    - replace k with (Z.pred k + 1) by lia. apply (between (lib size) size (Z.pred k) 45); try lia.
      + replace (Z.pred k + 1) with k by lia. lia.
      + apply A. lia. }
  rewrite C. unfold as_u32. change (2 ^ 32) with 4294967296. lia.
Qed.

(** ** Libraries *)

(** The logarithm to [s] binary places, rounded down. *)
Definition exact_lib (s : N) (x : Z) : dyadic := {| dy_m := Z.log2 (x ^ (2 ^ Z.of_N s)); dy_s := s |}.

Lemma exact_within : forall s t x, 0 <= t <= Z.of_N s -> 2 <= x -> within t (exact_lib s x) x.
Proof.
  intros s t x Ht Hx. unfold within, exact_lib. cbn [dy_m dy_s]. set (z := Z.of_N s) in *. assert (0 <= z) by (unfold z; lia).
  assert (T : 0 < 2 ^ t) by (apply Z.pow_pos_nonneg; lia). assert (S : 2 ^ t <= 2 ^ z) by (apply Z.pow_le_mono_r; lia).
  assert (X : 0 < x ^ 2 ^ z) by (apply Z.pow_pos_nonneg; lia).
  rewrite Z.pow_add_r, Z.pow_mul_r by lia. pose proof (Z.log2_spec (x ^ 2 ^ z) X) as [L U].
  pose proof (Z.log2_nonneg (x ^ 2 ^ z)) as G. set (m := Z.log2 (x ^ 2 ^ z)) in *. clearbody m.
  split.
  - apply Z.le_trans with (2 ^ (m * 2 ^ t)).
    + apply Z.pow_le_mono_r; lia.
    + rewrite Z.pow_mul_r by lia. apply Z.pow_le_mono_l. split; [apply Z.pow_nonneg; lia|exact L].
  - apply Z.le_trans with (2 ^ (Z.succ m * 2 ^ t)).
    + rewrite Z.pow_mul_r by lia. apply Z.pow_le_mono_l. lia.
    + apply Z.pow_le_mono_r; lia.
Qed.

Lemma exact_at_power : forall s k, 0 <= k -> at_most (exact_lib s (2 ^ k)) k.
Proof.
  intros s k Hk. unfold at_most, exact_lib. cbn [dy_m dy_s]. assert (0 <= 2 ^ Z.of_N s) by (apply Z.pow_nonneg; lia).
  rewrite <- Z.pow_mul_r by lia. rewrite Z.log2_pow2 by nia. lia.
Qed.

(** Libraries as asked for above exist, and [f64] has room for their answers. *)
Theorem C119_exact_library : accurate (exact_lib 48) /\ forall k, 0 <= k -> at_most (exact_lib 48 (2 ^ k)) k.
Proof.
  split; [|intros k; apply exact_at_power]. intros x Hx. apply exact_within; lia.
Qed.

(** What ln(2^29) / ln(2) and ln(2^31) / ln(2) are in [f64]: one unit in the last
    place more than 29 and 31.  The numerators and the denominator are the
    [f64] next to the true logarithms; the quotient is IEEE division. *)
Definition ln_2 : spec_float := S754_finite false 6243314768165359 (-53).
Definition ln_2_29 : spec_float := S754_finite false 5658004008649857 (-48).
Definition ln_2_31 : spec_float := S754_finite false 6048211181660192 (-48).
Definition more_29 : dyadic := {| dy_m := 8162774324609025; dy_s := 48 |}.
Definition more_31 : dyadic := {| dy_m := 8725724278030337; dy_s := 48 |}.
Theorem C119_division :
  SFdiv 53 1024 ln_2_29 ln_2 = S754_finite false 8162774324609025 (-48) /\
  SFdiv 53 1024 ln_2_31 ln_2 = S754_finite false 8725724278030337 (-48) /\
  dy_m more_29 = 29 * 2 ^ 48 + 1 /\ dy_m more_31 = 31 * 2 ^ 48 + 1.
Proof. repeat split; vm_compute; reflexivity. Qed.

(** An accurate library with these two answers. *)
Definition libm (x : Z) : dyadic :=
  if x =? 2 ^ 29 then more_29 else if x =? 2 ^ 31 then more_31 else exact_lib 48 x.

Lemma libm_29 : libm (2 ^ 29) = more_29.
Proof. unfold libm. rewrite Z.eqb_refl. reflexivity. Qed.
Lemma libm_31 : libm (2 ^ 31) = more_31.
Proof.
  unfold libm. replace (2 ^ 31 =? 2 ^ 29) with false by (symmetry; apply Z.eqb_neq; lia).
  rewrite Z.eqb_refl. reflexivity.
Qed.
Lemma one_more_within : forall k q, 0 <= k -> dy_s q = 48%N -> dy_m q = k * 2 ^ 48 + 1 -> within 45 q (2 ^ k).
Proof.
  intros k q Hk S M. unfold within. rewrite S, M. change (Z.of_N 48) with 48.
  rewrite <- Z.pow_mul_r by (try apply Z.pow_nonneg; lia).
  rewrite (Z.pow_add_r 2 48 45) by lia. change (2 ^ 48) with 281474976710656. change (2 ^ 45) with 35184372088832.
  split; apply Z.pow_le_mono_r; lia.
Qed.

Theorem C119_library_refuted : accurate libm /\
  (forall k, 1 <= k <= 44 -> k <> 29 -> k <> 31 -> at_most (libm (2 ^ k)) k) /\
  ~ at_most (libm (2 ^ 29)) 29 /\ ~ at_most (libm (2 ^ 31)) 31.
Proof.
  repeat match goal with |- _ /\ _ => split end.
  - intros x Hx. unfold libm. destruct (x =? 2 ^ 29) eqn:E1.
    { apply Z.eqb_eq in E1. rewrite E1. apply one_more_within; [lia|reflexivity|reflexivity]. }
    destruct (x =? 2 ^ 31) eqn:E2.
    { apply Z.eqb_eq in E2. rewrite E2. apply one_more_within; [lia|reflexivity|reflexivity]. }
    apply exact_within; lia.
  - intros k Hk N1 N2. unfold libm. replace (2 ^ k =? 2 ^ 29) with false.
    2:{ symmetry. apply Z.eqb_neq. intros C. apply Z.pow_inj_r in C; lia. }
    replace (2 ^ k =? 2 ^ 31) with false; [apply exact_at_power; lia|].
    symmetry. apply Z.eqb_neq. intros C. apply Z.pow_inj_r in C; lia.
  - unfold at_most. rewrite libm_29. unfold more_29. cbn [dy_m dy_s]. change (Z.of_N 48) with 48. lia.
  - unfold at_most. rewrite libm_31. unfold more_31. cbn [dy_m dy_s]. change (Z.of_N 48) with 48. lia.
Qed.

(** With it: node 2^29 - 2, the last of level 28, has depth 29; a tree of 28
    levels panics at its last leaf; the last account of a ledger of 35 levels
    (the depth of Berkeley's ledger) has no proof that is accepted. *)
Lemma some_levels : level (2 ^ 29 - 1) 29 /\ level 5 2 /\ ~ level (2 ^ 29 - 1 + 1) (29 + 1) /\ ~ level (5 + 1) (2 + 1) /\
  2 ^ 29 - 1 + 2 <= 2 ^ 44 /\ 5 + 2 <= 2 ^ 44.
Proof.
  repeat match goal with |- _ /\ _ => split end; try (apply level_unique; cbn; lia).
  - intros C. apply level_bounds in C. change (2 ^ (29 + 1)) with 1073741824 in C. change (2 ^ 29) with 536870912 in C. lia.
  - intros C. apply level_bounds in C. change (2 ^ (2 + 1)) with 8 in C. lia.
  - cbn. lia.
  - cbn. lia.
Qed.
Example C119_example :
  depth_f64 libm true (2 ^ 29 - 2) = Ok 29 /\ level (2 ^ 29 - 2) 28 /\
  depth_f64 libm true (2 ^ 29 - 1) = Ok 29 /\ level (2 ^ 29 - 1) 29 /\
  depth_f64 libm true 5 = Ok 2 /\ depth_f64 libm true 6 = Ok 2 /\ level 5 2 /\ level 6 2.
Proof.
  destruct C119_library_refuted as (A & K & N29 & _). destruct some_levels as (L29 & L5 & M29 & M5 & B29 & B5).
  assert (D28 : 0 <= 28 <= 43) by lia. assert (D2 : 0 <= 2 <= 43) by lia. assert (K3 := K 3 ltac:(lia) ltac:(lia) ltac:(lia)).
  clear K.
  destruct (C119_last libm true 28 A D28) as (L28 & _ & H28).
  destruct (C119_last libm true 2 A D2) as (L2 & H2 & _).
  split; [exact (H28 N29)|]. split; [exact L28|].
  split; [exact (C119_depth libm true _ _ A L29 B29 M29)|]. split; [exact L29|].
  split; [exact (C119_depth libm true _ _ A L5 B5 M5)|].
  split; [exact (H2 K3)|]. split; [exact L5|exact L2].
Qed.

Example C119_rejected_example : forall checked x hs (hash_eqb : sym -> sym -> bool), length hs = 35%nat ->
  (forall a b, hash_eqb a b = true <-> a = b) ->
  let p := {| p_index := 2 ^ 36 - 2; p_item := x; p_peer_indices := left_siblings 35; p_peer_hashes := hs |} in
  exists root, verify sym_hasher sym_merger hash_eqb checked p root = Ok true /\
    verify_f64 libm sym_hasher sym_merger hash_eqb checked p root = Ok false.
Proof.
  intros checked x hs hash_eqb L EQ p. destruct C119_library_refuted as (A & K & N29 & _).
  destruct (C119_rejected_refuted libm checked 28 35 x hs hash_eqb A ltac:(lia) ltac:(lia) L N29 (K 36 ltac:(lia) ltac:(lia) ltac:(lia)) EQ)
    as (root & _ & V & F).
  exists root. split; [exact V|exact F].
Qed.

Example C119_panic_example : forall root, 
  verify_f64 libm sym_hasher sym_merger (fun _ _ => true) true
    {| p_index := 2 ^ 29 - 2; p_item := 7; p_peer_indices := left_siblings 28; p_peer_hashes := repeat None 28 |} root = Panic.
Proof.
  intros root. destruct C119_library_refuted as (A & _ & N29 & _).
  destruct (C119_panic_refuted Z sym sym_hasher sym_merger (fun _ _ => true) libm 28
    {| p_index := 2 ^ 29 - 2; p_item := 7; p_peer_indices := left_siblings 28; p_peer_hashes := repeat None 28 |} root A ltac:(lia) N29 eq_refl eq_refl) as [P _].
  exact P.
Qed.

(** A proof in a tree of 20 levels (the depth of mainnet's ledger) is not concerned. *)
Example C119_small_example : forall checked hs root, let p := {| p_index := 2 ^ 21 - 2; p_item := 7; p_peer_indices := left_siblings 20; p_peer_hashes := hs |} in
  verify_f64 libm sym_hasher sym_merger (fun _ _ => true) checked p root = verify sym_hasher sym_merger (fun _ _ => true) checked p root.
Proof.
  intros checked hs root p. destruct C119_library_refuted as (A & K & _).
  apply C119_small; [exact A|intros k Hk; apply K; lia| |cbn; lia].
  apply level_unique; cbn; lia.
Qed.

Print Assumptions C119_depth.
Print Assumptions C119_last.
Print Assumptions C119_proof.
Print Assumptions C119_small.
Print Assumptions C119_panic_refuted.
Print Assumptions C119_rejected_refuted.
Print Assumptions C119_rounding_refuted.
Print Assumptions C119_tree_height.
Print Assumptions C119_exact_library.
Print Assumptions C119_division.
Print Assumptions C119_library_refuted.
