(** Properties C18-C26 and C65-C68: the Merkle tree, its proofs and paths. *)
From Coq Require Import String ZArith List Bool Lia ZifyBool ZifyNat.
From Verif Require Import Lib.Res Lib.Vec Lib.Bytes Lib.Decimal Merkle.Tree Merkle.MerkleSpec Merkle.TreeProofs
  Merkle.ProofProofs Merkle.PathProofs Merkle.Poseidon.
Import ListNotations.
Open Scope string_scope.
Open Scope list_scope.
Open Scope Z_scope.
Ltac Zify.zify_post_hook ::= Z.div_mod_to_equations.

(** Witnesses: integers hashed to themselves; a merger that always answers and
    depends on order and height; the mergers of merkle/tests; hashes as trees
    of symbols, on which the merger has no collisions at all. *)
Definition id_hasher (x : Z) (_ : meta) : Z := x.
Definition sum_merger (l r : option Z) (m : meta) : option Z :=
  Some (match l with Some a => a | None => 0 end + 3 * match r with Some b => b | None => 0 end + 100 * m_height m).
(** /repo/merkle/tests/tree_dup_odd_leaf_merger.rs 37-48 *)
Definition dup_merger (l r : option Z) (_ : meta) : option Z :=
  match l, r with Some a, Some b => Some (a + b) | Some a, None => Some (a * 2) | _, _ => None end.
Inductive sym := SLeaf (x : Z) | SNode (l r : option sym) (h : Z).
Definition sym_hasher (x : Z) (_ : meta) : sym := SLeaf x.
Definition sym_merger (l r : option sym) (m : meta) : option sym := Some (SNode l r (m_height m)).
Fixpoint sym_eqb (a b : sym) : bool :=
  let o x y := match x, y with Some a, Some b => sym_eqb a b | None, None => true | _, _ => false end in
  match a, b with
  | SLeaf x, SLeaf y => x =? y
  | SNode l r h, SNode l' r' h' => o l l' && o r r' && (h =? h')
  | _, _ => false
  end.
Definition zs (n : nat) : list Z := map Z.of_nat (seq 10 n).
Lemma sum_total : merger_total sum_merger. Proof. intros l r m. discriminate. Qed.
Lemma sum_height : merger_ignores_depth sum_merger.
Proof. intros l r m1 m2 H. unfold sum_merger. rewrite H. reflexivity. Qed.
Lemma id_depth : hasher_ignores_depth id_hasher. Proof. intros x m1 m2 _. reflexivity. Qed.
Lemma least_intro : forall n k, (n <= 2 ^ k)%nat -> (k = O \/ (2 ^ (k - 1) < n)%nat) -> least_height n k.
Proof.
  intros n k H1 H2. split; [exact H1|]. intros j Hj. destruct (le_lt_dec k j) as [|L]; auto. exfalso.
  destruct H2 as [->|H2]; [lia|]. pose proof (Nat.pow_le_mono_r 2 j (k - 1) ltac:(lia) ltac:(lia)). lia.
Qed.
(** A history with reads and proofs between additions. *)
Definition ex_ops : list (op Z) :=
  [OAddBatch (zs 5); ORoot; OAdd 77; OProof 2; OAddBatch [1; 2]; OProof 7; ORoot; OAdd 3; ORoot].

(** ** C18 *)
(** After any history the root is the one computed from the leaves alone, in
    both modes (fixed mode: when the leaves fit the fixed height). *)
Theorem C18_root_of_leaves :
  forall Item Hash (hasher : Item -> meta -> Hash) merger checked mode ops t k,
  merger_total merger -> hasher_ignores_depth hasher ->
  run hasher merger checked (new_tree mode) ops = Ok t ->
  zlen (leaves_of ops) < 2 ^ 62 -> least_height (length (leaves_of ops)) k ->
  (forall f, mode = Some f -> Z.of_nat k <= f) ->
  exists t', root hasher merger checked t = Ok (t', spec_root hasher merger mode k (leaves_of ops)).
Proof.
  intros Item Hash hasher merger checked mode ops t k T D R B K M.
  destruct (run_inv hasher merger T D checked ops [] (new_tree mode) t (inv_new _ _ _) B R) as [I F].
  cbn [app] in I. pose proof (root_ok hasher merger T D checked _ t k I B K) as RK.
  rewrite F in RK. cbn [fixed new_tree] in RK. unfold spec_root. destruct mode as [f|].
  - specialize (M f eq_refl). replace (f <? Z.of_nat k) with false in RK by lia.
    destruct RK as (t' & E & _). eauto.
  - destruct RK as (t' & E & _). eauto.
Qed.
(** In fixed mode with too many leaves, reading the root panics (tree_impl.rs 282). *)
Theorem C18_overfull_panics :
  forall Item Hash (hasher : Item -> meta -> Hash) merger checked f ops t k,
  merger_total merger -> hasher_ignores_depth hasher ->
  run hasher merger checked (new_tree (Some f)) ops = Ok t ->
  zlen (leaves_of ops) < 2 ^ 62 -> least_height (length (leaves_of ops)) k -> f < Z.of_nat k ->
  root hasher merger checked t = Panic.
Proof.
  intros Item Hash hasher merger checked f ops t k T D R B K M.
  destruct (run_inv hasher merger T D checked ops [] (new_tree (Some f)) t (inv_new _ _ _) B R) as [I F].
  cbn [app] in I. pose proof (root_ok hasher merger T D checked _ t k I B K) as RK.
  rewrite F in RK. cbn [fixed new_tree] in RK. replace (f <? Z.of_nat k) with true in RK by lia. exact RK.
Qed.
(** Adding leaves never panics. *)
Theorem C18_add_total :
  forall Item Hash (hasher : Item -> meta -> Hash) merger checked mode ops t l,
  merger_total merger -> hasher_ignores_depth hasher ->
  run hasher merger checked (new_tree mode) ops = Ok t -> zlen (leaves_of ops) < 2 ^ 62 ->
  exists t', add_batch checked t l = Ok t'.
Proof.
  intros Item Hash hasher merger checked mode ops t l T D R B.
  destruct (run_inv hasher merger T D checked ops [] (new_tree mode) t (inv_new _ _ _) B R) as [I F].
  destruct (add_batch_ok hasher merger D checked t _ l I) as (t' & E & _). eauto.
Qed.
Example C18_ex : exists t t', run id_hasher sum_merger true (new_tree None) ex_ops = Ok t
  /\ zlen (leaves_of ex_ops) < 2 ^ 62 /\ least_height (length (leaves_of ex_ops)) 4
  /\ root id_hasher sum_merger true t = Ok (t', spec_root id_hasher sum_merger None 4 (leaves_of ex_ops)).
Proof.
  eexists. eexists. split; [vm_compute; reflexivity|]. split; [vm_compute; reflexivity|].
  split; [apply least_intro; [vm_compute; lia|right; vm_compute; lia]|]. vm_compute. reflexivity.
Qed.
Example C18_overfull_ex : exists t, run id_hasher sum_merger true (new_tree (Some 2)) [OAddBatch (zs 5)] = Ok t
  /\ least_height (length (leaves_of [OAddBatch (zs 5)])) 3 /\ 2 < Z.of_nat 3.
Proof.
  eexists. split; [vm_compute; reflexivity|]. split; [|lia].
  apply least_intro; [vm_compute; lia|right; vm_compute; lia].
Qed.

(** ** C19 *)
(** Histories adding the same leaves in the same order give the same root. *)
Theorem C19_batching :
  forall Item Hash (hasher : Item -> meta -> Hash) merger c1 c2 mode ops1 ops2 t1 t2,
  merger_total merger -> hasher_ignores_depth hasher ->
  run hasher merger c1 (new_tree mode) ops1 = Ok t1 -> run hasher merger c2 (new_tree mode) ops2 = Ok t2 ->
  leaves_of ops1 = leaves_of ops2 -> zlen (leaves_of ops1) < 2 ^ 62 ->
  rmap snd (root hasher merger c1 t1) = rmap snd (root hasher merger c2 t2).
Proof.
  intros Item Hash hasher merger c1 c2 mode ops1 ops2 t1 t2 T D R1 R2 E B.
  pose proof (calculate_height_least (length (leaves_of ops1))) as K. set (k := Z.to_nat _) in K.
  destruct mode as [f|].
  - destruct (Z_lt_dec f (Z.of_nat k)) as [L|L].
    + rewrite (C18_overfull_panics _ _ hasher merger c1 f ops1 t1 k T D R1 B K L).
      rewrite E in B, K.
      rewrite (C18_overfull_panics _ _ hasher merger c2 f ops2 t2 k T D R2 B K L). reflexivity.
    + destruct (C18_root_of_leaves _ _ hasher merger c1 (Some f) ops1 t1 k T D R1 B K) as [x X]; [intros ? [= <-]; lia|].
      rewrite E in B, K, X.
      destruct (C18_root_of_leaves _ _ hasher merger c2 (Some f) ops2 t2 k T D R2 B K) as [y Y]; [intros ? [= <-]; lia|].
      rewrite X, Y. reflexivity.
  - destruct (C18_root_of_leaves _ _ hasher merger c1 None ops1 t1 k T D R1 B K) as [x X]; [discriminate|].
    rewrite E in B, K, X.
    destruct (C18_root_of_leaves _ _ hasher merger c2 None ops2 t2 k T D R2 B K) as [y Y]; [discriminate|].
    rewrite X, Y. reflexivity.
Qed.
(** The claim for every merger is false: with the merger of the repository's own
    test, reading the root between adding the sixth and the seventh leaf leaves
    a stale hash behind. *)
Theorem C19_refuted : forall checked, exists ops1 ops2 t1 t2 r1 r2,
  leaves_of ops1 = leaves_of ops2 /\
  run id_hasher dup_merger checked (new_tree None) ops1 = Ok t1 /\
  run id_hasher dup_merger checked (new_tree None) ops2 = Ok t2 /\
  rmap snd (root id_hasher dup_merger checked t1) = Ok r1 /\
  rmap snd (root id_hasher dup_merger checked t2) = Ok r2 /\ r1 <> r2.
Proof.
  intros checked. exists [OAddBatch (zs 7)], [OAddBatch (zs 6); ORoot; OAdd 16].
  destruct checked; do 4 eexists; repeat (split; [vm_compute; reflexivity|]); discriminate.
Qed.
Example C19_ex : exists t1 t2, run id_hasher sum_merger true (new_tree (Some 6)) ex_ops = Ok t1
  /\ run id_hasher sum_merger false (new_tree (Some 6)) (map OAdd (leaves_of ex_ops)) = Ok t2
  /\ leaves_of (map OAdd (leaves_of ex_ops)) = leaves_of ex_ops.
Proof. do 2 eexists. split; [vm_compute; reflexivity|]. split; vm_compute; reflexivity. Qed.

(** ** C20 *)
Section C20.
Context {Item Fp : Type}.
Variable poseidon : option (list Z) -> list Fp -> Fp.
Variable empty0 : Fp.
Variable item_hash : Item -> Fp.
Notation hs := (poseidon_hash_item item_hash).
Notation mg := (poseidon_merge poseidon empty0).
Notation nd := (merge_present poseidon).
Notation emp := (get_empty_hash poseidon empty0).

(** The leaf hashes of a full tree with [n] places. *)
Definition padded (n : nat) (l : list Item) : list Fp := map item_hash l ++ repeat empty0 (n - length l).

Lemma poseidon_total : merger_total mg. Proof. intros l r m. discriminate. Qed.
Lemma poseidon_height_only : merger_ignores_depth mg.
Proof. intros l r m1 m2 H. unfold poseidon_merge. rewrite H. reflexivity. Qed.
Lemma poseidon_item_depth : hasher_ignores_depth hs. Proof. intros x m1 m2 _. reflexivity. Qed.

Lemma repeat_firstn : forall A (x : A) a b, firstn a (repeat x (a + b)) = repeat x a.
Proof. intros A x a b. induction a; cbn; [reflexivity|f_equal; auto]. Qed.
Lemma repeat_skipn : forall A (x : A) a b, skipn a (repeat x (a + b)) = repeat x b.
Proof. intros A x a b. induction a; cbn; auto. Qed.

Lemma padded_firstn : forall n l, (length l <= n + n)%nat -> firstn n (padded (n + n) l) = padded n (firstn n l).
Proof.
  intros n l H. unfold padded. rewrite firstn_app, map_length, <- firstn_map, firstn_length. f_equal.
  destruct (le_lt_dec (length l) n) as [L|L].
  - replace (Nat.min n (length l)) with (length l) by lia.
    replace (n + n - length l)%nat with ((n - length l) + n)%nat by lia. apply repeat_firstn.
  - replace (n - length l)%nat with O by lia. replace (n - Nat.min n (length l))%nat with O by lia. reflexivity.
Qed.
Lemma padded_skipn : forall n l, (length l <= n + n)%nat -> skipn n (padded (n + n) l) = padded n (skipn n l).
Proof.
  intros n l H. unfold padded. rewrite skipn_app, map_length, <- skipn_map, skipn_length. f_equal.
  destruct (le_lt_dec (length l) n) as [L|L].
  - replace (n + n - length l)%nat with ((n - length l) + n)%nat by lia. rewrite repeat_skipn.
    f_equal. lia.
  - replace (n - length l)%nat with O by lia. cbn [skipn]. f_equal. lia.
Qed.

Lemma perfect_empty : forall k, perfect_root nd empty0 k (repeat empty0 (2 ^ k)) = emp k.
Proof.
  induction k as [|k IH]; [reflexivity|]. cbn [perfect_root get_empty_hash].
  replace (2 ^ S k)%nat with (2 ^ k + 2 ^ k)%nat by (cbn; lia).
  rewrite repeat_firstn, repeat_skipn, IH. reflexivity.
Qed.

Lemma mroot_perfect : forall k d l, (length l <= 2 ^ k)%nat ->
  fill poseidon empty0 (Z.of_nat k + 1) (mroot hs mg k d l) = perfect_root nd empty0 k (padded (2 ^ k) l).
Proof.
  induction k as [|k IH]; intros d l H.
  - cbn [mroot perfect_root]. destruct l as [|x l]; [reflexivity|]. reflexivity.
  - cbn [mroot perfect_root]. unfold poseidon_merge. cbn [fill m_height].
    replace (2 ^ S k)%nat with (2 ^ k + 2 ^ k)%nat in * by (cbn; lia).
    rewrite padded_firstn, padded_skipn by lia.
    replace (Z.of_nat (S k)) with (Z.of_nat k + 1) by lia.
    rewrite !IH; [reflexivity| |]; rewrite ?skipn_length, ?firstn_length; lia.
Qed.

Lemma mroot_some : forall k d l, (0 < k)%nat -> exists h, mroot hs mg k d l = Some h.
Proof. intros [|k] d l H; [lia|]. cbn [mroot]. unfold poseidon_merge. eauto. Qed.

Lemma extend_some : forall n k r, (0 < n)%nat -> exists h, extend mg n k r = Some h.
Proof.
  induction n as [|[|n] IH]; intros k r H; [lia| |].
  - cbn [extend]. unfold poseidon_merge. eauto.
  - cbn [extend]. apply (IH (S k)). lia.
Qed.
Lemma extend_perfect : forall n k r l, (length l <= 2 ^ k)%nat ->
  fill poseidon empty0 (Z.of_nat k + 1) r = perfect_root nd empty0 k (padded (2 ^ k) l) ->
  fill poseidon empty0 (Z.of_nat (k + n) + 1) (extend mg n k r)
  = perfect_root nd empty0 (k + n) (padded (2 ^ (k + n)) l).
Proof.
  induction n as [|n IH]; intros k r l H E; cbn [extend].
  - rewrite Nat.add_0_r. exact E.
  - replace (k + S n)%nat with (S k + n)%nat by lia. apply IH.
    + cbn. lia.
    + unfold poseidon_merge. cbn [fill m_height perfect_root].
      replace (2 ^ S k)%nat with (2 ^ k + 2 ^ k)%nat by (cbn; lia).
      rewrite padded_firstn, padded_skipn by lia.
      rewrite (firstn_all2 l) by lia. rewrite (skipn_all2 l) by lia.
      unfold padded at 2. cbn [map app length]. rewrite Nat.sub_0_r, perfect_empty.
      replace (Z.of_nat (S k)) with (Z.of_nat k + 1) by lia. rewrite E.
      replace (Z.to_nat (Z.of_nat k + 1 - 1)) with k by lia. reflexivity.
Qed.

(** With the Poseidon merger the root in fixed-height mode is the root of the
    full tree of that height, missing leaves being the canonical empty leaf. *)
Theorem C20_fixed_height : forall checked f ops t,
  run hs mg checked (new_tree (Some f)) ops = Ok t ->
  zlen (leaves_of ops) < 2 ^ 62 -> 0 < f -> zlen (leaves_of ops) <= 2 ^ f ->
  exists t', root hs mg checked t
    = Ok (t', Some (perfect_root nd empty0 (Z.to_nat f) (padded (2 ^ Z.to_nat f) (leaves_of ops)))).
Proof.
  intros checked f ops t R B Hf Hn. set (l := leaves_of ops) in *.
  pose proof (calculate_height_least (length l)) as K. set (k := Z.to_nat _) in K.
  assert (KF : (k <= Z.to_nat f)%nat).
  { apply (proj2 K). apply Nat2Z.inj_le. rewrite pow2_nat, Z2Nat.id by lia. exact Hn. }
  destruct (C18_root_of_leaves _ _ hs mg checked (Some f) ops t k poseidon_total poseidon_item_depth R B K)
    as [t' E]; [intros ? [= <-]; lia|].
  exists t'. rewrite E. do 2 f_equal. unfold spec_root.
  pose proof (extend_perfect (Z.to_nat f - k) k (mroot hs mg k 0 l) l (proj1 K) (mroot_perfect k 0 l (proj1 K))) as X.
  replace (k + (Z.to_nat f - k))%nat with (Z.to_nat f) in X by lia.
  assert (S : exists h, extend mg (Z.to_nat f - k) k (mroot hs mg k 0 l) = Some h).
  { destruct (Z.to_nat f - k)%nat as [|n] eqn:EN.
    - cbn [extend]. apply mroot_some. lia.
    - apply extend_some. lia. }
  destruct S as [h S]. fold l. rewrite S in *. cbn [fill] in X. rewrite X. reflexivity.
Qed.
(** The same for variable height with at least two leaves. *)
Theorem C20_variable_height : forall checked ops t k,
  run hs mg checked (new_tree None) ops = Ok t ->
  2 <= zlen (leaves_of ops) < 2 ^ 62 -> least_height (length (leaves_of ops)) k ->
  exists t', root hs mg checked t
    = Ok (t', Some (perfect_root nd empty0 k (padded (2 ^ k) (leaves_of ops)))).
Proof.
  intros checked ops t k R B K.
  destruct (C18_root_of_leaves _ _ hs mg checked None ops t k poseidon_total poseidon_item_depth R ltac:(lia) K)
    as [t' E]; [discriminate|].
  exists t'. rewrite E. do 2 f_equal. unfold spec_root.
  destruct (mroot_some k 0 (leaves_of ops)) as [h H].
  { destruct k; [|lia]. destruct K as [K _]. cbn in K. unfold zlen in B. lia. }
  pose proof (mroot_perfect k 0 (leaves_of ops) (proj1 K)) as X. rewrite H in *. cbn [fill] in X. congruence.
Qed.
End C20.
Definition ex_poseidon (d : option (list Z)) (l : list Z) : Z :=
  7 * dec_val (match d with Some x => skipn 11 x | None => [] end) + fold_left (fun a x => 5 * a + x) l 1.
Example C20_ex : exists t,
  run (poseidon_hash_item (fun x : Z => x * x)) (poseidon_merge ex_poseidon 99) true (new_tree (Some 6)) ex_ops = Ok t
  /\ zlen (leaves_of ex_ops) <= 2 ^ 6.
Proof. eexists. split; vm_compute; [reflexivity|discriminate]. Qed.

(** ** C21 *)
(** A proof issued for a leaf verifies against the root read from the same tree,
    and is about that leaf and that position. *)
Theorem C21_issued_proofs_verify :
  forall Item Hash (hasher : Item -> meta -> Hash) merger hash_eqb checked mode ops t k i x,
  merger_total merger -> hasher_ignores_depth hasher -> (forall a, hash_eqb a a = true) ->
  run hasher merger checked (new_tree mode) ops = Ok t ->
  2 <= zlen (leaves_of ops) < 2 ^ 62 -> least_height (length (leaves_of ops)) k ->
  (mode = None \/ exists f, mode = Some f /\ Z.of_nat k <= f <= 62 /\ merger_ignores_depth merger) ->
  znth (leaves_of ops) i = Some x ->
  exists t1 p t2 r,
    get_proof hasher merger checked t i = Ok (t1, Some p) /\
    root hasher merger checked t1 = Ok (t2, Some r) /\
    verify hasher merger hash_eqb checked p r = Ok true /\
    p_item p = x /\ well_formed_proof (Z.to_nat (height t)) i p.
Proof.
  intros Item Hash hasher merger hash_eqb checked mode ops t k i x T D HE R B K M Hx.
  destruct (run_inv hasher merger T D checked ops [] (new_tree mode) t (inv_new _ _ _) ltac:(cbn [app]; lia) R) as [I F].
  cbn [app fixed new_tree] in I, F.
  assert (EK : Z.of_nat k = vheight t).
  { rewrite (inv_height _ _ _ _ I). rewrite (least_height_unique _ _ _ K (calculate_height_least _)).
    apply Z2Nat.id. apply calculate_height_range. apply zlen_nonneg. }
  destruct (get_proof_ok hasher merger T D checked t _ i x I B Hx) as (t1 & p & r & G & I1 & F1 & S & RH & PI & WF).
  { rewrite F. destruct M as [->|(f & -> & A & N)]; [auto|]. right. exists f. rewrite <- EK. auto. }
  pose proof (root_ok hasher merger T D checked _ t1 k I1 ltac:(lia) K) as RK. rewrite F1, F in RK.
  assert (ER : exists t2, root hasher merger checked t1 = Ok (t2, Some r)).
  { rewrite <- EK, Nat2Z.id in S. unfold height in S. rewrite F in S. destruct mode as [f|].
    - destruct M as [|(f' & [= <-] & A & _)]; [discriminate|]. replace (f <? Z.of_nat k) with false in RK by lia.
      destruct RK as (t2 & E2 & _). rewrite S in E2. eauto.
    - destruct RK as (t2 & E2 & _). rewrite <- EK, Nat2Z.id, Nat.sub_diag in S. cbn [extend] in S. rewrite S in E2. eauto. }
  destruct ER as [t2 ER]. exists t1, p, t2, r. split; [exact G|]. split; [exact ER|].
  split; [|auto]. unfold verify. rewrite RH, HE. reflexivity.
Qed.
Example C21_ex : exists t, run id_hasher sum_merger true (new_tree (Some 6)) ex_ops = Ok t
  /\ 2 <= zlen (leaves_of ex_ops) < 2 ^ 62 /\ least_height (length (leaves_of ex_ops)) 4
  /\ znth (leaves_of ex_ops) 8 = Some 3.
Proof.
  eexists. split; [vm_compute; reflexivity|]. split; [vm_compute; split; [discriminate|reflexivity]|].
  split; [apply least_intro; [vm_compute; lia|right; vm_compute; lia]|]. reflexivity.
Qed.
(** Both restrictions are needed: in fixed mode a merger that uses the depth
    makes honest proofs fail. *)
Theorem C21_depth_refuted : forall checked, exists (merger : option Z -> option Z -> meta -> option Z) t t1 p t2 r,
  merger_total merger /\
  run id_hasher merger checked (new_tree (Some 4)) [OAddBatch (zs 4)] = Ok t /\
  get_proof id_hasher merger checked t 0 = Ok (t1, Some p) /\
  root id_hasher merger checked t1 = Ok (t2, Some r) /\
  verify id_hasher merger Z.eqb checked p r = Ok false.
Proof.
  intros checked.
  exists (fun l r m => Some (match l with Some a => a | None => 0 end + 3 * match r with Some b => b | None => 0 end + 100 * m_depth m)).
  destruct checked; do 5 eexists; (split; [intros l r m; discriminate|]);
    repeat (split; [vm_compute; reflexivity|]); vm_compute; reflexivity.
Qed.

(** ** C22 *)
(** With two leaves or more, a proof of an existing leaf is always returned. *)
Theorem C22_returns :
  forall Item Hash (hasher : Item -> meta -> Hash) merger checked mode ops t k i,
  merger_total merger -> hasher_ignores_depth hasher ->
  run hasher merger checked (new_tree mode) ops = Ok t ->
  2 <= zlen (leaves_of ops) < 2 ^ 62 -> least_height (length (leaves_of ops)) k ->
  (mode = None \/ exists f, mode = Some f /\ Z.of_nat k <= f <= 62 /\ merger_ignores_depth merger) ->
  0 <= i < zlen (leaves_of ops) ->
  exists t' p, get_proof hasher merger checked t i = Ok (t', Some p).
Proof.
  intros Item Hash hasher merger checked mode ops t k i T D R B K M Hi.
  destruct (znth_some _ (leaves_of ops) i Hi) as [x Hx].
  destruct (run_inv hasher merger T D checked ops [] (new_tree mode) t (inv_new _ _ _) ltac:(cbn [app]; lia) R) as [I F].
  cbn [app fixed new_tree] in I, F.
  assert (EK : Z.of_nat k = vheight t).
  { rewrite (inv_height _ _ _ _ I). rewrite (least_height_unique _ _ _ K (calculate_height_least _)).
    apply Z2Nat.id. apply calculate_height_range. apply zlen_nonneg. }
  destruct (get_proof_ok hasher merger T D checked t _ i x I B Hx) as (t1 & p & r & G & _).
  { rewrite F. destruct M as [->|(f & -> & A & N)]; [auto|]. right. exists f. rewrite <- EK. auto. }
  eauto.
Qed.
(** An empty tree has no proofs and does not crash. *)
Theorem C22_empty : forall Item Hash (hasher : Item -> meta -> Hash) merger checked mode i,
  get_proof hasher merger checked (new_tree mode) i = Ok (new_tree mode, None).
Proof. reflexivity. Qed.
Lemma proof_loop_outside : forall Hash fuel po, 0 < po -> po + 9223372036854775808 <= usize_max ->
  @proof_loop Hash false (S fuel) [] 9223372036854775807 po = Panic.
Proof.
  intros Hash fuel po H1 H2. cbn [proof_loop]. replace (po <=? 0) with false by lia.
  change (0 <? 9223372036854775807) with true. cbv iota.
  change (9223372036854775807 mod 2 =? 0) with false. cbv iota.
  rewrite uadd_ok by lia. cbn [bind]. rewrite uadd_ok by lia. cbn [bind]. rewrite usub_ok by lia. reflexivity.
Qed.
(** The full claim is false: a tree with one leaf has a root but asking for the
    proof of its leaf panics, in both builds, in variable mode and in fixed mode
    of height 2 and more (for instance the 20 of the account ledger). *)
Theorem C22_refuted : forall Item Hash (hasher : Item -> meta -> Hash) merger (x : Item) checked mode,
  (mode = None \/ exists f, mode = Some f /\ 2 <= f < 64) ->
  exists t t' h, run hasher merger checked (new_tree mode) [OAdd x] = Ok t /\
    calculate_hash_if_needed hasher merger checked t 0 = Ok (t', Some h) /\
    get_proof hasher merger checked t 0 = Panic.
Proof.
  intros Item Hash hasher merger x checked mode M.
  exists {| fixed := mode; vheight := 0; leafs := [(x, None)]; nodes := [] |}.
  do 2 eexists. split; [destruct mode; reflexivity|]. split; [reflexivity|].
  unfold get_proof. change (calculate_hash_if_needed hasher merger checked
    {| fixed := mode; vheight := 0; leafs := [(x, None)]; nodes := [] |} 0) with
    (@Ok merkle_error _ (set_leaf {| fixed := mode; vheight := 0; leafs := [(x, @None Hash)]; nodes := [] |} 0 x
       (Some (hasher x {| m_depth := 0; m_height := 0 |})), Some (hasher x {| m_depth := 0; m_height := 0 |}))).
  cbn [bind]. destruct M as [->|(f & -> & Hf)].
  - destruct checked; vm_compute; reflexivity.
  - unfold height. cbn [fixed set_leaf]. unfold calculate_node_count. replace (f <? 64) with true by lia. cbn [bind].
    change (znth (leafs _) 0) with (Some (x, Some (hasher x {| m_depth := 0; m_height := 0 |}))). cbv iota beta.
    pose proof (pow2_le 2 f ltac:(lia)) as P. change (2 ^ 2) with 4 in P.
    pose proof (pow2_le f 63 ltac:(lia)) as P2. change (2 ^ 63) with 9223372036854775808 in P2.
    pose proof usize_max_val as UM.
    rewrite uadd_ok by lia. cbn [bind]. change (0 mod 2 =? 0) with true. cbv iota.
    rewrite uadd_ok by lia. cbn [bind]. cbn [nodes set_leaf]. change (zlen [] + 0) with 0.
    destruct checked; [reflexivity|].
    change (parent_index false 0) with (@Ok merkle_error Z 9223372036854775807). cbn [bind].
    replace (2 ^ f - 1 + 0) with (2 ^ f - 1) by lia.
    rewrite parent_index_ok by lia. cbn [bind].
    rewrite proof_loop_outside; [reflexivity|lia|rewrite UM; lia].
Qed.
Example C22_ex : exists t, run id_hasher sum_merger false (new_tree None) ex_ops = Ok t
  /\ 2 <= zlen (leaves_of ex_ops) < 2 ^ 62 /\ least_height (length (leaves_of ex_ops)) 4 /\ 0 <= 7 < zlen (leaves_of ex_ops).
Proof.
  eexists. split; [vm_compute; reflexivity|]. split; [vm_compute; split; [discriminate|reflexivity]|].
  split; [apply least_intro; [vm_compute; lia|right; vm_compute; lia]|]. vm_compute. split; [discriminate|reflexivity].
Qed.

(** ** C23 *)
Lemma verify_true : forall Item Hash (hasher : Item -> meta -> Hash) merger hash_eqb checked p r,
  (forall a b, hash_eqb a b = true <-> a = b) ->
  verify hasher merger hash_eqb checked p r = Ok true -> root_hash hasher merger checked p = Ok r.
Proof.
  intros Item Hash hasher merger hash_eqb checked p r HE V. unfold verify in V.
  destruct (root_hash hasher merger checked p) as [h|e|]; try discriminate.
  injection V as V. apply HE in V. congruence.
Qed.
(** Two proofs for the same position that verify against one root, for leaves
    with different hashes, contain a collision of the merger. *)
Theorem C23_binding :
  forall Item Hash (hasher : Item -> meta -> Hash) merger hash_eqb checked p1 p2 root h1 h2,
  (forall a b, hash_eqb a b = true <-> a = b) ->
  p_index p1 = p_index p2 -> p_peer_indices p1 = p_peer_indices p2 ->
  p_index p1 < usize_max -> Forall (fun i => 0 <= i <= usize_max) (p_peer_indices p1) ->
  verify hasher merger hash_eqb checked p1 root = Ok true ->
  verify hasher merger hash_eqb checked p2 root = Ok true ->
  leaf_hash hasher checked p1 = Ok h1 -> leaf_hash hasher checked p2 = Ok h2 -> h1 <> h2 ->
  exists l1 r1 l2 r2 m,
    In (l1, r1, m) (proof_inputs hasher merger checked p1) /\
    In (l2, r2, m) (proof_inputs hasher merger checked p2) /\
    (l1, r1) <> (l2, r2) /\ merger l1 r1 m = merger l2 r2 m.
Proof.
  intros Item Hash hasher merger hash_eqb checked p1 p2 root h1 h2 HE EI EP BI FI V1 V2 L1 L2 N.
  apply verify_true in V1; auto. apply verify_true in V2; auto.
  unfold root_hash in V1, V2. rewrite <- EI, <- EP in V2.
  destruct (0 <? p_index p1) eqn:E0; [|discriminate].
  unfold leaf_hash in L1, L2. rewrite <- EI, <- EP in L2. unfold proof_inputs. rewrite <- EI, <- EP.
  destruct (mk_meta checked (p_index p1) _) as [m|e|]; try discriminate. cbn [bind] in *.
  injection L1 as <-. injection L2 as <-.
  apply bind_ok in V1. destruct V1 as (o1 & A1 & B1). apply bind_ok in V2. destruct V2 as (o2 & A2 & B2).
  assert (EO : o2 = o1) by (destruct o1, o2; congruence). subst o2.
  eapply (root_loop_binds hasher merger hash_eqb HE); eauto; [lia|congruence].
Qed.
(** Relative to a tree: a well-formed proof for position [i] that verifies
    against the tree's root is about the tree's own leaf [i], unless it contains
    a collision with the honest proof. *)
Theorem C23_sound :
  forall Item Hash (hasher : Item -> meta -> Hash) merger hash_eqb checked mode ops t k i x p t2 r,
  merger_total merger -> hasher_ignores_depth hasher -> (forall a b, hash_eqb a b = true <-> a = b) ->
  run hasher merger checked (new_tree mode) ops = Ok t ->
  2 <= zlen (leaves_of ops) < 2 ^ 62 -> least_height (length (leaves_of ops)) k ->
  (mode = None \/ exists f, mode = Some f /\ Z.of_nat k <= f <= 62 /\ merger_ignores_depth merger) ->
  znth (leaves_of ops) i = Some x ->
  root hasher merger checked t = Ok (t2, Some r) ->
  well_formed_proof (Z.to_nat (height t)) i p ->
  verify hasher merger hash_eqb checked p r = Ok true ->
  let m := {| m_depth := height t; m_height := 0 |} in
  hasher (p_item p) m = hasher x m \/
  exists t1 q l1 r1 l2 r2 m,
    get_proof hasher merger checked t i = Ok (t1, Some q) /\
    In (l1, r1, m) (proof_inputs hasher merger checked p) /\
    In (l2, r2, m) (proof_inputs hasher merger checked q) /\
    (l1, r1) <> (l2, r2) /\ merger l1 r1 m = merger l2 r2 m.
Proof.
  intros Item Hash hasher merger hash_eqb checked mode ops t k i x p t2 r T D HE R B K M Hx RT WF V m.
  destruct (C21_issued_proofs_verify _ _ hasher merger hash_eqb checked mode ops t k i x T D) as
    (t1 & q & t3 & r' & G & RT1 & VQ & PX & WQ); auto.
  { intros a. apply HE. reflexivity. }
  assert (r' = r).
  { pose proof (C19_batching _ _ hasher merger checked checked mode ops (ops ++ [OProof i]) t t1 T D R) as C.
    assert (R2 : run hasher merger checked (new_tree mode) (ops ++ [OProof i]) = Ok t1).
    { clear -R G. revert R. generalize (new_tree mode : tree Item Hash). induction ops as [|o ops IH]; intros t0 R.
      - cbn in R. injection R as ->. cbn [app run step]. rewrite G. reflexivity.
      - cbn [app run] in *. apply bind_ok in R. destruct R as (ta & A & R). rewrite A. cbn [bind]. auto. }
    assert (EL : leaves_of ops = leaves_of (ops ++ [OProof i])).
    { unfold leaves_of. rewrite flat_map_app. cbn. rewrite app_nil_r. reflexivity. }
    specialize (C R2 EL ltac:(lia)). rewrite RT, RT1 in C. cbn in C. congruence. }
  subst r'. destruct WF as (W1 & W2 & W3 & W4). destruct WQ as (Q1 & Q2 & Q3 & Q4).
  set (H := height t) in *.
  assert (HB : 0 <= H <= 62).
  { destruct (run_inv hasher merger T D checked ops [] (new_tree mode) t (inv_new _ _ _) ltac:(cbn [app]; lia) R) as [I F].
    cbn [app fixed new_tree] in I, F. unfold H, height. rewrite F. destruct M as [->|(f & -> & A & N)]; [|lia].
    rewrite (inv_height _ _ _ _ I). pose proof (calculate_height_bound (zlen (leaves_of ops)) ltac:(lia)).
    destruct (calculate_height_range (zlen (leaves_of ops)) (zlen_nonneg _ _)) as [P _]. lia. }
  rewrite Z2Nat.id in * by lia.
  pose proof (pow2_le H 62 ltac:(lia)) as PB. change (2 ^ 62) with 4611686018427387904 in PB.
  pose proof usize_max_val as UM.
  assert (EI : p_index p = p_index q) by congruence.
  assert (EP : p_peer_indices p = p_peer_indices q) by congruence.
  assert (SL : forall n j, zlen (sibling_indices n j) = Z.of_nat n).
  { induction n as [|n IHn]; intros j; [reflexivity|]. cbn [sibling_indices]. rewrite zlen_cons, IHn. lia. }
  assert (LV : lev H 0 (2 ^ H + i)).
  { split; [lia|]. replace (H - 0) with H by lia. rewrite pow2_S by lia. lia. }
  assert (LH : forall z, p_index z = 2 ^ H - 1 + i -> p_peer_indices z = sibling_indices (Z.to_nat H) (p_index z) ->
    leaf_hash hasher checked z = Ok (hasher (p_item z) m)).
  { intros z Z1 Z2. unfold leaf_hash. rewrite Z2, SL, Z2Nat.id, Z.mod_small by lia. rewrite Z1.
    replace (2 ^ H - 1 + i) with (2 ^ H + i - 1) by lia.
    rewrite (mk_meta_lev checked H 0) by (auto; lia). cbn [bind]. unfold m.
    replace (H - 0) with H by lia. reflexivity. }
  assert (OD : forall a b : Hash, a = b \/ a <> b).
  { intros a b. destruct (hash_eqb a b) eqn:EE; [left; apply HE; exact EE|].
    right. intros ->. assert (hash_eqb b b = true) by (apply HE; reflexivity). congruence. }
  destruct (OD (hasher (p_item p) m) (hasher x m)) as [E|N]; [left; exact E|right].
  assert (FI : Forall (fun j => 0 <= j <= usize_max) (p_peer_indices p)).
  { rewrite W3, W1. clear -PB UM W2 HB. 
    assert (G : forall n I, 2 ^ Z.of_nat n <= I -> I < 2 ^ 63 ->
      Forall (fun j => 0 <= j <= usize_max) (sibling_indices n (I - 1))).
    { induction n as [|n IH]; intros I B1 B2; [constructor|]. cbn [sibling_indices].
      change (2 ^ 63) with 9223372036854775808 in B2.
      replace (Z.of_nat (S n)) with (Z.of_nat n + 1) in B1 by lia. rewrite pow2_S in B1 by lia.
      pose proof (pow2_pos (Z.of_nat n) ltac:(lia)).
      constructor.
      - rewrite sibling_mod. destruct ((I - 1) mod 2 =? 0) eqn:E; lia.
      - replace ((I - 1 - 1) / 2) with (I / 2 - 1) by lia. apply IH; [lia|].
        change (2 ^ 63) with 9223372036854775808. lia. }
    replace (2 ^ H - 1 + i) with (2 ^ H + i - 1) by lia. apply G.
    - rewrite Z2Nat.id by lia. lia.
    - change (2 ^ 63) with 9223372036854775808. lia. }
  destruct (C23_binding _ _ hasher merger hash_eqb checked p q r (hasher (p_item p) m) (hasher (p_item q) m))
    as (l1 & r1 & l2 & r2 & mm & X); auto; try lia.
  { rewrite PX. exact N. }
  exists t1, q, l1, r1, l2, r2, mm. tauto.
Qed.
Definition ex_p1 : proof Z Z := {| p_index := 1; p_item := 1; p_peer_indices := [2]; p_peer_hashes := [Some 2] |}.
Definition ex_p2 : proof Z Z := {| p_index := 1; p_item := 4; p_peer_indices := [2]; p_peer_hashes := [Some 1] |}.
Example C23_ex : verify id_hasher sum_merger Z.eqb true ex_p1 107 = Ok true
  /\ verify id_hasher sum_merger Z.eqb true ex_p2 107 = Ok true
  /\ leaf_hash id_hasher true ex_p1 = Ok 1 /\ leaf_hash id_hasher true ex_p2 = Ok 4
  /\ p_index ex_p1 = p_index ex_p2 /\ p_peer_indices ex_p1 = p_peer_indices ex_p2
  /\ Forall (fun i => 0 <= i <= usize_max) (p_peer_indices ex_p1).
Proof.
  repeat (split; [reflexivity|]). constructor; [|constructor]. rewrite usize_max_val. lia.
Qed.
Example C23_sound_ex : exists t t2 p, run id_hasher sum_merger true (new_tree None) [OAddBatch [1; 2]] = Ok t
  /\ root id_hasher sum_merger true t = Ok (t2, Some 107) /\ well_formed_proof (Z.to_nat (height t)) 0 p
  /\ verify id_hasher sum_merger Z.eqb true p 107 = Ok true /\ p_item p = 4.
Proof.
  do 2 eexists. exists ex_p2. split; [vm_compute; reflexivity|]. split; [vm_compute; reflexivity|].
  split; [|split; reflexivity]. repeat split; try reflexivity; vm_compute; discriminate.
Qed.

(** ** C65 *)
(** A collision-free merger: the position is bound for well-formed proofs. *)
Theorem C65_well_formed :
  forall Item Hash (hasher : Item -> meta -> Hash) merger hash_eqb checked mode ops t k i x p t2 r,
  merger_total merger -> hasher_ignores_depth hasher -> (forall a b, hash_eqb a b = true <-> a = b) ->
  (forall l1 r1 l2 r2 m, merger l1 r1 m = merger l2 r2 m -> (l1, r1) = (l2, r2)) ->
  run hasher merger checked (new_tree mode) ops = Ok t ->
  2 <= zlen (leaves_of ops) < 2 ^ 62 -> least_height (length (leaves_of ops)) k ->
  (mode = None \/ exists f, mode = Some f /\ Z.of_nat k <= f <= 62 /\ merger_ignores_depth merger) ->
  znth (leaves_of ops) i = Some x ->
  root hasher merger checked t = Ok (t2, Some r) ->
  well_formed_proof (Z.to_nat (height t)) i p ->
  verify hasher merger hash_eqb checked p r = Ok true ->
  hasher (p_item p) {| m_depth := height t; m_height := 0 |} = hasher x {| m_depth := height t; m_height := 0 |}.
Proof.
  intros Item Hash hasher merger hash_eqb checked mode ops t k i x p t2 r T D HE INJ R B K M Hx RT WF V.
  destruct (C23_sound _ _ hasher merger hash_eqb checked mode ops t k i x p t2 r T D HE R B K M Hx RT WF V)
    as [E|(t1 & q & l1 & r1 & l2 & r2 & m & _ & _ & _ & N & E)]; auto.
  exfalso. apply N. eapply INJ; eauto.
Qed.
(** What checking does test: the index is not the root's, and every peer index
    is next to its node. *)
Theorem C65_root_index_rejected :
  forall Item Hash (hasher : Item -> meta -> Hash) merger hash_eqb checked p r,
  p_index p = 0 -> verify hasher merger hash_eqb checked p r = Ok false.
Proof. intros. unfold verify, root_hash. rewrite H. reflexivity. Qed.
Lemma root_loop_adjacent : forall Hash (merger : option Hash -> option Hash -> meta -> option Hash) checked h is hs index acc r,
  index < usize_max -> 2 ^ zlen is <= index + 1 -> Forall (fun i => 0 <= i < usize_max) is ->
  root_loop merger checked h is hs index acc = Ok r -> adjacent_indices is index.
Proof.
  intros Hash merger checked h is. induction is as [|i is IH]; intros hs index acc r Hi HP F R; [exact I|].
  cbn [root_loop] in R. destruct hs as [|ph hs]; [discriminate|].
  inversion F as [|? ? F1 F2]; subst. pose proof (zlen_nonneg _ is) as NN.
  rewrite zlen_cons, (Z.add_comm 1 (zlen is)), pow2_S in HP by lia. pose proof (pow2_pos (zlen is) NN) as PP.
  apply bind_ok in R. destruct R as ([l q] & A & R).
  unfold get_ordered_siblings in A. rewrite uadd_ok in A by lia. cbn [bind] in A. rewrite uadd_ok in A by lia.
  cbn [bind] in A. unfold parent_index in R. rewrite usub_ok in R by lia. cbn [bind] in R.
  apply bind_ok in R. destruct R as (mm & _ & R). cbn [adjacent_indices]. split.
  - destruct (index + 1 =? i) eqn:E1; [lia|]. destruct (index =? i + 1) eqn:E2; [lia|discriminate].
  - eapply IH; [| |exact F2|exact R]; lia.
Qed.
Theorem C65_peers_adjacent :
  forall Item Hash (hasher : Item -> meta -> Hash) merger hash_eqb checked p r,
  p_index p < usize_max -> 2 ^ zlen (p_peer_indices p) - 1 <= p_index p ->
  Forall (fun i => 0 <= i < usize_max) (p_peer_indices p) ->
  verify hasher merger hash_eqb checked p r = Ok true ->
  adjacent_indices (p_peer_indices p) (p_index p).
Proof.
  intros Item Hash hasher merger hash_eqb checked p r Hi HP F V. unfold verify, root_hash in V.
  destruct (0 <? p_index p); [|discriminate].
  destruct (mk_meta checked (p_index p) _) as [m|e|]; try discriminate. cbn [bind] in V.
  destruct (root_loop merger checked _ _ _ _ _) as [o|e|] eqn:R; try discriminate.
  eapply root_loop_adjacent; [| |exact F|exact R]; lia.
Qed.
(** Proof checking does not test that the peers are siblings: even with a
    collision-free merger, a proof object with the index of leaf 1 verifies for
    the item of leaf 0. *)
Theorem C65_refuted : forall checked, exists t t2 r p,
  run sym_hasher sym_merger checked (new_tree None) [OAddBatch [10; 11; 12; 13]] = Ok t /\
  root sym_hasher sym_merger checked t = Ok (t2, Some r) /\
  p_index p = 2 ^ height t - 1 + 1 /\ p_item p = 10 /\
  zlen (p_peer_indices p) = height t /\ zlen (p_peer_hashes p) = height t /\
  verify sym_hasher sym_merger sym_eqb checked p r = Ok true.
Proof.
  intros checked. destruct checked; do 3 eexists;
  exists {| p_index := 4; p_item := 10; p_peer_indices := [5; 2];
            p_peer_hashes := [Some (SLeaf 11); Some (SNode (Some (SLeaf 12)) (Some (SLeaf 13)) 1)] |};
  (split; [vm_compute; reflexivity|]); (split; [vm_compute; reflexivity|]);
  repeat (split; [reflexivity|]); vm_compute; reflexivity.
Qed.
Lemma sym_merger_inj : forall l1 r1 l2 r2 m, sym_merger l1 r1 m = sym_merger l2 r2 m -> (l1, r1) = (l2, r2).
Proof. intros l1 r1 l2 r2 m H. unfold sym_merger in H. congruence. Qed.
Example C65_adjacent_ex : verify id_hasher sum_merger Z.eqb true
    {| p_index := 4; p_item := 5; p_peer_indices := [5; 2]; p_peer_hashes := [Some 6; Some 7] |} 344 = Ok true
  /\ 4 < usize_max /\ 2 ^ zlen [5; 2] - 1 <= 4.
Proof. split; [vm_compute; reflexivity|]. split; [reflexivity|vm_compute; discriminate]. Qed.
Example C65_ex : exists t t2 r p,
  run sym_hasher sym_merger true (new_tree None) [OAddBatch [10; 11; 12; 13]] = Ok t /\
  root sym_hasher sym_merger true t = Ok (t2, Some r) /\ well_formed_proof (Z.to_nat (height t)) 1 p /\
  verify sym_hasher sym_merger sym_eqb true p r = Ok true.
Proof.
  do 3 eexists.
  exists {| p_index := 4; p_item := 11; p_peer_indices := [3; 2];
            p_peer_hashes := [Some (SLeaf 10); Some (SNode (Some (SLeaf 12)) (Some (SLeaf 13)) 1)] |}.
  split; [vm_compute; reflexivity|]. split; [vm_compute; reflexivity|]. split; [|vm_compute; reflexivity].
  split; [reflexivity|]. split; [vm_compute; split; [discriminate|reflexivity]|]. split; vm_compute; reflexivity.
Qed.

(** ** C24 *)
(** [n] carries exactly one sibling hash: on its left entry when the node below
    is a left child, on its right entry when it is a right child. *)
Definition entry {Hash} (n : path_node Hash) (d : bool * Hash) : Prop :=
  n = if fst d then {| pn_left := Some (snd d); pn_right := None |}
      else {| pn_left := None; pn_right := Some (snd d) |}.

Lemma entry_facts : forall Hash (path : list (path_node Hash)) ds, Forall2 entry path ds ->
  Forall (@wf_node Hash) path /\ map is_left path = map fst ds
  /\ map (fun n => (is_left n, sib_hash n)) path = map (fun d => (fst d, Some (snd d))) ds
  /\ zlen path = zlen ds.
Proof.
  intros Hash path ds F. induction F as [|n [b h] path ds E F (A1 & A2 & A3 & A4)]; [repeat split; auto|].
  unfold entry in E. cbn [fst snd] in E. subst n. cbn [map].
  rewrite A2, A3, !zlen_cons, A4. destruct b; (split; [constructor; [|exact A1]|auto]).
  - left. eexists. reflexivity.
  - right. eexists. reflexivity.
Qed.

(** A path of 1 to 62 sibling hashes becomes a proof for the position written in
    binary by the directions, and its root is the fold of the siblings. *)
Theorem C24_path :
  forall Item Hash (hasher : Item -> meta -> Hash) merger checked path ds (item : Item),
  Forall2 entry path ds -> 1 <= zlen path <= 62 ->
  exists p, to_proof checked path item = Ok p /\ p_item p = item /\
    p_index p = 2 ^ zlen path - 1 + position (map fst ds) /\
    p_peer_indices p = sibling_indices (length path) (p_index p) /\
    root_hash hasher merger checked p =
      match fold_path merger (zlen path - 1) 0 (map (fun d => (fst d, Some (snd d))) ds)
              (Some (hasher item {| m_depth := zlen path; m_height := 0 |})) with
      | Some r => Ok r | None => Err MergerFailure end.
Proof.
  intros Item Hash hasher merger checked path ds item F HL.
  destruct (entry_facts _ _ _ F) as (W & E1 & E2 & E3).
  destruct (to_proof_ok checked path item HL W) as (p & A & P1 & P2 & P3 & P4).
  exists p. split; [exact A|]. split; [exact P1|]. rewrite E1 in P2. split; [exact P2|].
  pose proof (position_range (map fst ds)) as PR. rewrite zlen_map, <- E3 in PR.
  split.
  - rewrite P3, P2, <- E1. clear. induction path as [|n path IH]; [reflexivity|].
    rewrite zlen_cons. cbn [path_peers length sibling_indices map position].
    pose proof (zlen_nonneg _ path) as NN. pose proof (pow2_S (zlen path) NN) as E.
    rewrite (Z.add_comm 1 (zlen path)), E. pose proof (pow2_pos (zlen path) NN). f_equal.
    + rewrite sibling_mod. destruct (is_left n).
      * replace ((2 * 2 ^ zlen path - 1 + (0 + 2 * position (map is_left path))) mod 2 =? 0) with false by lia. lia.
      * replace ((2 * 2 ^ zlen path - 1 + (1 + 2 * position (map is_left path))) mod 2 =? 0) with true by lia. lia.
    + rewrite IH. f_equal. destruct (is_left n); lia.
  - unfold root_hash. rewrite P2. pose proof (pow2_le 1 (zlen path) ltac:(lia)) as P. change (2 ^ 1) with 2 in P.
    replace (0 <? 2 ^ zlen path - 1 + position (map fst ds)) with true by lia.
    rewrite P3, P4, path_peers_zlen, Z.mod_small by lia.
    assert (MM : mk_meta checked (2 ^ zlen path - 1 + position (map fst ds)) (zlen path)
      = Ok {| m_depth := zlen path; m_height := 0 |}).
    { replace (2 ^ zlen path - 1 + position (map fst ds)) with (2 ^ zlen path + position (map fst ds) - 1) by lia.
      rewrite (mk_meta_lev checked (zlen path) 0); [|lia|].
      - replace (zlen path - 0) with (zlen path) by lia. reflexivity.
      - split; [lia|]. replace (zlen path - 0) with (zlen path) by lia. rewrite pow2_S by lia. lia. }
    rewrite MM. cbn [bind]. rewrite <- E1, P1, root_loop_path by lia. cbn [bind]. rewrite E2.
    replace (zlen path - zlen path) with 0 by lia. reflexivity.
Qed.
(** A node with both or neither of the two hashes is an error. *)
Theorem C24_malformed : forall Item Hash checked path (item : Item),
  zlen path <= 62 -> Exists (fun n : path_node Hash => (pn_left n = None <-> pn_right n = None)) path ->
  to_proof checked path item = Err InvalidNode.
Proof.
  intros Item Hash checked path item HL HE. unfold to_proof.
  erewrite path_loop_bad; [reflexivity|lia|]. intros F. apply Exists_exists in HE. destruct HE as (n & I & E).
  rewrite Forall_forall in F. destruct (F n I) as [[h ->]|[h ->]]; cbn in E; intuition discriminate.
Qed.
Definition ex_path : list (path_node Z) :=
  [{| pn_left := None; pn_right := Some 5 |}; {| pn_left := Some 6; pn_right := None |}; {| pn_left := None; pn_right := Some 7 |}].
Example C24_ex : Forall2 entry ex_path [(false, 5); (true, 6); (false, 7)] /\ 1 <= zlen ex_path <= 62
  /\ position [false; true; false] = 5.
Proof. split; [repeat constructor|]. split; [cbn; lia|reflexivity]. Qed.
Example C24_malformed_ex :
  Exists (fun n : path_node Z => pn_left n = None <-> pn_right n = None)
    (ex_path ++ [{| pn_left := Some 1; pn_right := Some 2 |}]).
Proof. apply Exists_app. right. constructor. split; discriminate. Qed.

(** ** C66 *)
(** Converting a path of at most 62 nodes panics only for the empty path ... *)
Theorem C66_nonempty : forall Item Hash checked (path : list (path_node Hash)) (item : Item),
  1 <= zlen path <= 62 -> to_proof checked path item <> Panic.
Proof.
  intros Item Hash checked path item HL.
  assert (DF : Forall (@wf_node Hash) path \/ ~ Forall (@wf_node Hash) path).
  { clear. induction path as [|m path [IH|IH]]; [left; constructor| |].
    - destruct (wf_dec m); [left; constructor; auto|right; intros X; inversion X; auto].
    - right. intros X. inversion X. auto. }
  destruct DF as [F|F].
  - destruct (to_proof_ok checked path item HL F) as (p & A & _). congruence.
  - unfold to_proof. rewrite path_loop_bad by (auto; lia). discriminate.
Qed.
(** ... which the JSON form admits: the full claim is false in both builds. *)
Theorem C66_refuted : forall Item Hash checked (item : Item),
  to_proof (Hash := Hash) checked [] item = Panic.
Proof. intros. destruct checked; reflexivity. Qed.
(** In a build with overflow checks a long enough path of valid nodes panics. *)
Theorem C66_long_refuted : exists path : list (path_node Z),
  Forall (@wf_node Z) path /\ to_proof true path 0 = Panic.
Proof.
  exists (repeat {| pn_left := Some 1; pn_right := None |} 64). split; [|vm_compute; reflexivity].
  apply Forall_forall. intros n H. apply repeat_spec in H. subst. left. eexists. reflexivity.
Qed.

(** ** C25 *)
(** A proof object whose index lies at the depth of its peer lists is checked
    without panic, whatever the peers are. *)
Theorem C25_no_panic :
  forall Item Hash (hasher : Item -> meta -> Hash) merger hash_eqb checked p root,
  let n := length (p_peer_indices p) in
  (1 <= n <= 62)%nat -> length (p_peer_hashes p) = n ->
  2 ^ Z.of_nat n - 1 <= p_index p < 2 ^ (Z.of_nat n + 1) - 1 ->
  Forall (fun i => 0 <= i < usize_max) (p_peer_indices p) ->
  exists b, verify hasher merger hash_eqb checked p root = Ok b.
Proof.
  intros Item Hash hasher merger hash_eqb checked p rt n Hn Hh Hi F.
  assert (RH : root_hash hasher merger checked p <> Panic).
  { unfold root_hash. pose proof (pow2_le 1 (Z.of_nat n) ltac:(lia)) as P. change (2 ^ 1) with 2 in P.
    replace (0 <? p_index p) with true by lia.
    fold (zlen (p_peer_indices p)). unfold zlen. fold n. rewrite Z.mod_small by lia.
    assert (L : lev (Z.of_nat n) 0 (p_index p + 1)).
    { split; [lia|]. replace (Z.of_nat n - 0) with (Z.of_nat n) by lia. lia. }
    replace (p_index p) with (p_index p + 1 - 1) at 1 by lia.
    rewrite (mk_meta_lev checked (Z.of_nat n) 0) by (auto; lia). cbn [bind].
    intros E. apply bind_panic in E. destruct E as [E|(o & _ & E)].
    - revert E. apply (root_loop_no_panic merger checked (Z.of_nat n) n); auto; [lia|].
      replace (Z.of_nat n - Z.of_nat n) with 0 by lia. exact L.
    - destruct o; discriminate. }
  unfold verify. destruct (root_hash hasher merger checked p); [eauto|eauto|congruence].
Qed.
(** The claim for every proof object is false (the fields are public): a missing
    peer hash panics in both builds; an index too small for its peer list panics
    in a checked build. *)
Theorem C25_refuted : forall Item Hash (hasher : Item -> meta -> Hash) merger hash_eqb checked (x : Item) r,
  exists p, verify hasher merger hash_eqb checked p r = Panic.
Proof.
  intros. exists {| p_index := 1; p_item := x; p_peer_indices := [2]; p_peer_hashes := [] |}.
  destruct checked; reflexivity.
Qed.
Theorem C25_shallow_refuted : forall Item Hash (hasher : Item -> meta -> Hash) merger hash_eqb (x : Item) r,
  exists p, length (p_peer_hashes p) = length (p_peer_indices p) /\
    verify hasher merger hash_eqb true p r = Panic.
Proof.
  intros. exists {| p_index := 1; p_item := x; p_peer_indices := [2; 1]; p_peer_hashes := [None; None] |}.
  split; reflexivity.
Qed.
Example C25_ex : let p := {| p_index := 4; p_item := 5; p_peer_indices := [77; 3]; p_peer_hashes := [None; Some 9] |} in
  verify id_hasher sum_merger Z.eqb true p 0 = Ok false /\ length (p_peer_hashes p) = length (p_peer_indices p)
  /\ 2 ^ Z.of_nat (length (p_peer_indices p)) - 1 <= p_index p < 2 ^ (Z.of_nat (length (p_peer_indices p)) + 1) - 1
  /\ Forall (fun i => 0 <= i < usize_max) (p_peer_indices p).
Proof.
  cbn zeta. split; [reflexivity|]. split; [reflexivity|]. split; [cbn; lia|].
  repeat constructor; rewrite ?usize_max_val; lia.
Qed.

(** ** C26 *)
Theorem C26_account_prefixes : forall a b, 0 <= a -> 0 <= b ->
  make_prefix_merkle_tree a = make_prefix_merkle_tree b -> a = b.
Proof.
  intros a b Ha Hb E. apply app_inv_head in E. assert (X : dec_val (dec a) = dec_val (dec b)) by (apply (pad0_inj 3); congruence).
  rewrite !dec_val_dec in X by auto. exact X.
Qed.
Theorem C26_coinbase_prefixes : forall a b, 0 <= a -> 0 <= b ->
  make_prefix_coinbase_merkle_tree a = make_prefix_coinbase_merkle_tree b -> a = b.
Proof.
  intros a b Ha Hb E. apply app_inv_head in E. assert (X : dec_val (dec a) = dec_val (dec b)) by (apply (pad0_inj 3); congruence).
  rewrite !dec_val_dec in X by auto. exact X.
Qed.
Theorem C26_prefixes_disjoint : forall a b, make_prefix_merkle_tree a <> make_prefix_coinbase_merkle_tree b.
Proof. intros a b E. vm_compute in E. discriminate. Qed.
(** The domain of a node's hash (height 0 has none). *)
Theorem C26_node_domains : forall a b, 0 <= a -> 0 <= b -> node_domain a = node_domain b -> a = b.
Proof.
  intros a b Ha Hb E. unfold node_domain in E. destruct (0 <? a) eqn:A; destruct (0 <? b) eqn:B; try discriminate; [|lia].
  assert (X : make_prefix_merkle_tree (a - 1) = make_prefix_merkle_tree (b - 1)) by congruence.
  apply C26_account_prefixes in X; lia.
Qed.
Example C26_ex : make_prefix_merkle_tree 7 = str_bytes "CodaMklTree007" /\
  make_prefix_coinbase_merkle_tree 12 = str_bytes "CodaCbMklTree012" /\
  make_prefix_merkle_tree 1234 = str_bytes "CodaMklTree1234".
Proof. repeat split; reflexivity. Qed.

(** ** C67 *)
(** A fixed-height tree made for an expected number of leaves has height 0,
    whatever the number, and its root panics from the second leaf on. *)
Theorem C67_refuted : forall Item Hash (hasher : Item -> meta -> Hash) merger checked capacity (x y : Item),
  exists t, add_batch checked (with_capacity true capacity) [x; y] = Ok t /\
    height t = 0 /\ root hasher merger checked t = Panic.
Proof. intros. eexists. split; [reflexivity|]. split; [reflexivity|]. destruct checked; reflexivity. Qed.
(** In variable mode it behaves as a new tree. *)
Theorem C67_variable : forall Item Hash capacity, @with_capacity Item Hash false capacity = new_tree None.
Proof. reflexivity. Qed.

(** ** C68 *)
(** Count and height report the leaves added so far. *)
Theorem C68_count_height :
  forall Item Hash (hasher : Item -> meta -> Hash) merger checked mode ops t k,
  merger_total merger -> hasher_ignores_depth hasher ->
  run hasher merger checked (new_tree mode) ops = Ok t ->
  zlen (leaves_of ops) < 2 ^ 62 -> least_height (length (leaves_of ops)) k ->
  count t = zlen (leaves_of ops) /\
  height t = match mode with Some f => f | None => Z.of_nat k end.
Proof.
  intros Item Hash hasher merger checked mode ops t k T D R B K.
  destruct (run_inv hasher merger T D checked ops [] (new_tree mode) t (inv_new _ _ _) B R) as [I F].
  cbn [app fixed new_tree] in I, F. split.
  - unfold count. rewrite <- (inv_items _ _ _ _ I), zlen_map. reflexivity.
  - unfold height. rewrite F. destruct mode; [reflexivity|].
    rewrite (inv_height _ _ _ _ I). rewrite (least_height_unique _ _ _ K (calculate_height_least _)).
    symmetry. apply Z2Nat.id. apply calculate_height_range. apply zlen_nonneg.
Qed.
Example C68_ex : exists t, run id_hasher sum_merger true (new_tree None) ex_ops = Ok t /\ count t = 9 /\ height t = 4.
Proof. eexists. split; [vm_compute; reflexivity|]. split; reflexivity. Qed.

Print Assumptions C18_root_of_leaves.
Print Assumptions C18_overfull_panics.
Print Assumptions C18_add_total.
Print Assumptions C19_batching.
Print Assumptions C19_refuted.
Print Assumptions C20_fixed_height.
Print Assumptions C20_variable_height.
Print Assumptions C21_issued_proofs_verify.
Print Assumptions C21_depth_refuted.
Print Assumptions C22_returns.
Print Assumptions C22_empty.
Print Assumptions C22_refuted.
Print Assumptions C23_binding.
Print Assumptions C23_sound.
Print Assumptions C65_well_formed.
Print Assumptions C65_root_index_rejected.
Print Assumptions C65_peers_adjacent.
Print Assumptions C65_refuted.
Print Assumptions C24_path.
Print Assumptions C24_malformed.
Print Assumptions C66_nonempty.
Print Assumptions C66_refuted.
Print Assumptions C66_long_refuted.
Print Assumptions C25_no_panic.
Print Assumptions C25_refuted.
Print Assumptions C25_shallow_refuted.
Print Assumptions C26_account_prefixes.
Print Assumptions C26_coinbase_prefixes.
Print Assumptions C26_prefixes_disjoint.
Print Assumptions C26_node_domains.
Print Assumptions C67_refuted.
Print Assumptions C67_variable.
Print Assumptions C68_count_height.
