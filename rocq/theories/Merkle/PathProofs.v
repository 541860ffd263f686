(** Binding of proofs, conversion of paths, panics of proof checking: lemmas. *)
From Coq Require Import ZArith List Bool Lia ZifyBool ZifyNat.
From Verif Require Import Lib.Res Lib.Vec Merkle.Tree Merkle.MerkleSpec Merkle.TreeProofs Merkle.ProofProofs.
Import ListNotations.
Open Scope Z_scope.
Ltac Zify.zify_post_hook ::= Z.div_mod_to_equations.

Section Proofs.
Context {Item Hash : Type}.
Variable hasher : Item -> meta -> Hash.
Variable merger : option Hash -> option Hash -> meta -> option Hash.
Variable hash_eqb : Hash -> Hash -> bool.
Hypothesis hash_eqb_ok : forall a b, hash_eqb a b = true <-> a = b.

Lemma ohash_dec : forall a b : option Hash, {a = b} + {a <> b}.
Proof.
  intros [a|] [b|]; try (right; congruence); [|left; reflexivity].
  destruct (hash_eqb a b) eqn:E.
  - left. f_equal. apply hash_eqb_ok. exact E.
  - right. intros X. injection X as ->. assert (hash_eqb b b = true) by (apply hash_eqb_ok; reflexivity). congruence.
Qed.

Lemma ordered_inv : forall checked i a s b l r,
  0 <= i <= usize_max -> 0 <= s <= usize_max ->
  get_ordered_siblings checked i a s b = @Ok merkle_error (option Hash * option Hash) (l, r) ->
  i < usize_max -> (l, r) = if s =? i + 1 then (a, b) else (b, a).
Proof.
  intros checked i a s b l r Hi Hs H Hm. unfold get_ordered_siblings in H.
  rewrite uadd_ok in H by lia. cbn [bind] in H.
  destruct (i + 1 =? s) eqn:E.
  - replace (s =? i + 1) with true by lia. congruence.
  - replace (s =? i + 1) with false by lia. apply bind_ok in H. destruct H as (s1 & _ & H).
    destruct (i =? s1); congruence.
Qed.

Lemma root_loop_binds : forall checked h is hs1 hs2 index a1 a2 r,
  0 <= index < usize_max -> Forall (fun i => 0 <= i <= usize_max) is ->
  a1 <> a2 ->
  root_loop merger checked h is hs1 index a1 = Ok r ->
  root_loop merger checked h is hs2 index a2 = Ok r ->
  exists l1 r1 l2 r2 m,
    In (l1, r1, m) (merge_inputs merger checked h is hs1 index a1) /\
    In (l2, r2, m) (merge_inputs merger checked h is hs2 index a2) /\
    (l1, r1) <> (l2, r2) /\ merger l1 r1 m = merger l2 r2 m.
Proof.
  intros checked h is. induction is as [|i is IH]; intros hs1 hs2 index a1 a2 r Hi Fi Ha H1 H2.
  - cbn in H1, H2. congruence.
  - cbn [root_loop] in H1, H2. destruct hs1 as [|s1 hs1]; [discriminate|]. destruct hs2 as [|s2 hs2]; [discriminate|].
    inversion Fi as [|? ? Fi1 Fi2]; subst.
    apply bind_ok in H1. destruct H1 as ([l1 r1] & O1 & H1).
    apply bind_ok in H2. destruct H2 as ([l2 r2] & O2 & H2).
    apply bind_ok in H1. destruct H1 as (p & P1 & H1).
    apply bind_ok in H2. destruct H2 as (p' & P2 & H2).
    assert (p' = p) by congruence. subst p'.
    apply bind_ok in H1. destruct H1 as (m & M1 & H1).
    apply bind_ok in H2. destruct H2 as (m' & M2 & H2).
    assert (m' = m) by congruence. subst m'.
    apply ordered_inv in O1; try lia. apply ordered_inv in O2; try lia.
    cbn [merge_inputs]. rewrite <- O1, <- O2, P1, M1.
    assert (ND : (l1, r1) <> (l2, r2)).
    { rewrite O1, O2. destruct (i =? index + 1); congruence. }
    destruct (ohash_dec (merger l1 r1 m) (merger l2 r2 m)) as [E|NE].
    + exists l1, r1, l2, r2, m. repeat split; auto; left; reflexivity.
    + destruct (IH hs1 hs2 p (merger l1 r1 m) (merger l2 r2 m) r) as (x1 & y1 & x2 & y2 & mm & A & B & C & D); auto.
      { unfold parent_index, usub in P1. destruct (1 <=? index) eqn:E1.
        - cbn [bind] in P1. injection P1 as <-. lia.
        - destruct checked; [discriminate|]. cbn [bind] in P1. injection P1 as <-.
          rewrite usize_max_val in *. change (2 ^ 64) with 18446744073709551616. lia. }
      exists x1, y1, x2, y2, mm. repeat split; auto; right; assumption.
Qed.

(** Paths. *)
Definition wf_node (n : path_node Hash) : Prop :=
  (exists h, n = {| pn_left := Some h; pn_right := None |}) \/ (exists h, n = {| pn_left := None; pn_right := Some h |}).
Definition is_left (n : path_node Hash) : bool := match pn_left n with Some _ => true | None => false end.
Definition sib_hash (n : path_node Hash) : option Hash := if is_left n then pn_left n else pn_right n.

Lemma path_loop_app : forall checked a b row peer l is hs,
  path_loop checked (a ++ b) row peer l is hs
  = (let* (row', peer', l', is', hs') := path_loop checked a row peer l is hs in
     path_loop (Hash := Hash) checked b row' peer' l' is' hs').
Proof.
  intros checked a. induction a as [|n a IH]; intros b row peer l is hs; [reflexivity|].
  cbn [app path_loop]. rewrite !bind_assoc. apply bind_ext. intros r2.
  rewrite !bind_assoc. apply bind_ext. intros lf.
  rewrite !bind_assoc. apply bind_ext. intros pr.
  rewrite !bind_assoc. apply bind_ext. intros rr.
  rewrite !bind_assoc. apply bind_ext. intros pw.
  rewrite !bind_assoc. apply bind_ext. intros q.
  rewrite !bind_assoc. apply bind_ext. intros pi. apply IH.
Qed.

Fixpoint path_peers (path : list (path_node Hash)) : list Z :=
  match path with
  | [] => []
  | n :: path' =>
    (2 ^ (zlen path' + 1) - 1 + (2 * position (map is_left path') + if is_left n then 1 else 0)) :: path_peers path'
  end.

Lemma position_range : forall ds, 0 <= position ds < 2 ^ zlen ds.
Proof.
  induction ds as [|d ds IH]; [cbn; lia|]. rewrite zlen_cons, Z.add_comm. rewrite pow2_S by apply zlen_nonneg.
  cbn [position]. destruct d; lia.
Qed.

Lemma has_left_child_wf : forall n, wf_node n -> has_left_child n = Ok (is_left n).
Proof. intros n [[h ->]|[h ->]]; reflexivity. Qed.
Lemma has_left_child_bad : forall n, ~ wf_node n -> has_left_child n = Err InvalidNode.
Proof.
  intros [[a|] [b|]] H; cbn; auto; exfalso; apply H; [left|right]; eexists; reflexivity.
Qed.

Lemma wf_dec : forall n, wf_node n \/ ~ wf_node n.
Proof.
  intros [[a|] [b|]]; [right|left; left; eexists; reflexivity|left; right; eexists; reflexivity|right];
    intros [[h X]|[h X]]; discriminate.
Qed.

Lemma path_loop_ok : forall checked path, zlen path <= 63 -> Forall wf_node path ->
  exists peer l, path_loop checked (rev path) 0 0 false [] []
    = Ok (position (map is_left path), peer, l, path_peers path, map sib_hash path)
  /\ match path with [] => peer = 0 /\ l = false
     | n :: _ => l = is_left n /\ peer = hd 0 (path_peers path) end.
Proof.
  intros checked path. induction path as [|n path IH]; intros HL HW.
  - exists 0, false. auto.
  - inversion HW as [|? ? W1 W2]; subst. rewrite zlen_cons in HL.
    destruct (IH ltac:(lia) W2) as (peer & l & A & _).
    cbn [rev]. rewrite path_loop_app, A. cbn [bind path_loop].
    pose proof (position_range (map is_left path)) as PR. rewrite zlen_map in PR.
    pose proof (pow2_le (zlen path) 62) as B. pose proof (zlen_nonneg _ path).
    pose proof (pow2_S (zlen path) ltac:(lia)) as E.
    change (2 ^ 62) with 4611686018427387904 in B. pose proof usize_max_val as UM.
    assert (U : umul2 checked (position (map is_left path)) = Ok (position (map is_left path) * 2)).
    { unfold umul2. replace (position (map is_left path) * 2 <=? usize_max) with true by lia. reflexivity. }
    rewrite U. cbn [bind]. rewrite has_left_child_wf by auto. cbn [bind].
    assert (ZP : zlen (path_peers path) = zlen path).
    { clear. induction path as [|m path IH]; [reflexivity|]. cbn [path_peers]. rewrite !zlen_cons. lia. }
    rewrite ZP. unfold upow2. replace (zlen path + 1 <? 64) with true by lia.
    cbn [path_peers map position]. unfold sib_hash at 2. destruct (is_left n) eqn:EL; cbn [bind].
    + eexists _, true. rewrite uadd_ok by lia. cbn [bind]. rewrite usub_ok by lia. cbn [bind]. rewrite uadd_ok by lia. cbn [bind].
      rewrite (Z.mul_comm _ 2), Z.add_0_l. split; [|split; [auto|reflexivity]]. reflexivity.
    + eexists _, false. rewrite uadd_ok by lia. cbn [bind]. rewrite usub_ok by lia. cbn [bind]. rewrite uadd_ok by lia. cbn [bind].
      rewrite (Z.mul_comm _ 2), (Z.add_comm 1), Z.add_0_r. split; [|split; [auto|reflexivity]]. reflexivity.
Qed.

Lemma path_loop_bad : forall checked path, zlen path <= 63 -> ~ Forall wf_node path ->
  path_loop checked (rev path) 0 0 false [] [] = Err InvalidNode.
Proof.
  intros checked path. induction path as [|n path IH]; intros HL HW.
  - exfalso. apply HW. constructor.
  - rewrite zlen_cons in HL. cbn [rev]. rewrite path_loop_app.
    assert (DF : Forall wf_node path \/ ~ Forall wf_node path).
    { clear. induction path as [|m path [IH|IH]]; [left; constructor| |].
      - destruct (wf_dec m); [left; constructor; auto|right; intros X; inversion X; auto].
      - right. intros X. inversion X. auto. }
    destruct DF as [F|F].
    + destruct (path_loop_ok checked path ltac:(lia) F) as (peer & l & A & _). rewrite A. cbn [bind path_loop].
      pose proof (position_range (map is_left path)) as PR. rewrite zlen_map in PR.
      pose proof (pow2_le (zlen path) 62) as B. pose proof (zlen_nonneg _ path).
      change (2 ^ 62) with 4611686018427387904 in B. pose proof usize_max_val as UM.
      unfold umul2. replace (position (map is_left path) * 2 <=? usize_max) with true by lia. cbn [bind].
      rewrite has_left_child_bad; [reflexivity|]. intros W. apply HW. constructor; auto.
    + rewrite IH by (auto; lia). reflexivity.
Qed.

Lemma root_loop_path : forall checked h path acc, h <= 62 -> zlen path <= h ->
  root_loop merger checked h (path_peers path) (map sib_hash path)
    (2 ^ zlen path - 1 + position (map is_left path)) acc
  = Ok (fold_path merger (zlen path - 1) (Z.to_nat (h - zlen path))
          (map (fun n => (is_left n, sib_hash n)) path) acc).
Proof.
  intros checked h path. induction path as [|n path IH]; intros acc Hh HL.
  - reflexivity.
  - rewrite zlen_cons in *. cbn [path_peers map root_loop position fold_path].
    pose proof (position_range (map is_left path)) as PR. rewrite zlen_map in PR.
    pose proof (zlen_nonneg _ path) as NN. pose proof (pow2_le (zlen path) 62 ltac:(lia)) as B.
    pose proof (pow2_S (zlen path) ltac:(lia)) as E. rewrite (Z.add_comm 1 (zlen path)). rewrite E.
    change (2 ^ 62) with 4611686018427387904 in B. pose proof usize_max_val as UM.
    set (q := position (map is_left path)) in *. set (w := 2 ^ zlen path) in *.
    assert (OS : get_ordered_siblings checked (2 * w - 1 + ((if is_left n then 0 else 1) + 2 * q)) acc
        (2 * w - 1 + (2 * q + (if is_left n then 1 else 0))) (sib_hash n)
      = Ok (if is_left n then (acc, sib_hash n) else (sib_hash n, acc))).
    { unfold get_ordered_siblings. rewrite uadd_ok by (destruct (is_left n); lia). cbn [bind].
      destruct (is_left n).
      - replace (2 * w - 1 + (0 + 2 * q) + 1 =? 2 * w - 1 + (2 * q + 1)) with true by lia. reflexivity.
      - replace (2 * w - 1 + (1 + 2 * q) + 1 =? 2 * w - 1 + (2 * q + 0)) with false by lia.
        rewrite uadd_ok by lia. cbn [bind].
        replace (2 * w - 1 + (1 + 2 * q) =? 2 * w - 1 + (2 * q + 0) + 1) with true by lia. reflexivity. }
    rewrite OS. 
    assert (PI : parent_index checked (2 * w - 1 + ((if is_left n then 0 else 1) + 2 * q)) = Ok (w - 1 + q)).
    { unfold parent_index. rewrite usub_ok by (destruct (is_left n); lia). cbn [bind]. f_equal. destruct (is_left n); lia. }
    assert (MM : mk_meta checked (w - 1 + q) h = Ok {| m_depth := zlen path; m_height := h - zlen path |}).
    { replace (w - 1 + q) with (w + q - 1) by lia. rewrite (mk_meta_lev checked h (h - zlen path)); [|lia|].
      - do 3 f_equal. lia.
      - split; [lia|]. replace (h - (h - zlen path)) with (zlen path) by lia. rewrite E. fold w. lia. }
    replace (zlen path + 1 - 1) with (zlen path) by lia.
    replace (Z.of_nat (Z.to_nat (h - (zlen path + 1))) + 1) with (h - zlen path) by lia.
    replace (S (Z.to_nat (h - (zlen path + 1)))) with (Z.to_nat (h - zlen path)) by lia.
    destruct (is_left n); cbn [bind]; rewrite PI; cbn [bind]; rewrite MM; cbn [bind]; apply IH; lia.
Qed.

Lemma path_peers_zlen : forall path, zlen (path_peers path) = zlen path.
Proof. induction path as [|m path IH]; [reflexivity|]. cbn [path_peers]. rewrite !zlen_cons. lia. Qed.

Lemma to_proof_ok : forall checked path (item : Item), 1 <= zlen path <= 62 -> Forall wf_node path ->
  exists p, to_proof checked path item = Ok p /\ p_item p = item
    /\ p_index p = 2 ^ zlen path - 1 + position (map is_left path)
    /\ p_peer_indices p = path_peers path /\ p_peer_hashes p = map sib_hash path.
Proof.
  clear hasher.
  intros checked path item HL HW.
  destruct (path_loop_ok checked path ltac:(lia) HW) as (peer & l & A & B).
  unfold to_proof. rewrite A. cbn [bind]. destruct path as [|n path]; [cbn in HL; lia|].
  destruct B as [-> ->]. cbn [path_peers hd]. rewrite zlen_cons in *.
  pose proof (position_range (map is_left path)) as PR. rewrite zlen_map in PR.
  pose proof (zlen_nonneg _ path) as NN. pose proof (pow2_le (zlen path) 62 ltac:(lia)) as BB.
  pose proof (pow2_S (zlen path) ltac:(lia)) as E. rewrite (Z.add_comm 1 (zlen path)). rewrite E.
  change (2 ^ 62) with 4611686018427387904 in BB. pose proof usize_max_val as UM.
  assert (X : (if is_left n then usub checked (2 * 2 ^ zlen path - 1 + (2 * position (map is_left path) + (if is_left n then 1 else 0))) 1
     else uadd checked (2 * 2 ^ zlen path - 1 + (2 * position (map is_left path) + (if is_left n then 1 else 0))) 1)
     = @Ok merkle_error Z (2 * 2 ^ zlen path - 1 + position (map is_left (n :: path)))).
  { cbn [map position]. destruct (is_left n); [rewrite usub_ok by lia|rewrite uadd_ok by lia]; f_equal; lia. }
  rewrite X. cbn [bind]. unfold mk_proof.
  pose proof (position_range (map is_left (n :: path))) as PR2.
  replace (0 <? 2 * 2 ^ zlen path - 1 + position (map is_left (n :: path))) with true by lia. cbn [negb].
  rewrite zlen_cons, path_peers_zlen, zlen_map, zlen_cons, Z.eqb_refl. cbn [negb].
  eexists. split; [reflexivity|]. cbn [p_item p_index p_peer_indices p_peer_hashes]. auto.
Qed.

(** Checking a proof of the right shape does not panic. *)
Lemma root_loop_no_panic : forall checked h k is hs index acc,
  h <= 62 -> lev h (h - Z.of_nat k) (index + 1) -> length is = k -> length hs = k ->
  Forall (fun i => 0 <= i < usize_max) is ->
  root_loop merger checked h is hs index acc <> Panic.
Proof.
  intros checked h k. induction k as [|k IH]; intros is hs index acc Hh L Li Lh F.
  - destruct is; [|discriminate]. cbn. discriminate.
  - destruct is as [|i is]; [discriminate|]. destruct hs as [|s hs]; [discriminate|].
    inversion F as [|? ? F1 F2]; subst. cbn [root_loop].
    pose proof (lev_bound _ _ _ Hh L) as B. pose proof (lev_ge2 _ _ _ L ltac:(lia)) as G.
    change (2 ^ 63) with 9223372036854775808 in B. pose proof usize_max_val as UM.
    unfold get_ordered_siblings. rewrite uadd_ok by lia. cbn [bind].
    assert (PI : parent_index checked index = Ok ((index + 1) / 2 - 1)).
    { replace index with (index + 1 - 1) at 1 by lia. apply parent_index_ok. lia. }
    assert (LP : lev h (h - Z.of_nat k) ((index + 1) / 2)).
    { replace (h - Z.of_nat k) with (h - Z.of_nat (S k) + 1) by lia. apply lev_parent; [exact L|lia]. }
    assert (MM := mk_meta_lev checked h _ _ Hh LP).
    assert (NX : forall a, root_loop merger checked h is hs ((index + 1) / 2 - 1) a <> Panic).
    { intros a. apply (IH is hs ((index + 1) / 2 - 1) a Hh); cbn in Li, Lh; try lia; auto.
      replace ((index + 1) / 2 - 1 + 1) with ((index + 1) / 2) by lia. exact LP. }
    destruct (index + 1 =? i); cbn [bind].
    + rewrite PI. cbn [bind]. rewrite MM. cbn [bind]. apply NX.
    + rewrite uadd_ok by lia. cbn [bind]. destruct (index =? i + 1); cbn [bind]; [|discriminate].
      rewrite PI. cbn [bind]. rewrite MM. cbn [bind]. apply NX.
Qed.
End Proofs.
