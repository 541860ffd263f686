(** Lemmas on Chain.v. *)
From Coq Require Import ZArith List Bool Lia ZifyBool ZifyNat.
From Verif Require Import Lib.Res Lib.Vec Lib.Bytes Lib.Hex Consensus.Chain Consensus.ConsensusSpec.
Import ListNotations.
Open Scope Z_scope.
Ltac Zify.zify_post_hook ::= Z.div_mod_to_equations.

Lemma u32_max_val : u32_max = 4294967295. Proof. reflexivity. Qed.
Lemma add32_ok : forall E checked a b, a + b <= u32_max -> @add32 E checked a b = Ok (a + b).
Proof. intros. unfold add32. replace (a + b <=? u32_max) with true by lia. reflexivity. Qed.

Lemma bytes_eqb_true : forall a b, bytes_eqb a b = true <-> a = b.
Proof.
  intros a b. unfold bytes_eqb. rewrite <- lex_eq. destruct (lex a b); split; congruence.
Qed.
Lemma bytes_eqb_sym : forall a b, bytes_eqb a b = bytes_eqb b a.
Proof. intros a b. unfold bytes_eqb. rewrite (lex_opp b a). destruct (lex b a); reflexivity. Qed.

Lemma znth_0 : forall A (x : A) l, znth (x :: l) 0 = Some x.
Proof. intros. unfold znth. rewrite zlen_cons. pose proof (zlen_nonneg _ l).
  replace ((0 <=? 0) && (0 <? 1 + zlen l)) with true by lia. reflexivity. Qed.
Lemma znth_S : forall A (x : A) l i, 0 < i -> znth (x :: l) i = znth l (i - 1).
Proof.
  intros A x l i H. change (x :: l) with ([x] ++ l). rewrite znth_app_r; [reflexivity|]. cbn. lia.
Qed.
Lemma znth_ext : forall A (a b : list A), (forall k, znth a k = znth b k) -> a = b.
Proof.
  induction a as [|x a IH]; intros [|y b] H; [reflexivity| | |].
  - specialize (H 0). rewrite znth_0 in H. discriminate.
  - specialize (H 0). rewrite znth_0 in H. discriminate.
  - pose proof (H 0) as H0. rewrite !znth_0 in H0. injection H0 as ->. f_equal. apply IH. intros k.
    destruct (Z_lt_dec k 0) as [L|L].
    + transitivity (@None A); [|symmetry]; apply znth_none; lia.
    + specialize (H (k + 1)). rewrite !znth_S in H by lia. replace (k + 1 - 1) with k in H by lia. exact H.
Qed.

Lemma masked_znth : forall f w i k, znth (masked f i w) k = option_map (fun d => if f (i + k) then 0 else d) (znth w k).
Proof.
  intros f w. induction w as [|d w IH]; intros i k.
  { cbn [masked]. rewrite (proj2 (znth_none _ (@nil Z) k)); [reflexivity|]. cbn. lia. }
  cbn [masked]. destruct (Z_lt_dec k 0) as [L|L].
  - rewrite (proj2 (znth_none _ (d :: w) k)) by lia. apply znth_none. lia.
  - destruct (Z.eq_dec k 0) as [->|N].
    + rewrite !znth_0, Z.add_0_r. reflexivity.
    + rewrite !znth_S, IH by lia. replace (i + 1 + (k - 1)) with (i + k) by lia. reflexivity.
Qed.
Lemma masked_length : forall f w i, length (masked f i w) = length w.
Proof. intros f w. induction w as [|d w IH]; intros i; cbn; auto. Qed.
Lemma masked_bound : forall f w i m, Forall (fun d => 0 <= d <= m) w -> Forall (fun d => 0 <= d <= m) (masked f i w).
Proof.
  intros f w. induction w as [|d w IH]; intros i m F; cbn; [constructor|]. inversion F; subst.
  constructor; [destruct (f i); lia|auto].
Qed.

Lemma ring_shift_ok : forall n rel w, 11 <= zlen w -> 0 <= rel < 11 ->
  ring_shift n rel w = Ok (masked (fun i => existsb (fun j => i =? (rel + Z.of_nat j) mod 11) (seq 1 n)) 0 w).
Proof.
  induction n as [|n IH]; intros rel w HW HR.
  - cbn [ring_shift seq existsb]. f_equal. apply znth_ext. intros k. rewrite masked_znth. destruct (znth w k); reflexivity.
  - cbn [ring_shift]. unfold sub_windows_per_window.
    destruct (znth_some _ w ((rel + 1) mod 11)) as [d Hd]; [lia|]. rewrite Hd.
    rewrite IH by (rewrite ?zlen_zset; lia). f_equal. apply znth_ext. intros k. rewrite !masked_znth.
    rewrite !Z.add_0_l.
    assert (EX : existsb (fun j => k =? (rel + Z.of_nat j) mod 11) (seq 1 (S n))
      = (k =? (rel + 1) mod 11) || existsb (fun j => k =? ((rel + 1) mod 11 + Z.of_nat j) mod 11) (seq 1 n)).
    { cbn [seq existsb]. f_equal. change 2%nat with (S 1). clear IH. generalize 1%nat as a.
      induction n as [|n IHn]; intros a; [reflexivity|]. cbn [seq existsb]. rewrite IHn.
      f_equal. rewrite Zplus_mod_idemp_l. f_equal. f_equal. lia. }
    rewrite EX. destruct (k =? (rel + 1) mod 11) eqn:E; cbn [orb].
    + replace k with ((rel + 1) mod 11) by lia. rewrite znth_zset_eq, Hd by lia. cbn [option_map].
      match goal with |- context [if ?b then 0 else 0] => destruct b end; reflexivity.
    + rewrite znth_zset_neq by lia. reflexivity.
Qed.

Lemma sum32_ok : forall checked l acc, 0 <= acc -> Forall (fun d => 0 <= d) l -> acc + zsum l <= u32_max ->
  sum32 checked acc l = Ok (acc + zsum l).
Proof.
  intros checked l. induction l as [|x l IH]; intros acc Ha F B; cbn [sum32 zsum fold_right] in *.
  - f_equal. lia.
  - inversion F as [|? ? Hx F']; subst. fold (zsum l) in *.
    assert (0 <= zsum l). { clear -F'. induction F'; cbn; [lia|]. fold (zsum l). lia. }
    rewrite add32_ok by lia. cbn [bind]. rewrite IH by (auto; lia). f_equal. lia.
Qed.
Lemma zsum_bound : forall l m, Forall (fun d => 0 <= d <= m) l -> 0 <= zsum l <= m * zlen l.
Proof.
  intros l m F. induction F as [|x l H F IH]; [cbn; lia|]. cbn [zsum fold_right]. fold (zsum l).
  rewrite zlen_cons. lia.
Qed.

Section Sel.
Context {T : Type}.
Variable cs : T -> cstate.
Variable hash : T -> Z.
Variable digest : list Z -> list Z.
Hypothesis digest_bytes : forall l, bytes_ok (digest l).
Notation tip := (@tip T).
Notation better := (better cs hash digest).
Notation tied := (tied cs hash digest).
Notation valid b := (valid_state (cs b)).
Notation chain_state := (chain_state cs).
Notation state_hash := (state_hash hash).
Notation vrf := (last_vrf_hash_digest cs digest).
Notation longer := (select_longer_chain cs hash digest).
Notation shortr := (is_short_range cs).
Notation dens := (relative_min_window_density cs).
Notation sel1 := (select_one cs hash digest).

Lemma top_tip : forall c b, tip c b -> top c = Some b.
Proof using Type. intros c b [pre ->]. unfold top. rewrite map_app. cbn [map]. apply last_last. Qed.
Lemma tip_cases : forall c : chain T, c = [] \/ exists b, tip c b.
Proof using Type.
  intros c. destruct c as [|x c] using rev_ind; [left; reflexivity|right]. exists x, c. reflexivity.
Qed.
Lemma state_tip : forall c b, tip c b -> chain_state c = Some (cs b).
Proof using Type. intros c b H. unfold Chain.chain_state. rewrite (top_tip _ _ H). reflexivity. Qed.

(** The preference is a strict total order up to ties. *)
Lemma better_irrefl : forall x, ~ better x x.
Proof.
  intros x [H|[_ [H|[_ H]]]]; [lia| |lia]. rewrite lex_refl in H. discriminate.
Qed.
Lemma better_trans : forall x y z, better x y -> better y z -> better x z.
Proof.
  intros x y z [H|[E [H|[E2 H]]]] [K|[F [K|[F2 K]]]]; unfold ConsensusSpec.better; try (left; lia).
  - right. split; [lia|]. left. eapply lex_trans; eauto.
  - right. split; [lia|]. left. rewrite <- F2. exact H.
  - right. split; [lia|]. left. rewrite E2. exact K.
  - right. split; [lia|]. right. split; [congruence|lia].
Qed.
Lemma better_cases : forall x y, better x y \/ tied x y \/ better y x.
Proof.
  intros x y. unfold ConsensusSpec.better, ConsensusSpec.tied.
  destruct (Ztrichotomy_inf (blockchain_length (cs x)) (blockchain_length (cs y))) as [[L|L]|L]; [auto| |right; right; left; lia].
  destruct (lex (digest (last_vrf_output (cs x))) (digest (last_vrf_output (cs y)))) eqn:E.
  - apply lex_eq in E. destruct (Ztrichotomy_inf (hash x) (hash y)) as [[H|H]|H]; [left|right; left|right; right]; auto.
    right. split; [auto|]. right. split; [auto|]. lia.
  - auto.
  - right. right. right. split; [auto|]. left. rewrite lex_opp, E. reflexivity.
Qed.
Lemma better_asym : forall x y, better x y -> ~ better y x.
Proof. intros x y H K. exact (better_irrefl x (better_trans _ _ _ H K)). Qed.
Lemma tied_not : forall x y, tied x y -> ~ better x y.
Proof.
  intros x y (E1 & E2 & E3) [H|[_ [H|[_ H]]]]; [lia| |lia]. rewrite E2, lex_refl in H. discriminate.
Qed.
Lemma tied_sym : forall x y, tied x y -> tied y x.
Proof. intros x y (A & B & C). split; [|split]; auto. Qed.

Lemma longer_ok : forall c d x y, tip c x -> tip d y ->
  (better x y /\ longer c d = Ok d) \/ (~ better x y /\ longer c d = Ok c).
Proof.
  intros c d x y Hx Hy. unfold select_longer_chain, last_vrf_hash_digest, Chain.state_hash.
  rewrite (state_tip _ _ Hx), (state_tip _ _ Hy), (top_tip _ _ Hx), (top_tip _ _ Hy). cbn [ok_or bind option_map opt_gt].
  rewrite lex_to_hex by apply digest_bytes. unfold ConsensusSpec.better.
  destruct (blockchain_length (cs x) <? blockchain_length (cs y)) eqn:E1; [left; split; [left; lia|reflexivity]|].
  destruct (blockchain_length (cs x) =? blockchain_length (cs y)) eqn:E2.
  - rewrite (lex_opp (digest (last_vrf_output (cs x)))).
    destruct (lex (digest (last_vrf_output (cs x))) (digest (last_vrf_output (cs y)))) eqn:E3; cbn [CompOpp].
    + apply lex_eq in E3. destruct (hash x <? hash y) eqn:E4.
      * left. split; [|reflexivity]. right. split; [lia|]. right. split; [auto|lia].
      * right. split; [|reflexivity]. intros [H|[_ [H|[_ H]]]]; [lia|discriminate|lia].
    + left. split; [|reflexivity]. right. split; [lia|]. left. reflexivity.
    + right. split; [|reflexivity]. intros [H|[_ [H|[H _]]]]; [lia|discriminate|].
      rewrite H, lex_refl in E3. discriminate.
  - right. split; [|reflexivity]. intros [H|[H _]]; lia.
Qed.

Lemma epoch_slot_ok : forall c x, tip c x -> 0 < slots_per_epoch (cs x) ->
  epoch_slot cs c = Ok (Some (slot_number (cs x) mod slots_per_epoch (cs x))).
Proof using Type. clear digest_bytes hash digest.
  intros c x Hx V. unfold epoch_slot. rewrite (state_tip _ _ Hx).
  replace (slots_per_epoch (cs x) =? 0) with false by lia. reflexivity.
Qed.

Lemma fork_check_ok : forall checked x y, epoch_count y < u32_max -> 
  exists r, fork_check checked x y (Some (slot_number y mod slots_per_epoch y)) = Ok r /\ (r = true <-> one_ahead x y).
Proof using Type. clear.
  intros checked x y V. unfold fork_check. rewrite add32_ok by lia. cbn [bind].
  eexists. split; [reflexivity|]. unfold one_ahead, opt_ge, opt_gt, slots_per_epoch_const.
  change (7140 * 2 / 3) with 4760.
  destruct (epoch_count x =? epoch_count y + 1) eqn:E1; cbn [andb].
  - destruct (slot_number y mod slots_per_epoch y <? 4760) eqn:E2; cbn [negb].
    + split; [discriminate|]. intros (_ & H & _). lia.
    + rewrite bytes_eqb_true. split; [intros; repeat split; auto; lia|tauto].
  - split; [discriminate|]. intros (H & _). lia.
Qed.

Definition fork_ready (s : cstate) : Prop := epoch_count s < u32_max /\ 0 < slots_per_epoch s.
Lemma short_ok : forall checked c d x y, tip c x -> tip d y -> fork_ready (cs x) -> fork_ready (cs y) ->
  exists r, shortr checked c d = Ok r /\ (r = true <-> short_fork (cs x) (cs y)).
Proof using Type. clear digest_bytes hash digest.
  intros checked c d x y Hx Hy [Vx Sx] [Vy Sy]. unfold is_short_range.
  rewrite (state_tip _ _ Hx), (state_tip _ _ Hy). cbn [ok_or bind].
  destruct (epoch_count (cs x) =? epoch_count (cs y)) eqn:E.
  - eexists. split; [reflexivity|]. rewrite bytes_eqb_true. unfold short_fork, one_ahead.
    split; [intros; left; split; auto; lia|]. intros [[_ H]|[(H & _)|(H & _)]]; [auto|lia|lia].
  - rewrite (epoch_slot_ok _ _ Hy Sy), (epoch_slot_ok _ _ Hx Sx). cbn [bind].
    destruct (fork_check_ok checked (cs x) (cs y) Vy) as (r1 & R1 & I1). rewrite R1. cbn [bind].
    destruct (fork_check_ok checked (cs y) (cs x) Vx) as (r2 & R2 & I2).
    destruct r1.
    + eexists. split; [reflexivity|]. split; [|reflexivity]. intros _. right. left. apply I1. reflexivity.
    + exists r2. split; [exact R2|]. rewrite I2. unfold short_fork. split; [auto|].
      intros [[H _]|[H|H]]; [lia| |auto]. apply I1 in H. discriminate.
Qed.

Lemma short_fork_sym : forall x y, short_fork x y -> short_fork y x.
Proof. intros x y [[A B]|[H|H]]; [left; auto|right; right; auto|right; left; auto]. Qed.

Lemma valid_ready : forall s, valid_state s -> fork_ready s.
Proof. intros s V. split; [apply (v_epoch _ V)|apply (v_spe _ V)]. Qed.

Lemma dens_ok : forall checked c d x y, tip c x -> tip d y -> valid x -> 0 <= slot_number (cs y) ->
  dens checked c d = Ok (density (cs x) (cs y)).
Proof using Type. clear digest_bytes hash digest.
  intros checked c d x y Hx Hy V V2. unfold relative_min_window_density, density, grace_period_end.
  rewrite (state_tip _ _ Hx), (state_tip _ _ Hy). cbn [ok_or bind].
  destruct (Z.max (slot_number (cs x)) (slot_number (cs y)) <? 1440) eqn:E; [reflexivity|].
  pose proof (v_windows _ V) as W. pose proof (v_slot _ V) as S.
  unfold sub_windows_per_window. rewrite ring_shift_ok; [|unfold zlen; lia|lia].
  cbn [bind]. unfold shift_of.
  replace (Z.max (Z.max (slot_number (cs x)) (slot_number (cs y)) - Z.max 0 (slot_number (cs x) - 1)) 0)
    with (Z.max (slot_number (cs x)) (slot_number (cs y)) - Z.max 0 (slot_number (cs x) - 1)) by lia.
  set (n := Z.to_nat _).
  assert (EQ : masked (fun i => existsb (fun j => i =? (slot_number (cs x) / 11 mod 11 + Z.of_nat j) mod 11) (seq 1 n)) 0
      (sub_window_densities (cs x))
    = masked (forgotten (slot_number (cs x)) n) 0 (sub_window_densities (cs x))).
  { apply znth_ext. intros k. rewrite !masked_znth. unfold forgotten. rewrite Z.add_0_l.
    assert (X : existsb (fun j => k =? (slot_number (cs x) / 11 mod 11 + Z.of_nat j) mod 11) (seq 1 n)
      = existsb (fun j => k =? (slot_number (cs x) / 11 + Z.of_nat j) mod 11) (seq 1 n)).
    { generalize (seq 1 n) as l. induction l as [|j l IHl]; [reflexivity|]. cbn [existsb].
      rewrite IHl, Zplus_mod_idemp_l. reflexivity. }
    rewrite X. reflexivity. }
  rewrite EQ. set (w := masked _ _ _).
  assert (F : Forall (fun z => 0 <= z <= 7) w) by (apply masked_bound; apply (v_window _ V)).
  pose proof (zsum_bound _ _ F) as B.
  assert (LW : zlen w = 11) by (unfold zlen, w; rewrite masked_length, W; reflexivity).
  rewrite sum32_ok; [reflexivity|lia| |rewrite u32_max_val; lia].
  eapply Forall_impl; [|exact F]. cbn. intros. lia.
Qed.

Lemma density_range : forall x y, valid_state x -> 0 <= density x y <= min_window_density x.
Proof.
  intros x y V. unfold density. pose proof (v_density _ V).
  destruct (_ <? 1440); [lia|].
  pose proof (zsum_bound _ _ (masked_bound (forgotten (slot_number x) (shift_of (slot_number x) (slot_number y))) _ 0 _ (v_window _ V))). lia.
Qed.

Lemma sel1_ok : forall checked c d x y, tip c x -> tip d y -> valid x -> valid y ->
  (replaces cs hash digest x y /\ sel1 checked c d = Ok d) \/
  (~ replaces cs hash digest x y /\ sel1 checked c d = Ok c).
Proof.
  intros checked c d x y Hx Hy Vx Vy. unfold select_one.
  destruct (short_ok checked c d x y Hx Hy (valid_ready _ Vx) (valid_ready _ Vy)) as (r & R & I). rewrite R. cbn [bind].
  unfold replaces. destruct r.
  - pose proof (proj1 I eq_refl) as SF. destruct (longer_ok c d x y Hx Hy) as [[B E]|[B E]]; rewrite E; [left|right]; split; auto; tauto.
  - assert (NS : ~ short_fork (cs x) (cs y)) by (intros H; apply I in H; discriminate).
    rewrite (state_tip _ _ Hy). cbn [ok_or bind].
    assert (EB : existsb (fun s => slots_per_sub_window <? s) (sub_window_densities (cs y)) = false).
    { pose proof (v_window _ Vy) as F. unfold slots_per_sub_window. clear -F. induction F as [|d l H F IH]; [reflexivity|].
      cbn [existsb]. rewrite IH. replace (7 <? d) with false by lia. reflexivity. }
    rewrite EB. unfold zlen. rewrite (v_windows _ Vy). cbn [negb Z.eqb].
    change (negb (Z.of_nat 11 =? sub_windows_per_window)) with false. cbv iota.
    rewrite (dens_ok checked c d x y Hx Hy Vx) by (apply (v_slot _ Vy)). cbn [bind].
    rewrite (dens_ok checked d c y x Hy Hx Vy) by (apply (v_slot _ Vx)). cbn [bind].
    destruct (Z.compare_spec (density (cs y) (cs x)) (density (cs x) (cs y))) as [E|E|E].
    + destruct (longer_ok c d x y Hx Hy) as [[B L]|[B L]]; rewrite L; [left|right]; split; auto.
      intros [[H _]|[_ [H|[_ H]]]]; [tauto|lia|tauto].
    + right. split; auto. intros [[H _]|[_ [H|[H _]]]]; [tauto|lia|lia].
    + left. split; auto. 
Qed.

(** Reaching a tip: a chain selected is the current one or the candidate. *)
Lemma longer_member : forall c d r, longer c d = Ok r -> r = c \/ r = d.
Proof using Type.
  intros c d r H. unfold select_longer_chain in H.
  apply bind_ok in H. destruct H as (x & _ & H). apply bind_ok in H. destruct H as (y & _ & H).
  destruct (_ <? _); [right; congruence|]. destruct (_ =? _); [|left; congruence].
  apply bind_ok in H. destruct H as (a & _ & H). apply bind_ok in H. destruct H as (b & _ & H).
  destruct (lex a b); [|left; congruence|right; congruence].
  destruct (opt_gt _ _); [right|left]; congruence.
Qed.
Lemma sel1_member : forall checked c d r, sel1 checked c d = Ok r -> r = c \/ r = d.
Proof using Type.
  intros checked c d r H. unfold select_one in H.
  apply bind_ok in H. destruct H as (s & _ & H). destruct s; [eapply longer_member; eauto|].
  apply bind_ok in H. destruct H as (y & _ & H).
  destruct (existsb _ _); [left; congruence|]. destruct (negb _); [left; congruence|].
  apply bind_ok in H. destruct H as (a & _ & H). apply bind_ok in H. destruct H as (b & _ & H).
  destruct (b ?= a); [eapply longer_member; eauto|left; congruence|right; congruence].
Qed.
End Sel.
