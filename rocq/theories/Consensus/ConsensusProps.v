(** Properties C27-C36, C57 and C69-C71: chains and chain selection. *)
From Coq Require Import ZArith List Bool Lia ZifyBool ZifyNat Permutation.
From Verif Require Import Lib.Res Lib.Vec Lib.Bytes Lib.Hex Consensus.Chain Consensus.ConsensusSpec Consensus.ChainProofs.
Import ListNotations.
Open Scope Z_scope.
Ltac Zify.zify_post_hook ::= Z.div_mod_to_equations.

(** Witnesses: blocks that are a state and a state hash; the digest is the
    output itself. *)
Definition xblock : Type := cstate * Z.
Definition xcs (b : xblock) : cstate := fst b.
Definition xhash (b : xblock) : Z := snd b.
Definition xdigest (l : list Z) : list Z := map (fun b => b mod 256) l.
Lemma xdigest_bytes : forall l, bytes_ok (xdigest l).
Proof.
  intros l. apply Forall_forall. intros x H. apply in_map_iff in H. destruct H as (y & <- & _).
  unfold byte_ok. lia.
Qed.
Definition xstate (len epoch dens slot : Z) (w vrf lock next : list Z) : cstate :=
  {| blockchain_length := len; epoch_count := epoch; min_window_density := dens; sub_window_densities := w;
     last_vrf_output := vrf; slot_number := slot; slots_per_epoch := 7140; staking_lock := lock; next_lock := next |}.
(** Genesis window (consensus/src/genesis/config.rs 485-497) and the window of
    the block at height 2120 in consensus/tests/density.rs 46-58. *)
Definition genesis_window : list Z := [1; 7; 7; 7; 7; 7; 7; 7; 7; 7; 7].
Definition window_2120 : list Z := [2; 7; 4; 5; 5; 4; 1; 5; 6; 3; 6].
Definition xA : xblock := (xstate 10 3 50 21000 genesis_window [1] [1] [2], 5).
Definition xB : xblock := (xstate 20 3 30 21000 genesis_window [2] [1] [2], 6).
Definition xC : xblock := (xstate 15 3 40 21000 genesis_window [3] [9] [2], 7).
Ltac vstate := constructor; cbn; try (rewrite u32_max_val; lia); try reflexivity; try (repeat constructor; lia).
Lemma xA_valid : valid_state (xcs xA). Proof. vstate. Qed.
Lemma xB_valid : valid_state (xcs xB). Proof. vstate. Qed.
Lemma xC_valid : valid_state (xcs xC). Proof. vstate. Qed.
Lemma tip1 : forall T (b : T), tip [b] b. Proof. intros. exists []. reflexivity. Qed.
Notation xsel := (select_secure_chain xcs xhash xdigest).

(** Conformance: the numbers of consensus/tests/density.rs. *)
Example density_test_2120 :
  let a := [(xstate 0 0 77 0 genesis_window [] [] [], 0)] in
  let c := [(xstate 0 0 48 2121 window_2120 [] [] [], 0)] in
  relative_min_window_density xcs true a c = Ok 0 /\ relative_min_window_density xcs true c a = Ok 47.
Proof. split; reflexivity. Qed.

Section Sel.
Context {T : Type}.
Variable cs : T -> cstate.
Variable hash : T -> Z.
Variable digest : list Z -> list Z.
Hypothesis digest_bytes : forall l, bytes_ok (digest l).
Notation sel := (select_secure_chain cs hash digest).
Notation better := (better cs hash digest).
Notation tied := (tied cs hash digest).
Notation replaces := (replaces cs hash digest).
Notation valid b := (valid_state (cs b)).

(** ** C27 *)
(** Whatever the chains, and also on failure, the chain kept is one of those offered. *)
Theorem C27_member : forall checked candidates self,
  In (fst (sel checked self candidates)) (self :: candidates).
Proof using Type.
  intros checked candidates. induction candidates as [|c cands IH]; intros self; [left; reflexivity|].
  cbn [select_secure_chain]. destruct (select_one cs hash digest checked self c) as [r|e|] eqn:E;
    [|left; reflexivity|left; reflexivity].
  apply sel1_member in E. specialize (IH r). destruct IH as [<-|IH]; [|right; right; exact IH].
  destruct E as [->| ->]; [left|right; left]; reflexivity.
Qed.
(** For valid tips the decision is exactly the specified one. *)
Theorem C27_decision : forall checked c d x y, tip c x -> tip d y -> valid x -> valid y ->
  (replaces x y -> sel checked c [d] = (d, Ok tt)) /\ (~ replaces x y -> sel checked c [d] = (c, Ok tt)).
Proof.
  intros checked c d x y Hx Hy Vx Vy. cbn [select_secure_chain].
  destruct (sel1_ok cs hash digest digest_bytes checked c d x y Hx Hy Vx Vy) as [[R E]|[R E]]; rewrite E; tauto.
Qed.

(** ** C36 *)
(** Selection among valid tips neither panics nor fails. *)
Theorem C36_valid : forall checked cands self,
  Forall (fun c => exists x, tip c x /\ valid x) (self :: cands) ->
  exists r, sel checked self cands = (r, Ok tt).
Proof.
  intros checked cands. induction cands as [|d cands IH]; intros self F; [eexists; reflexivity|].
  inversion F as [|? ? (x & Hx & Vx) F1]; subst. inversion F1 as [|? ? (y & Hy & Vy) F2]; subst.
  cbn [select_secure_chain].
  destruct (sel1_ok cs hash digest digest_bytes checked self d x y Hx Hy Vx Vy) as [[R E]|[R E]]; rewrite E;
    apply IH; constructor; eauto.
Qed.

(** ** C28 *)
Definition shares (e : Z) (lk : list Z) (c : chain T) : Prop :=
  exists x, tip c x /\ epoch_count (cs x) = e /\ staking_lock (cs x) = lk.

Lemma tip_unique : forall (c : chain T) x y, tip c x -> tip c y -> x = y.
Proof using Type. intros c x y Hx Hy. apply top_tip in Hx, Hy. congruence. Qed.

Lemma sel1_shares : forall checked e lk c d x y, tip c x -> tip d y -> shares e lk c -> shares e lk d ->
  (better x y /\ select_one cs hash digest checked c d = Ok d) \/
  (~ better x y /\ select_one cs hash digest checked c d = Ok c).
Proof.
  intros checked e lk c d x y Hx Hy (x' & Hx' & E1 & L1) (y' & Hy' & E2 & L2).
  rewrite <- (tip_unique _ _ _ Hx Hx') in *. rewrite <- (tip_unique _ _ _ Hy Hy') in *.
  unfold select_one, is_short_range. rewrite (state_tip cs _ _ Hx), (state_tip cs _ _ Hy). cbn [ok_or bind].
  replace (epoch_count (cs x) =? epoch_count (cs y)) with true by lia.
  assert (B : bytes_eqb (staking_lock (cs x)) (staking_lock (cs y)) = true) by (apply bytes_eqb_true; congruence).
  rewrite B. cbn [bind]. apply longer_ok; auto.
Qed.

(** When all chains share the epoch and the checkpoint, the chain selected is
    one of them and no other is preferred to it. *)
Theorem C28_maximum : forall checked e lk cands self, Forall (shares e lk) (self :: cands) ->
  exists r x, sel checked self cands = (r, Ok tt) /\ In r (self :: cands) /\ tip r x /\
    forall c y, In c (self :: cands) -> tip c y -> ~ better x y.
Proof.
  intros checked e lk cands. induction cands as [|d cands IH]; intros self F.
  - inversion F as [|? ? (x & Hx & _) _]; subst. exists self, x. cbn.
    split; [reflexivity|]. split; [auto|]. split; [exact Hx|]. intros c y [<-|[]] Hy.
    rewrite (tip_unique _ _ _ Hy Hx). apply better_irrefl.
  - inversion F as [|? ? S1 F1]; subst. inversion F1 as [|? ? S2 F2]; subst.
    destruct S1 as (x & Hx & S1). destruct S2 as (y & Hy & S2).
    cbn [select_secure_chain].
    destruct (sel1_shares checked e lk self d x y Hx Hy) as [[B E]|[B E]]; [exists x; auto|exists y; auto| |]; rewrite E.
    + destruct (IH d) as (r & z & R & I & Hz & M); [constructor; [exists y; auto|exact F2]|].
      exists r, z. split; [exact R|]. split; [right; exact I|]. split; [exact Hz|].
      intros c w [<-|Hc] Hw; [|apply M with (c := c); auto].
      rewrite (tip_unique _ _ _ Hw Hx). intros BZ. apply (M d y); [left; reflexivity|exact Hy|].
      eapply better_trans; eauto.
    + destruct (IH self) as (r & z & R & I & Hz & M); [constructor; [exists x; auto|exact F2]|].
      exists r, z. split; [exact R|]. split; [destruct I; [left|right; right]; auto|]. split; [exact Hz|].
      intros c w [<-|[<-|Hc]] Hw; [apply (M self); cbn; auto| |apply (M c); cbn; auto].
      rewrite (tip_unique _ _ _ Hw Hy). intros BZ.
      destruct (better_cases cs hash digest x y) as [H|[H|H]]; [tauto| |].
      * apply (M self x); [left; reflexivity|exact Hx|]. destruct H as (T1 & T2 & T3).
        unfold ConsensusSpec.better in *. rewrite T1, T2, T3. exact BZ.
      * apply (M self x); [left; reflexivity|exact Hx|]. eapply better_trans; eauto.
Qed.

(** ** C34 *)
(** Then the order of the candidates does not matter (up to complete ties). *)
Theorem C34_short_range : forall c1 c2 e lk cands1 cands2 self, Forall (shares e lk) (self :: cands1) ->
  Permutation cands1 cands2 ->
  exists r1 r2 x1 x2, sel c1 self cands1 = (r1, Ok tt) /\ sel c2 self cands2 = (r2, Ok tt) /\
    tip r1 x1 /\ tip r2 x2 /\ tied x1 x2.
Proof.
  intros c1 c2 e lk cands1 cands2 self F P.
  destruct (C28_maximum c1 e lk cands1 self F) as (r1 & x1 & R1 & I1 & H1 & M1).
  assert (F2 : Forall (shares e lk) (self :: cands2)).
  { eapply Permutation_Forall; [|exact F]. constructor. exact P. }
  destruct (C28_maximum c2 e lk cands2 self F2) as (r2 & x2 & R2 & I2 & H2 & M2).
  exists r1, r2, x1, x2. repeat (split; [assumption|]).
  assert (Q : Permutation (self :: cands1) (self :: cands2)) by (constructor; exact P).
  pose proof (M1 r2 x2 (Permutation_in _ (Permutation_sym Q) I2) H2) as N1.
  pose proof (M2 r1 x1 (Permutation_in _ Q I1) H1) as N2.
  destruct (better_cases cs hash digest x1 x2) as [H|[H|H]]; tauto.
Qed.

(** ** C29 *)
(** Two nodes with valid tips that offer each other their chains agree. *)
Theorem C29_agreement : forall c1 c2 A B x y, tip A x -> tip B y -> valid x -> valid y ->
  exists A' B' x' y', sel c1 A [B] = (A', Ok tt) /\ sel c2 B [A] = (B', Ok tt) /\
    tip A' x' /\ tip B' y' /\ tied x' y'.
Proof.
  intros c1 c2 A B x y Hx Hy Vx Vy. cbn [select_secure_chain].
  destruct (sel1_ok cs hash digest digest_bytes c1 A B x y Hx Hy Vx Vy) as [[R1 E1]|[R1 E1]];
  destruct (sel1_ok cs hash digest digest_bytes c2 B A y x Hy Hx Vy Vx) as [[R2 E2]|[R2 E2]]; rewrite E1, E2.
  - exfalso. destruct R1 as [[S1 P1]|[S1 P1]]; destruct R2 as [[S2 P2]|[S2 P2]].
    + eapply better_asym; eauto.
    + apply S2, short_fork_sym, S1.
    + apply S1, short_fork_sym, S2.
    + destruct P1 as [P1|[P1 Q1]]; destruct P2 as [P2|[P2 Q2]]; try lia. eapply better_asym; eauto.
  - exists B, B, y, y. repeat (split; [auto|]). repeat split.
  - exists A, A, x, x. repeat (split; [auto|]). repeat split.
  - exists A, B, x, y. split; [reflexivity|]. split; [reflexivity|]. split; [exact Hx|]. split; [exact Hy|].
    destruct (better_cases cs hash digest x y) as [H|[H|H]]; [exfalso|exact H|exfalso].
    + destruct (short_ok cs c1 A B x y Hx Hy (valid_ready _ Vx) (valid_ready _ Vy)) as ([|] & _ & S).
      * apply R1. left. split; [apply S; reflexivity|exact H].
      * assert (NS : ~ short_fork (cs x) (cs y)) by (intros Q; apply S in Q; discriminate).
        assert (NS' : ~ short_fork (cs y) (cs x)) by (intros Q; apply NS, short_fork_sym, Q).
        destruct (Ztrichotomy_inf (density (cs x) (cs y)) (density (cs y) (cs x))) as [[L|L]|L].
        -- apply R1. right. auto.
        -- apply R1. right. auto.
        -- apply R2. right. split; [auto|]. left. lia.
    + destruct (short_ok cs c1 B A y x Hy Hx (valid_ready _ Vy) (valid_ready _ Vx)) as ([|] & _ & S).
      * apply R2. left. split; [apply S; reflexivity|exact H].
      * assert (NS : ~ short_fork (cs y) (cs x)) by (intros Q; apply S in Q; discriminate).
        assert (NS' : ~ short_fork (cs x) (cs y)) by (intros Q; apply NS, short_fork_sym, Q).
        destruct (Ztrichotomy_inf (density (cs y) (cs x)) (density (cs x) (cs y))) as [[L|L]|L].
        -- apply R2. right. auto.
        -- apply R2. right. auto.
        -- apply R1. right. split; [auto|]. left. lia.
Qed.

(** ** C30 *)
(** The classification is symmetric, for all chains on which it answers ... *)
Theorem C30_symmetric : forall checked A B r1 r2,
  is_short_range cs checked A B = Ok r1 -> is_short_range cs checked B A = Ok r2 -> r1 = r2.
Proof using Type. clear digest_bytes hash digest.
  intros checked A B r1 r2 H1 H2. unfold is_short_range in *.
  apply bind_ok in H1. destruct H1 as (a & SA & H1). apply bind_ok in H1. destruct H1 as (b & SB & H1).
  rewrite SA, SB in H2. cbn [bind] in H2.
  destruct (Z.eq_dec (epoch_count a) (epoch_count b)) as [E|E].
  - replace (epoch_count a =? epoch_count b) with true in H1 by lia.
    replace (epoch_count b =? epoch_count a) with true in H2 by lia.
    rewrite bytes_eqb_sym in H2. congruence.
  - replace (epoch_count a =? epoch_count b) with false in H1 by lia.
    replace (epoch_count b =? epoch_count a) with false in H2 by lia.
    apply bind_ok in H1. destruct H1 as (sb & EB & H1). apply bind_ok in H1. destruct H1 as (x1 & X1 & H1).
    apply bind_ok in H2. destruct H2 as (sa & EA & H2). apply bind_ok in H2. destruct H2 as (x2 & X2 & H2).
    rewrite EA in H1. rewrite EB in H2. cbn [bind] in H1, H2.
    destruct x1; destruct x2; try congruence.
Qed.
(** ... and for valid tips it answers, and means what it should. *)
Theorem C30_meaning : forall checked A B x y, tip A x -> tip B y -> valid x -> valid y ->
  exists r, is_short_range cs checked A B = Ok r /\ (r = true <-> short_fork (cs x) (cs y)).
Proof using Type. clear digest_bytes hash digest. intros. apply short_ok; auto using valid_ready. Qed.

(** ** C31 *)
Theorem C31_bounded : forall checked A B x y, tip A x -> tip B y -> valid x -> 0 <= slot_number (cs y) ->
  exists d, relative_min_window_density cs checked A B = Ok d /\ 0 <= d <= min_window_density (cs x).
Proof using Type. clear digest_bytes hash digest.
  intros checked A B x y Hx Hy V S. exists (density (cs x) (cs y)).
  split; [apply dens_ok; auto|apply density_range; auto].
Qed.

Theorem C31_never_above : forall checked A B x d, tip A x ->
  relative_min_window_density cs checked A B = Ok d -> d <= min_window_density (cs x).
Proof using Type. clear digest_bytes hash digest.
  intros checked A B x d Hx H. unfold relative_min_window_density in H.
  rewrite (state_tip cs _ _ Hx) in H. cbn [ok_or bind] in H. apply bind_ok in H. destruct H as (y & _ & H).
  destruct (_ <? _); [injection H as <-; lia|].
  apply bind_ok in H. destruct H as (w & _ & H). apply bind_ok in H. destruct H as (z & _ & H).
  injection H as <-. lia.
Qed.

(** ** C32 *)
(** The value computed: the stored minimum or the window without the forgotten
    sub-windows. *)
Theorem C32_value : forall checked A B x y, tip A x -> tip B y -> valid x -> 0 <= slot_number (cs y) ->
  relative_min_window_density cs checked A B = Ok (density (cs x) (cs y)).
Proof using Type. clear digest_bytes hash digest. intros. apply dens_ok; auto. Qed.
Lemma masked_one : forall w i k d, 0 <= k -> znth w k = Some d ->
  zsum (masked (fun j => j =? i + k) i w) = zsum w - d.
Proof using Type. clear.
  induction w as [|e w IH]; intros i k d Hk H.
  - apply znth_range in H. cbn in H. lia.
  - cbn [masked zsum fold_right]. fold (zsum w). destruct (Z.eq_dec k 0) as [->|N].
    + rewrite znth_0 in H. injection H as ->. replace (i =? i + 0) with true by lia.
      assert (X : forall l j, i < j -> masked (fun j => j =? i + 0) j l = l).
      { induction l as [|a l IHl]; intros j Hj; cbn; [reflexivity|]. rewrite IHl by lia.
        replace (j =? i + 0) with false by lia. reflexivity. }
      rewrite X by lia. fold (zsum w). lia.
    + rewrite znth_S in H by lia. replace (i =? i + k) with false by lia.
      fold (zsum (masked (fun j => j =? i + k) (i + 1) w)).
      replace (i + k) with (i + 1 + (k - 1)) by lia. rewrite (IH (i + 1) (k - 1) d) by (auto; lia). lia.
Qed.
(** A chain that is not behind loses one sub-window: the one after its own slot's. *)
Theorem C32_not_behind : forall checked A B x y d, tip A x -> tip B y -> valid x -> 0 <= slot_number (cs y) ->
  slot_number (cs y) <= slot_number (cs x) -> 1440 <= slot_number (cs x) ->
  znth (sub_window_densities (cs x)) ((slot_number (cs x) / 11 + 1) mod 11) = Some d ->
  relative_min_window_density cs checked A B
    = Ok (Z.min (min_window_density (cs x)) (zsum (sub_window_densities (cs x)) - d)).
Proof using Type. clear digest_bytes hash digest.
  intros checked A B x y d Hx Hy V S L G D. rewrite (dens_ok cs checked A B x y) by auto. f_equal. unfold density.
  replace (Z.max (slot_number (cs x)) (slot_number (cs y)) <? 1440) with false by lia. f_equal.
  unfold shift_of.
  replace (Z.min (Z.max (slot_number (cs x)) (slot_number (cs y)) - Z.max 0 (slot_number (cs x) - 1)) 11) with 1 by lia.
  change (Z.to_nat 1) with 1%nat. unfold forgotten. cbn [seq existsb].
  rewrite <- (masked_one _ 0 _ d (proj1 (znth_range _ _ _ _ D)) D). f_equal.
  apply znth_ext. intros k. rewrite !masked_znth, Z.add_0_l, orb_false_r. reflexivity.
Qed.

(** ** C69 *)
(** Ten slots behind, less than two sub-windows, nothing of the window is left. *)
Theorem C69_ten_slots : forall checked A B x y, tip A x -> tip B y -> valid x ->
  slot_number (cs x) + 10 <= slot_number (cs y) -> 1440 <= slot_number (cs y) ->
  relative_min_window_density cs checked A B = Ok 0.
Proof using Type. clear digest_bytes hash digest.
  intros checked A B x y Hx Hy V L G. pose proof (v_slot _ V) as SL. pose proof (v_density _ V) as DD.
  rewrite (dens_ok cs checked A B x y) by (auto; lia). f_equal. unfold density.
  replace (Z.max (slot_number (cs x)) (slot_number (cs y)) <? 1440) with false by lia.
  unfold shift_of.
  replace (Z.min (Z.max (slot_number (cs x)) (slot_number (cs y)) - Z.max 0 (slot_number (cs x) - 1)) 11) with 11 by lia.
  pose proof (v_windows _ V) as W.
  assert (Z0 : forall w i, 0 <= i -> i + zlen w <= 11 ->
    zsum (masked (forgotten (slot_number (cs x)) (Z.to_nat 11)) i w) = 0).
  { induction w as [|d w IH]; intros i H0 H; [reflexivity|]. rewrite zlen_cons in H. pose proof (zlen_nonneg _ w).
    cbn [masked zsum fold_right]. fold (zsum (masked (forgotten (slot_number (cs x)) (Z.to_nat 11)) (i + 1) w)).
    rewrite IH by lia.
    assert (E : forgotten (slot_number (cs x)) (Z.to_nat 11) i = true).
    { unfold forgotten. apply existsb_exists. exists (S (Z.to_nat ((i - slot_number (cs x) / 11 - 1) mod 11))).
      split; [apply in_seq; lia|]. set (q := slot_number (cs x) / 11).
      rewrite Nat2Z.inj_succ, Z2Nat.id by lia. unfold Z.succ.
      assert (Q : (q + ((i - q - 1) mod 11 + 1)) mod 11 = i).
      { replace (q + ((i - q - 1) mod 11 + 1)) with ((i - q - 1) mod 11 + (q + 1)) by lia.
        rewrite Zplus_mod_idemp_l. replace (i - q - 1 + (q + 1)) with i by lia. apply Z.mod_small. lia. }
      lia. }
    rewrite E. reflexivity. }
  rewrite Z0; [lia|lia|]. unfold zlen. lia.
Qed.

(** ** C33 *)
(** On failure the chain is the one chosen from the candidates before the failing one. *)
Theorem C33_prefix : forall checked cands self r e, sel checked self cands = (r, Err e) ->
  exists pre d post, cands = pre ++ d :: post /\ sel checked self pre = (r, Ok tt) /\
    sel checked r [d] = (r, Err e).
Proof using Type.
  intros checked cands. induction cands as [|d cands IH]; intros self r e H; [discriminate|].
  cbn [select_secure_chain] in H. destruct (select_one cs hash digest checked self d) as [s|e'|] eqn:E; [|injection H as <- <-|discriminate].
  - destruct (IH _ _ _ H) as (pre & f & post & -> & P & F). exists (d :: pre), f, post.
    split; [reflexivity|]. split; [cbn [select_secure_chain]; rewrite E; exact P|exact F].
  - exists [], d, cands. split; [reflexivity|]. split; [reflexivity|]. cbn [select_secure_chain]. rewrite E. reflexivity.
Qed.
Theorem C33_single : forall checked c d r e, sel checked c [d] = (r, Err e) -> r = c.
Proof using Type.
  intros checked c d r e H. cbn [select_secure_chain] in H. destruct (select_one _ _ _ _ _ _); congruence.
Qed.

(** A candidate without blocks is reported, and nothing after it is examined. *)
Theorem C33_empty_candidate : forall checked c rest,
  sel checked c ([] :: rest) = (c, Err ConsensusStateNotFound).
Proof using Type.
  intros checked c rest. cbn [select_secure_chain]. unfold select_one, is_short_range.
  destruct (chain_state cs c); reflexivity.
Qed.

(** ** C70 *)
(** Offering the same candidate again changes nothing. *)
Theorem C70_reoffer : forall checked c d r, sel checked c [d] = (r, Ok tt) -> sel checked r [d] = (r, Ok tt).
Proof.
  intros checked c d r H. cbn [select_secure_chain] in *.
  destruct (select_one cs hash digest checked c d) as [s|e|] eqn:E; try discriminate. injection H as ->.
  destruct (sel1_member _ _ _ _ _ _ _ E) as [->| ->]; [rewrite E; reflexivity|].
  destruct (tip_cases d) as [->|[y Hy]].
  - exfalso. unfold select_one, is_short_range in E. rewrite bind_assoc in E.
    apply bind_ok in E. destruct E as (a & _ & E). discriminate.
  - destruct (sel1_shares checked (epoch_count (cs y)) (staking_lock (cs y)) d d y y Hy Hy) as [[B _]|[_ ->]];
      [exists y; auto|exists y; auto|exfalso; revert B; apply better_irrefl|reflexivity].
Qed.

(** ** C35 *)
(** Blocks pushed one after the other; rejected ones are skipped, a panic ends it. *)
Fixpoint push_all (checked : bool) (c : chain T) (bs : list T) : option (chain T) :=
  match bs with
  | [] => Some c
  | b :: bs' =>
    match push cs checked c b with
    | (_, Panic) => None
    | (c', _) => push_all checked c' bs'
    end
  end.
Definition height_of (b : T) : Z := blockchain_length (cs b).

Lemma consecutive_snoc : forall c x y, consecutive cs (c ++ [x]) -> height_of y = height_of x + 1 ->
  consecutive cs ((c ++ [x]) ++ [y]).
Proof using Type. clear digest_bytes hash digest.
  induction c as [|z c IH]; intros x y H E.
  - cbn. auto.
  - destruct c as [|w c].
    + cbn in *. tauto.
    + cbn [app consecutive] in *. destruct H as [H1 H2]. split; [exact H1|]. apply (IH x y); auto.
Qed.
Lemma push_step : forall checked c b c' r, push cs checked c b = (c', r) ->
  (c' = c \/ c' = c ++ [b]) /\
  ((checked = true \/ forall x, tip c x -> height_of x < u32_max) -> consecutive cs c -> consecutive cs c').
Proof using Type. clear digest_bytes hash digest.
  intros checked c b c' r H. unfold push in H. destruct (tip_cases c) as [->|[x Hx]].
  - cbn in H. injection H as <- _. split; [right; reflexivity|]. intros _ _. exact I.
  - rewrite (top_tip _ _ Hx) in H. unfold add32, get_height in H.
    destruct (blockchain_length (cs x) + 1 <=? u32_max) eqn:E.
    + destruct (blockchain_length (cs b) =? blockchain_length (cs x) + 1) eqn:E2.
      * injection H as <- _. split; [auto|]. intros _ C. destruct Hx as [pre ->]. apply consecutive_snoc; [auto|].
        unfold height_of. lia.
      * injection H as <- _. auto.
    + destruct checked.
      * injection H as <- _. auto.
      * destruct (_ =? _).
        -- injection H as <- _. split; [auto|]. intros [|B]; [discriminate|]. specialize (B x Hx).
           unfold height_of in B. lia.
        -- injection H as <- _. auto.
Qed.
(** Pushing never removes blocks and keeps heights consecutive. *)
Theorem C35_append_only : forall checked bs c c', push_all checked c bs = Some c' ->
  exists new, c' = c ++ new /\ incl new bs.
Proof using Type.
  intros checked bs. induction bs as [|b bs IH]; intros c c' H; cbn [push_all] in H.
  - injection H as <-. exists []. rewrite app_nil_r. split; [reflexivity|apply incl_nil_l].
  - destruct (push cs checked c b) as [c1 r] eqn:E. destruct (push_step _ _ _ _ _ E) as [D _].
    assert (H' : push_all checked c1 bs = Some c') by (destruct r; [exact H|exact H|discriminate]).
    destruct (IH _ _ H') as (new & -> & I). destruct D as [->| ->].
    + exists new. split; [reflexivity|]. apply incl_tl. exact I.
    + exists (b :: new). rewrite <- app_assoc. split; [reflexivity|].
      apply incl_cons; [left; reflexivity|apply incl_tl; exact I].
Qed.
Theorem C35_consecutive : forall checked bs c c', push_all checked c bs = Some c' ->
  (checked = true \/ Forall (fun b => height_of b < u32_max) (c ++ bs)) ->
  consecutive cs c -> consecutive cs c'.
Proof using Type.
  intros checked bs. induction bs as [|b bs IH]; intros c c' H B C; cbn [push_all] in H; [congruence|].
  destruct (push cs checked c b) as [c1 r] eqn:E. destruct (push_step _ _ _ _ _ E) as [D K].
  assert (H' : push_all checked c1 bs = Some c') by (destruct r; [exact H|exact H|discriminate]).
  apply (IH _ _ H').
  - destruct B as [B|B]; [auto|right]. apply Forall_app in B. destruct B as [B1 B2]. inversion B2; subst.
    apply Forall_app. split; [|auto]. destruct D as [->| ->]; [auto|]. apply Forall_app. auto.
  - apply K; [|exact C]. destruct B as [B|B]; [auto|right]. intros x [pre ->].
    apply Forall_app in B. destruct B as [B1 _]. apply Forall_app in B1. destruct B1 as [_ B1]. inversion B1; auto.
Qed.
(** A push is accepted exactly for the next height. *)
Theorem C35_push : forall checked c x b, tip c x -> height_of x < u32_max ->
  push cs checked c b = (if height_of b =? height_of x + 1 then (c ++ [b], Ok tt) else (c, Err InvalidHeight)).
Proof using Type. clear digest_bytes hash digest.
  intros checked c x b Hx L. unfold push. rewrite (top_tip _ _ Hx). unfold get_height, height_of in *.
  rewrite add32_ok by lia. destruct (_ =? _); reflexivity.
Qed.
Theorem C35_first : forall checked b, push cs checked [] b = ([b], Ok tt).
Proof using Type. intros. reflexivity. Qed.
(** The length reported is the height of the last block, 0 when empty ... *)
Theorem C35_length : forall c x, tip c x -> chain_length cs c = height_of x.
Proof using Type. clear digest_bytes hash digest. intros c x H. unfold chain_length. rewrite (state_tip cs _ _ H). reflexivity. Qed.
(** ... and the number of blocks when the first block has height 1. *)
Theorem C35_count : forall c, consecutive cs c ->
  (forall b, genesis_block c = Some b -> height_of b = 1) -> chain_length cs c = zlen c.
Proof using Type. clear digest_bytes hash digest.
  intros c C G. destruct (tip_cases c) as [->|[x Hx]]; [reflexivity|]. rewrite (C35_length _ _ Hx).
  destruct Hx as [pre ->]. assert (K : forall h, (forall b, genesis_block (pre ++ [x]) = Some b -> height_of b = h) ->
    height_of x = h + zlen pre).
  { clear G. revert C. induction pre as [|a pre IH]; intros C h G.
    - rewrite (G x eq_refl). cbn. lia.
    - rewrite zlen_cons. cbn [app] in C.
      specialize (G a eq_refl). destruct (pre ++ [x]) as [|b l] eqn:EP; [destruct pre; discriminate|].
      cbn [consecutive] in C. destruct C as [C1 C2]. rewrite (IH C2 (h + 1)); [lia|].
      intros b' [= <-]. unfold height_of in *. lia. }
  rewrite (K 1 G), zlen_app, zlen_cons. change (zlen (@nil T)) with 0. lia.
Qed.

(** ** C57 *)
(** The slot in the epoch is below the epoch length, and with the epoch it
    determines the slot. *)
Theorem C57_epoch_slot : forall c x, tip c x -> 0 <= slot_number (cs x) -> 0 < slots_per_epoch (cs x) ->
  exists e, epoch_slot cs c = Ok (Some e) /\ 0 <= e < slots_per_epoch (cs x) /\
    exists epoch, 0 <= epoch /\ slot_number (cs x) = epoch * slots_per_epoch (cs x) + e.
Proof using Type. clear digest_bytes hash digest.
  intros c x H S P. exists (slot_number (cs x) mod slots_per_epoch (cs x)).
  split; [apply epoch_slot_ok; auto|]. split; [apply Z.mod_pos_bound; lia|].
  exists (slot_number (cs x) / slots_per_epoch (cs x)). split; [apply Z.div_pos; lia|].
  rewrite Z.mul_comm. apply Z.div_mod. lia.
Qed.
(** A block announcing epochs of 0 slots makes it panic. *)
Theorem C57_refuted : forall c x, tip c x -> slots_per_epoch (cs x) = 0 -> epoch_slot cs c = Panic.
Proof using Type. intros c x H E. unfold epoch_slot. rewrite (state_tip cs _ _ H), E. reflexivity. Qed.
End Sel.

(** ** Examples and refutations *)
Example C27_ex : tip [xB; xA] xA /\ valid_state (xcs xA) /\ valid_state (xcs xB) /\
  xsel true [xB; xA] [[xB]] = ([xB], Ok tt) /\ xsel true [xA] [[xC]] = ([xA], Ok tt).
Proof. split; [exists [xB]; reflexivity|]. split; [apply xA_valid|]. split; [apply xB_valid|]. split; reflexivity. Qed.
Example C28_ex : Forall (shares xcs 3 [1]) [[xA]; [xB]; [xA; xB]].
Proof.
  apply Forall_cons; [exists xA; split; [apply tip1|split; reflexivity]|].
  apply Forall_cons; [exists xB; split; [apply tip1|split; reflexivity]|].
  apply Forall_cons; [exists xB; split; [exists [xA]; reflexivity|split; reflexivity]|apply Forall_nil].
Qed.
Example C29_ex : exists A', xsel true [xA] [[xC]] = (A', Ok tt) /\ xsel false [xC] [[xA]] = (A', Ok tt).
Proof. eexists. split; reflexivity. Qed.
(** Without valid windows two nodes can disagree: one refuses to consider the
    other's chain, and the other prefers its own. *)
Definition xbad : xblock := (xstate 12 3 60 21000 (genesis_window ++ [7]) [3] [9] [2], 8).
Theorem C29_refuted : forall checked,
  xsel checked [xbad] [[xA]] = ([xbad], Ok tt) /\ xsel checked [xA] [[xbad]] = ([xA], Ok tt) /\
  xhash xA <> xhash xbad.
Proof. intros [|]; (split; [reflexivity|split; [reflexivity|discriminate]]). Qed.
(** Symmetry up to panics fails: with an invalid tip one order answers, the other panics. *)
Definition xahead : xblock := (xstate 12 4 60 30000 genesis_window [3] [2] [5], 8).
Definition xbehind : xblock := (xstate 12 3 60 28000 genesis_window [3] [1] [2], 8).
Definition xzero : xblock :=
  ({| blockchain_length := 12; epoch_count := 4; min_window_density := 60; sub_window_densities := genesis_window;
      last_vrf_output := [3]; slot_number := 30000; slots_per_epoch := 0; staking_lock := [2]; next_lock := [5] |}, 8).
Theorem C30_refuted : forall checked,
  is_short_range xcs checked [xzero] [xbehind] = Ok true /\ is_short_range xcs checked [xbehind] [xzero] = Panic.
Proof. intros [|]; split; reflexivity. Qed.
Example C30_ex : is_short_range xcs true [xahead] [xbehind] = Ok true /\ is_short_range xcs true [xbehind] [xahead] = Ok true.
Proof. split; reflexivity. Qed.
Example C31_ex : valid_state (xstate 2120 0 48 2121 window_2120 [] [] []). Proof. vstate. Qed.
(** The claim of C32 is false for the block of the project's own density test:
    the window's sum and the stored minimum are 48, the result is 47. *)
Theorem C32_refuted : forall checked,
  let x := (xstate 2120 0 48 2121 window_2120 [] [] [], 0) in
  valid_state (xcs x) /\ zsum (sub_window_densities (xcs x)) = 48 /\
  relative_min_window_density xcs checked [x] [x] = Ok 47.
Proof. intros [|]; (split; [vstate|split; reflexivity]). Qed.
Example C32_ex : znth window_2120 ((2121 / 11 + 1) mod 11) = Some 1. Proof. reflexivity. Qed.
Example C69_ex : valid_state (xstate 2120 0 48 2121 window_2120 [] [] []) /\ 2121 + 10 <= 2131.
Proof. split; [vstate|lia]. Qed.
(** With two candidates a failure keeps an earlier replacement. *)
Theorem C33_refuted : forall checked, xsel checked [xA] [[xB]; []] = ([xB], Err ConsensusStateNotFound).
Proof. intros [|]; reflexivity. Qed.
Example C33_ex : xsel true [xA] [[xB]; []; [xC]] = ([xB], Err ConsensusStateNotFound). Proof. reflexivity. Qed.
(** The order of the candidates matters for a mixture of short and long forks,
    with all tips valid. *)
Theorem C34_refuted : forall checked,
  valid_state (xcs xA) /\ valid_state (xcs xB) /\ valid_state (xcs xC) /\
  xsel checked [xA] [[xB]; [xC]] = ([xC], Ok tt) /\ xsel checked [xA] [[xC]; [xB]] = ([xB], Ok tt).
Proof.
  intros [|]; (split; [apply xA_valid|]); (split; [apply xB_valid|]); (split; [apply xC_valid|]); split; reflexivity.
Qed.
(** ** C71 *)
(** Preference has cycles: each of three valid chains is replaced by the next,
    so a node offered them in turn never settles. *)
Theorem C71_refuted : forall checked,
  valid_state (xcs xA) /\ valid_state (xcs xB) /\ valid_state (xcs xC) /\
  xsel checked [xA] [[xB]] = ([xB], Ok tt) /\ xsel checked [xB] [[xC]] = ([xC], Ok tt) /\
  xsel checked [xC] [[xA]] = ([xA], Ok tt).
Proof.
  intros [|]; (split; [apply xA_valid|]); (split; [apply xB_valid|]); (split; [apply xC_valid|]);
    split; [|split| |split]; reflexivity.
Qed.
(** On chains of one fork (same epoch and checkpoint) preference is transitive. *)
Theorem C71_one_fork : forall T (cs : T -> cstate) hash digest checked e lk A B C,
  (forall l, bytes_ok (digest l)) -> Forall (shares cs e lk) [A; B; C] ->
  A <> B -> B <> C -> select_secure_chain cs hash digest checked A [B] = (B, Ok tt) ->
  select_secure_chain cs hash digest checked B [C] = (C, Ok tt) ->
  select_secure_chain cs hash digest checked A [C] = (C, Ok tt).
Proof.
  intros T cs hash digest checked e lk A B C DB F NAB NBC H1 H2.
  inversion F as [|? ? SA F1]; subst. inversion F1 as [|? ? SB F2]; subst. inversion F2 as [|? ? SC F3]; subst.
  destruct (SA) as (x & Hx & _). destruct (SB) as (y & Hy & _). destruct (SC) as (z & Hz & _).
  cbn [select_secure_chain] in *.
  destruct (sel1_shares cs hash digest DB checked e lk A B x y Hx Hy SA SB) as [[B1 E1]|[B1 E1]]; rewrite E1 in H1; [|congruence].
  destruct (sel1_shares cs hash digest DB checked e lk B C y z Hy Hz SB SC) as [[B2 E2]|[B2 E2]]; rewrite E2 in H2; [|congruence].
  destruct (sel1_shares cs hash digest DB checked e lk A C x z Hx Hz SA SC) as [[B3 E3]|[B3 E3]]; rewrite E3; [reflexivity|].
  exfalso. apply B3. eapply better_trans; eauto.
Qed.
Definition xB2 : xblock := (xstate 30 3 30 21000 genesis_window [2] [1] [2], 6).
Example C71_ex : Forall (shares xcs 3 [1]) [[xA]; [xB]; [xB2]] /\
  xsel true [xA] [[xB]] = ([xB], Ok tt) /\ xsel true [xB] [[xB2]] = ([xB2], Ok tt).
Proof.
  split; [|split; reflexivity].
  apply Forall_cons; [exists xA; split; [apply tip1|split; reflexivity]|].
  apply Forall_cons; [exists xB; split; [apply tip1|split; reflexivity]|].
  apply Forall_cons; [exists xB2; split; [apply tip1|split; reflexivity]|apply Forall_nil].
Qed.
Example C70_ex : xsel true [xA] [[xB]] = ([xB], Ok tt). Proof. reflexivity. Qed.

(** Without overflow checks heights wrap around. *)
Definition xh (h : Z) : xblock := (xstate h 3 30 21000 genesis_window [2] [1] [2], 6).
Theorem C35_refuted : exists c, push_all xcs false [] [xh u32_max; xh 0] = Some c /\ ~ consecutive xcs c.
Proof. eexists. split; [reflexivity|]. cbn. intros [H _]. discriminate. Qed.
(** The length reported is not the number of blocks when the first block is not
    the genesis block; the code accepts any first block. *)
Theorem C35_count_refuted : forall checked h, 1 < h -> exists c,
  push_all xcs checked [] [xh h] = Some c /\ chain_length xcs c = h /\ zlen c = 1.
Proof. intros checked h H. eexists. split; [reflexivity|]. split; reflexivity. Qed.
Example C35_ex : push_all xcs true [] [xh 1; xh 2; xh 2; xh 5; xh 3] = Some [xh 1; xh 2; xh 3]
  /\ consecutive xcs [xh 1; xh 2; xh 3].
Proof. split; [reflexivity|]. cbn. auto. Qed.

(** Selection can crash: on a candidate (or current tip) announcing epochs of 0
    slots in every build; on the largest epoch number and on large densities in a
    build with overflow checks. *)
Theorem C36_refuted : forall checked, exists r, xsel checked [xbehind] [[xzero]] = (r, Panic).
Proof. intros [|]; eexists; reflexivity. Qed.
Definition xlast : xblock := (xstate 12 u32_max 60 28000 genesis_window [3] [1] [2], 8).
Theorem C36_epoch_refuted : exists r, xsel true [xA] [[xlast]] = (r, Panic).
Proof. eexists. reflexivity. Qed.
Definition xdense : xblock := (xstate 12 3 60 21000 (repeat u32_max 11) [3] [9] [2], 8).
Theorem C36_density_refuted : exists r, xsel true [xdense] [[xA]] = (r, Panic).
Proof. eexists. reflexivity. Qed.
Example C36_ex : Forall (fun c => exists x, tip c x /\ valid_state (xcs x)) [[xA]; [xC]; [xB]].
Proof.
  constructor; [exists xA; split; [apply tip1|apply xA_valid]|].
  constructor; [exists xC; split; [apply tip1|apply xC_valid]|].
  constructor; [exists xB; split; [apply tip1|apply xB_valid]|constructor].
Qed.
Example C57_ex : epoch_slot xcs [xA] = Ok (Some 6720). Proof. reflexivity. Qed.

Print Assumptions C27_member.
Print Assumptions C27_decision.
Print Assumptions C28_maximum.
Print Assumptions C29_agreement.
Print Assumptions C29_refuted.
Print Assumptions C30_symmetric.
Print Assumptions C30_meaning.
Print Assumptions C30_refuted.
Print Assumptions C31_bounded.
Print Assumptions C31_never_above.
Print Assumptions C32_value.
Print Assumptions C32_not_behind.
Print Assumptions C32_refuted.
Print Assumptions C33_prefix.
Print Assumptions C33_single.
Print Assumptions C33_empty_candidate.
Print Assumptions C33_refuted.
Print Assumptions C34_short_range.
Print Assumptions C34_refuted.
Print Assumptions C35_append_only.
Print Assumptions C35_consecutive.
Print Assumptions C35_push.
Print Assumptions C35_first.
Print Assumptions C35_length.
Print Assumptions C35_count.
Print Assumptions C35_refuted.
Print Assumptions C35_count_refuted.
Print Assumptions C36_valid.
Print Assumptions C36_refuted.
Print Assumptions C36_epoch_refuted.
Print Assumptions C36_density_refuted.
Print Assumptions C57_epoch_slot.
Print Assumptions C57_refuted.
Print Assumptions C69_ten_slots.
Print Assumptions C70_reoffer.
Print Assumptions C71_refuted.
Print Assumptions C71_one_fork.
