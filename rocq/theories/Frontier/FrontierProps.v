(** Properties C37-C39 and C72-C76: the transition frontier and the message
    processor. *)
From Coq Require Import ZArith List Bool Lia ZifyBool ZifyNat.
From Verif Require Import Lib.Res Lib.Vec Lib.Bytes Consensus.Chain Consensus.ConsensusSpec Consensus.ChainProofs
  Consensus.ConsensusProps Merkle.Tree Merkle.MerkleProps Frontier.Frontier Frontier.Processor.
Import ListNotations.
Open Scope Z_scope.

Section F.
Context {T P C : Type}.
Variable cs : T -> cstate.
Variable hash : T -> Z.
Variable digest : list Z -> list Z.
Variable command_ok : C -> bool.
Notation block := (block T C).
Notation frontier := (frontier T P).
Notation add_m := (@add_block_mainnet T P C cs hash digest command_ok).
Notation add_b := (@add_block_berkeley T P cs hash digest).

(** The frontier after a list of received blocks, errors being logged. *)
Definition after_mainnet (checked : bool) (bs : list block) : frontier :=
  fold_left (fun f b => fst (add_m checked f b)) bs new_frontier.
Definition after_berkeley (checked : bool) (bs : list (T * list P)) : frontier :=
  fold_left (fun f b => fst (add_b checked f b)) bs new_frontier.

(** Every command of a block is valid. *)
Definition block_valid (b : block) : Prop :=
  (forall c, In c (diff_two b) -> command_ok c = true) /\
  (forall d c, diff_one b = Some d -> In c d -> command_ok c = true).

Lemma block_verify_iff : forall b, block_verify command_ok b = true <-> block_valid b.
Proof using Type.
  intros b. unfold block_verify, block_valid, pre_diff_verify. destruct (diff_one b) as [d|].
  - rewrite andb_true_iff, !forallb_forall. split.
    + intros [H1 H2]. split; [exact H2|]. intros d' c [= <-]. apply H1.
    + intros [H1 H2]. split; [intros c; apply H2; reflexivity|exact H1].
  - rewrite forallb_forall. split; [intros H; split; [exact H|discriminate]|tauto].
Qed.

(** What one step can do to the chain. *)
Lemma extend_cases : forall checked c s c' r, extend cs hash digest checked c s = (c', r) ->
  (c' = c \/ (r = Ok tt /\ c' = [s]) \/
   (r = Ok tt /\ exists x, tip c x /\ blockchain_length (cs x) < 1 /\ c' = c ++ [s])) /\
  (r <> Ok tt -> c' = c).
Proof using Type.
  intros checked c s c' r H. unfold extend in H. destruct (chain_length cs c <? 1) eqn:E.
  - unfold push in H. destruct (tip_cases c) as [->|[x Hx]].
    + cbn in H. injection H as <- <-. split; [auto|congruence].
    + rewrite (top_tip _ _ Hx) in H. rewrite (C35_length cs _ _ Hx) in E. unfold height_of in E.
      destruct (add32 checked (get_height cs x) 1) as [h|e|]; [|injection H as <- <-; auto|injection H as <- <-; auto].
      destruct (_ =? _); injection H as <- <-; [|auto]. split; [|congruence]. right. right.
      split; [reflexivity|]. exists x. split; [exact Hx|]. split; [lia|reflexivity].
  - cbn [select_secure_chain] in H.
    destruct (select_one cs hash digest checked c [s]) as [k|e|] eqn:K; injection H as <- <-; [|auto|auto].
    split; [|congruence]. destruct (sel1_member _ _ _ _ _ _ _ K) as [->| ->]; auto.
Qed.

Lemma berkeley_extend : forall checked f s ps, exists l,
  add_b checked f (s, ps) =
    ({| best_chain := fst (extend cs hash digest checked (best_chain f) s); sparse_merkle_ledger := l |},
     lift (snd (extend cs hash digest checked (best_chain f) s))).
Proof using Type.
  intros checked f s ps. unfold add_block_berkeley, extend. destruct (_ <? 1).
  - destruct (push _ _ _ _) as [c [[]|e|]]; eexists; reflexivity.
  - destruct (select_secure_chain _ _ _ _ _ _) as [c [[]|e|]]; eexists; reflexivity.
Qed.

(** ** C37 *)
(** A rejected block changes nothing, on both networks. *)
Theorem C37_rejected_mainnet : forall checked f b f' r, add_m checked f b = (f', r) -> r <> Ok tt -> f' = f.
Proof using Type.
  intros checked f b f' r H N. unfold add_block_mainnet in H. destruct (block_verify command_ok b); [|congruence].
  destruct (extend cs hash digest checked (best_chain f) (protocol_state b)) as [c r'] eqn:E. injection H as <- <-.
  destruct (extend_cases _ _ _ _ _ E) as [_ U]. rewrite U; [destruct f; reflexivity|].
  intros ->. apply N. reflexivity.
Qed.
Theorem C37_rejected_berkeley : forall checked f b f' r, add_b checked f b = (f', r) -> r <> Ok tt -> f' = f.
Proof using Type.
  intros checked f [s ps] f' r H N. unfold add_block_berkeley in H.
  pose proof (extend_cases checked (best_chain f) s) as X. unfold extend in X.
  destruct (_ <? 1).
  - destruct (push _ _ _ _) as [c [[]|e|]]; injection H as <- <-; [exfalso; apply N; reflexivity| |];
      destruct (X _ _ eq_refl) as [_ U]; rewrite U by discriminate; destruct f; reflexivity.
  - destruct (select_secure_chain _ _ _ _ _ _) as [c [[]|e|]]; injection H as <- <-; [exfalso; apply N; reflexivity| |];
      destruct (X _ _ eq_refl) as [_ U]; rewrite U by discriminate; destruct f; reflexivity.
Qed.

(** Shape of the best chain at all times. *)
Definition shape (c : chain T) : Prop :=
  c = [] \/ (exists x, c = [x]) \/ (exists x y, c = [x; y] /\ blockchain_length (cs x) < 1 /\ blockchain_length (cs y) = blockchain_length (cs x) + 1).

Lemma push_height : forall checked c x s, tip c x -> blockchain_length (cs x) < 1 ->
  forall c', push cs checked c s = (c', Ok tt) -> blockchain_length (cs s) = blockchain_length (cs x) + 1.
Proof using Type.
  clear hash digest.
  intros checked c x s Hx L c' H. unfold push in H. rewrite (top_tip _ _ Hx) in H. unfold get_height in H.
  rewrite add32_ok in H by (rewrite u32_max_val; lia). destruct (_ =? _) eqn:E; [lia|discriminate].
Qed.
Lemma extend_shape : forall checked c s, (forall x, In x c -> 0 <= blockchain_length (cs x)) ->
  shape c -> shape (fst (extend cs hash digest checked c s)).
Proof using Type.
  intros checked c s NN SH. destruct (extend cs hash digest checked c s) as [c' r] eqn:E. cbn [fst].
  destruct (extend_cases _ _ _ _ _ E) as [[->|[[_ ->]|(-> & x & Hx & L & ->)]] _]; [exact SH|right; left; eauto|].
  unfold extend in E. rewrite (C35_length cs _ _ Hx) in E. unfold height_of in E.
  replace (blockchain_length (cs x) <? 1) with true in E by lia.
  pose proof (push_height _ _ _ _ Hx L _ E) as HH.
  destruct SH as [->|[[y ->]|(y & z & -> & L1 & L2)]].
  - destruct Hx as [[|? ?] Hx]; discriminate.
  - right. right. assert (y = x) by (eapply tip_unique; [apply tip1|exact Hx]). subst. exists x, s. auto.
  - exfalso. assert (z = x) by (eapply tip_unique; [exists [y]; reflexivity|exact Hx]). subst.
    specialize (NN y (or_introl eq_refl)). lia.
Qed.

Lemma extend_in : forall checked c s x, In x (fst (extend cs hash digest checked c s)) -> In x c \/
  (x = s /\ snd (extend cs hash digest checked c s) = Ok tt).
Proof using Type.
  intros checked c s x H. destruct (extend cs hash digest checked c s) as [c' r] eqn:E. cbn [fst snd] in *.
  destruct (extend_cases _ _ _ _ _ E) as [[->|[[-> ->]|(-> & y & _ & _ & ->)]] _]; [auto| |].
  - destruct H as [<-|[]]. auto.
  - apply in_app_iff in H. destruct H as [H|[<-|[]]]; auto.
Qed.

Lemma mainnet_chain : forall checked f b, best_chain (fst (add_m checked f b)) =
  if block_verify command_ok b then fst (extend cs hash digest checked (best_chain f) (protocol_state b)) else best_chain f.
Proof using Type.
  intros. unfold add_block_mainnet. destruct (block_verify _ _); [|reflexivity].
  destruct (extend _ _ _ _ _ _); reflexivity.
Qed.
Lemma berkeley_chain : forall checked f s ps, best_chain (fst (add_b checked f (s, ps))) =
  fst (extend cs hash digest checked (best_chain f) s).
Proof using Type. intros. destruct (berkeley_extend checked f s ps) as [l ->]. reflexivity. Qed.

(** Invariant induction over a history. *)
Lemma history : forall A B (f : A -> B -> A) (I : list B -> A -> Prop) a0 bs,
  I [] a0 -> (forall pre b a, I pre a -> In b bs -> I (pre ++ [b]) (f a b)) -> I bs (fold_left f bs a0).
Proof using Type.
  intros A B f I a0 bs H0 HS.
  assert (G : forall l pre a, I pre a -> (forall b, In b l -> In b bs) -> I (pre ++ l) (fold_left f l a)).
  { induction l as [|b l IH]; intros pre a H HI; cbn [fold_left]; [rewrite app_nil_r; exact H|].
    replace (pre ++ b :: l) with ((pre ++ [b]) ++ l) by (rewrite <- app_assoc; reflexivity).
    apply IH; [apply HS; [exact H|apply HI; left; reflexivity]|intros c Hc; apply HI; right; exact Hc]. }
  apply (G bs [] a0 H0). auto.
Qed.

(** Only verified blocks enter the best chain of a mainnet frontier. *)
Theorem C37_only_valid : forall checked bs s, In s (best_chain (after_mainnet checked bs)) ->
  exists b, In b bs /\ protocol_state b = s /\ block_valid b.
Proof using Type.
  intros checked bs. unfold after_mainnet.
  apply (history frontier block (fun f b => fst (add_m checked f b))
    (fun pre f => forall s, In s (best_chain f) -> exists b, In b pre /\ protocol_state b = s /\ block_valid b)).
  - intros s [].
  - intros pre b f IH _ s H. rewrite mainnet_chain in H. destruct (block_verify command_ok b) eqn:V.
    + destruct (extend_in _ _ _ _ H) as [H1|[-> _]].
      * destruct (IH s H1) as (b' & I & E). exists b'. split; [apply in_app_iff; auto|exact E].
      * exists b. split; [apply in_app_iff; right; left; reflexivity|]. split; [reflexivity|apply block_verify_iff, V].
    + destruct (IH s H) as (b' & I & E). exists b'. split; [apply in_app_iff; auto|exact E].
Qed.

Lemma shape_consecutive : forall c, shape c -> consecutive cs c.
Proof using Type. intros c [->|[[x ->]|(x & y & -> & _ & H)]]; cbn; auto. Qed.

Lemma shape_mainnet : forall checked bs, (forall b, In b bs -> 0 <= blockchain_length (cs (protocol_state b))) ->
  shape (best_chain (after_mainnet checked bs)).
Proof using Type.
  intros checked bs NN. unfold after_mainnet.
  apply (history frontier block (fun f b => fst (add_m checked f b))
    (fun _ f => shape (best_chain f) /\ forall x, In x (best_chain f) -> 0 <= blockchain_length (cs x))).
  - split; [left; reflexivity|intros x []].
  - intros _ b f [SH IH] I. rewrite mainnet_chain. destruct (block_verify command_ok b); [|auto].
    split; [apply extend_shape; auto|]. intros x H. apply extend_in in H. destruct H as [H|[-> _]]; auto.
Qed.
Lemma shape_berkeley : forall checked bs, (forall b, In b bs -> 0 <= blockchain_length (cs (fst b))) ->
  shape (best_chain (after_berkeley checked bs)).
Proof using Type.
  intros checked bs NN. unfold after_berkeley.
  apply (history frontier (T * list P) (fun f b => fst (add_b checked f b))
    (fun _ f => shape (best_chain f) /\ forall x, In x (best_chain f) -> 0 <= blockchain_length (cs x))).
  - split; [left; reflexivity|intros x []].
  - intros _ [s ps] f [SH IH] I. rewrite berkeley_chain.
    split; [apply extend_shape; auto|]. intros x H. apply extend_in in H. destruct H as [H|[-> _]]; auto.
    apply (NN _ I).
Qed.
(** After any history the best chain holds consecutive heights, in both builds. *)
Theorem C37_consecutive_mainnet : forall checked bs,
  (forall b, In b bs -> 0 <= blockchain_length (cs (protocol_state b))) ->
  consecutive cs (best_chain (after_mainnet checked bs)).
Proof using Type. intros. apply shape_consecutive, shape_mainnet. auto. Qed.
Theorem C37_consecutive_berkeley : forall checked bs,
  (forall b, In b bs -> 0 <= blockchain_length (cs (fst b))) ->
  consecutive cs (best_chain (after_berkeley checked bs)).
Proof using Type. intros. apply shape_consecutive, shape_berkeley. auto. Qed.

(** ** C73 *)
(** The best chain never grows: whatever is received it holds at most two blocks. *)
Theorem C73_mainnet_refuted : forall checked bs,
  (forall b, In b bs -> 0 <= blockchain_length (cs (protocol_state b))) ->
  zlen (best_chain (after_mainnet checked bs)) <= 2.
Proof using Type.
  intros checked bs NN. destruct (shape_mainnet checked bs NN) as [->|[[x ->]|(x & y & -> & _)]]; cbn; lia.
Qed.
Theorem C73_berkeley_refuted : forall checked bs,
  (forall b, In b bs -> 0 <= blockchain_length (cs (fst b))) ->
  zlen (best_chain (after_berkeley checked bs)) <= 2.
Proof using Type.
  intros checked bs NN. destruct (shape_berkeley checked bs NN) as [->|[[x ->]|(x & y & -> & _)]]; cbn; lia.
Qed.

(** ** C38 *)
(** The proofs stored are those delivered with a block that has the state hash
    of the best block ... *)
Theorem C38_by_hash : forall checked bs x, tip (best_chain (after_berkeley checked bs)) x ->
  exists s, In (s, sparse_merkle_ledger (after_berkeley checked bs)) bs /\ hash s = hash x.
Proof using Type.
  intros checked bs. unfold after_berkeley.
  apply (history frontier (T * list P) (fun f b => fst (add_b checked f b))
    (fun pre f => forall x, tip (best_chain f) x -> exists s, In (s, sparse_merkle_ledger f) pre /\ hash s = hash x)).
  - intros x [[|? ?] H]; discriminate.
  - intros pre [s ps] f IH _ x Hx.
    destruct (add_b checked f (s, ps)) as [f' r] eqn:E. cbn [fst] in *.
    assert (IH' : forall y, tip (best_chain f) y -> exists s0, In (s0, sparse_merkle_ledger f) (pre ++ [(s, ps)]) /\ hash s0 = hash y).
    { intros y Hy. destruct (IH y Hy) as (s0 & I & H). exists s0. split; [apply in_app_iff; auto|exact H]. }
    assert (NEW : hash s = hash x -> exists s0, In (s0, ps) (pre ++ [(s, ps)]) /\ hash s0 = hash x).
    { intros H. exists s. split; [apply in_app_iff; right; left; reflexivity|exact H]. }
    assert (R : r = Ok tt \/ r <> Ok tt) by (destruct r as [[]| |]; [auto|right; discriminate|right; discriminate]).
    destruct R as [->|R]; [|rewrite (C37_rejected_berkeley _ _ _ _ _ E R) in *; auto].
    pose proof (extend_cases checked (best_chain f) s) as X. unfold extend in X. unfold add_block_berkeley in E.
    destruct (chain_length cs (best_chain f) <? 1) eqn:L.
    + destruct (push cs checked (best_chain f) s) as [c [[]|e|]] eqn:EP; injection E as <-; try discriminate.
      cbn [best_chain sparse_merkle_ledger] in *. apply NEW.
      unfold push in EP. destruct (tip_cases (best_chain f)) as [NE|[y Hy]].
      * rewrite NE in EP. cbn in EP. injection EP as <-. f_equal. eapply tip_unique; [apply tip1|exact Hx].
      * rewrite (top_tip _ _ Hy) in EP. destruct (add32 _ _ _); [|discriminate|discriminate].
        destruct (_ =? _); injection EP as <-; try discriminate.
        f_equal. eapply tip_unique; [eexists; reflexivity|exact Hx].
    + destruct (select_secure_chain cs hash digest checked (best_chain f) [[s]]) as [c [[]|e|]] eqn:ES;
        injection E as <-; try discriminate.
      cbn [best_chain sparse_merkle_ledger] in *.
      unfold state_hash. rewrite (top_tip _ _ Hx). cbn [option_map]. destruct (hash x =? hash s) eqn:EH; [apply NEW; lia|].
      destruct (X _ _ eq_refl) as [[->|[[_ ->]|(_ & y & _ & _ & ->)]] _].
      * auto.
      * exfalso. rewrite (tip_unique _ _ _ (tip1 _ s) Hx) in EH. lia.
      * exfalso. rewrite (tip_unique _ s _ (ex_intro _ _ eq_refl) Hx) in EH. lia.
Qed.
(** ... hence with the best block itself when state hashes do not collide. *)
Theorem C38_best_block : forall checked bs x, (forall a b, hash a = hash b -> a = b) ->
  tip (best_chain (after_berkeley checked bs)) x -> In (x, sparse_merkle_ledger (after_berkeley checked bs)) bs.
Proof using Type.
  intros checked bs x INJ Hx. destruct (C38_by_hash checked bs x Hx) as (s & I & H).
  rewrite <- (INJ _ _ H). exact I.
Qed.

(** ** C74 *)
(** The first block is accepted whatever it is; if its length is 0, every later
    block except one of length 1 is refused. *)
Theorem C74_refuted : forall checked b0 bs, block_valid b0 -> blockchain_length (cs (protocol_state b0)) = 0 ->
  (forall b, In b bs -> blockchain_length (cs (protocol_state b)) <> 1) ->
  best_chain (after_mainnet checked (b0 :: bs)) = [protocol_state b0].
Proof using Type.
  intros checked b0 bs V Z0 H. unfold after_mainnet. cbn [fold_left].
  assert (S0 : best_chain (fst (add_m checked new_frontier b0)) = [protocol_state b0]).
  { rewrite mainnet_chain. rewrite (proj2 (block_verify_iff b0) V). reflexivity. }
  revert S0. generalize (fst (add_m checked new_frontier b0)). induction bs as [|b bs IH]; intros f S0; [exact S0|].
  cbn [fold_left]. apply IH; [intros c Hc; apply H; right; exact Hc|]. rewrite mainnet_chain.
  destruct (block_verify command_ok b); [|exact S0]. rewrite S0. unfold extend, chain_length, chain_state, top, push.
  cbn [map last option_map]. rewrite Z0. cbn [Z.ltb Z.compare]. unfold top, get_height, add32. cbn [map last].
  rewrite Z0. change (0 + 1 <=? u32_max) with true. cbn iota.
  specialize (H b (or_introl eq_refl)). replace (_ =? 0 + 1) with false by lia. reflexivity.
Qed.
(** From a valid best block of positive length the frontier follows the
    selection rule for every valid block. *)
Theorem C74_follows : forall checked f b x, (forall l, bytes_ok (digest l)) ->
  tip (best_chain f) x -> valid_state (cs x) -> 1 <= blockchain_length (cs x) ->
  block_valid b -> valid_state (cs (protocol_state b)) ->
  exists f', add_m checked f b = (f', Ok tt) /\
    (replaces cs hash digest x (protocol_state b) -> best_chain f' = [protocol_state b]) /\
    (~ replaces cs hash digest x (protocol_state b) -> best_chain f' = best_chain f).
Proof using Type.
  intros checked f b x DB Hx Vx L V Vb. unfold add_block_mainnet. rewrite (proj2 (block_verify_iff b) V).
  unfold extend. rewrite (C35_length cs _ _ Hx). unfold height_of.
  replace (blockchain_length (cs x) <? 1) with false by lia. cbn [select_secure_chain].
  destruct (sel1_ok cs hash digest DB checked (best_chain f) [protocol_state b] x (protocol_state b) Hx (tip1 _ _) Vx Vb)
    as [[R ->]|[R ->]]; cbn [lift]; eexists; (split; [reflexivity|]); cbn [best_chain]; tauto.
Qed.

(** ** C75 *)
(** The proofs of the first block, and of any block that becomes or stays the
    best one, are stored without being checked. *)
Theorem C75_refuted : forall checked s ps, sparse_merkle_ledger (after_berkeley checked [(s, ps)]) = ps.
Proof using Type. intros. reflexivity. Qed.
(** Redelivering the best block with other proofs replaces the proofs. *)
Theorem C75_replay : forall checked f x ps, (forall l, bytes_ok (digest l)) ->
  tip (best_chain f) x -> 1 <= blockchain_length (cs x) ->
  exists f', add_b checked f (x, ps) = (f', Ok tt) /\ sparse_merkle_ledger f' = ps /\ tip (best_chain f') x.
Proof using Type.
  intros checked f x ps DB Hx L. unfold add_block_berkeley. rewrite (C35_length cs _ _ Hx). unfold height_of.
  replace (blockchain_length (cs x) <? 1) with false by lia. cbn [select_secure_chain].
  destruct (sel1_shares cs hash digest DB checked (epoch_count (cs x)) (staking_lock (cs x)) (best_chain f) [x] x x Hx (tip1 _ x))
    as [[B _]|[_ ->]]; [exists x; auto|exists x; split; [apply tip1|auto]|exfalso; revert B; apply better_irrefl|].
  eexists. split; [reflexivity|]. cbn [sparse_merkle_ledger best_chain]. unfold state_hash.
  rewrite (top_tip _ _ Hx). cbn [option_map]. rewrite Z.eqb_refl. auto.
Qed.

(** ** C72 *)
(** In every build a verified block that announces epochs of 0 slots crashes a
    mainnet frontier whose best block has positive length and another epoch. *)
Theorem C72_refuted : forall checked f b x, tip (best_chain f) x -> 1 <= blockchain_length (cs x) ->
  block_valid b -> slots_per_epoch (cs (protocol_state b)) = 0 ->
  epoch_count (cs (protocol_state b)) <> epoch_count (cs x) ->
  exists f', add_m checked f b = (f', Panic).
Proof using Type.
  intros checked f b x Hx L V Z0 E. unfold add_block_mainnet. rewrite (proj2 (block_verify_iff b) V).
  unfold extend. rewrite (C35_length cs _ _ Hx). unfold height_of.
  replace (blockchain_length (cs x) <? 1) with false by lia. cbn [select_secure_chain].
  unfold select_one, is_short_range. rewrite (state_tip cs _ _ Hx), (state_tip cs _ _ (tip1 _ (protocol_state b))).
  cbn [ok_or bind]. replace (epoch_count (cs x) =? _) with false by lia.
  rewrite (C57_refuted cs _ _ (tip1 _ (protocol_state b)) Z0). cbn [bind lift]. eexists. reflexivity.
Qed.
(** Blocks with valid states crash nothing, whatever their order. *)
Theorem C72_valid : forall checked f b, (forall l, bytes_ok (digest l)) ->
  (forall x, In x (best_chain f) -> valid_state (cs x)) -> valid_state (cs (protocol_state b)) ->
  forall f' r, add_m checked f b = (f', r) ->
  r <> Panic /\ (forall x, In x (best_chain f') -> valid_state (cs x)).
Proof using Type.
  intros checked f b DB VF VB f' r H.
  assert (K : forall x, In x (best_chain f') -> valid_state (cs x)).
  { intros x I. assert (Q : best_chain f' = best_chain (fst (add_m checked f b))) by (rewrite H; reflexivity).
    rewrite Q, mainnet_chain in I. destruct (block_verify _ _); [|auto].
    apply extend_in in I. destruct I as [I|[-> _]]; auto. }
  split; [|exact K]. unfold add_block_mainnet in H. destruct (block_verify _ _); [|injection H as _ <-; discriminate].
  destruct (extend cs hash digest checked (best_chain f) (protocol_state b)) as [c r'] eqn:E. injection H as _ <-.
  unfold extend in E. destruct (_ <? 1) eqn:L.
  - unfold push in E. destruct (tip_cases (best_chain f)) as [NE|[y Hy]].
    + rewrite NE in E. cbn in E. injection E as _ <-. discriminate.
    + rewrite (C35_length cs _ _ Hy) in L. unfold height_of in L.
      rewrite (top_tip _ _ Hy) in E. unfold get_height in E. rewrite add32_ok in E by (rewrite u32_max_val; lia).
      destruct (_ =? _); injection E as _ <-; discriminate.
  - destruct (tip_cases (best_chain f)) as [NE|[y Hy]]; [rewrite NE in L; discriminate|].
    assert (Vy : valid_state (cs y)) by (apply VF; destruct Hy as [pre ->]; apply in_app_iff; right; left; reflexivity).
    cbn [select_secure_chain] in E.
    destruct (sel1_ok cs hash digest DB checked (best_chain f) [protocol_state b] y (protocol_state b) Hy (tip1 _ _) Vy VB)
      as [[_ Q]|[_ Q]]; rewrite Q in E; injection E as _ <-; discriminate.
Qed.
End F.

(** ** C76 *)
(** A response with an account entry whose path is empty crashes the conversion. *)
Theorem C76_refuted : forall S H checked (s : S) (h : H) es,
  try_from_response checked (Ok s) ({| e_address := true; e_path := Some []; e_leaf := Ok h |} :: es) = Panic.
Proof. intros. destruct checked; reflexivity. Qed.
(** With paths of 1 to 62 nodes and leaf hashes that parse without panic it never does. *)
Theorem C76_no_panic : forall S H checked (s : res merkle_error S) (es : list (entry H)), s <> Panic ->
  (forall e, In e es -> e_address e = true -> e_leaf e <> Panic /\ forall p, e_path e = Some p -> 1 <= zlen p <= 62) ->
  try_from_response checked s es <> Panic.
Proof.
  intros S H checked s es NS OK X. unfold try_from_response in X. apply bind_panic in X.
  destruct X as [X|(a & _ & X)]; [congruence|]. apply bind_panic in X. destruct X as [X|(b & _ & X)]; [|discriminate].
  revert X. induction es as [|e es IH]; [discriminate|]. cbn [response_proofs].
  destruct (e_address e) eqn:EA; [|apply IH; intros e' I; apply OK; right; exact I].
  destruct (OK e (or_introl eq_refl) EA) as [NL LP]. destruct (e_path e) as [p|] eqn:EP; [|discriminate].
  intros X. apply bind_panic in X. destruct X as [X|(l & _ & X)]; [congruence|].
  apply bind_panic in X. destruct X as [X|(q & _ & X)]; [revert X; apply C66_nonempty; auto|].
  apply bind_panic in X. destruct X as [X|(r & _ & X)]; [|discriminate].
  revert X. apply IH. intros e' I. apply OK. right. exact I.
Qed.
(** The block holds one proof per account entry, in order, about the entry's
    leaf hash and built from the entry's path. *)
Theorem C76_contents : forall S H checked (s : res merkle_error S) (es : list (entry H)) t ps,
  try_from_response checked s es = Ok (t, ps) ->
  s = Ok t /\ Forall2 (fun e p => exists path leaf, e_path e = Some path /\ e_leaf e = Ok leaf /\
    to_proof checked path leaf = Ok p) (filter e_address es) ps.
Proof.
  intros S H checked s es t ps X. unfold try_from_response in X. apply bind_ok in X. destruct X as (a & -> & X).
  apply bind_ok in X. destruct X as (qs & X & Y). injection Y as <- <-. split; [reflexivity|].
  revert qs X. induction es as [|e es IH]; intros qs X; cbn [response_proofs filter] in *; [injection X as <-; constructor|].
  destruct (e_address e); [|auto]. destruct (e_path e) as [path|] eqn:EP; [|discriminate].
  apply bind_ok in X. destruct X as (leaf & EL & X). apply bind_ok in X. destruct X as (p & TP & X).
  apply bind_ok in X. destruct X as (rs & R & X). injection X as <-. constructor; [eauto|auto].
Qed.

(** ** C39 *)
Section Proc.
Context {E M S : Type}.
Variable handle : S -> M -> S * res E unit.
Notation run := (@run E M S handle).
Notation step := (@step E M S handle).

(** Messages of sender [i], in order. *)
Definition from_sender (i : nat) (l : list (nat * M)) : list M :=
  map snd (filter (fun x => Nat.eqb (fst x) i) l).
Definition in_hand (s : pstate M S) : list (nat * M) :=
  match p_consumer s with Got x | Locked x => [x] | _ => [] end.
(** The state after handling a list of messages one by one. *)
Definition handled (s0 : S) (l : list (nat * M)) : S := fold_left (fun s x => fst (handle s (snd x))) l s0.
Definition unsent (s : pstate M S) (i : nat) : list M := nth i (p_senders s) [].

Lemma from_sender_app : forall i a b, from_sender i (a ++ b) = from_sender i a ++ from_sender i b.
Proof using Type. intros. unfold from_sender. rewrite filter_app, map_app. reflexivity. Qed.
Lemma from_sender_one : forall i j m, from_sender j [(i, m)] = if Nat.eqb i j then [m] else [].
Proof using Type. intros. unfold from_sender. cbn [filter fst]. destruct (Nat.eqb i j); reflexivity. Qed.
Lemma nth_set_nth : forall A (l : list A) i j a d, (i < length l)%nat ->
  nth j (set_nth l i a) d = if Nat.eqb i j then a else nth j l d.
Proof using Type.
  induction l as [|x l IH]; intros i j a d H; cbn [length] in H; [lia|].
  destruct i as [|i]; destruct j as [|j]; cbn [set_nth nth Nat.eqb]; try reflexivity. apply IH. lia.
Qed.

Definition pinv (senders : list (list M)) (s0 : S) (s : pstate M S) : Prop :=
  (forall i, nth i senders [] = from_sender i (p_done s ++ in_hand s ++ p_queue s) ++ unsent s i) /\
  p_front s = handled s0 (p_done s) /\
  ((exists x, p_consumer s = Locked x) -> p_readers s = 0%nat) /\
  (length (p_queue s) <= 1)%nat.

Lemma pinv_run : forall senders s0 tr s, run (initial senders s0) tr s -> pinv senders s0 s.
Proof using Type.
  intros senders s0 tr s R. remember (initial senders s0) as ini eqn:EI. induction R as [|tr s1 l s2 R IH ST].
  - subst. split; [reflexivity|]. split; [reflexivity|]. split; [reflexivity|cbn; lia].
  - destruct IH as (A & B & D & Q). destruct ST as [s i m rest N L|s x q C Q0|s x C Z|s x s' r C H|s N|s n N];
      unfold pinv; cbn [p_senders p_queue p_consumer p_readers p_front p_done].
    + split; [|split; [exact B|split; [exact D|rewrite app_length; cbn; unfold capacity in L; lia]]].
      intros j. rewrite (A j). unfold in_hand, unsent. cbn [p_consumer p_senders].
      assert (LN : (i < length (p_senders s))%nat) by (apply nth_error_Some; congruence).
      rewrite nth_set_nth by exact LN. rewrite !app_assoc, (from_sender_app j _ [(i, m)]).
      rewrite from_sender_one. destruct (Nat.eqb i j) eqn:EJ.
      * apply Nat.eqb_eq in EJ. subst j. rewrite (nth_error_nth _ _ _ N), <- !app_assoc. reflexivity.
      * rewrite app_nil_r. reflexivity.
    + split; [|split; [exact B|split; [intros [y H]; discriminate|rewrite Q0 in Q; cbn in Q; lia]]].
      intros j. rewrite (A j). unfold in_hand, unsent. rewrite C, Q0. reflexivity.
    + split; [|split; [exact B|split; [auto|exact Q]]]. intros j. rewrite (A j). unfold in_hand, unsent. rewrite C. reflexivity.
    + split; [|split; [|split; [|exact Q]]].
      * intros j. rewrite (A j). unfold in_hand, unsent. rewrite C. cbn [p_consumer p_senders].
        destruct r; cbn [app]; rewrite <- app_assoc; reflexivity.
      * rewrite B in H. unfold handled. rewrite fold_left_app. cbn [fold_left].
        change (s' = fst (handle (handled s0 (p_done s)) (snd x))). rewrite H. reflexivity.
      * intros [y Y]. destruct r; discriminate.
    + split; [exact A|split; [exact B|split; [|exact Q]]]. intros [y Y]. exfalso. apply (N y Y).
    + split; [exact A|split; [exact B|split; [|exact Q]]]. intros H. specialize (D H). congruence.
Qed.

(** At every moment of every execution, what each sender sent is what was
    handled, is in hand or is queued, in the order sent; and the frontier is the
    result of handling the messages handled so far, one after the other. *)
Theorem C39_fifo : forall senders s0 tr s, run (initial senders s0) tr s ->
  (forall i, nth i senders [] = from_sender i (p_done s ++ in_hand s ++ p_queue s) ++ unsent s i) /\
  p_front s = handled s0 (p_done s).
Proof using Type. intros senders s0 tr s R. destruct (pinv_run _ _ _ _ R) as (A & B & _). auto. Qed.

(** While a reader holds the lock the frontier does not change. *)
Theorem C39_readers : forall senders s0 tr s l s', run (initial senders s0) tr s -> step s l s' ->
  (0 < p_readers s)%nat -> p_front s' = p_front s.
Proof using Type.
  intros senders s0 tr s l s' R ST H. destruct (pinv_run _ _ _ _ R) as (_ & _ & D & _).
  destruct ST; cbn; try reflexivity. rewrite D in H by eauto. lia.
Qed.

(** An execution that can go no further except by readers coming and going has
    handled every message, unless a message crashed it. *)
Theorem C39_complete : forall senders s0 tr s, run (initial senders s0) tr s ->
  p_consumer s <> Dead -> p_readers s = 0%nat ->
  (forall l s', step s l s' -> l = LRead \/ l = LUnread) ->
  (forall i, from_sender i (p_done s) = nth i senders []) /\ p_front s = handled s0 (p_done s).
Proof using Type.
  intros senders s0 tr s R ND NR STOP. destruct (pinv_run _ _ _ _ R) as (A & B & _ & Q).
  assert (CI : p_consumer s = Idle).
  { destruct (p_consumer s) as [|x|x|] eqn:C; [reflexivity| | |congruence]; exfalso.
    - destruct (STOP _ _ (st_lock handle s x C NR)); discriminate.
    - destruct (handle (p_front s) (snd x)) as [s' r] eqn:H.
      destruct (STOP _ _ (st_handle handle s x s' r C H)); discriminate. }
  assert (QE : p_queue s = []).
  { destruct (p_queue s) as [|x q] eqn:QQ; [reflexivity|]. exfalso.
    destruct (STOP _ _ (st_recv handle s x q CI QQ)); discriminate. }
  assert (UE : forall i, unsent s i = []).
  { intros i. unfold unsent. destruct (nth_error (p_senders s) i) as [l|] eqn:N.
    - rewrite (nth_error_nth _ _ _ N). destruct l as [|m rest]; [reflexivity|]. exfalso.
      assert (CAP : (length (p_queue s) < capacity)%nat) by (rewrite QE; cbn; unfold capacity; lia).
      destruct (STOP _ _ (st_send handle s i m rest N CAP)); discriminate.
    - apply nth_overflow, nth_error_None. exact N. }
  split; [|exact B]. intros i. rewrite (A i), UE, QE. unfold in_hand. rewrite CI. cbn [app].
  rewrite !app_nil_r. reflexivity.
Qed.

(** Executions cannot go on for ever without readers: at most four steps per message. *)
Definition busy (l : label) : bool := match l with LRead | LUnread => false | _ => true end.
Definition total (ls : list (list M)) : nat := length (concat ls).
Definition work (s : pstate M S) : nat :=
  4 * total (p_senders s) + 3 * length (p_queue s) + match p_consumer s with Got _ => 2 | Locked _ => 1 | _ => 0 end.
Lemma total_set : forall ls i m rest, nth_error ls i = Some (m :: rest) ->
  total ls = Datatypes.S (total (set_nth ls i rest)).
Proof using Type. clear handle E S.
  unfold total. induction ls as [|l ls IH]; intros [|i] m rest H; cbn in *; try discriminate.
  - injection H as ->. cbn. rewrite !app_length. lia.
  - rewrite !app_length, (IH _ _ _ H). lia.
Qed.
Theorem C39_terminates : forall senders s0 tr s, run (initial senders s0) tr s ->
  (length (filter busy tr) + work s <= 4 * length (concat senders))%nat.
Proof using Type.
  intros senders s0 tr s R. remember (initial senders s0) as ini eqn:EI. induction R as [|tr s1 l s2 R IH ST].
  - subst. cbn. unfold work, total. cbn. lia.
  - rewrite filter_app, app_length.
    destruct ST as [s i m rest N L|s x q C Q0|s x C Z|s x s' r C H|s N|s n N]; unfold work in *; cbn [filter busy length app p_senders p_queue p_consumer] in *.
    + rewrite (total_set _ _ _ _ N) in IH. rewrite app_length. cbn [length]. lia.
    + rewrite C, Q0 in IH. cbn [length] in IH. lia.
    + rewrite C in IH. lia.
    + rewrite C in IH. destruct r; lia.
    + lia.
    + lia.
Qed.

(** After a crash no message is handled any more. *)
Theorem C72_crash_is_final : forall s tr s', p_consumer s = Dead -> run s tr s' ->
  p_consumer s' = Dead /\ p_front s' = p_front s /\ p_done s' = p_done s.
Proof using Type.
  intros s tr s' D R. induction R as [|tr s1 l s2 R (A & B & C) ST]; [auto|].
  destruct ST; cbn [p_consumer p_front p_done]; auto; congruence.
Qed.

(** Only a message whose handling panics ends the loop. *)
Theorem C39_errors_go_on : forall senders s0 tr s, run (initial senders s0) tr s -> p_consumer s = Dead ->
  exists pre x, p_done s = pre ++ [x] /\ snd (handle (handled s0 pre) (snd x)) = Panic.
Proof using Type.
  intros senders s0 tr s R D. remember (initial senders s0) as ini eqn:EI.
  induction R as [|tr s1 l s2 R IH ST]; [subst; discriminate|].
  destruct ST as [s i m rest N L|s x q C Q0|s x C Z|s x s' r C H|s N|s n N]; cbn [p_consumer p_done] in *; try discriminate; auto.
  exists (p_done s), x. split; [reflexivity|]. rewrite EI in R. destruct (pinv_run _ _ _ _ R) as (_ & B & _).
  rewrite <- B, H. destruct r; [discriminate|discriminate|reflexivity].
Qed.

(** An executable scheduler, to build example executions. *)
Inductive choice := CSend (i : nat) | CRecv | CLock | CHandle | CRead | CUnread.
Definition exec1 (s : pstate M S) (c : choice) : option (pstate M S) :=
  let mk q k r ss f d := Some {| p_senders := ss; p_queue := q; p_consumer := k; p_readers := r; p_front := f; p_done := d |} in
  match c with
  | CSend i =>
    match nth_error (p_senders s) i, Nat.ltb (length (p_queue s)) capacity with
    | Some (m :: rest), true => mk (p_queue s ++ [(i, m)]) (p_consumer s) (p_readers s) (set_nth (p_senders s) i rest) (p_front s) (p_done s)
    | _, _ => None
    end
  | CRecv =>
    match p_consumer s, p_queue s with
    | Idle, x :: q => mk q (Got x) (p_readers s) (p_senders s) (p_front s) (p_done s)
    | _, _ => None
    end
  | CLock =>
    match p_consumer s, p_readers s with
    | Got x, O => mk (p_queue s) (Locked x) O (p_senders s) (p_front s) (p_done s)
    | _, _ => None
    end
  | CHandle =>
    match p_consumer s with
    | Locked x =>
      let (f, r) := handle (p_front s) (snd x) in
      mk (p_queue s) (match r with Panic => Dead | _ => Idle end) (p_readers s) (p_senders s) f (p_done s ++ [x])
    | _ => None
    end
  | CRead =>
    match p_consumer s with
    | Locked _ => None
    | k => mk (p_queue s) k (Datatypes.S (p_readers s)) (p_senders s) (p_front s) (p_done s)
    end
  | CUnread =>
    match p_readers s with
    | O => None
    | Datatypes.S n => mk (p_queue s) (p_consumer s) n (p_senders s) (p_front s) (p_done s)
    end
  end.
Fixpoint exec (s : pstate M S) (cs : list choice) : option (pstate M S) :=
  match cs with
  | [] => Some s
  | c :: cs' => match exec1 s c with Some s' => exec s' cs' | None => None end
  end.
Lemma exec1_step : forall s c s', exec1 s c = Some s' -> exists l, step s l s'.
Proof using Type.
  intros s c s' H. destruct c as [i| | | | |]; cbn [exec1] in H.
  - destruct (nth_error (p_senders s) i) as [[|m rest]|] eqn:N; try discriminate.
    destruct (Nat.ltb (length (p_queue s)) capacity) eqn:L; [|discriminate]. injection H as <-.
    eexists. apply st_send; [exact N|apply Nat.ltb_lt, L].
  - destruct (p_consumer s) eqn:C; try discriminate. destruct (p_queue s) eqn:Q; [discriminate|]. injection H as <-.
    eexists. eapply st_recv; eassumption.
  - destruct (p_consumer s) eqn:C; try discriminate. destruct (p_readers s) eqn:Q; [|discriminate]. injection H as <-.
    eexists. eapply st_lock; eassumption.
  - destruct (p_consumer s) eqn:C; try discriminate. destruct (handle (p_front s) (snd x)) as [f r] eqn:HH. injection H as <-.
    eexists. eapply st_handle; eassumption.
  - exists LRead. destruct (p_consumer s) eqn:C; try discriminate; injection H as <-; rewrite <- C;
      apply st_read; rewrite C; discriminate.
  - destruct (p_readers s) eqn:Q; [discriminate|]. injection H as <-. eexists. eapply st_unread; eassumption.
Qed.
Lemma exec_run : forall cs s s', exec s cs = Some s' -> exists tr, run s tr s'.
Proof using Type.
  assert (G : forall cs s0 tr s s', run s0 tr s -> exec s cs = Some s' -> exists tr', run s0 tr' s').
  { induction cs as [|c cs IH]; intros s0 tr s s' R H; cbn [exec] in H.
    - injection H as <-. eauto.
    - destruct (exec1 s c) as [s1|] eqn:X; [|discriminate]. apply exec1_step in X. destruct X as [l X].
      eapply IH; [|exact H]. eapply run_snoc; eassumption. }
  intros cs s s' H. eapply G; [apply run_nil|exact H].
Qed.
End Proc.

(** A message that cannot be converted, or whose block is refused, does not
    crash the loop and leaves the frontier as if it had not been sent. *)
Theorem C39_bad_message : forall N T P C cs hash digest (ok : C -> bool) checked (try_into : N -> res ferr (block T C))
  (f : frontier T P) l1 m l2 e,
  let handle := recv_block try_into (add_block_mainnet cs hash digest ok checked) in
  let g := handled handle f l1 in
  (try_into (snd m) = Err e \/
   exists b f1, try_into (snd m) = Ok b /\ add_block_mainnet cs hash digest ok checked g b = (f1, Err e)) ->
  snd (handle g (snd m)) <> Panic /\ handled handle f (l1 ++ m :: l2) = handled handle f (l1 ++ l2).
Proof.
  intros N T P C cs hash digest ok checked try_into f l1 m l2 e handle g H.
  assert (K : handle g (snd m) = (g, Err e)).
  { unfold handle, recv_block. destruct H as [H|(b & f1 & H & A)]; rewrite H; [reflexivity|].
    rewrite A. f_equal. eapply C37_rejected_mainnet; [exact A|discriminate]. }
  rewrite K. split; [discriminate|]. unfold handled. rewrite !fold_left_app. cbn [fold_left]. fold (handled handle f l1).
  fold g. rewrite K. reflexivity.
Qed.

(** ** Examples *)
Definition xok (c : Z) : bool := c <? 10.
Definition blk (s : xblock) (cmds : list Z) : block xblock Z := {| protocol_state := s; diff_two := cmds; diff_one := Some [1] |}.
Example C37_ex :
  best_chain (after_mainnet (P := unit) xcs xhash xdigest xok true [blk xA [1]; blk xB [99]; blk xC [2]]) = [xA] /\
  best_chain (after_mainnet (P := unit) xcs xhash xdigest xok true [blk xA [1]; blk xB [9]; blk xC [2]]) = [xC] /\
  (exists f', add_block_mainnet (P := unit) xcs xhash xdigest xok true new_frontier (blk xB [99]) = (f', Err VerificationFailure)).
Proof. split; [reflexivity|split; [reflexivity|eexists; reflexivity]]. Qed.
Example C38_ex :
  let f := after_berkeley xcs xhash xdigest true [(xA, [1]); (xC, [3]); (xB, [2])] in
  best_chain f = [xB] /\ sparse_merkle_ledger f = [2].
Proof. split; reflexivity. Qed.
(** A chain of three blocks, delivered in order, leaves one. *)
Example C73_ex : best_chain (after_mainnet (P := unit) xcs xhash xdigest xok true [blk (xh 1) []; blk (xh 2) []; blk (xh 3) []]) = [xh 3].
Proof. reflexivity. Qed.
Example C74_ex : block_valid xok (blk (xh 0) []) /\ valid_state (xcs xA) /\ 1 <= blockchain_length (xcs xA) /\ block_valid xok (blk xB [2; 3]).
Proof.
  split; [split; [intros c []|intros d c [= <-] [<-|[]]; reflexivity]|]. split; [apply xA_valid|]. split; [cbn; lia|].
  split; [intros c [<-|[<-|[]]]; reflexivity|intros d c [= <-] [<-|[]]; reflexivity].
Qed.
Example C75_ex : tip [xA] xA /\ 1 <= blockchain_length (xcs xA). Proof. split; [apply tip1|cbn; lia]. Qed.
Example C72_ex : tip [xbehind] xbehind /\ 1 <= blockchain_length (xcs xbehind) /\ slots_per_epoch (xcs xzero) = 0 /\
  epoch_count (xcs xzero) <> epoch_count (xcs xbehind).
Proof. split; [apply tip1|]. split; [cbn; lia|]. split; [reflexivity|discriminate]. Qed.
Example C76_ex : exists p, try_from_response true (Ok 7)
  [{| e_address := false; e_path := None; e_leaf := Panic |};
   {| e_address := true; e_path := Some [{| pn_left := Some 1; pn_right := None |}; {| pn_left := None; pn_right := Some 2 |}]; e_leaf := Ok 5 |}]
  = Ok (7, [p]).
Proof. eexists. reflexivity. Qed.

(** Two senders, three messages, a message refused, and a reader in between. *)
Definition xhandle (s : list Z) (m : Z) : list Z * res unit unit :=
  if m <? 0 then (s, Err tt) else (s ++ [m], Ok tt).
Definition xschedule : list choice :=
  [CSend 1; CRecv; CRead; CSend 0; CUnread; CLock; CHandle; CRecv; CSend 0; CLock; CHandle; CRecv; CLock; CHandle].
Definition xend : pstate Z (list Z) :=
  {| p_senders := [[]; []]; p_queue := []; p_consumer := Idle; p_readers := 0; p_front := [3; 1];
     p_done := [(1%nat, 3); (0%nat, 1); (0%nat, -2)] |}.
Lemma xend_reached : exec xhandle (initial [[1; -2]; [3]] []) xschedule = Some xend.
Proof. vm_compute. reflexivity. Qed.
Example C39_ex : exists tr s, run xhandle (initial [[1; -2]; [3]] []) tr s /\ p_front s = [3; 1] /\
  p_done s = [(1%nat, 3); (0%nat, 1); (0%nat, -2)] /\ p_consumer s = Idle /\ p_readers s = 0%nat /\
  (forall l s', step xhandle s l s' -> l = LRead \/ l = LUnread).
Proof.
  destruct (exec_run _ _ _ _ xend_reached) as [tr R]. exists tr, xend. split; [exact R|].
  split; [reflexivity|]. split; [reflexivity|]. split; [reflexivity|]. split; [reflexivity|].
  intros l s' ST. inversion ST; subst; cbn in *; try discriminate; auto.
  destruct i as [|[|[|i]]]; discriminate.
Qed.
Example C39_bad_ex : xhandle [3; 1] (-2) = ([3; 1], Err tt). Proof. reflexivity. Qed.

Print Assumptions C37_rejected_mainnet.
Print Assumptions C37_rejected_berkeley.
Print Assumptions C37_only_valid.
Print Assumptions C37_consecutive_mainnet.
Print Assumptions C37_consecutive_berkeley.
Print Assumptions C38_by_hash.
Print Assumptions C38_best_block.
Print Assumptions C39_fifo.
Print Assumptions C39_readers.
Print Assumptions C39_complete.
Print Assumptions C39_terminates.
Print Assumptions C39_errors_go_on.
Print Assumptions C39_bad_message.
Print Assumptions C72_refuted.
Print Assumptions C72_valid.
Print Assumptions C72_crash_is_final.
Print Assumptions C73_mainnet_refuted.
Print Assumptions C73_berkeley_refuted.
Print Assumptions C74_refuted.
Print Assumptions C74_follows.
Print Assumptions C75_refuted.
Print Assumptions C75_replay.
Print Assumptions C76_refuted.
Print Assumptions C76_no_panic.
Print Assumptions C76_contents.
