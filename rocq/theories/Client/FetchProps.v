(** C109: what becomes of the best chain that a server answers.
    C110: polling of the two backends. *)
From Coq Require Import String ZArith List Bool Lia ZifyNat.
From Verif Require Import Lib.Res Lib.Bytes Lib.Decimal Lib.Text Json.Json Hashing.Command Hashing.Account Hashing.State.
From Verif Require Import GraphQL.GraphQL GraphQL.GraphQLSpec GraphQL.GraphQLFacts GraphQL.GraphQLProps.
From Verif Require Import Text.Checksum Client.GqlSpec Client.Query Client.QueryProps Client.Fetch.
Import ListNotations.
Local Open Scope string_scope.
Local Open Scope list_scope.
Local Open Scope Z_scope.
Notation length := List.length.

(** ** Members *)
Lemma member_app : forall k a v b, ~ In k (map fst a) -> member k (a ++ (k, v) :: b) = Some v.
Proof.
  induction a as [|(k', w) a IH]; intros v b N; cbn [app member].
  - now rewrite (proj2 (key_eqb_iff k k) eq_refl).
  - destruct (key_eqb k' k) eqn:K; [|apply IH; intros I; apply N; now right].
    apply key_eqb_iff in K. exfalso. apply N. now left.
Qed.
Lemma member_split : forall k m v, member k m = Some v -> exists a b, m = a ++ (k, v) :: b /\ ~ In k (map fst a).
Proof.
  induction m as [|(k', w) m IH]; intros v E; cbn [member] in E; [discriminate|].
  destruct (key_eqb k' k) eqn:K.
  - apply key_eqb_iff in K. injection E as <-. subst k'. exists [], m. now split.
  - destruct (IH v E) as (a & b & -> & N). exists ((k', w) :: a), b. split; [reflexivity|].
    intros [Q|I]; [|auto]. cbn [fst] in Q. subst k'. enough (key_eqb k k = true) by congruence. now apply key_eqb_iff.
Qed.
Lemma has_member : forall j k v, has j k v <-> exists m, j = JObj m /\ member (str_bytes k) m = Some v.
Proof.
  intros j k v. split.
  - intros (a & b & -> & N). eexists. split; [reflexivity|]. now apply member_app.
  - intros (m & -> & E). destruct (member_split _ _ _ E) as (a & b & -> & N). now exists a, b.
Qed.
Lemma has_prop : forall j k v, has j k v <-> prop (Some j) k = Some (Some v).
Proof.
  intros j k v. rewrite has_member. destruct j; cbn [prop]; split; try (intros (m0 & E & H); discriminate); try discriminate.
  - intros (m0 & E & H). injection E as <-. now rewrite H.
  - intros E. injection E as E. eauto.
Qed.
Lemma has_fun : forall j k v w, has j k v -> has j k w -> v = w.
Proof. intros j k v w A B. apply has_prop in A, B. congruence. Qed.

Lemma member_set : forall k x m k', member k' (set_member k x m) = if key_eqb k k' then Some x else member k' m.
Proof.
  induction m as [|(k0, w) m IH]; intros k'; cbn [set_member member]; [reflexivity|].
  destruct (key_eqb k0 k) eqn:K; cbn [member].
  - apply key_eqb_iff in K. subst k0. now destruct (key_eqb k k').
  - rewrite IH. destruct (key_eqb k0 k') eqn:K'; [|reflexivity].
    apply key_eqb_iff in K'. subst k0. destruct (key_eqb k k') eqn:Q; [|reflexivity].
    apply key_eqb_iff in Q. subst k'. rewrite (proj2 (key_eqb_iff k k) eq_refl) in K. discriminate.
Qed.

Lemma member_drop : forall k m, member k (drop_member k m) = None.
Proof.
  intros k m. unfold drop_member. induction m as [|(k', w) m IH]; [reflexivity|]. cbn [filter fst].
  destruct (key_eqb k' k) eqn:K; cbn [negb]; [exact IH|]. cbn [member]. now rewrite K.
Qed.

Lemma inside_has : forall k f j v, has j k v -> forall k' w,
  has (inside k f j) k' w <-> (if key_eqb (str_bytes k) (str_bytes k') then w = f v else has j k' w).
Proof.
  intros k f j v H k' w. apply has_member in H as (m & -> & E). cbn [inside]. rewrite E. rewrite !has_member.
  split.
  - intros (m' & Q & M). injection Q as <-. rewrite member_set in M. destruct (key_eqb (str_bytes k) (str_bytes k')); [congruence|]. apply has_member. now exists m.
  - intros H. eexists. split; [reflexivity|]. rewrite member_set. destruct (key_eqb _ _); [congruence|].
    apply has_member in H as (m' & Q & M). injection Q as <-. exact M.
Qed.
Lemma assign_has : forall k x m k' w,
  has (assign k (Some x) (JObj m)) k' w <-> (if key_eqb (str_bytes k) (str_bytes k') then w = x else has (JObj m) k' w).
Proof.
  intros k x m k' w. cbn [assign]. rewrite !has_member. split.
  - intros (m' & Q & M). injection Q as <-. rewrite member_set in M. destruct (key_eqb (str_bytes k) (str_bytes k')); [congruence|]. apply has_member. now exists m.
  - intros H. eexists. split; [reflexivity|]. rewrite member_set. destruct (key_eqb _ _); [congruence|].
    apply has_member in H as (m' & Q & M). injection Q as <-. exact M.
Qed.

(** ** The state that is read *)

(** naive_transition_frontier.rs:135: [json["bestChain"][0]["protocolState"]] *)
Definition first_state (d : json) : json :=
  index (match index d "bestChain" with JArr (b :: _) => b | _ => JNull end) "protocolState".

(** What an answer says of its first block, all but the genesis ledger. *)
Definition block_says (ps : json) (s : state) : Prop :=
  hash_member sha_checksum ps "previousStateHash" 0x10 (s_previous s) /\
  (exists b, has ps "blockchainState" b /\
    let c := body_blockchain (s_body s) in
    hash_member sha_checksum b "stagedLedgerHash" 0x05 (ledger_hash (b_staged c)) /\
    aux_member sha_checksum b "stagedLedgerAuxHash" 0x0e (aux_hash (b_staged c)) /\
    aux_member sha_checksum b "stagedLedgerPendingCoinbaseAux" 0x0f (pending_coinbase_aux (b_staged c)) /\
    hash_member sha_checksum b "stagedLedgerPendingCoinbaseHash" 0x0c (pending_coinbase_hash (b_staged c)) /\
    hash_member sha_checksum b "snarkedLedgerHash" 0x05 (registers_ledger c) /\
    num_member b "utcDate" 64 (b_timestamp c) /\ hex_member b "bodyReference" (body_reference c)) /\
  (exists c, has ps "consensusState" c /\ consensus_answer sha_checksum c (body_consensus (s_body s))).
(** And of the genesis block. *)
Definition genesis_says (data : json) (h : list Z) : Prop :=
  exists g ps bs t, has data "genesisBlock" g /\ has g "protocolState" ps /\ has ps "blockchainState" bs /\
    has bs "snarkedLedgerHash" (JStr t) /\ hash_text sha_checksum 0x05 t h.
Definition chain_says (answer : json) (s : state) : Prop :=
  exists data b rest ps, has answer "data" data /\ has data "bestChain" (JArr (b :: rest)) /\ has b "protocolState" ps /\
    block_says ps s /\ genesis_says data (b_genesis_ledger_hash (body_blockchain (s_body s))).

Lemma obind_some : forall {A B} (x : option A) (f : A -> option B) b, obind x f = Some b <-> exists a, x = Some a /\ f a = Some b.
Proof. intros A B [a|] f b; cbn [obind]; split; [eauto|intros (a' & E & H); now injection E as ->|discriminate|intros (a' & E & _); discriminate]. Qed.

Definition patched (h : jsv) : json -> json :=
  inside "bestChain" (inside_first (inside "protocolState" (inside "blockchainState" (assign "genesisLedgerHash" h)))).

Lemma patch_iff : forall answer d, patch answer = Some d <->
  exists data chain b ps bs g gps gbs h, prop (Some answer) "data" = Some (Some data) /\ prop (Some data) "bestChain" = Some chain /\
    first chain = Some b /\ prop b "protocolState" = Some ps /\ prop ps "blockchainState" = Some bs /\ nullish bs = false /\
    prop (Some data) "genesisBlock" = Some g /\ prop g "protocolState" = Some gps /\ prop gps "blockchainState" = Some gbs /\
    prop gbs "snarkedLedgerHash" = Some h /\ d = patched h data.
Proof.
  intros answer d. unfold patch. rewrite obind_some. split.
  - intros (data & E0 & H). do 8 (apply obind_some in H; let x := fresh "x" in let E := fresh "E" in destruct H as (x & E & H)).
    destruct (nullish x2) eqn:N; [discriminate|]. destruct data as [data|]; [|discriminate]. injection H as <-.
    exists data, x, x0, x1, x2, x3, x4, x5, x6. repeat split; auto.
  - intros (data & chain & b & ps & bs & g & gps & gbs & h & E0 & E1 & E2 & E3 & E4 & N & E5 & E6 & E7 & E8 & ->).
    exists (Some data). split; [exact E0|]. rewrite E1. cbn [obind]. rewrite E2. cbn [obind]. rewrite E3. cbn [obind].
    rewrite E4. cbn [obind]. rewrite E5. cbn [obind]. rewrite E6. cbn [obind]. rewrite E7. cbn [obind]. rewrite E8. cbn [obind].
    now rewrite N.
Qed.

Lemma keys_same : forall k, key_eqb (str_bytes k) (str_bytes k) = true.
Proof. intros k. now apply key_eqb_iff. Qed.

(** The first block of the changed data is the changed first block. *)
Lemma first_patched : forall h data b rest ps bs, has data "bestChain" (JArr (b :: rest)) -> has b "protocolState" ps ->
  has ps "blockchainState" bs ->
  first_state (patched h data) = inside "blockchainState" (assign "genesisLedgerHash" h) ps.
Proof.
  intros h data b rest ps bs H1 H2 H3. unfold first_state, patched.
  set (f := inside_first _).
  assert (E : has (inside "bestChain" f data) "bestChain" (f (JArr (b :: rest)))) by (now apply (inside_has _ f _ _ H1)).
  apply has_iff in E; [|discriminate]. rewrite E. subst f. cbn [inside_first].
  apply has_iff.
  - apply has_member in H3 as (m & -> & Q). cbn [inside]. rewrite Q. discriminate.
  - now apply (inside_has _ _ _ _ H2).
Qed.

Lemma state_patched : forall h ps m s, has ps "blockchainState" (JObj m) ->
  state_answer sha_checksum (inside "blockchainState" (assign "genesisLedgerHash" (Some h)) ps) s <->
  block_says ps s /\ exists t, h = JStr t /\ hash_text sha_checksum 0x05 t (b_genesis_ledger_hash (body_blockchain (s_body s))).
Proof.
  intros h ps m s H. unfold state_answer, block_says, blockchain_answer, hash_member, aux_member, num_member, hex_member.
  set (f := assign _ _).
  assert (I0 : forall w, has (inside "blockchainState" f ps) "blockchainState" w <-> w = f (JObj m))
    by (intros w; rewrite (inside_has _ f _ _ H), keys_same; reflexivity).
  assert (I : forall k w, key_eqb (str_bytes "blockchainState") (str_bytes k) = false -> has (inside "blockchainState" f ps) k w <-> has ps k w)
    by (intros k w K; rewrite (inside_has _ f _ _ H), K; reflexivity).
  assert (A0 : forall w, has (f (JObj m)) "genesisLedgerHash" w <-> w = h)
    by (intros w; unfold f; rewrite assign_has, keys_same; reflexivity).
  assert (A : forall k w, key_eqb (str_bytes "genesisLedgerHash") (str_bytes k) = false -> has (f (JObj m)) k w <-> has (JObj m) k w)
    by (intros k w K; unfold f; rewrite assign_has, K; reflexivity).
  clearbody f. split.
  - intros ((s0 & P1 & P2) & (b & B1 & B2) & (c & C1 & C2)). apply I in P1; [|reflexivity]. apply I in C1; [|reflexivity].
    apply I0 in B1. subst b.
    destruct B2 as ((t1 & G1 & K1) & (O2 & G2) & (O3 & G3) & (t4 & G4 & K4) & (t5 & G5 & K5) & (t6 & G6 & K6) & (t7 & G7 & K7) & (t8 & G8 & K8)).
    apply A0 in G5. apply A in G1, G2, G3, G4, G6, G7, G8; try reflexivity.
    split; [|exists t5; split; [symmetry; exact G5|exact K5]].
    split; [exists s0; split; assumption|]. split; [|exists c; split; assumption]. exists (JObj m). split; [exact H|]. cbv zeta.
    split; [exists t1; split; assumption|]. split; [split; assumption|]. split; [split; assumption|].
    split; [exists t4; split; assumption|]. split; [exists t6; split; assumption|]. split; [exists t7; split; assumption|].
    exists t8; split; assumption.
  - intros (((s0 & P1 & P2) & (b & B1 & B2) & (c & C1 & C2)) & t & -> & K). cbv zeta in B2.
    assert (b = JObj m) as -> by (eapply has_fun; eassumption).
    destruct B2 as ((t1 & G1 & K1) & (O2 & G2) & (O3 & G3) & (t4 & G4 & K4) & (t6 & G6 & K6) & (t7 & G7 & K7) & (t8 & G8 & K8)).
    split; [exists s0; split; [apply I; [reflexivity|exact P1]|exact P2]|].
    split; [|exists c; split; [apply I; [reflexivity|exact C1]|exact C2]].
    exists (f (JObj m)). split; [now apply I0|].
    split; [exists t1; split; [apply A; [reflexivity|exact G1]|exact K1]|].
    split; [split; [exact O2|apply A; [reflexivity|exact G2]]|]. split; [split; [exact O3|apply A; [reflexivity|exact G3]]|].
    split; [exists t4; split; [apply A; [reflexivity|exact G4]|exact K4]|].
    split; [exists t; split; [now apply A0|exact K]|].
    split; [exists t6; split; [apply A; [reflexivity|exact G6]|exact K6]|].
    split; [exists t7; split; [apply A; [reflexivity|exact G7]|exact K7]|]. exists t8. split; [apply A; [reflexivity|exact G8]|exact K8].
Qed.

(** C109: from the answer of the server a state is read exactly if the answer
    says it of its first block, with the ledger of the genesis block as genesis
    ledger; up to the values that are never read (C93). *)
Theorem C109_read_iff : forall checked answer s,
  (exists d, patch answer = Some d /\ state_of sha_checksum checked (first_state d) = Ok s) <->
  chain_says answer s /\ fixed_state s.
Proof.
  intros checked answer s. split.
  - intros (d & Pd & R). apply C93_read_iff in R as (R & F). split; [|exact F].
    apply patch_iff in Pd as (data & chain & b & ps & bs & g & gps & gbs & h & E0 & E1 & E2 & E3 & E4 & N & E5 & E6 & E7 & E8 & ->).
    (* the chain is an array *)
    assert (exists b0 rest, chain = Some (JArr (b0 :: rest))) as (b0 & rest & ->).
    { unfold first_state, patched in R. destruct R as ((t & R & _) & _). destruct chain as [chain|]; [|discriminate E2].
      assert (Hc : has data "bestChain" chain) by (apply has_prop; exact E1).
      set (f := inside_first _) in R.
      assert (H : has (inside "bestChain" f data) "bestChain" (f chain)) by (now apply (inside_has _ f _ _ Hc)).
      assert (X : index (inside "bestChain" f data) "bestChain" = f chain).
      { destruct (f chain) eqn:Q; try (apply has_iff; [discriminate|exact H]).
        exfalso. destruct chain as [| | | | |[|]|]; subst f; cbn in Q; try discriminate.
        all: try (discriminate E2).
        destruct (member _ _); discriminate. }
      rewrite X in R. subst f. destruct chain as [| | | | |[|]|]; cbn [inside_first inside] in R; try (apply null_has in R; destruct R).
      - eauto.
      - destruct (member _ _); apply null_has in R; destruct R. }
    cbn [first hd_error] in E2. injection E2 as <-.
    destruct ps as [ps|]; [|discriminate]. destruct bs as [bs|]; [|discriminate]. destruct g as [g|]; [|discriminate].
    destruct gps as [gps|]; [|discriminate]. destruct gbs as [gbs|]; [|discriminate].
    apply has_prop in E0, E1, E3, E4, E5, E6, E7.
    rewrite (first_patched h data b0 rest ps bs E1 E3 E4) in R.
    (* the blockchain state is an object *)
    assert (exists m, bs = JObj m) as (m & ->).
    { destruct R as (_ & (x & X & (y & Y & _) & _) & _). apply (inside_has _ _ _ _ E4) in X. rewrite keys_same in X. subst x.
      destruct bs; cbn [assign] in Y; try (destruct Y as (? & ? & Y & _); discriminate). eauto. }
    destruct h as [h|].
    + apply (state_patched h ps m s E4) in R as (B & t & -> & K). exists data, b0, rest, ps. split; [assumption|]. split; [assumption|].
      split; [assumption|]. split; [exact B|]. exists g, gps, gbs, t. apply has_prop in E8. auto.
    + (* without a ledger of the genesis block the genesis ledger is missing *)
      exfalso. destruct R as (_ & (x & X & _ & _ & _ & _ & (y & Y & _) & _) & _).
      apply (inside_has _ _ _ _ E4) in X. rewrite keys_same in X. subst x. cbn [assign] in Y.
      apply has_member in Y as (m' & Q & M). injection Q as <-. rewrite member_drop in M. discriminate.
  - intros ((data & b & rest & ps & H0 & H1 & H2 & B & (g & gps & gbs & t & H5 & H6 & H7 & H8 & K)) & F).
    assert (exists m, has ps "blockchainState" (JObj m)) as (m & H4).
    { destruct B as (_ & (x & X & (y & Y & _) & _) & _). destruct x; try (destruct Y as (? & ? & Y & _); discriminate). eauto. }
    exists (patched (Some (JStr t)) data). split.
    + apply patch_iff. apply has_prop in H0, H1, H2, H4, H5, H6, H7, H8.
      exists data, (Some (JArr (b :: rest))), (Some b), (Some ps), (Some (JObj m)), (Some g), (Some gps), (Some gbs), (Some (JStr t)).
      repeat split; auto.
    + apply C93_read_iff. split; [|exact F]. rewrite (first_patched _ data b rest ps (JObj m)) by assumption.
      apply (state_patched _ _ m); [exact H4|]. eauto.
Qed.

(** An answer is taken, and not asked for again, exactly if the two blockchain
    states are there and not null, whatever they say. *)
Theorem C109_taken_iff : forall answer, (exists d, patch answer = Some d) <->
  exists data, has answer "data" data /\
    (exists chain b ps bs, has data "bestChain" chain /\ ((exists rest, chain = JArr (b :: rest)) \/ has chain "0" b) /\
       has b "protocolState" ps /\ has ps "blockchainState" bs /\ bs <> JNull) /\
    (exists g ps bs, has data "genesisBlock" g /\ has g "protocolState" ps /\ has ps "blockchainState" bs /\ bs <> JNull).
Proof.
  assert (Pr : forall v k w, prop v k = Some w -> exists j, v = Some j /\ j <> JNull).
  { intros [j|] k w H; [|discriminate]. exists j. split; [reflexivity|]. intros ->. discriminate. }
  intros answer. split.
  - intros (d & Pd).
    apply patch_iff in Pd as (data & chain & b & ps & bs & g & gps & gbs & h & E0 & E1 & E2 & E3 & E4 & N & E5 & E6 & E7 & E8 & _).
    destruct (Pr _ _ _ E3) as (b' & -> & _). destruct (Pr _ _ _ E4) as (ps' & -> & _). destruct (Pr _ _ _ E6) as (g' & -> & _).
    destruct (Pr _ _ _ E7) as (gps' & -> & _). destruct (Pr _ _ _ E8) as (gbs' & -> & N').
    destruct bs as [bs|]; [|discriminate]. destruct chain as [chain|]; [|discriminate].
    apply has_prop in E0, E1, E3, E4, E5, E6, E7. exists data. split; [exact E0|]. split.
    + exists chain, b', ps', bs. split; [exact E1|]. split; [|split; [exact E3|split; [exact E4|intros ->; discriminate]]].
      destruct chain as [| | | |[|c s]|[|x l]|m]; cbn [first hd_error] in E2; try discriminate; injection E2 as E2.
      * subst b'. destruct E3 as (? & ? & E3 & _). discriminate.
      * left. exists l. now subst x.
      * right. apply has_member. now exists m.
    + exists g', gps', gbs'. auto.
  - intros (data & H0 & (chain & b & ps & bs & H1 & Fi & H3 & H4 & N) & (g & gps & gbs & H5 & H6 & H7 & N')).
    apply has_prop in H0, H1, H3, H4, H5, H6, H7.
    assert (E2 : first (Some chain) = Some (Some b)).
    { destruct Fi as [(rest & ->)|Fi]; [reflexivity|]. apply has_member in Fi as (m & -> & M). cbn [first]. now rewrite M. }
    assert (E8 : exists h, prop (Some gbs) "snarkedLedgerHash" = Some h) by (destruct gbs; cbn [prop]; eauto; congruence).
    destruct E8 as (h & E8). exists (patched h data). apply patch_iff.
    exists data, (Some chain), (Some b), (Some ps), (Some bs), (Some g), (Some gps), (Some gbs), h.
    repeat split; auto. destruct bs; cbn; congruence.
Qed.

(** No other block of the chain has any influence. *)
Theorem C109_first_only : forall data data' b rest rest' ps s,
  has data "bestChain" (JArr (b :: rest)) -> has data' "bestChain" (JArr (b :: rest')) -> has b "protocolState" ps ->
  (forall g, has data "genesisBlock" g <-> has data' "genesisBlock" g) ->
  forall answer answer', has answer "data" data -> has answer' "data" data' ->
  (chain_says answer s <-> chain_says answer' s).
Proof.
  assert (W : forall data data' b rest rest' ps s,
    has data "bestChain" (JArr (b :: rest)) -> has data' "bestChain" (JArr (b :: rest')) -> has b "protocolState" ps ->
    (forall g, has data "genesisBlock" g -> has data' "genesisBlock" g) ->
    forall answer answer', has answer "data" data -> has answer' "data" data' -> chain_says answer s -> chain_says answer' s).
  { intros data data' b rest rest' ps s H1 H1' H2 G answer answer' H0 H0' (d & b0 & r0 & p0 & A0 & A1 & A2 & B & (g & gps & gbs & t & K)).
    assert (d = data) as -> by (eapply has_fun; eassumption).
    assert (Q : JArr (b0 :: r0) = JArr (b :: rest)) by (eapply has_fun; eassumption). injection Q as -> ->.
    assert (p0 = ps) as -> by (eapply has_fun; eassumption).
    exists data', b, rest', ps. repeat (split; [assumption|]). exists g, gps, gbs, t. destruct K as (K1 & K). split; [auto|exact K]. }
  intros data data' b rest rest' ps s H1 H1' H2 G answer answer' H0 H0'. split.
  - eapply (W data data'); eauto. intros g. apply G.
  - eapply (W data' data); eauto. intros g. apply G.
Qed.

(** ** Three attempts *)
Theorem C109_retry_iff : forall {A} (attempts : list (option A)) a, retry attempts = Some a <->
  exists k, (k < 3)%nat /\ nth_error attempts k = Some (Some a) /\ forall i, (i < k)%nat -> nth_error attempts i = Some None.
Proof.
  intros A attempts a. unfold retry. generalize 3%nat as n. intros n. revert attempts. induction n as [|n IH]; intros [|[x|] l]; cbn [retry_loop].
  - split; [discriminate|]. intros (k & L & _). lia.
  - split; [discriminate|]. intros (k & L & _). lia.
  - split; [discriminate|]. intros (k & L & _). lia.
  - split; [discriminate|]. intros ([|k] & L & E & _); discriminate.
  - split.
    + intros E. injection E as <-. exists 0%nat. split; [lia|]. split; [reflexivity|]. intros i Hi. lia.
    + intros ([|k] & L & E & B); [now injection E as ->|]. specialize (B 0%nat ltac:(lia)). discriminate.
  - rewrite IH. split.
    + intros (k & L & E & B). exists (S k). split; [lia|]. split; [exact E|]. intros [|i] Hi; [reflexivity|]. apply B. lia.
    + intros ([|k] & L & E & B); [discriminate|]. exists k. split; [lia|]. split; [exact E|]. intros i Hi. apply (B (S i)). lia.
Qed.

(** A server that answers well within three attempts is read; every attempt is
    the same request, for the chain and the tracked accounts. *)
Theorem C109_fetch : forall net endpoint accounts checked s k answer,
  (k < 3)%nat -> nth_error (net (chain_post endpoint accounts)) k = Some (Some answer) ->
  (forall i, (i < k)%nat -> nth_error (net (chain_post endpoint accounts)) i = Some None) ->
  chain_says answer s -> fixed_state s ->
  exists d, fetch_best_chain net endpoint accounts = Some d /\ state_of sha_checksum checked (first_state d) = Ok s.
Proof.
  intros net endpoint accounts checked s k answer L E B C F.
  destruct (proj2 (C109_read_iff checked answer s) (conj C F)) as (d & P & R). exists d. split; [|exact R].
  apply C109_retry_iff. exists k. split; [exact L|]. split.
  - rewrite nth_error_map, E. cbn [option_map obind]. now rewrite P.
  - intros i Hi. rewrite nth_error_map, (B i Hi). reflexivity.
Qed.

Theorem C109_request : forall endpoint accounts, Forall is_name accounts ->
  exists q, has (po_body (chain_post endpoint accounts)) "query" (JStr q) /\ asks q (chain_document accounts) /\
    has (po_body (chain_post endpoint accounts)) "operationName" (JStr (d_name (chain_document accounts))).
Proof.
  intros endpoint accounts N. exists (best_chain_query accounts). split; [|split].
  - now apply has_prop.
  - now apply C107_chain_iff.
  - now apply has_prop.
Qed.

(** ** The fields that are asked for are those that are read *)

(** What a server answers to selections without arguments on an object: the
    members asked for, in that order, null where it has none. *)
Fixpoint respond (s : sel) (j : json) : json :=
  match s with
  | Sel _ _ _ [] => j
  | Sel _ _ _ subs =>
    let fix objects (j : json) : json :=
      match j with
      | JObj m => JObj (map (fun t => match t with
          | Sel al n _ _ => (match al with Some a => a | None => n end, respond t (find_member n m)) end) subs)
      | JArr l => JArr (map objects l)
      | _ => j
      end
    in objects j
  end.
Definition with_genesis (h : json) : json -> json := inside "blockchainState" (assign "genesisLedgerHash" (Some h)).
Definition answered_state (ps : json) : json := respond (node "protocolState" state_fields) ps.

Lemma index_assign : forall k x m k', index (assign k (Some x) (JObj m)) k' = if key_eqb (str_bytes k) (str_bytes k') then x else index (JObj m) k'.
Proof.
  intros k x m k'. cbn [assign index].
  assert (F : forall k m, find_member k m = match member k m with Some x => x | None => JNull end).
  { intros k0 m0. induction m0 as [|(k1, w) m0 IH]; [reflexivity|]. cbn [find_member member]. now destruct (key_eqb k1 k0). }
  rewrite !F, member_set. now destruct (key_eqb _ _).
Qed.
Lemma index_inside : forall k f m k', index (inside k f (JObj m)) k' =
  match member (str_bytes k) m with
  | Some x => if key_eqb (str_bytes k) (str_bytes k') then f x else index (JObj m) k'
  | None => index (JObj m) k'
  end.
Proof.
  intros k f m k'. cbn [inside]. destruct (member (str_bytes k) m) as [x|] eqn:E; [|reflexivity].
  change (index (assign k (Some (f x)) (JObj m)) k' = if key_eqb (str_bytes k) (str_bytes k') then f x else index (JObj m) k').
  apply index_assign.
Qed.

Definition plain_sel (s : sel) : bool := match s with Sel None _ [] _ => true | _ => false end.
Definition sel_name (s : sel) : list Z := match s with Sel _ n _ _ => n end.
Fixpoint find_sel (k : list Z) (l : list sel) : option sel :=
  match l with [] => None | s :: l' => if key_eqb (sel_name s) k then Some s else find_sel k l' end.

Lemma respond_null : forall s, respond s JNull = JNull.
Proof. intros [al n args [|t subs]]; reflexivity. Qed.
Lemma index_respond : forall n subs k t j, forallb plain_sel subs = true -> find_sel (str_bytes k) subs = Some t ->
  index (respond (node n subs) j) k = respond t (index j k).
Proof.
  intros n subs k t j Pl Fi.
  assert (N : subs <> []) by (intros ->; discriminate).
  assert (O : forall m l, forallb plain_sel l = true -> find_sel (str_bytes k) l = Some t ->
    find_member (str_bytes k) (map (fun t => match t with
          | Sel al n _ _ => (match al with Some a => a | None => n end, respond t (find_member n m)) end) l) = respond t (find_member (str_bytes k) m)).
  { intros m. induction l as [|[[al|] n' [|a args] sub] l IH]; intros P F; try discriminate.
    cbn [map find_member]. cbn [find_sel sel_name] in F. destruct (key_eqb n' (str_bytes k)) eqn:K.
    - injection F as <-. apply key_eqb_iff in K. now subst n'.
    - apply IH; [exact P|exact F]. }
  unfold node. destruct subs as [|s subs]; [congruence|]. destruct j; try (symmetry; apply respond_null).
  cbn [index]. apply (O _ (s :: subs) Pl Fi).
Qed.

(** The asked members of an epoch, a consensus state and a blockchain state. *)
Lemma epoch_asked : forall n j checked, epoch_of sha_checksum checked (respond (node n epoch_fields) j) = epoch_of sha_checksum checked j.
Proof.
  intros n j checked. unfold epoch_of.
  rewrite (index_respond n epoch_fields "ledger" (node "ledger" [field "hash"; field "totalCurrency"]) j) by reflexivity.
  rewrite (index_respond "ledger" [field "hash"; field "totalCurrency"] "hash" (field "hash")) by reflexivity.
  rewrite (index_respond "ledger" [field "hash"; field "totalCurrency"] "totalCurrency" (field "totalCurrency")) by reflexivity.
  rewrite (index_respond n epoch_fields "seed" (field "seed")) by reflexivity.
  rewrite (index_respond n epoch_fields "startCheckpoint" (field "startCheckpoint")) by reflexivity.
  rewrite (index_respond n epoch_fields "lockCheckpoint" (field "lockCheckpoint")) by reflexivity.
  rewrite (index_respond n epoch_fields "epochLength" (field "epochLength")) by reflexivity.
  reflexivity.
Qed.

Definition consensus_fields : list sel := match nth 1 state_fields (field "") with Sel _ _ _ subs => subs end.
Definition blockchain_fields : list sel := match nth 2 state_fields (field "") with Sel _ _ _ subs => subs end.

Lemma consensus_asked : forall n j checked, consensus_of sha_checksum checked (respond (node n consensus_fields) j) = consensus_of sha_checksum checked j.
Proof.
  intros n j checked. unfold consensus_of.
  rewrite (index_respond n consensus_fields "stakingEpochData" (node "stakingEpochData" epoch_fields) j) by reflexivity.
  rewrite (index_respond n consensus_fields "nextEpochData" (node "nextEpochData" epoch_fields) j) by reflexivity.
  rewrite !epoch_asked.
  rewrite (index_respond n consensus_fields "blockHeight" (field "blockHeight")) by reflexivity.
  rewrite (index_respond n consensus_fields "epochCount" (field "epochCount")) by reflexivity.
  rewrite (index_respond n consensus_fields "minWindowDensity" (field "minWindowDensity")) by reflexivity.
  rewrite (index_respond n consensus_fields "lastVrfOutput" (field "lastVrfOutput")) by reflexivity.
  rewrite (index_respond n consensus_fields "totalCurrency" (field "totalCurrency")) by reflexivity.
  rewrite (index_respond n consensus_fields "slot" (field "slot")) by reflexivity.
  rewrite (index_respond n consensus_fields "slotSinceGenesis" (field "slotSinceGenesis")) by reflexivity.
  rewrite (index_respond n consensus_fields "hasAncestorInSameCheckpointWindow" (field "hasAncestorInSameCheckpointWindow")) by reflexivity.
  rewrite (index_respond n consensus_fields "blockStakeWinner" (field "blockStakeWinner")) by reflexivity.
  rewrite (index_respond n consensus_fields "blockCreator" (field "blockCreator")) by reflexivity.
  rewrite (index_respond n consensus_fields "coinbaseReceiever" (field "coinbaseReceiever")) by reflexivity.
  rewrite (index_respond n consensus_fields "superchargedCoinbase" (field "superchargedCoinbase")) by reflexivity.
  reflexivity.
Qed.

Lemma blockchain_asked : forall n j h checked,
  blockchain_of sha_checksum checked (assign "genesisLedgerHash" (Some h) (respond (node n blockchain_fields) j)) =
  blockchain_of sha_checksum checked (assign "genesisLedgerHash" (Some h) j).
Proof.
  intros n j h checked.
  destruct j as [| | | | |l|m]; try reflexivity.
  assert (G : exists m', respond (node n blockchain_fields) (JObj m) = JObj m') by (eexists; reflexivity).
  destruct G as (m' & G). rewrite G. unfold blockchain_of. rewrite !index_assign.
  assert (X : forall k, find_sel (str_bytes k) blockchain_fields = Some (field k) -> index (JObj m') k = index (JObj m) k).
  { intros k F. rewrite <- G, (index_respond n blockchain_fields k (field k)); [reflexivity|reflexivity|exact F]. }
  rewrite (X "stagedLedgerHash"), (X "stagedLedgerAuxHash"), (X "stagedLedgerPendingCoinbaseAux"), (X "stagedLedgerPendingCoinbaseHash"),
    (X "snarkedLedgerHash"), (X "utcDate"), (X "bodyReference") by reflexivity.
  reflexivity.
Qed.

(** C109 (the request is sufficient): the answer to the request, cut down to the
    fields that are asked for, is read as the whole state of the server would be. *)
Theorem C109_asked : forall ps h checked,
  state_of sha_checksum checked (with_genesis h (answered_state ps)) = state_of sha_checksum checked (with_genesis h ps).
Proof.
  intros ps h checked. destruct ps as [| | | | |l|m]; try reflexivity.
  assert (G : exists m', answered_state (JObj m) = JObj m' /\ member (str_bytes "blockchainState") m' =
    Some (respond (node "blockchainState" blockchain_fields) (index (JObj m) "blockchainState"))) by (eexists; split; reflexivity).
  destruct G as (m' & G & M').
  assert (X : forall k t, find_sel (str_bytes k) state_fields = Some t -> index (JObj m') k = respond t (index (JObj m) k)).
  { intros k t F. rewrite <- G. unfold answered_state. apply index_respond; [reflexivity|exact F]. }
  rewrite G. unfold state_of, body_of, with_genesis.
  rewrite !index_inside, M'. rewrite !keys_same.
  change (key_eqb (str_bytes "blockchainState") (str_bytes "previousStateHash")) with false.
  change (key_eqb (str_bytes "blockchainState") (str_bytes "consensusState")) with false. cbv iota.
  rewrite (X "previousStateHash" (field "previousStateHash")) by reflexivity.
  rewrite (X "consensusState" (node "consensusState" consensus_fields)) by reflexivity.
  rewrite consensus_asked. rewrite blockchain_asked. cbn [respond field].
  assert (F : index (JObj m) "blockchainState" = match member (str_bytes "blockchainState") m with Some x => x | None => JNull end).
  { cbn [index]. generalize (str_bytes "blockchainState"). intros k. clear. induction m as [|(k1, w) m IH]; [reflexivity|]. cbn [find_member member]. now destruct (key_eqb k1 k). }
  destruct (member (str_bytes "blockchainState") m) as [x|] eqn:E; rewrite F; reflexivity.
Qed.

(** ** The block that is read is the first of the list *)
Definition with_height (n : Z) (s : state) : state :=
  let b := s_body s in let c := body_consensus b in
  mk_state (s_previous s) (mk_body (body_genesis_state_hash b) (body_blockchain b)
    (mk_consensus n (epoch_count c) (min_window_density c) (sub_window_densities c) (last_vrf_output c) (total_currency c)
       (slot_number c) (cs_slots_per_epoch c) (global_slot_since_genesis c) (staking_epoch_data c) (next_epoch_data c) (has_ancestor c)
       (block_stake_winner c) (block_creator c) (coinbase_receiver c) (supercharge_coinbase c)) (body_constants b)).
Definition at_height (t : string) : json -> json := inside "consensusState" (assign "blockHeight" (Some (str t))).

Lemma read_higher : forall checked m mc t n s, member (str_bytes "consensusState") m = Some (JObj mc) ->
  number 32 (str t) = Ok n ->
  state_of sha_checksum checked (JObj m) = Ok s -> state_of sha_checksum checked (at_height t (JObj m)) = Ok (with_height n s).
Proof.
  intros checked m mc t n s C N H. unfold at_height, state_of, body_of in *. rewrite !index_inside, C, !keys_same.
  change (key_eqb (str_bytes "consensusState") (str_bytes "previousStateHash")) with false.
  change (key_eqb (str_bytes "consensusState") (str_bytes "blockchainState")) with false. cbv iota.
  assert (F : index (JObj m) "consensusState" = JObj mc) by (apply has_iff; [discriminate|]; apply has_member; eauto).
  rewrite F in H.
  apply bind_ok in H as (pr & Ep & H). rewrite Ep. apply bind_ok in H as (bo & Eb & H). injection H as <-.
  apply bind_ok in Eb as (gh & Eg & Eb). rewrite Eg. apply bind_ok in Eb as (bl & El & Eb). rewrite El.
  apply bind_ok in Eb as (cs & Ec & Eb). injection Eb as <-.
  assert (Q : consensus_of sha_checksum checked (assign "blockHeight" (Some (str t)) (JObj mc)) =
    Ok (body_consensus (s_body (with_height n (mk_state pr (mk_body gh bl cs default_constants)))))).
  { unfold consensus_of in *. rewrite !index_assign.
    repeat match goal with |- context [key_eqb (str_bytes ?a) (str_bytes ?b)] =>
      let v := eval vm_compute in (key_eqb (str_bytes a) (str_bytes b)) in
      change (key_eqb (str_bytes a) (str_bytes b)) with v end. cbv iota.
    apply bind_ok in Ec as (h0 & E0 & Ec). rewrite N. cbn [bind].
    do 11 (apply bind_ok in Ec; let a := fresh "a" in let E := fresh "E" in destruct Ec as (a & E & Ec); rewrite E; cbn [bind]).
    injection Ec as <-. reflexivity. }
  rewrite Q. reflexivity.
Qed.

Lemma fixture_at : forall t n, number 32 (str t) = Ok n -> exists d s, state_of sha_checksum true (first_state d) = Ok s /\
  blockchain_length (body_consensus (s_body s)) = n.
Proof.
  intros t n N.
  assert (X : exists m mc, C93_fixture = JObj m /\ member (str_bytes "consensusState") m = Some (JObj mc)) by (do 2 eexists; split; reflexivity).
  destruct X as (m & mc & Em & Mc). pose proof C93_fixture_read as R. rewrite Em in R.
  exists (obj [("bestChain", JArr [obj [("protocolState", at_height t (JObj m))]])]), (with_height n C93_state).
  split; [|reflexivity]. exact (read_higher true m mc t n _ Mc N R).
Qed.

(** Expected: the state that is read is that of the best block of the answer.
    Refuted: with a higher block second in the list, the first is read. *)
Theorem C109_best_refuted : exists answer data b c psb psc s t,
  has answer "data" data /\ has data "bestChain" (JArr [b; c]) /\ has b "protocolState" psb /\ has c "protocolState" psc /\
  block_says psb s /\ block_says psc t /\
  blockchain_length (body_consensus (s_body s)) < blockchain_length (body_consensus (s_body t)) /\
  exists d, patch answer = Some d /\ state_of sha_checksum true (first_state d) = Ok s.
Proof.
  assert (Bs : forall ps s, state_of sha_checksum true ps = Ok s -> block_says ps s).
  { intros ps s H. apply C93_read_iff in H as ((A & (b & B1 & B2) & C) & _). unfold blockchain_answer in B2.
    split; [exact A|]. split; [|exact C]. exists b. split; [exact B1|]. cbv zeta. tauto. }
  assert (X : exists m mc, C93_fixture = JObj m /\ member (str_bytes "consensusState") m = Some (JObj mc) /\ exists t mb, member (str_bytes "blockchainState") m = Some (JObj mb) /\
     member (str_bytes "genesisLedgerHash") mb = Some (JStr t)) by (do 2 eexists; split; [reflexivity|]; split; [reflexivity|]; do 2 eexists; split; reflexivity).
  destruct X as (m & mc & Em & Mc & g & mb & Mb & Mg).
  pose proof C93_fixture_read as R. rewrite Em in R.
  set (s1 := with_height 7 C93_state) in *. set (s2 := with_height 8 C93_state) in *.
  assert (R1 : state_of sha_checksum true (at_height "7" (JObj m)) = Ok s1) by (apply (read_higher true m mc "7" 7); auto).
  assert (R2 : state_of sha_checksum true (at_height "8" (JObj m)) = Ok s2) by (apply (read_higher true m mc "8" 8); auto).
  set (gen := obj [("protocolState", obj [("blockchainState", obj [("snarkedLedgerHash", JStr g)])])]).
  set (b := obj [("protocolState", at_height "7" (JObj m))]).
  set (c := obj [("protocolState", at_height "8" (JObj m))]).
  set (data := obj [("bestChain", JArr [b; c]); ("genesisBlock", gen)]).
  exists (obj [("data", data)]), data, b, c, (at_height "7" (JObj m)), (at_height "8" (JObj m)), s1, s2.
  split; [now apply has_prop|]. split; [now apply has_prop|]. split; [now apply has_prop|]. split; [now apply has_prop|].
  split; [now apply Bs|]. split; [now apply Bs|]. split; [subst s1 s2; unfold with_height; cbn [s_body body_consensus blockchain_length]; lia|].
  apply C109_read_iff. pose proof R1 as R1'. apply C93_read_iff in R1' as (A & F). split; [|exact F].
  exists data, b, [c], (at_height "7" (JObj m)). split; [now apply has_prop|]. split; [now apply has_prop|]. split; [now apply has_prop|].
  split; [now apply Bs|].
  exists gen, (obj [("blockchainState", obj [("snarkedLedgerHash", JStr g)])]), (obj [("snarkedLedgerHash", JStr g)]), g.
  split; [now apply has_prop|]. split; [now apply has_prop|]. split; [now apply has_prop|]. split; [now apply has_prop|].
  destruct A as (_ & (bs & B1 & B2) & _).
  assert (H : has (at_height "7" (JObj m)) "blockchainState" (JObj mb)).
  { unfold at_height. apply (inside_has _ _ _ (JObj mc)); [apply has_member; eauto|]. apply has_member. eauto. }
  assert (bs = JObj mb) as -> by (eapply has_fun; eassumption).
  unfold blockchain_answer in B2. destruct B2 as (_ & _ & _ & _ & (t & G & K) & _).
  assert (Q : JStr t = JStr g) by (eapply has_fun; [exact G|]; apply has_member; eauto). injection Q as ->. exact K.
Qed.

(** Twice nothing, then an answer; and thrice nothing. *)
Example C109_ex : exists answer s d, chain_says answer s /\ fixed_state s /\
  fetch_best_chain (fun _ => [None; None; Some answer]) (str_bytes "http://localhost:3085/graphql") [alice] = Some d /\
  state_of sha_checksum true (first_state d) = Ok s /\
  fetch_best_chain (fun _ => [None; None; None; Some answer]) (str_bytes "http://localhost:3085/graphql") [alice] = None.
Proof.
  destruct C109_best_refuted as (answer & _ & _ & _ & _ & _ & s & _ & _ & _ & _ & _ & _ & _ & _ & R).
  pose proof R as R'. apply C109_read_iff in R' as (C & F).
  destruct (C109_fetch (fun _ => [None; None; Some answer]) (str_bytes "http://localhost:3085/graphql") [alice] true s 2 answer) as (d & D1 & D2); auto.
  { intros [|[|i]] H; try reflexivity. lia. }
  exists answer, s, d. auto.
Qed.
(** An answer without data, as servers give for errors, is no chain. *)
Example C109_error_ex : patch (obj [("errors", JArr [])]) = None /\ patch (obj [("data", JNull)]) = None /\
  patch (obj [("data", obj [("bestChain", JArr [])])]) = None.
Proof. repeat split. Qed.
Example C109_asked_ex : index (answered_state C93_fixture) "previousStateHash" = index C93_fixture "previousStateHash" /\
  index (index C93_fixture "blockchainState") "genesisLedgerHash" <> JNull /\
  index (index (answered_state C93_fixture) "blockchainState") "genesisLedgerHash" = JNull.
Proof. repeat split. discriminate. Qed.
Example C109_request_ex : Forall is_name [alice; bob].
Proof. apply Forall_cons; [exact alice_name|]. apply Forall_cons; [exact bob_name|constructor]. Qed.

Print Assumptions C109_read_iff.
Print Assumptions C109_first_only.
Print Assumptions C109_retry_iff.
Print Assumptions C109_fetch.
Print Assumptions C109_request.
Print Assumptions C109_asked.
Print Assumptions C109_best_refuted.
Print Assumptions C109_taken_iff.
