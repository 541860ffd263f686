(** C127: the answers of the berkeley API. *)

From Coq Require Import String ZArith List Bool Lia ZifyBool ZifyNat Permutation Sorted.
From Verif Require Import Lib.Res Lib.Vec Lib.Bytes Text.Base58 Text.Base58Props Text.Checksum Text.ChecksumProps Text.FieldText Text.FieldTextProps
  Json.Json Json.JsonSpec Json.JsonFacts Json.JsonReadFacts Json.Grammar Json.Parse Json.ParseFacts Json.JsonText Json.PrintFacts Json.TextReadFacts
  Json.TextWriteFacts Convert.JsonViewProps Convert.JsonViewSpec GraphQL.GraphQL GraphQL.GraphQLSpec GraphQL.GraphQLFacts GraphQL.GraphQLProps Hashing.State Merkle.Tree Merkle.MerkleSpec Merkle.PathProofs Merkle.MerkleProps.
From Verif Require Import Json.TextSpec Json.TextFacts Json.SaysFacts.
From Verif Require Import Frontier.Response.
From Verif Require Import Frontier.ResponseSpec.
Import ListNotations.
Local Open Scope string_scope.
Local Open Scope list_scope.
Local Open Scope Z_scope.
Notation length := List.length.
Notation sha := sha_checksum.

(** ** Documents *)
Lemma as_ok : forall (E A : Type) e (x : res E A) a, as_err e x = Ok a <-> x = Ok a.
Proof. intros E A e [x| |] a; cbn [as_err]; split; congruence. Qed.
Lemma as_panic : forall (E A : Type) e (x : res E A), as_err e x = Panic <-> x = Panic.
Proof. intros E A e [x| |]; cbn [as_err]; split; congruence. Qed.
Lemma nothing_iff : forall j k, index j k = JNull <-> nothing j k.
Proof.
  intros j k. unfold nothing. split.
  - intros I v H. destruct v; try reflexivity; apply has_iff in H; try discriminate; congruence.
  - intros H. destruct (index j k) eqn:I; try reflexivity; (apply has_iff in I; [|discriminate]); apply H in I; discriminate.
Qed.
Lemma hash_json_iff : forall j h, hash_of_json j = Ok h <-> exists s, j = JStr s /\ fp_text s h.
Proof.
  intros j h. unfold hash_of_json, fp_text. split.
  - destruct j as [| | | |s| |]; try discriminate. rewrite as_ok. intros H. exists s. split; [reflexivity|]. apply (proj2 (C80_accepts_iff s h)), H.
  - intros (s & -> & D). apply as_ok. apply (proj2 (C80_accepts_iff s h)), D.
Qed.
Lemma option_hash_iff : forall j o, option_hash j = Ok o <-> (j = JNull /\ o = None) \/ exists s h, j = JStr s /\ fp_text s h /\ o = Some h.
Proof.
  intros j o. split.
  - intros H. destruct j; cbn [option_hash] in H; try (left; split; [reflexivity|congruence]); right;
      apply bind_ok in H; destruct H as (h & H & [= <-]); apply hash_json_iff in H; destruct H as (s' & E & D); eauto.
  - intros [[-> ->]|(s & h & -> & D & ->)]; [reflexivity|]. cbn [option_hash]. rewrite (proj2 (hash_json_iff (JStr s) h)) by eauto. reflexivity.
Qed.
Lemma two_iff : forall a b d, (exists n, two a b = Ok n /\ entry n d) <->
  exists s, fp_text s (snd d) /\ if fst d then a = JStr s /\ b = JNull else a = JNull /\ b = JStr s.
Proof.
  intros a b [c h]. unfold two, entry. cbn [fst snd]. split.
  - intros (n & H & E). apply bind_ok in H. destruct H as (l & L & H). apply bind_ok in H. destruct H as (r & R & H). injection H as <-.
    apply option_hash_iff in L, R. destruct c; injection E as -> ->.
    + destruct L as [[_ L]|(s & x & -> & D & L)]; [discriminate|]. injection L as <-. destruct R as [[-> _]|(? & ? & _ & _ & R)]; [|discriminate]. eauto.
    + destruct R as [[_ R]|(s & x & -> & D & R)]; [discriminate|]. injection R as <-. destruct L as [[-> _]|(? & ? & _ & _ & L)]; [|discriminate]. eauto.
  - intros (s & D & X). assert (O : option_hash (JStr s) = Ok (Some h)) by (apply option_hash_iff; right; eauto).
    destruct c; destruct X as [-> ->]; rewrite O; cbn [option_hash bind]; eexists; (split; [reflexivity|reflexivity]).
Qed.
Lemma node_iff : forall j d, (exists n, node_of j = Ok n /\ entry n d) <-> node_answer j d.
Proof.
  intros j d. unfold node_answer. split.
  - intros (n & H & E). destruct j as [| | | | |l|m]; try discriminate.
    + destruct l as [|a [|b [|? ?]]]; try discriminate. cbn [node_of] in H. destruct (proj1 (two_iff a b d) (ex_intro _ n (conj H E))) as (s & D & X).
      exists s. split; [exact D|]. destruct (fst d); destruct X as [-> ->]; right; reflexivity.
    + cbn [node_of] in H. destruct (proj1 (two_iff _ _ d) (ex_intro _ n (conj H E))) as (s & D & X).
      exists s. split; [exact D|]. destruct (fst d); destruct X as [A B]; left; split; first [apply has_iff; [discriminate|assumption]|apply nothing_iff; assumption].
  - intros (s & D & X). assert (T : forall a b, (if fst d then a = JStr s /\ b = JNull else a = JNull /\ b = JStr s) -> exists n, two a b = Ok n /\ entry n d).
    { intros a b Y. apply two_iff. eauto. }
    destruct (fst d) eqn:C.
    + destruct X as [[A B]|X]; [|rewrite X; cbn [node_of]; apply T; auto]. apply has_iff in A; [|discriminate]. apply nothing_iff in B.
      destruct j; try discriminate. cbn [node_of]. apply T; auto.
    + destruct X as [[A B]|X]; [|rewrite X; cbn [node_of]; apply T; auto]. apply has_iff in B; [|discriminate]. apply nothing_iff in A.
      destruct j; try discriminate. cbn [node_of]. apply T; auto.
Qed.
Lemma wf_entry : forall n : path_node Z, wf_node n -> exists d, entry n d.
Proof. intros n [(h & ->)|(h & ->)]; [exists (true, h)|exists (false, h)]; reflexivity. Qed.
Lemma nodes_iff : forall l ds, (exists path, mapM node_of l = Ok path /\ Forall2 entry path ds) <-> Forall2 node_answer l ds.
Proof.
  induction l as [|j l IH]; intros ds; cbn [mapM]; split.
  - intros (path & [= <-] & F). inversion F. constructor.
  - intros F. inversion F. exists []. split; [reflexivity|constructor].
  - intros (path & H & F). apply bind_ok in H. destruct H as (n & N & H). apply bind_ok in H. destruct H as (p & P & [= <-]).
    inversion F as [|? d ? ds' E F']; subst. constructor; [apply node_iff; eauto|apply IH; eauto].
  - intros F. inversion F as [|? d ? ds' A F']; subst. apply node_iff in A. destruct A as (n & N & E). apply IH in F'. destruct F' as (p & P & F').
    exists (n :: p). rewrite N. cbn [bind]. rewrite P. split; [reflexivity|constructor; assumption].
Qed.
Lemma entries : forall path : list (path_node Z), Forall wf_node path -> exists ds, Forall2 entry path ds.
Proof.
  intros path F. induction F as [|n path W F (ds & IH)]; [exists []; constructor|]. destruct (wf_entry n W) as (d & E). exists (d :: ds). constructor; assumption.
Qed.
Lemma f2_len : forall (A B : Type) (R : A -> B -> Prop) l l', Forall2 R l l' -> length l = length l'.
Proof. intros A B R l l' F. induction F; cbn; congruence. Qed.
Lemma zlen_length : forall (A : Type) (l : list A), zlen l = Z.of_nat (length l).
Proof. intros A l. induction l as [|a l IH]; [reflexivity|]. rewrite zlen_cons. cbn [length]. lia. Qed.
Lemma hashes_of : forall (path : list (path_node Z)) ds, Forall2 entry path ds -> map sib_hash path = map (fun d => Some (snd d)) ds.
Proof.
  intros path ds F. induction F as [|n [b h] path ds E F IH]; [reflexivity|]. cbn [map]. rewrite IH. unfold entry in E. cbn [fst snd] in E. subst n. destruct b; reflexivity.
Qed.
Lemma wf_all : forall path : list (path_node Z), Forall wf_node path \/ ~ Forall wf_node path.
Proof.
  induction path as [|n path [IH|IH]]; [left; constructor| |right; intros X; inversion X; auto].
  destruct (wf_dec n); [left; constructor; auto|right; intros X; inversion X; auto].
Qed.
(** The proof that [to_proof] makes of a path. *)
Lemma proof_iff : forall checked (path : list (path_node Z)) (leaf : Z) p, (length path <= 62)%nat ->
  (to_proof checked path leaf = Ok p <-> exists ds, Forall2 entry path ds /\ ds <> [] /\ p_item p = leaf /\
    p_index p = 2 ^ zlen ds - 1 + position (map fst ds) /\ p_peer_indices p = sibling_indices (length ds) (p_index p) /\ p_peer_hashes p = map (fun d => Some (snd d)) ds).
Proof.
  intros checked path leaf p L.
  assert (OK : forall ds, Forall2 entry path ds -> ds <> [] -> exists q, to_proof checked path leaf = Ok q /\ p_item q = leaf /\
    p_index q = 2 ^ zlen ds - 1 + position (map fst ds) /\ p_peer_indices q = sibling_indices (length ds) (p_index q) /\ p_peer_hashes q = map (fun d => Some (snd d)) ds).
  { intros ds F N. assert (LP : 1 <= zlen path <= 62) by (rewrite zlen_length; pose proof (f2_len _ _ _ _ _ F); destruct ds; [contradiction|cbn [length] in *; lia]).
    destruct (C24_path Z Z (fun x _ => x) (fun _ _ _ => None) checked path ds leaf F LP) as (q & Q & I & X & S & _).
    destruct (entry_facts _ _ _ F) as (W & _ & _ & ZL). destruct (to_proof_ok checked path leaf LP W) as (q' & Q' & _ & _ & _ & H).
    rewrite Q in Q'. injection Q' as <-. exists q. rewrite ZL in X. rewrite (f2_len _ _ _ _ _ F) in S. rewrite (hashes_of path ds F) in H. auto 10. }
  split.
  - intros H. destruct path as [|n path'] eqn:EP; [rewrite C66_refuted in H; discriminate|]. rewrite <- EP in *.
    assert (W : Forall (@wf_node Z) path).
    { destruct (wf_all path) as [W|W]; [exact W|]. exfalso. unfold to_proof in H. rewrite path_loop_bad in H by (try exact W; rewrite zlen_length; lia). discriminate. }
    destruct (entries path W) as (ds & F). assert (N : ds <> []) by (intros ->; inversion F; congruence).
    destruct (OK ds F N) as (q & Q & R). rewrite Q in H. injection H as <-. exists ds. auto.
  - intros (ds & F & N & I & X & S & H). destruct (OK ds F N) as (q & Q & I' & X' & S' & H'). rewrite Q. f_equal.
    destruct p, q; cbn in *. subst. reflexivity.
Qed.
Lemma denotes_nil : forall x, ~ denotes [] x.
Proof. intros x D. remember [] as t eqn:E. destruct D as [p d s P _ _]. destruct P as [-> | ->]; discriminate. Qed.
Section Answers.
  Variable checked : bool.
  Lemma account_iff : forall v p, (forall l, has v "merklePath" (JArr l) -> (length l <= 62)%nat) -> (account_proof checked v = Ok p <-> account_says v p).
  Proof.
    intros v p L. unfold account_proof, account_says. split.
    - intros H. apply bind_ok in H. destruct H as (path & P & H). apply bind_ok in H. destruct H as (leaf & F & H). apply as_ok in F, H.
      unfold path_of in P. destruct (index v "merklePath") as [| | | | |l|] eqn:I; try discriminate. apply has_iff in I; [|discriminate]. specialize (L l I).
      assert (length path = length l) by (clear - P; revert path P; induction l as [|j l IH]; intros path P; cbn [mapM] in P; [injection P as <-; reflexivity|];
        apply bind_ok in P; destruct P as (n & _ & P); apply bind_ok in P; destruct P as (q & Q & [= <-]); cbn [length]; rewrite (IH q Q); reflexivity).
      apply proof_iff in H; [|lia]. destruct H as (ds & E & N & IT & X & S & HS).
      assert (NA : Forall2 node_answer l ds) by (apply nodes_iff; eauto).
      apply (proj1 (C80_accepts_iff (as_str (index v "leafHash")) leaf)) in F.
      destruct (proj1 (string_iff (fun s => denotes s leaf /\ leaf < FP_MODULUS) v "leafHash" (fun D => denotes_nil leaf (proj1 D))) F) as (s & LS & D).
      exists l, ds, s. rewrite IT. auto 12.
    - intros (l & ds & s & I & NA & N & LS & D & X & S & HS). specialize (L l I). apply has_iff in I; [|discriminate]. apply has_iff in LS; [|discriminate].
      rewrite I, LS. cbn [path_of as_str]. apply nodes_iff in NA. destruct NA as (path & P & E). rewrite P. cbn [bind].
      rewrite (proj2 (proj1 (C80_accepts_iff s (p_item p))) D). cbn [as_err bind]. apply as_ok. apply proof_iff.
      + rewrite (f2_len _ _ _ _ _ E). enough (length path = length l) by (rewrite (f2_len _ _ _ _ _ E) in *; lia).
        clear - P. revert path P; induction l as [|j l IH]; intros path P; cbn [mapM] in P; [injection P as <-; reflexivity|].
        apply bind_ok in P; destruct P as (n & _ & P); apply bind_ok in P; destruct P as (q & Q & [= <-]); cbn [length]; rewrite (IH q Q); reflexivity.
      + exists ds. auto 10.
  Qed.
  Lemma address_iff : forall k, (exists x, from_address sha k = Some x) <-> address sha k.
  Proof.
    intros k. unfold address. split.
    - intros (x & H). eexists. apply (key_of_iff sha sha_checksum_len sha_checksum_bytes). unfold key_of. rewrite H. reflexivity.
    - intros (p & H). apply (key_of_iff sha sha_checksum_len sha_checksum_bytes) in H. unfold key_of in H. destruct (from_address sha k); [eauto|discriminate].
  Qed.
  Lemma accounts_iff : forall m ps, short_paths m -> (account_proofs sha checked m = Ok ps <-> accounts sha m ps).
  Proof.
    induction m as [|[k v] m IH]; intros ps S; cbn [account_proofs].
    - split; [intros [= <-]; constructor|intros H; inversion H; reflexivity].
    - assert (S' : short_paths m) by (intros k' v' l I H; apply (S k' v' l); [right; exact I|exact H]).
      assert (L : forall l, has v "merklePath" (JArr l) -> (length l <= 62)%nat) by (intros l H; apply (S k v l); [left; reflexivity|exact H]).
      destruct (from_address sha k) as [x|] eqn:A.
      + assert (AD : address sha k) by (apply address_iff; eauto). split.
        * intros H. apply bind_ok in H. destruct H as (p & P & H). apply bind_ok in H. destruct H as (qs & Q & [= <-]).
          apply A_account; [exact AD|apply account_iff; assumption|apply IH; assumption].
        * intros H. inversion H as [|? ? ? ? NA|? ? ? p qs _ AS R]; subst; [contradiction|]. apply account_iff in AS; [|exact L]. apply IH in R; [|exact S'].
          rewrite AS. cbn [bind]. rewrite R. reflexivity.
      + assert (NA : ~ address sha k) by (intros H; apply address_iff in H; destruct H as (x & H); congruence). split.
        * intros H. apply A_other; [exact NA|apply IH; assumption].
        * intros H. inversion H as [|? ? ? ? _ R|? ? ? ? ? Y]; subst; [apply IH; assumption|contradiction].
  Qed.
  Lemma state_iff : forall j s, state_of sha checked (index (first (index j "bestChain")) "protocolState") = Ok s <-> best_state sha j s.
  Proof.
    intros j s. unfold best_state. rewrite C93_read_iff. assert (NN : forall q, state_answer sha q s -> q <> JNull) by (intros q ((h & H & _) & _) ->; exact (null_has _ _ H)). split.
      - intros [A F]. pose proof (NN _ A) as N. destruct (index j "bestChain") as [| | | | |[|b rest]|] eqn:I; cbn [first index] in *; try contradiction.
        exists b, rest, (index b "protocolState"). split; [apply has_iff; [discriminate|exact I]|]. split; [apply has_iff; [exact N|reflexivity]|auto].
      - intros (b & rest & q & I & P & A & F). apply has_iff in I; [|discriminate]. apply has_iff in P; [|apply NN, A]. rewrite I. cbn [first]. rewrite P. auto.
  Qed.
  (** A document is read as a state and a list of proofs exactly if it says
      so. *)
  Theorem C127_read_iff : forall m s ps, short_paths m ->
    (answer_of sha checked (JObj m) = Ok (s, ps) <-> best_state sha (JObj m) s /\ accounts sha m ps).
  Proof.
    intros m s ps S. unfold answer_of. rewrite <- (accounts_iff m ps S).
    rewrite <- state_iff. split.
    - intros H. apply bind_ok in H. destruct H as (s' & H1 & H). apply bind_ok in H. destruct H as (ps' & H2 & [= <- <-]). apply as_ok in H1. auto.
    - intros [H1 H2]. rewrite (proj2 (as_ok _ _ _ _ _) H1). cbn [bind]. rewrite H2. reflexivity.
  Qed.

  (** ** Texts *)
  Lemma index_same : forall j j' k, same j j' -> same (index j k) (index j' k).
  Proof.
    intros j j' k H. destruct H as [j|l l' F|m m1 m' N P F]; [apply S_refl|apply S_refl|]. cbn [index].
    assert (E : find_member (str_bytes k) m = find_member (str_bytes k) m1).
    { clear F. revert N. induction P as [|[a x] m m1 P IH|[a x] [b y] m|m m2 m1 P1 IH1 P2 IH2]; intros N; [reflexivity| | |].
      - cbn [map fst] in N. inversion N; subst. cbn [find_member]. destruct (key_eqb a (str_bytes k)); auto.
      - cbn [map fst] in N. inversion N as [|? ? N1 _]; subst. cbn [find_member]. destruct (key_eqb a (str_bytes k)) eqn:A; destruct (key_eqb b (str_bytes k)) eqn:B; try reflexivity.
        apply key_eqb_iff in A, B. exfalso. apply N1. left. congruence.
      - rewrite IH1 by exact N. apply IH2. apply (Permutation_NoDup (Permutation_map fst P1) N). }
    rewrite E. clear E N P. induction F as [|[a x] [b y] m1 m' [K S] F IH]; [apply S_refl|]. cbn [fst snd] in K, S. subst b. cbn [find_member].
    destruct (key_eqb a (str_bytes k)); assumption.
  Qed.
  Lemma str_same : forall j j', same j j' -> as_str j = as_str j' /\ as_bool j = as_bool j'.
  Proof. intros j j' []; split; reflexivity. Qed.
  Lemma number_same : forall b j j', same j j' -> number b j = number b j'.
  Proof. intros b j j' H. unfold number. rewrite (proj1 (str_same j j' H)). reflexivity. Qed.
  Lemma hash_same : forall v j j', same j j' -> hash_value sha checked v j = hash_value sha checked v j'.
  Proof. intros v j j' []; reflexivity. Qed.
  Lemma aux_same : forall v j j', same j j' -> aux_value sha v j = aux_value sha v j'.
  Proof. intros v j j' []; reflexivity. Qed.
  Lemma epoch_same : forall j j', same j j' -> epoch_of sha checked j = epoch_of sha checked j'.
  Proof.
    intros j j' H. unfold epoch_of. pose proof (index_same _ _ "ledger" H) as L.
    rewrite (proj1 (str_same _ _ (index_same _ _ "hash" L))), (number_same 64 _ _ (index_same _ _ "totalCurrency" L)),
      (proj1 (str_same _ _ (index_same _ _ "seed" H))), (proj1 (str_same _ _ (index_same _ _ "startCheckpoint" H))),
      (proj1 (str_same _ _ (index_same _ _ "lockCheckpoint" H))), (number_same 32 _ _ (index_same _ _ "epochLength" H)). reflexivity.
  Qed.
  Lemma state_same : forall j j', same j j' -> state_of sha checked j = state_of sha checked j'.
  Proof.
    intros j j' H. unfold state_of, body_of.
    assert (B : blockchain_of sha checked (index j "blockchainState") = blockchain_of sha checked (index j' "blockchainState")).
    { pose proof (index_same _ _ "blockchainState" H) as S. unfold blockchain_of.
      rewrite (hash_same LEDGER_HASH _ _ (index_same _ _ "stagedLedgerHash" S)), (aux_same STAGED_LEDGER_HASH_AUX_HASH _ _ (index_same _ _ "stagedLedgerAuxHash" S)),
        (aux_same STAGED_LEDGER_HASH_PENDING_COINBASE_AUX _ _ (index_same _ _ "stagedLedgerPendingCoinbaseAux" S)),
        (hash_same COINBASE_HASH _ _ (index_same _ _ "stagedLedgerPendingCoinbaseHash" S)), (hash_same LEDGER_HASH _ _ (index_same _ _ "genesisLedgerHash" S)),
        (hash_same LEDGER_HASH _ _ (index_same _ _ "snarkedLedgerHash" S)), (number_same 64 _ _ (index_same _ _ "utcDate" S)),
        (proj1 (str_same _ _ (index_same _ _ "bodyReference" S))). reflexivity. }
    assert (C : consensus_of sha checked (index j "consensusState") = consensus_of sha checked (index j' "consensusState")).
    { pose proof (index_same _ _ "consensusState" H) as S. unfold consensus_of.
      rewrite (number_same 32 _ _ (index_same _ _ "blockHeight" S)), (number_same 32 _ _ (index_same _ _ "epochCount" S)),
        (number_same 32 _ _ (index_same _ _ "minWindowDensity" S)), (proj1 (str_same _ _ (index_same _ _ "lastVrfOutput" S))),
        (number_same 64 _ _ (index_same _ _ "totalCurrency" S)), (number_same 32 _ _ (index_same _ _ "slot" S)), (number_same 32 _ _ (index_same _ _ "slotSinceGenesis" S)),
        (epoch_same _ _ (index_same _ _ "stakingEpochData" S)), (epoch_same _ _ (index_same _ _ "nextEpochData" S)),
        (proj2 (str_same _ _ (index_same _ _ "hasAncestorInSameCheckpointWindow" S))), (proj1 (str_same _ _ (index_same _ _ "blockStakeWinner" S))),
        (proj1 (str_same _ _ (index_same _ _ "blockCreator" S))), (proj1 (str_same _ _ (index_same _ _ "coinbaseReceiever" S))),
        (proj2 (str_same _ _ (index_same _ _ "superchargedCoinbase" S))). reflexivity. }
    rewrite B, C, (proj1 (str_same _ _ (index_same _ _ "previousStateHash" H))). reflexivity.
  Qed.
  Lemma first_same : forall j j', same j j' -> same (first j) (first j').
  Proof. intros j j' [j0|l l' F|m m1 m' N P F]; try apply S_refl. destruct F; [apply S_refl|assumption]. Qed.
  Lemma option_same : forall j j', same j j' -> option_hash j = option_hash j'.
  Proof. intros j j' []; reflexivity. Qed.
  Lemma two_same : forall a a' b b', same a a' -> same b b' -> two a b = two a' b'.
  Proof. intros a a' b b' A B. unfold two. rewrite (option_same a a' A), (option_same b b' B). reflexivity. Qed.
  Lemma node_same : forall j j', same j j' -> node_of j = node_of j'.
  Proof.
    intros j j' H. pose proof (index_same _ _ "left" H) as L. pose proof (index_same _ _ "right" H) as R.
    destruct H as [j|l l' F|m m1 m' N P F]; [reflexivity| |apply two_same; assumption].
    cbn [node_of]. destruct F as [|a a' l l' A F]; [reflexivity|]. destruct F as [|b b' l l' B F]; [reflexivity|]. destruct F; [|reflexivity]. apply two_same; assumption.
  Qed.
  Lemma path_same : forall j j', same j j' -> path_of j = path_of j'.
  Proof.
    intros j j' [j0|l l' F|m m1 m' N P F]; [reflexivity| |reflexivity]. cbn [path_of]. induction F as [|a a' l l' A F IH]; [reflexivity|].
    cbn [mapM]. rewrite (node_same a a' A), IH. reflexivity.
  Qed.
  Lemma account_same : forall v v', same v v' -> account_proof checked v = account_proof checked v'.
  Proof.
    intros v v' H. unfold account_proof. rewrite (path_same _ _ (index_same _ _ "merklePath" H)), (proj1 (str_same _ _ (index_same _ _ "leafHash" H))). reflexivity.
  Qed.
  Lemma accounts_same : forall m m', Forall2 (fun p q => fst p = fst q /\ same (snd p) (snd q)) m m' -> account_proofs sha checked m = account_proofs sha checked m'.
  Proof.
    intros m m' F. induction F as [|[k v] [k' v'] m m' [K S] F IH]; [reflexivity|]. cbn [fst snd] in K, S. subst k'. cbn [account_proofs].
    rewrite (account_same v v' S), IH. reflexivity.
  Qed.

  (** *** The order of names *)
  Lemma lt_lex : forall a b, bytes_lt a b = true <-> lex a b.
  Proof.
    induction a as [|x a IH]; intros [|y b]; cbn [bytes_lt]; split; intros H; try discriminate; try (inversion H; fail); try (constructor; fail); try reflexivity.
    - destruct (x <? y) eqn:E; [apply X_less; lia|]. cbn [orb] in H. destruct (x =? y) eqn:F; [|discriminate]. assert (x = y) as -> by lia. apply X_more, IH, H.
    - inversion H as [|? ? ? ? L|? ? ? L]; subst; [replace (x <? y) with true by lia; reflexivity|]. apply IH in L. rewrite Z.eqb_refl, L. cbn [andb]. apply orb_true_r.
  Qed.
  Lemma lex_trans : forall a b c, lex a b -> lex b c -> lex a c.
  Proof.
    intros a b c H. revert c. induction H as [b l|a b l l' L|a l l' L IH]; intros c K.
    - inversion K; subst; constructor.
    - inversion K; subst; apply X_less; lia.
    - inversion K as [|? ? ? ? L'|? ? l'' L']; subst; [apply X_less; lia|apply X_more, IH, L'].
  Qed.
  Lemma lex_irrefl : forall a, ~ lex a a.
  Proof. induction a as [|x a IH]; intros H; inversion H; subst; [lia|contradiction]. Qed.
  Lemma lex_total : forall a b, a = b \/ lex a b \/ lex b a.
  Proof.
    induction a as [|x a IH]; intros [|y b]; [auto|right; left; constructor|right; right; constructor|].
    destruct (Z.lt_trichotomy x y) as [L|[E|L]]; [right; left; constructor; exact L| |right; right; constructor; exact L]. subst y.
    destruct (IH b) as [E|[L|L]]; [left; congruence|right; left; apply X_more, L|right; right; apply X_more, L].
  Qed.
  Lemma ins_by_name : forall k j m, by_name m -> by_name (ins k j m).
  Proof.
    intros k j m S. unfold by_name in *. induction S as [|[a x] m S IH F]; cbn [ins]; [repeat constructor|].
    destruct (key_eqb k a) eqn:E; [apply key_eqb_iff in E; subst a; constructor; assumption|].
    destruct (bytes_lt k a) eqn:L.
    - apply lt_lex in L. constructor; [constructor; assumption|]. constructor; [exact L|]. rewrite Forall_forall in *. intros q Q. apply (lex_trans k a (fst q)); [exact L|]. apply (F q Q).
    - constructor; [exact IH|]. rewrite Forall_forall in *. intros q Q. apply ins_in in Q. destruct Q as [->|Q]; [|apply (F q Q)]. cbn [fst].
      destruct (lex_total k a) as [X|[X|X]]; [|apply lt_lex in X; congruence|exact X]. subst. rewrite (proj2 (key_eqb_iff _ _) eq_refl) in E. discriminate.
  Qed.
  Lemma map_of_by_name : forall m, by_name (map_of m).
  Proof.
    intros m. unfold map_of. assert (X : forall m acc, by_name acc -> by_name (fold_left (fun acc p => ins (fst p) (snd p) acc) m acc)).
    { clear m. induction m as [|p m IH]; intros acc S; cbn [fold_left]; [exact S|]. apply IH, ins_by_name, S. }
    apply X. constructor.
  Qed.
  Lemma by_name_keys : forall m m', Forall2 (fun p q => fst p = fst q /\ same (snd p) (snd q)) m m' -> by_name m' -> by_name m.
  Proof.
    intros m m' F. unfold by_name. induction F as [|p q m m' [K _] F IH]; intros S; [constructor|]. inversion S as [|? ? S' G]; subst. constructor; [apply IH, S'|].
    rewrite K. clear - F G. induction F as [|a b m m' [K' _] F IH]; constructor; inversion G as [|? ? G1 G2]; subst; [rewrite K'; exact G1|apply IH, G2].
  Qed.
  Lemma by_name_unique : forall m m', Permutation m m' -> by_name m -> by_name m' -> m = m'.
  Proof.
    unfold by_name. induction m as [|p m IH]; intros m' P S S'; [symmetry; apply Permutation_nil, P|].
    destruct m' as [|q m']; [apply Permutation_sym, Permutation_nil in P; discriminate|].
    inversion S as [|? ? S1 F1]; subst. inversion S' as [|? ? S2 F2]; subst. rewrite Forall_forall in F1, F2.
    assert (p = q) as ->.
    { assert (I : In q (p :: m)) by (apply (Permutation_in q (Permutation_sym P)); left; reflexivity).
      assert (I' : In p (q :: m')) by (apply (Permutation_in p P); left; reflexivity).
      destruct I as [I|I]; [exact I|]. destruct I' as [I'|I']; [congruence|]. exfalso. apply (lex_irrefl (fst p)). exact (lex_trans _ _ _ (F1 q I) (F2 p I')). }
    f_equal. apply IH; try assumption. exact (Permutation_cons_inv P).
  Qed.

  (** *** What is kept *)
  Lemma last_snoc : forall m k' v' k v, is_last (m ++ [(k', v')]) k v <-> (k = k' /\ v = v') \/ (k <> k' /\ is_last m k v).
  Proof.
    intros m k' v' k v. unfold is_last. split.
    - intros (a & b & E & N). destruct b as [|q b] using rev_ind.
      + apply app_inj_tail in E. destruct E as [_ [= <- <-]]. auto.
      + clear IHb. rewrite app_comm_cons, app_assoc in E. apply app_inj_tail in E. destruct E as [-> <-]. right.
        rewrite map_app, in_app_iff in N. split; [intros ->; apply N; right; left; reflexivity|]. exists a, b. auto.
    - intros [[-> ->]|[D (a & b & -> & N)]].
      + exists m, []. split; [reflexivity|intros []].
      + exists a, (b ++ [(k', v')]). split; [rewrite <- app_assoc; reflexivity|]. rewrite map_app, in_app_iff. intros [I|[I|[]]]; [exact (N I)|cbn [fst] in I; congruence].
  Qed.
  Lemma ins_iff : forall k j m p, by_name m -> (In p (ins k j m) <-> p = (k, j) \/ (In p m /\ fst p <> k)).
  Proof.
    intros k j m p S. unfold by_name in S. induction S as [|[a x] m S IH F]; cbn [ins].
    - cbn [In]. split; [intros [<-|[]]; auto|intros [->|[[] _]]; auto].
    - assert (NK : forall q, In q m -> lex a (fst q)) by (rewrite Forall_forall in F; exact F).
      destruct (key_eqb k a) eqn:E.
      + apply key_eqb_iff in E. subst a. cbn [In]. split.
        * intros [<-|I]; [auto|]. right. split; [auto|]. intros X. specialize (NK p I). rewrite X in NK. exact (lex_irrefl _ NK).
        * intros [->|[[<-|I] D]]; [auto|cbn [fst] in D; congruence|auto].
      + assert (D : a <> k) by (intros ->; rewrite (proj2 (key_eqb_iff _ _) eq_refl) in E; discriminate).
        destruct (bytes_lt k a) eqn:L.
        * apply lt_lex in L. cbn [In]. split.
          -- intros [<-|[<-|I]]; [auto|right; split; [auto|exact D]|]. right. split; [auto|]. intros X. pose proof (lex_trans _ _ _ L (NK p I)) as Y. rewrite X in Y. exact (lex_irrefl _ Y).
          -- intros [->|[[<-|I] _]]; auto.
        * cbn [In]. rewrite IH. split.
          -- intros [<-|[->|[I X]]]; [right; split; [auto|exact D]|auto|auto].
          -- intros [->|[[<-|I] X]]; auto.
  Qed.
  Lemma map_of_snoc : forall m k v, map_of (m ++ [(k, v)]) = ins k v (map_of m).
  Proof. intros m k v. unfold map_of. rewrite fold_left_app. reflexivity. Qed.
  Lemma map_of_last : forall m k v, In (k, v) (map_of m) <-> is_last m k v.
  Proof.
    induction m as [|[k' v'] m IH] using rev_ind; intros k v.
    - split; [intros []|]. intros (a & b & E & _). destruct a; discriminate.
    - rewrite map_of_snoc, last_snoc, (ins_iff _ _ _ _ (map_of_by_name m)), IH. cbn [fst]. split; (intros [E|E]; [left|right; tauto]); [injection E as <- <-; auto|destruct E; congruence].
  Qed.
  Lemma ins_map : forall (f : json -> json) k v m, map (fun p : list Z * json => let (k, j) := p in (k, f j)) (ins k v m) = ins k (f v) (map (fun p : list Z * json => let (k, j) := p in (k, f j)) m).
  Proof.
    intros f k v m. induction m as [|[a x] m IH]; [reflexivity|]. cbn [ins map]. destruct (key_eqb k a); [reflexivity|]. destruct (bytes_lt k a); [reflexivity|]. cbn [map]. rewrite IH. reflexivity.
  Qed.
  Lemma map_of_map : forall (f : json -> json) m, map_of (map (fun p : list Z * json => let (k, j) := p in (k, f j)) m) = map (fun p : list Z * json => let (k, j) := p in (k, f j)) (map_of m).
  Proof.
    intros f. induction m as [|[k v] m IH] using rev_ind; [reflexivity|]. rewrite map_app. cbn [map]. rewrite !map_of_snoc, IH, ins_map. reflexivity.
  Qed.
  Lemma by_name_nodup : forall m, by_name m -> NoDup m.
  Proof.
    intros m S. unfold by_name in S. induction S as [|p m S IH F]; constructor; [|exact IH]. intros I. rewrite Forall_forall in F. exact (lex_irrefl _ (F p I)).
  Qed.
  Lemma keys_by_name : forall (R : json -> json -> Prop) m m', Forall2 (fun p q => fst p = fst q /\ R (snd p) (snd q)) m m' -> by_name m' -> by_name m.
  Proof.
    intros R m m' F. unfold by_name. induction F as [|p q m m' [K _] F IH]; intros S; [constructor|]. inversion S as [|? ? S' G]; subst. constructor; [apply IH, S'|].
    rewrite K. clear - F G. induction F as [|a b m m' [K' _] F IH]; constructor; inversion G as [|? ? G1 G2]; subst; [rewrite K'; exact G1|apply IH, G2].
  Qed.
  Lemma kept_sorted : forall j j', kept j j' <-> j' = sorted j.
  Proof.
    induction j as [|b|z|b|s|l IH|m IH] using json_nest; intros j'; try (split; [intros H; inversion H; reflexivity|intros ->; apply K_leaf; exact I]).
    - split.
      + intros H. inversion H as [? X|? l' F|]; subst; [destruct X|]. cbn [sorted]. f_equal. clear H. revert l' F. induction IH as [|a l A IH IHl]; intros l' F; inversion F; subst; [reflexivity|].
        cbn [map]. f_equal; [apply A; assumption|apply IHl; assumption].
      + intros ->. apply K_arr. induction IH as [|a l A IH IHl]; constructor; [apply A; reflexivity|exact IHl].
    - cbn [sorted]. rewrite map_of_map. rewrite Forall_forall in IH. split.
      + intros H. inversion H as [? X| |? m1 m' L F B]; subst; [destruct X|]. f_equal.
        assert (m1 = map_of m) as ->.
        { pose proof (keys_by_name _ _ _ F B) as B1. apply by_name_unique; [|exact B1|apply map_of_by_name].
          apply NoDup_Permutation; [apply by_name_nodup, B1|apply by_name_nodup, map_of_by_name|]. intros [k v]. rewrite L, map_of_last. reflexivity. }
        assert (IH' : forall p, In p (map_of m) -> forall j', kept (snd p) j' <-> j' = sorted (snd p)) by (intros p I; apply IH, map_of_in, I).
        clear - F IH'. induction F as [|[k v] [k' v'] m1 m' [K X] F IHF]; [reflexivity|]. cbn [fst snd] in K, X. subst k'. cbn [map]. f_equal.
        * f_equal. apply (IH' (k, v)); [left; reflexivity|exact X].
        * apply IHF. intros p I. apply IH'. right. exact I.
      + intros ->. apply (K_obj _ (map_of m)); [intros k v; apply map_of_last| |].
        * assert (IH' : forall p, In p (map_of m) -> kept (snd p) (sorted (snd p))) by (intros p I; apply IH; [apply map_of_in, I|reflexivity]).
          clear - IH'. induction (map_of m) as [|[k v] M IHM]; cbn [map]; constructor; [split; [reflexivity|apply (IH' (k, v)); left; reflexivity]|].
          apply IHM. intros p I. apply IH'. right. exact I.
        * rewrite <- map_of_map. apply map_of_by_name.
  Qed.
  (** Every document has what is kept of it, and only one thing. *)
  Theorem C127_kept : forall j, exists j', kept j j' /\ forall j'', kept j j'' -> j'' = j'.
  Proof. intros j. exists (sorted j). split; [apply kept_sorted; reflexivity|]. intros j''. apply kept_sorted. Qed.

  Variable float_of : list Z -> option Z.
  (** A text without repeated names is read as its document; the proofs come in
      the order of the names. *)
  Theorem C127_text_iff : forall t r m s ps, json_text t r -> says float_of r (JObj m) -> once r -> (depth r <= 127)%nat -> short_paths m ->
    (answer_of_text sha checked float_of t = Ok (s, ps) <->
     best_state sha (JObj m) s /\ exists m', Permutation m m' /\ by_name m' /\ accounts sha m' ps).
  Proof.
    intros t r m s ps P S O D H. apply parse_iff in P. unfold answer_of_text. rewrite P, (says_value float_of r (JObj m) S).
    replace (depth r <=? MAX_DEPTH)%nat with true by (unfold MAX_DEPTH; lia).
    pose proof (same_sorted (JObj m) (says_distinct float_of r (JObj m) S O)) as SS. cbn [sorted] in SS |- *. 
    match type of SS with same _ (JObj ?x) => assert (BM : by_name x) by apply map_of_by_name; remember x as M eqn:EM; clear EM end.
    assert (X : exists m1, Permutation m m1 /\ Forall2 (fun p q => fst p = fst q /\ same (snd p) (snd q)) m1 M).
    { inversion SS as [|?|? m1 ? _ PM F]; subst; [|eauto]. exists M. split; [apply Permutation_refl|]. apply f2_refl. intros p. split; [reflexivity|apply S_refl]. }
    destruct X as (m1 & PM & F). pose proof (by_name_keys m1 M F BM) as B1.
    assert (H1 : short_paths m1) by (intros k v l I; apply (H k v l); apply (Permutation_in (k, v) (Permutation_sym PM)), I).
    assert (E : answer_of sha checked (JObj M) = Ok (s, ps) <-> best_state sha (JObj m) s /\ accounts sha m1 ps).
    { unfold answer_of. rewrite <- (accounts_iff m1 ps H1), <- (state_iff (JObj m) s), (accounts_same m1 M F),
        (state_same _ _ (index_same _ _ "protocolState" (first_same _ _ (index_same _ _ "bestChain" SS)))). split.
      - intros Y. apply bind_ok in Y. destruct Y as (s' & Y1 & Y). apply bind_ok in Y. destruct Y as (ps' & Y2 & [= <- <-]). apply as_ok in Y1. auto.
      - intros [Y1 Y2]. rewrite (proj2 (as_ok _ _ _ _ _) Y1). cbn [bind]. rewrite Y2. reflexivity. }
    rewrite E. split; intros [A B]; (split; [exact A|]).
    - exists m1. auto.
    - destruct B as (m' & P' & N' & B). replace m1 with m'; [exact B|]. apply by_name_unique; [|exact N'|exact B1].
      apply (Permutation_trans (Permutation_sym P') PM).
  Qed.
  (** Any text of an object, with names that come twice or not, is read as what
      is kept of it. *)
  Theorem C127_text_kept_iff : forall t r j m s ps, json_text t r -> says float_of r j -> (depth r <= 127)%nat -> kept j (JObj m) -> short_paths m ->
    (answer_of_text sha checked float_of t = Ok (s, ps) <-> best_state sha (JObj m) s /\ accounts sha m ps).
  Proof.
    intros t r j m s ps P S D K H. apply parse_iff in P. unfold answer_of_text. rewrite P, (says_value float_of r j S).
    replace (depth r <=? MAX_DEPTH)%nat with true by (unfold MAX_DEPTH; lia). apply kept_sorted in K. rewrite <- K. apply C127_read_iff, H.
  Qed.
  (** Deeper texts are refused. *)
  Theorem C127_deep : forall t r, json_text t r -> (127 < depth r)%nat -> answer_of_text sha checked float_of t = Err RJson.
  Proof.
    intros t r P D. apply parse_iff in P. unfold answer_of_text. rewrite P. replace (depth r <=? MAX_DEPTH)%nat with false by (unfold MAX_DEPTH; lia).
    destruct (value_of float_of r); reflexivity.
  Qed.
  (** Neither an error nor a crash goes unnoticed for a text that is no JSON. *)
  Theorem C127_not_json : forall t, (forall r, ~ json_text t r) -> answer_of_text sha checked float_of t = Err RJson.
  Proof. intros t N. unfold answer_of_text. destruct (parse t) as [r|] eqn:P; [|reflexivity]. apply parse_iff in P. contradiction (N r P). Qed.

  (** ** Crashes *)
  Lemma option_calm : forall j, (forall s, j = JStr s -> in_field s) -> option_hash j <> Panic.
  Proof.
    intros j H. destruct j as [| | | |s| |]; cbn [option_hash hash_of_json bind]; try discriminate. intros P. apply bind_panic in P. destruct P as [P|(h & _ & P)]; [|discriminate].
    apply as_panic in P. apply (proj2 (C80_panics_iff s)) in P. destruct P as (n & D & L). specialize (H s eq_refl n D). lia.
  Qed.
  Lemma two_calm : forall a b, (forall s, a = JStr s -> in_field s) -> (forall s, b = JStr s -> in_field s) -> two a b <> Panic.
  Proof. intros a b A B. unfold two. apply bind_calm; [apply option_calm, A|]. intros l. apply bind_calm; [apply option_calm, B|]. discriminate. Qed.
  Lemma node_calm : forall x, (forall s, has_text x s -> in_field s) -> node_of x <> Panic.
  Proof.
    intros x H. destruct x as [| | | | |l|m]; cbn [node_of]; try discriminate.
    - destruct l as [|a [|b [|c l]]]; try discriminate. apply two_calm; intros s ->; apply H; right; right; eexists; (split; [reflexivity|]); cbn; auto.
    - apply two_calm; intros s I; apply H; apply has_iff in I; try discriminate; [left|right; left]; exact I.
  Qed.
  Lemma path_calm : forall l, (forall x s, In x l -> has_text x s -> in_field s) -> mapM node_of l <> Panic.
  Proof.
    induction l as [|x l IH]; intros H; cbn [mapM]; [discriminate|]. apply bind_calm; [apply node_calm; intros s; apply H; left; reflexivity|].
    intros n. apply bind_calm; [apply IH; intros y s I; apply H; right; exact I|discriminate].
  Qed.
  Lemma account_calm : forall v, harmless v -> account_proof checked v <> Panic.
  Proof.
    intros v [P L]. unfold account_proof. destruct (index v "merklePath") as [| | | | |l|] eqn:I; cbn [path_of bind]; try discriminate.
    apply has_iff in I; [|discriminate]. destruct (P l I) as [LL H]. intros X. apply bind_panic in X. destruct X as [X|(path & Q & X)]; [exact (path_calm l H X)|].
    apply bind_panic in X. destruct X as [X|(leaf & _ & X)].
    - apply as_panic in X. apply (proj1 (C80_panics_iff _)) in X. destruct X as (n & D & G).
      destruct (index v "leafHash") as [| | | |s| |] eqn:J; cbn [as_str] in D; try (exact (denotes_nil _ D)). apply has_iff in J; [|discriminate]. specialize (L s J n D). lia.
    - apply as_panic in X. revert X. apply C66_nonempty. rewrite zlen_length.
      enough (length path = length l) by lia.
      clear - Q. revert path Q; induction l as [|j l IH]; intros path P; cbn [mapM] in P; [injection P as <-; reflexivity|].
      apply bind_ok in P; destruct P as (n & _ & P); apply bind_ok in P; destruct P as (q & Q & [= <-]); cbn [length]; rewrite (IH q Q); reflexivity.
  Qed.
  Lemma accounts_calm : forall m, (forall k v, In (k, v) m -> address sha k -> harmless v) -> account_proofs sha checked m <> Panic.
  Proof.
    induction m as [|[k v] m IH]; intros H; cbn [account_proofs]; [discriminate|]. assert (R : account_proofs sha checked m <> Panic) by (apply IH; intros k' v' I; apply H; right; exact I).
    destruct (from_address sha k) as [x|] eqn:A; [|exact R]. apply bind_calm; [apply account_calm, (H k v); [left; reflexivity|apply address_iff; eauto]|].
    intros p. apply bind_calm; [exact R|discriminate].
  Qed.
  (** No answer crashes whose hashes are in the field and whose paths are not
      empty and not too long. *)
  Theorem C127_no_crash : forall j, (forall k v m, j = JObj m -> In (k, v) m -> address sha k -> harmless v) -> answer_of sha checked j <> Panic.
  Proof.
    intros j H. unfold answer_of. apply bind_calm; [intros X; apply as_panic in X; exact (C95_state_no_crash _ _ X)|]. intros s. apply bind_calm; [|discriminate].
    destruct j; try discriminate. apply accounts_calm. intros k v I. exact (H k v _ eq_refl I).
  Qed.
  Theorem C127_text_no_crash : forall t r m, json_text t r -> says float_of r (JObj m) -> once r ->
    (forall k v, In (k, v) m -> address sha k -> harmless v) -> answer_of_text sha checked float_of t <> Panic.
  Proof.
    intros t r m P S O H. apply parse_iff in P. unfold answer_of_text. rewrite P, (says_value float_of r (JObj m) S). destruct (depth r <=? MAX_DEPTH)%nat; [|discriminate].
    pose proof (same_sorted (JObj m) (says_distinct float_of r (JObj m) S O)) as SS. cbn [sorted] in SS |- *.
    match type of SS with same _ (JObj ?x) => remember x as M eqn:EM; clear EM end.
    assert (X : exists m1, Permutation m m1 /\ Forall2 (fun p q => fst p = fst q /\ same (snd p) (snd q)) m1 M).
    { inversion SS as [|?|? m1 ? _ PM F]; subst; [|eauto]. exists M. split; [apply Permutation_refl|]. apply f2_refl. intros p. split; [reflexivity|apply S_refl]. }
    destruct X as (m1 & PM & F). unfold answer_of. apply bind_calm; [intros Y; apply as_panic in Y; exact (C95_state_no_crash _ _ Y)|]. intros s. apply bind_calm; [|discriminate].
    rewrite <- (accounts_same m1 M F). apply accounts_calm. intros k v I. apply H, (Permutation_in (k, v) (Permutation_sym PM)), I.
  Qed.
End Answers.

(** ** Cases *)
(** The answer for the fixture of /repo/protocol with one account, at leaf 1 of
    a tree of two levels. *)
Definition an_address : list Z := str_bytes "B62qiy32p8kAKnny8ZFwoMhYpBppM1DWVCqAPBYNcXnsAHhnfAAuXgg".
Definition an_account (path : list json) (leaf : list Z) : json := JObj [(str_bytes "leafHash", JStr leaf); (str_bytes "merklePath", JArr path)].
Definition an_answer (path : list json) (leaf : list Z) : list (list Z * json) :=
  [(str_bytes "bestChain", JArr [JObj [(str_bytes "protocolState", C93_fixture)]]); (an_address, an_account path leaf)].
Definition a_path : list json := [obj [("left", JNull); ("right", str "25")]; obj [("left", str "+7"); ("right", JNull)]].
Lemma an_address_ok : address sha an_address.
Proof.
  apply address_iff. unfold an_address. assert (E : match from_address sha (str_bytes "B62qiy32p8kAKnny8ZFwoMhYpBppM1DWVCqAPBYNcXnsAHhnfAAuXgg") with Some _ => true | None => false end = true)
    by (vm_compute; reflexivity). destruct (from_address sha _); [eauto|discriminate].
Qed.
Lemma best_ok : forall path leaf, best_state sha (JObj (an_answer path leaf)) C93_state.
Proof.
  intros path leaf. apply (state_iff true). transitivity (state_of sha true C93_fixture); [reflexivity|exact C93_fixture_read].
Qed.
Lemma answer_is : forall path leaf, answer_of sha true (JObj (an_answer path leaf)) = (let* p := account_proof true (an_account path leaf) in Ok (C93_state, [p])).
Proof.
  intros path leaf. unfold answer_of. rewrite (proj2 (state_iff true _ _) (best_ok path leaf)). cbn [as_err bind]. unfold an_answer. cbn [account_proofs].
  assert (N : from_address sha (str_bytes "bestChain") = None) by (vm_compute; reflexivity). rewrite N.
  destruct (proj2 (address_iff an_address) an_address_ok) as (x & ->). destruct (account_proof true (an_account path leaf)); reflexivity.
Qed.
Definition the_proof : proof Z Z := {| p_index := 4; p_item := 1234; p_peer_indices := [3; 2]; p_peer_hashes := [Some 25; Some 7] |}.
Definition the_answer : list (list Z * json) := an_answer a_path (str_bytes "1234").
Lemma the_answer_short : short_paths the_answer.
Proof.
  intros k v l I H. unfold the_answer, an_answer in I. cbn [In] in I. destruct I as [E|[E|[]]]; injection E as <- <-.
  - apply has_iff in H; discriminate.
  - apply has_iff in H; [|discriminate]. change (index _ "merklePath") with (JArr a_path) in H. injection H as <-. cbn. lia.
Qed.
Example C127_ex : answer_of sha true (JObj the_answer) = Ok (C93_state, [the_proof]) /\ short_paths the_answer /\
  best_state sha (JObj the_answer) C93_state /\ accounts sha the_answer [the_proof].
Proof.
  assert (E : answer_of sha true (JObj the_answer) = Ok (C93_state, [the_proof])).
  { unfold the_answer. rewrite answer_is. replace (account_proof true (an_account a_path (str_bytes "1234"))) with (@Ok rerr _ the_proof) by (vm_compute; reflexivity). reflexivity. }
  split; [exact E|]. split; [exact the_answer_short|]. apply (C127_read_iff true the_answer C93_state [the_proof] the_answer_short), E.
Qed.
(** The text of this answer is read so. *)
Example C127_text_ex : exists t r, json_text t r /\ says (fun _ => None) r (JObj the_answer) /\ once r /\ (depth r <= 127)%nat /\
  answer_of_text sha true (fun _ => None) t = Ok (C93_state, [the_proof]).
Proof.
  exists (print (fun _ => []) (JObj the_answer)), (raw_of (fun _ => []) (JObj the_answer)).
  assert (G : good 9 (JObj the_answer)).
  { unfold the_answer, an_answer, an_account, an_address, a_path, C93_fixture, obj, str. cbn [map fst snd good]. repeat (first [apply str_bytes_ok|exact I|split]). }
  destruct (good_parts (fun _ => []) _ _ G) as (NF & IR & SB & Dp).
  assert (P : json_text (print (fun _ => []) (JObj the_answer)) (raw_of (fun _ => []) (JObj the_answer))) by (apply parse_iff, parse_print; assumption).
  assert (S : says (fun _ => None) (raw_of (fun _ => []) (JObj the_answer)) (JObj the_answer)) by (apply raw_says; assumption).
  assert (D : distinct (JObj the_answer)).
  { apply distinctb_ok. vm_compute. reflexivity. }
  pose proof (raw_once (fun _ => []) (JObj the_answer) D) as O.
  split; [exact P|]. split; [exact S|]. split; [exact O|]. split; [lia|].
  apply (C127_text_iff true (fun _ => None) _ _ the_answer C93_state [the_proof] P S O ltac:(lia) the_answer_short).
  destruct C127_ex as (_ & _ & B & A). split; [exact B|].
  exists [(an_address, an_account a_path (str_bytes "1234")); (str_bytes "bestChain", JArr [JObj [(str_bytes "protocolState", C93_fixture)]])].
  split; [apply perm_swap|]. split.
  - constructor; [constructor; constructor|]. constructor; [|constructor]. apply lt_lex. vm_compute. reflexivity.
  - inversion A as [|? ? ? ? N R|? ? ? ? ? Y]; subst.
    + inversion R as [|? ? ? ? N'|? ? ? ? ? Y AS R']; subst; [contradiction (N' an_address_ok)|]. apply A_account; [exact Y|exact AS|]. apply A_other; [exact N|exact R'].
    + exfalso. apply address_iff in Y. destruct Y as (x & Y). vm_compute in Y. discriminate.
Qed.
(** Of two members with one name the last is kept. *)
Example C127_twice : kept (JObj [(str_bytes "b", JNum 1); (str_bytes "a", JObj [(str_bytes "x", JNum 2); (str_bytes "x", JNull)]); (str_bytes "b", JNum 3)])
  (JObj [(str_bytes "a", JObj [(str_bytes "x", JNull)]); (str_bytes "b", JNum 3)]).
Proof. apply kept_sorted. vm_compute. reflexivity. Qed.
(** Answers with a good state crash the reader: with the modulus as a hash of
    the path, with it as the hash of the leaf, and with an empty path. *)
Theorem C127_crash_refuted : forall path leaf,
  In (path, leaf) [([obj [("left", JStr (fp_json_ser FP_MODULUS))]], str_bytes "1"); (a_path, fp_json_ser FP_MODULUS); ([], str_bytes "1")] ->
  best_state sha (JObj (an_answer path leaf)) C93_state /\ answer_of sha true (JObj (an_answer path leaf)) = Panic.
Proof.
  intros path leaf H. split; [apply best_ok|]. rewrite answer_is.
  assert (E : account_proof true (an_account path leaf) = Panic); [|rewrite E; reflexivity].
  cbn [In] in H. destruct H as [H|[H|[H|[]]]]; apply pair_equal_spec in H; destruct H as [<- <-]; vm_compute; reflexivity.
Qed.


Print Assumptions C127_read_iff.
Print Assumptions C127_kept.
Print Assumptions C127_text_iff.
Print Assumptions C127_text_kept_iff.
Print Assumptions C127_deep.
Print Assumptions C127_not_json.
Print Assumptions C127_no_crash.
Print Assumptions C127_text_no_crash.
Print Assumptions C127_crash_refuted.
