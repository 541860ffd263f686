(** C118: the transport builder. *)

From Coq Require Import String ZArith List Bool Lia.
From Verif Require Import Lib.Res Lib.Bytes Hashing.ROInput.
From Verif Require Import Network.Transport.
Import ListNotations.
Local Open Scope string_scope.
Local Open Scope list_scope.
Local Open Scope Z_scope.

Section C118.
Variable blake2b256 : list Z -> list Z.
Variables keypair peer_id noise_keys : Type.
Variable peer_of : keypair -> peer_id.
Variable authentic : Z -> keypair -> res unit noise_keys.
Hypothesis hash_length : forall bs, length (blake2b256 bs) = 32%nat.

Let start := new_with_key blake2b256 keypair peer_id noise_keys peer_of authentic.
Let run := do_calls blake2b256 peer_id noise_keys.
Let link := connect peer_id noise_keys.

(** the last configuration and the last timeout among the calls *)
Fixpoint last_config (d : config) (l : list call) : config :=
  match l with [] => d | Config c :: l' => last_config c l' | Mainnet :: l' => last_config MAINNET_CONFIG l' | Timeout _ :: l' => last_config d l' end.
Fixpoint last_timeout (d : Z) (l : list call) : Z :=
  match l with [] => d | Timeout t :: l' => last_timeout t l' | _ :: l' => last_timeout d l' end.

Lemma key_ok : forall c, get_shared_key blake2b256 c = Ok (blake2b256 (rendezvous_string c)).
Proof. intros c; unfold get_shared_key. rewrite hash_length. reflexivity. Qed.
Lemma run_ok : forall l b d, pnet_config _ _ b = blake2b256 (rendezvous_string d) -> mplex_config _ _ b = mplex_protocol_name d ->
  exists r, run b l = Ok r /\ pnet_config _ _ r = blake2b256 (rendezvous_string (last_config d l)) /\
    mplex_config _ _ r = mplex_protocol_name (last_config d l) /\ timeout _ _ r = last_timeout (timeout _ _ b) l /\
    noise _ _ r = noise _ _ b /\ id _ _ r = id _ _ b.
Proof.
  unfold run. induction l as [|x l IH]; intros b d P M; cbn [do_calls].
  - exists b. auto 6.
  - destruct x as [c| |t]; cbn [do_call last_config last_timeout]; unfold with_mainnet_config, with_config; rewrite ?key_ok; cbn [bind].
    + match goal with |- context [do_calls _ _ _ ?b' l] => destruct (IH b' c eq_refl eq_refl) as (r & E & Q) end. exists r; split; [exact E|exact Q].
    + match goal with |- context [do_calls _ _ _ ?b' l] => destruct (IH b' MAINNET_CONFIG eq_refl eq_refl) as (r & E & Q) end. exists r; split; [exact E|exact Q].
    + destruct (IH (with_timeout _ _ b t) d P M) as (r & E & Q). exists r; split; [exact E|exact Q].
Qed.
(** A builder cannot fail except when the noise keys cannot be signed.  After any
    calls it has the key and the multiplexer of the last configuration, the last
    timeout, one minute without any, and still the peer id of its key pair. *)
Theorem C118_builder : forall seed k l,
  match authentic seed k with
  | Ok n => exists b r, start seed k = Ok b /\ run b l = Ok r /\
      pnet_config _ _ r = blake2b256 (rendezvous_string (last_config default_config l)) /\
      mplex_config _ _ r = mplex_protocol_name (last_config default_config l) /\
      timeout _ _ r = last_timeout 60 l /\ noise _ _ r = n /\ id _ _ r = peer_of k
  | _ => start seed k = Panic
  end.
Proof.
  intros seed k l. unfold start, new_with_key, new_with_key_and_config. rewrite key_ok; cbn [bind].
  destruct (authentic seed k) as [n| |]; cbn [bind]; try reflexivity.
  match goal with |- context [Ok ?b = Ok _] => destruct (run_ok l b default_config eq_refl eq_refl) as (r & E & Q); exists b, r end.
  split; [reflexivity|]. split; [exact E|exact Q].
Qed.

Lemma same_spec : forall a b, same a b = true <-> a = b.
Proof.
  induction a as [|x a IH]; intros [|y b]; cbn [same]; split; intros H; try discriminate; try reflexivity.
  - apply andb_true_iff in H. destruct H as [E F]. apply Z.eqb_eq in E. apply IH in F. congruence.
  - injection H as -> ->. rewrite Z.eqb_refl. apply IH. reflexivity.
Qed.
(** Two builders connect exactly if the last rendezvous strings have the same
    hash and the multiplexers the same name, one with a slash in front; each side
    then sees the peer id of the other's key pair. *)
Theorem C118_connect : forall s1 k1 l1 s2 k2 l2 b1 b2 r1 r2,
  start s1 k1 = Ok b1 -> run b1 l1 = Ok r1 -> start s2 k2 = Ok b2 -> run b2 l2 = Ok r2 ->
  let c1 := last_config default_config l1 in let c2 := last_config default_config l2 in
  (link r1 r2 <> None <->
     blake2b256 (rendezvous_string c1) = blake2b256 (rendezvous_string c2) /\
     mplex_protocol_name c1 = mplex_protocol_name c2 /\ hd 0 (mplex_protocol_name c1) = 47) /\
  (forall p q, link r1 r2 = Some (p, q) -> p = peer_of k2 /\ q = peer_of k1).
Proof.
  intros s1 k1 l1 s2 k2 l2 b1 b2 r1 r2 A1 B1 A2 B2 c1 c2.
  pose proof (C118_builder s1 k1 l1) as X1. destruct (authentic s1 k1) as [n1| |]; try congruence.
  destruct X1 as (b1' & r1' & E1 & F1 & P1 & M1 & _ & _ & I1). assert (b1' = b1) by congruence. subst b1'. assert (r1' = r1) by congruence. subst r1'.
  pose proof (C118_builder s2 k2 l2) as X2. destruct (authentic s2 k2) as [n2| |]; try congruence.
  destruct X2 as (b2' & r2' & E2 & F2 & P2 & M2 & _ & _ & I2). assert (b2' = b2) by congruence. subst b2'. assert (r2' = r2) by congruence. subst r2'.
  unfold link, connect. rewrite P1, P2, M1, M2, I1, I2. fold c1 c2. split.
  - assert (N : name_ok (mplex_protocol_name c1) = true <-> hd 0 (mplex_protocol_name c1) = 47).
    { destruct (mplex_protocol_name c1) as [|x m]; cbn [name_ok hd]; [split; discriminate|apply Z.eqb_eq]. }
    destruct (same (blake2b256 (rendezvous_string c1)) (blake2b256 (rendezvous_string c2))) eqn:S1.
    + apply same_spec in S1. destruct (name_ok (mplex_protocol_name c1)) eqn:Nk.
      * destruct (same (mplex_protocol_name c1) (mplex_protocol_name c2)) eqn:S2; cbn [andb].
        -- apply same_spec in S2. split; [|discriminate]. intros _. split; [exact S1|]. split; [exact S2|]. apply N; reflexivity.
        -- split; [congruence|]. intros (_ & Q & _). apply same_spec in Q. congruence.
      * cbn [andb]. split; [congruence|]. intros (_ & _ & Q). apply N in Q. discriminate.
    + cbn [andb]. split; [congruence|]. intros (Q & _). apply same_spec in Q. congruence.
  - destruct (_ && _); intros p q Q; [|discriminate]. injection Q as <- <-. auto.
Qed.
(** Any two builders whose last configuration is the one of mainnet connect,
    whatever the keys, the earlier configurations and the timeouts. *)
Theorem C118_mainnet : forall s1 k1 l1 s2 k2 l2 b1 b2 r1 r2,
  start s1 k1 = Ok b1 -> run b1 l1 = Ok r1 -> start s2 k2 = Ok b2 -> run b2 l2 = Ok r2 ->
  last_config default_config l1 = MAINNET_CONFIG -> last_config default_config l2 = MAINNET_CONFIG ->
  link r1 r2 = Some (peer_of k2, peer_of k1).
Proof.
  intros s1 k1 l1 s2 k2 l2 b1 b2 r1 r2 A1 B1 A2 B2 L1 L2.
  destruct (C118_connect _ _ _ _ _ _ _ _ _ _ A1 B1 A2 B2) as [X Y]. rewrite L1, L2 in X.
  destruct (link r1 r2) as [[p q]|] eqn:E; [destruct (Y p q eq_refl) as [-> ->]; reflexivity|].
  exfalso. apply (proj2 X); [|reflexivity]. repeat split.
Qed.
(** The configuration a builder begins with is not that of mainnet: such a node
    reaches mainnet only by a collision of the hash.  (The name
    [TransportBuilder::default] may suggest otherwise.) *)
Theorem C118_default_refuted : forall s1 k1 s2 k2 b1 b2 r2,
  start s1 k1 = Ok b1 -> start s2 k2 = Ok b2 -> run b2 [Mainnet] = Ok r2 ->
  blake2b256 [] <> blake2b256 (rendezvous_string MAINNET_CONFIG) -> link b1 r2 = None.
Proof.
  intros s1 k1 s2 k2 b1 b2 r2 A1 A2 B2 N.
  destruct (C118_connect s1 k1 [] s2 k2 [Mainnet] b1 b2 b1 r2 A1 eq_refl A2 B2) as [X _].
  destruct (link b1 r2); [|reflexivity]. exfalso. destruct (proj1 X) as [Q _]; [discriminate|]. exact (N Q).
Qed.
End C118.

(** A hash of the right length that tells the strings apart by their length. *)
Definition by_length (bs : list Z) : list Z := Z.of_nat (length bs) :: List.repeat 0 31.
Example C118_example :
  let start := new_with_key by_length Z Z Z (fun k => k * 2) (fun s k => Ok (s + k)) in
  let run := do_calls by_length Z Z in
  exists a b c, (let* x := start 1 10 in run x [Timeout 20; Mainnet]) = Ok a /\
    (let* x := start 2 11 in run x [Mainnet; Config default_config; Mainnet; Timeout 5]) = Ok b /\
    start 3 12 = Ok c /\ timeout _ _ a = 20 /\ timeout _ _ b = 5 /\ timeout _ _ c = 60 /\
    connect _ _ a b = Some (22, 20) /\ connect _ _ a c = None.
Proof. do 3 eexists. repeat match goal with |- _ /\ _ => split end; reflexivity. Qed.

Print Assumptions C118_builder.
Print Assumptions C118_connect.
Print Assumptions C118_mainnet.
Print Assumptions C118_default_refuted.
