(** GraphQL answers: the readers of single members. *)

From Coq Require Import String ZArith List Bool Lia ZifyBool ZifyNat.
From Verif Require Import Lib.Res Lib.Bytes Lib.Decimal Lib.Text BinProt.Prim BinProt.PrimSpec BinProt.Codec BinProt.CodecSpec BinProt.FormatSpec
  BinProt.FormatProps BinProt.AcceptProps BinProt.BufRead BinProt.CodecProps BinProt.StrictProps Wire.Types Text.Base58 Text.Base58Props
  Text.Hex Text.HexSpec Text.HexProps Text.FieldText Text.Checksum Text.ChecksumProps Json.Json Json.JsonCrashFacts
  Hashing.Command Hashing.Account Hashing.State GraphQL.GraphQL GraphQL.GraphQLSpec.
Import ListNotations.
Local Open Scope string_scope.
Local Open Scope list_scope.
Local Open Scope Z_scope.
Notation length := List.length.

(** ** Members *)

Lemma key_eqb_iff : forall a b, key_eqb a b = true <-> a = b.
Proof. intros a b. unfold key_eqb. destruct (list_eq_dec Z.eq_dec a b); split; congruence. Qed.

Lemma find_has : forall k m v, v <> JNull -> find_member k m = v <->
  exists a b, m = a ++ (k, v) :: b /\ ~ In k (map fst a).
Proof.
  intros k m v N. induction m as [|(k', w) m IH]; cbn [find_member].
  - split; [intros E; congruence|]. intros ([|x a] & b & E & _); discriminate.
  - destruct (key_eqb k' k) eqn:K.
    + apply key_eqb_iff in K. subst k'. split.
      * intros ->. exists [], m. split; [reflexivity|easy].
      * intros ([|(k', x) a] & b & E & I); [injection E as ->; reflexivity|]. injection E as <- _ _. exfalso. apply I. left. reflexivity.
    + rewrite IH. split; intros (a & b & E & I).
      * exists ((k', w) :: a), b. rewrite E. split; [reflexivity|]. cbn [map fst In]. intros [->|J]; [|auto].
        enough (key_eqb k k = true) by congruence. apply key_eqb_iff. reflexivity.
      * destruct a as [|x a].
        -- injection E as -> _ _. enough (key_eqb k k = true) by congruence. apply key_eqb_iff. reflexivity.
        -- injection E as <- E. exists a, b. split; [exact E|]. intros J. apply I. right. exact J.
Qed.
Lemma has_iff : forall j k v, v <> JNull -> index j k = v <-> has j k v.
Proof.
  intros j k v N. unfold has. destruct j; cbn [index]; try (split; [congruence|intros (x & y & E & _); discriminate]).
  rewrite find_has by exact N. split; intros (a & b & E & I); exists a, b; (split; [congruence|exact I]).
Qed.
(** What null does not satisfy is a member. *)
Lemma member_iff : forall (A : json -> Prop) j k, ~ A JNull -> A (index j k) <-> exists l, has j k l /\ A l.
Proof.
  intros A j k N. split.
  - intros H. exists (index j k). split; [|exact H]. apply has_iff; [congruence|reflexivity].
  - intros (l & H & HA). apply has_iff in H; [|congruence]. congruence.
Qed.
Lemma string_iff : forall (P : list Z -> Prop) j k, ~ P [] -> P (as_str (index j k)) <-> exists s, has j k (JStr s) /\ P s.
Proof.
  intros P j k N. split.
  - intros H. destruct (index j k) as [| | | |s| |] eqn:E; cbn [as_str] in H; try contradiction.
    exists s. split; [|exact H]. apply has_iff; [discriminate|exact E].
  - intros (s & H & HP). apply has_iff in H; [|discriminate]. rewrite H. exact HP.
Qed.
Lemma null_has : forall k v, ~ has JNull k v.
Proof. intros k v (a & b & E & _). discriminate. Qed.

Lemma flag_iff : forall j k b, as_bool (index j k) = b <-> flag j k b.
Proof.
  intros j k b. unfold flag. rewrite <- has_iff by discriminate. destruct (index j k) as [|c| | | | |]; cbn [as_bool]; try (destruct b; split; intros H; [discriminate|destruct H; intuition congruence|split; discriminate|reflexivity]).
  split; [intros ->; split; congruence|]. intros H. destruct b, c; try reflexivity; destruct H; intuition congruence.
Qed.

Lemma number_iff : forall j k bits n, 0 < bits -> number bits (index j k) = Ok n <-> num_member j k bits n.
Proof.
  intros j k bits n B. unfold num_member.
  rewrite <- (string_iff (fun s => number_text s n /\ n < 2 ^ bits)).
  - unfold number, number_text. destruct (parse_uint bits (as_str (index j k))) as [e|m] eqn:E.
    + split; [discriminate|]. intros ((d & S & N & D & V) & L).
      assert (X : parse_uint bits (as_str (index j k)) = inr n) by (apply parse_uint_ok; [exact B|exists d; auto]). congruence.
    + apply parse_uint_ok in E; [|exact B]. split.
      * intros [= <-]. destruct E as (d & S & N & D & V & L). split; [exists d; auto|exact L].
      * intros ((d & S & N & D & V) & L).
        assert (X : parse_uint bits (as_str (index j k)) = inr n) by (apply parse_uint_ok; [exact B|exists d; auto]).
        assert (Y : parse_uint bits (as_str (index j k)) = inr m) by (apply parse_uint_ok; [exact B|exact E]). congruence.
  - intros ((d & [E|E] & N & _) & _); congruence.
Qed.
Lemma number_no_panic : forall bits j, number bits j <> Panic.
Proof. intros bits j. unfold number. destruct (parse_uint _ _); discriminate. Qed.

Lemma auth_iff : forall j k a, auth_of (index j k) = Ok a <-> auth_member j k a.
Proof.
  intros j k a. unfold auth_member, auth_of.
  rewrite <- has_iff by discriminate.
  assert (F : forall s, auth_find auth_names s = Ok a <-> s = str_bytes (auth_name a)).
  { intros s. split.
    - unfold auth_names. cbn [auth_find].
      repeat match goal with
      | |- (if key_eqb ?x s then _ else _) = _ -> _ =>
          destruct (key_eqb x s) eqn:?K; [apply key_eqb_iff in K; intros [= <-]; symmetry; exact K|clear K]
      end. discriminate.
    - intros ->. destruct a; reflexivity. }
  rewrite F. destruct (index j k) as [| | | |s| |]; cbn [as_str]; split; intros H; try discriminate; try (destruct a; discriminate).
  - congruence.
  - injection H as ->. reflexivity.
Qed.
Lemma auth_no_panic : forall j, auth_of j <> Panic.
Proof.
  intros j. unfold auth_of. induction auth_names as [|(nm, a) l IH]; [discriminate|]. cbn [auth_find].
  destruct (key_eqb _ _); [discriminate|exact IH].
Qed.

(** ** Hash texts *)

Lemma accs_bytes : forall n vs bs, accs (repeat TU8 n) vs bs <-> vs = map VInt bs /\ length bs = n /\ bytes_ok bs.
Proof.
  induction n as [|n IH]; intros vs bs; cbn [repeat]; split.
  - intros H. inversion H; subst. repeat split; constructor.
  - intros (-> & L & _). destruct bs; [constructor|discriminate].
  - intros H. inversion H; subst. match goal with X : acc TU8 _ _ |- _ => inversion X; subst end.
    match goal with X : accs _ _ _ |- _ => apply IH in X; destruct X as (-> & <- & B) end.
    split; [reflexivity|]. split; [reflexivity|]. constructor; [unfold byte_ok, is_byte in *; lia|exact B].
  - intros (-> & L & B). destruct bs as [|b bs]; [discriminate|]. inversion B; subst.
    apply (A_cons TU8 (repeat TU8 n) (VInt b) (map VInt bs) [b] bs); [constructor; unfold byte_ok, is_byte in *; lia|].
    apply IH. split; [reflexivity|]. split; [cbn in L; lia|assumption].
Qed.
Lemma acc_hash : forall v bs, acc HashV1 v bs <-> exists w n h, bs = w ++ h /\ int_form w n /\ 0 <= n < 2 ^ 16 /\ bytes32 h /\
  v = VTup [VInt n; VTup (map VInt h)].
Proof.
  intros v bs. unfold HashV1, V, Bytes32. split.
  - intros H. inversion H; subst. clear H. match goal with X : accs _ _ _ |- _ => inversion X; subst; clear X end.
    match goal with X : accs [TTup _] _ _ |- _ => inversion X; subst; clear X end.
    match goal with X : accs [] _ _ |- _ => inversion X; subst; clear X end.
    match goal with X : acc (TInt _) _ _ |- _ => inversion X; subst; clear X end.
    match goal with X : acc (TTup _) _ _ |- _ => inversion X; subst; clear X end.
    match goal with X : accs _ _ _ |- _ => apply (accs_bytes 32) in X; destruct X as (-> & L & B) end.
    rewrite app_nil_r. match goal with X : int_form ?w ?n, Y : bytes_ok ?h |- _ => exists w, n, h end.
    unfold bytes32. repeat split; try assumption; match goal with X : rust_ok _ _ |- _ => cbn in X; lia end.
  - intros (w & n & h & -> & I & R & (L & B) & ->). apply A_tup. apply A_cons.
    + apply A_int; [exact I|]. cbn. lia.
    + assert (X : accs [TTup (repeat TU8 32)] [VTup (map VInt h)] (h ++ [])).
      { apply A_cons; [|apply A_nil]. apply A_tup. apply accs_bytes. auto. }
      rewrite app_nil_r in X. exact X.
Qed.
Lemma int_form_length : forall w n, int_form w n -> (1 <= length w <= 9)%nat /\ bytes_ok w.
Proof.
  intros w n H. inversion H; subst; (split; [cbn; lia|]);
    repeat (apply Forall_cons; [unfold byte_ok, is_byte in *; lia|]); apply Forall_nil.
Qed.
Lemma slice_hash : forall c bs, from_slice c HashV1 bs = from_slice false HashV1 bs.
Proof. intros [] bs; reflexivity. Qed.
Lemma map_ints : forall h, map (fun b => match b with VInt z => z | _ => 0 end) (map VInt h) = h.
Proof. intros h. rewrite map_map. apply map_id. Qed.

Section Read.
  Variable checksum : list Z -> list Z.
  Variable checked : bool.
  Hypothesis checksum_len : forall l, length (checksum l) = 4%nat.
  Hypothesis checksum_bytes : forall l, bytes_ok (checksum l).

  Lemma hash_of_iff : forall ver s h, byte_ok ver -> hash_of checksum checked ver s = Ok h <-> hash_text checksum ver s h.
  Proof.
    intros ver s h V. unfold hash_of, hash_text. split.
    - intros H. apply bind_ok in H. destruct H as (v & H & E). injection E as <-.
      destruct (from_base58_versioned checksum checked ver HashV1 s) as [v'|e|] eqn:F; cbn [conv] in H; try discriminate. injection H as ->.
      unfold from_base58_versioned in F. apply bind_ok in F. destruct F as (bytes & D & F).
      apply (check_decode checksum checksum_len checksum_bytes) in D. destruct D as [(data & -> & B & ->)|(-> & _)]; [|discriminate].
      apply Forall_inv_tail in B.
      destruct (from_reader_strict BUF_CAP checked HashV1 (chunks_of data)) as [v'|e|] eqn:S; cbn [lift_bin] in F; try discriminate.
      injection F as ->. destruct data as [|b data]; [destruct checked; vm_compute in S; discriminate|].
      cbn [chunks_of] in S. set (bs := b :: data) in *.
      assert (G : exists rest, from_slice checked HashV1 bs = Ok (v, rest)).
      { apply C10_strict_general_partial in S; [|unfold BUF_CAP; lia|repeat constructor; discriminate].
        cbn [concat] in S. rewrite app_nil_r in S. exact S. }
      destruct G as (rest & G). pose proof G as G'. rewrite slice_hash in G'. apply C64_accepted in G'; [|exact B].
      destruct G' as (pre & E & A). apply acc_hash in A. destruct A as (w & n & h & -> & I & R & (L & Bh) & ->).
      destruct (int_form_length w n I) as (Lw & Bw).
      assert (LL : length bs = (length w + 32 + length rest)%nat) by (rewrite E, !app_length, L; reflexivity).
      destruct (C10_strict_short BUF_CAP checked HashV1 bs _ rest ltac:(unfold BUF_CAP; lia) G) as (_ & X); [lia|unfold BUF_CAP; lia|].
      destruct rest as [|x rest]; [|destruct (X ltac:(discriminate)) as (m & X'); congruence].
      rewrite app_nil_r in E. cbn [hash_bytes]. rewrite map_ints. split; [split; assumption|].
      exists w, n. rewrite <- E. auto.
    - intros ((L & B) & w & n & I & R & ->). destruct (int_form_length w n I) as (Lw & Bw).
      assert (BB : bytes_ok (w ++ h)) by (apply bytes_ok_app; auto).
      unfold from_base58_versioned. rewrite (check_encode checksum checksum_len checksum_bytes) by assumption.
      rewrite Z.eqb_refl. cbn [bind].
      rewrite (strict_whole checked HashV1 (VTup [VInt n; VTup (map VInt h)]) (w ++ h)).
      + cbn [lift_bin conv bind hash_bytes]. rewrite map_ints. reflexivity.
      + rewrite slice_hash. apply C64_accepted; [exact BB|]. exists (w ++ h). split; [symmetry; apply app_nil_r|].
        apply acc_hash. exists w, n, h. unfold bytes32. auto 8.
  Qed.
  Lemma encode_nonempty : forall ver data, byte_ok ver -> bytes_ok data -> b58c_encode checksum ver data <> [].
  Proof.
    intros ver data V B E. pose proof (check_encode checksum checksum_len checksum_bytes ver ver data V B) as C.
    rewrite E, Z.eqb_refl in C. vm_compute in C. discriminate.
  Qed.
  Lemma hash_text_nonempty : forall ver h, byte_ok ver -> ~ hash_text checksum ver [] h.
  Proof.
    intros ver h V ((L & B) & w & n & I & R & E). destruct (int_form_length w n I) as (_ & Bw).
    symmetry in E. revert E. apply encode_nonempty; [exact V|]. apply bytes_ok_app. auto.
  Qed.
  Lemma hash_member_iff : forall ver j k h, byte_ok ver ->
    hash_of checksum checked ver (as_str (index j k)) = Ok h <-> hash_member checksum j k ver h.
  Proof.
    intros ver j k h V. rewrite hash_of_iff by exact V.
    apply (string_iff (fun s => hash_text checksum ver s h)). apply hash_text_nonempty. exact V.
  Qed.
  Lemma hash_value_iff : forall ver j k h, byte_ok ver ->
    hash_value checksum checked ver (index j k) = Ok h <-> hash_member checksum j k ver h.
  Proof.
    intros ver j k h V. unfold hash_member, hash_value. split.
    - destruct (index j k) as [| | | |s| |] eqn:E; try discriminate. intros H. exists s. split; [apply has_iff; [discriminate|exact E]|].
      apply hash_of_iff; assumption.
    - intros (s & H & T). apply has_iff in H; [|discriminate]. rewrite H. apply hash_of_iff; assumption.
  Qed.
  Lemma aux_iff : forall ver j k l, byte_ok ver -> aux_value checksum ver (index j k) = Ok l <-> aux_member checksum j k ver l.
  Proof.
    intros ver j k l V. unfold aux_member, aux_value. split.
    - destruct (index j k) as [| | | |s| |] eqn:E; try discriminate. intros H.
      destruct (from_base58 checksum ver s) as [d|e|] eqn:F; cbn [conv] in H; try discriminate. injection H as ->.
      apply (C53_canonical checksum checksum_len checksum_bytes) in F. destruct F as (B & ->).
      split; [exact B|]. apply has_iff; [discriminate|exact E].
    - intros (B & H). apply has_iff in H; [|discriminate]. rewrite H.
      change (b58c_encode checksum ver l) with (to_base58_string checksum ver l).
      rewrite (C53_round_trip checksum checksum_len checksum_bytes) by assumption. reflexivity.
  Qed.
  Lemma key_of_iff : forall s p, key_of checksum s = Ok p <-> key_text checksum s p.
  Proof.
    intros s [x odd]. unfold key_of, key_text. cbn [pk_x pk_odd]. split.
    - intros H. destruct (from_address checksum s) as [(y, o)|] eqn:F; [|discriminate]. cbn [conv_opt bind fst snd] in H. injection H as <- <-.
      apply (C53_address_canonical checksum checksum_len checksum_bytes) in F. destruct F as (B & L & M & ->).
      pose proof (le_val_range y B) as R. split; [lia|]. unfold into_address. do 4 f_equal. rewrite <- L. symmetry. apply le_bytes_le_val. exact B.
    - intros (R & ->). 
      assert (X : le_val (le_bytes 32 x) = x) by (rewrite le_val_le_bytes; apply Z.mod_small; unfold FP_MODULUS in R; cbn; lia).
      change (b58c_encode checksum 203 (1 :: 1 :: le_bytes 32 x ++ [if odd then 1 else 0])) with (into_address checksum (le_bytes 32 x) odd).
      rewrite (C53_address_round_trip checksum checksum_len checksum_bytes); [|apply le_bytes_ok|apply le_bytes_length|lia].
      cbn [conv_opt bind fst snd]. rewrite X. reflexivity.
  Qed.
  Lemma key_text_nonempty : forall p, ~ key_text checksum [] p.
  Proof.
    intros p (R & E). symmetry in E. revert E. apply encode_nonempty; [unfold byte_ok; lia|].
    constructor; [unfold byte_ok; lia|]. constructor; [unfold byte_ok; lia|]. apply bytes_ok_app. split; [apply le_bytes_ok|].
    constructor; [destruct (pk_odd p); unfold byte_ok; lia|constructor].
  Qed.
  Lemma key_iff : forall j k p, key_of checksum (as_str (index j k)) = Ok p <-> key_member checksum j k p.
  Proof. intros j k p. rewrite key_of_iff. apply (string_iff (fun s => key_text checksum s p)). apply key_text_nonempty. Qed.
  Lemma key_no_panic : forall s, key_of checksum s <> Panic.
  Proof using Type. intros s. unfold key_of. destruct (from_address checksum s) as [(y, o)|]; discriminate. Qed.

  (** The checksum of nothing does not begin with a version byte. *)
  Hypothesis checksum_empty : nth 0 (checksum []) 0 = 0x5d.

  Lemma vrf_iff : forall j k v, vrf_of checksum (as_str (index j k)) = Ok v <-> vrf_member checksum j k v.
  Proof.
    intros j k v.
    set (P := fun s => (bytes_ok v /\ exists n, byte_ok n /\ s = b58c_encode checksum 0x15 (n :: v)) \/ (v = [] /\ s = b58c_encode checksum 0x15 [])).
    assert (V : byte_ok 21) by (unfold byte_ok; lia).
    assert (S : forall s, vrf_of checksum s = Ok v <-> P s).
    { intros s. unfold vrf_of, vrf58_de, VRF_TRUNCATED_OUTPUT. split.
      - intros H. destruct (b58c_decode checksum 21 s) as [d|e|] eqn:D; cbn [bind conv] in H; try discriminate.
        injection H as <-. apply (check_decode checksum checksum_len checksum_bytes) in D.
        destruct D as [(data & -> & B & ->)|(-> & _ & X)]; [|rewrite checksum_empty in X; discriminate].
        apply Forall_inv_tail in B. destruct data as [|n data]; cbn [skipn]; [right; auto|left].
        inversion B; subst. split; [assumption|]. exists n. auto.
      - intros [(B & n & Hn & ->)|(-> & ->)]; rewrite (check_encode checksum checksum_len checksum_bytes); try assumption; try reflexivity; constructor; assumption. }
    rewrite S, (string_iff P).
    - unfold P, vrf_member. split.
      + intros (s & H & [(B & n & Hn & ->)|(-> & ->)]); [left; split; [exact B|exists n; auto]|right; auto].
      + intros [(B & n & Hn & H)|(-> & H)]; eexists; (split; [exact H|]); [left; split; [exact B|exists n; auto]|right; auto].
    - intros [(B & n & Hn & E)|(_ & E)]; symmetry in E; revert E; apply encode_nonempty; try assumption; constructor; assumption.
  Qed.
  Lemma hash_no_panic : forall ver s, ver <> 0x5d -> hash_of checksum checked ver s <> Panic.
  Proof.
    intros ver s V H. unfold hash_of in H. apply bind_panic in H. destruct H as [H|(v & _ & H)]; [|discriminate].
    pose proof (versioned_no_panic checked checksum checksum_len checksum_bytes checksum_empty ver HashV1 s V eq_refl) as N.
    destruct (from_base58_versioned checksum checked ver HashV1 s); try discriminate. auto.
  Qed.
  Lemma hash_value_no_panic : forall ver j, ver <> 0x5d -> hash_value checksum checked ver j <> Panic.
  Proof. intros ver j V. destruct j; try discriminate. apply hash_no_panic. exact V. Qed.
  Lemma aux_no_panic : forall ver j, ver <> 0x5d -> aux_value checksum ver j <> Panic.
  Proof.
    intros ver j V. destruct j; try discriminate. cbn [aux_value]. intros H.
    destruct (from_base58 checksum ver s) eqn:F; try discriminate.
    apply (C53_panics_iff checksum checksum_len checksum_bytes) in F. destruct F as (_ & F). congruence.
  Qed.
  Lemma vrf_no_panic : forall s, vrf_of checksum s <> Panic.
  Proof.
    intros s H. unfold vrf_of, vrf58_de in H.
    pose proof (check_no_panic checksum VRF_TRUNCATED_OUTPUT s) as N.
    destruct (b58c_decode checksum VRF_TRUNCATED_OUTPUT s); try discriminate. auto.
  Qed.
End Read.

Lemma hex_iff : forall j k l, conv (body_from_hex (as_str (index j k))) = Ok l <-> hex_member j k l.
Proof.
  intros j k l. unfold hex_member. rewrite <- (string_iff (fun s => hexes s l /\ length l = 32%nat)).
  - rewrite <- C52_body_iff. destruct (body_from_hex _); cbn [conv]; split; congruence.
  - intros (H & L). inversion H; subst. discriminate.
Qed.
Lemma hex_no_panic : forall s, conv (body_from_hex s) <> Panic.
Proof. intros s. pose proof (C52_body_no_panic s). destruct (body_from_hex s); cbn [conv]; congruence. Qed.
