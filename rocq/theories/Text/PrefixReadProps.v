(** C129: how the texts that are read as hashes begin. *)

From Coq Require Import String ZArith List Bool Lia ZifyBool ZifyNat.
From Verif Require Import Lib.Res Lib.Bytes Lib.Radix Lib.Sha256 BinProt.Prim BinProt.PrimSpec BinProt.Codec BinProt.CodecSpec BinProt.FormatSpec
  BinProt.FormatProps BinProt.AcceptProps BinProt.BufRead BinProt.CodecProps BinProt.StrictProps Wire.Types.
From Verif Require Import Text.Base58 Text.Base58Props Text.FieldText Text.Checksum Text.ChecksumProps GraphQL.GraphQLFacts.
From Verif Require Import Text.Base64Spec Text.Base64SpecProps Text.Base58Spec Text.Base58SpecProps Text.PrefixProps.
Import ListNotations.
Local Open Scope string_scope.
Local Open Scope list_scope.
Local Open Scope Z_scope.
Notation length := List.length.
Notation hd := List.hd.

(** A text that is read as a hash is that of some form of the version number and
    the 32 bytes. *)
Lemma read_hash : forall checked ver s v, from_base58_versioned sha_checksum checked ver HashV1 s = Ok v ->
  exists w n h, int_form w n /\ bytes_ok w /\ bytes_ok h /\ length h = 32%nat /\ v = VTup [VInt n; VTup (map VInt h)] /\
    s = to_base58_string sha_checksum ver (w ++ h).
Proof.
  intros checked ver s v F. unfold from_base58_versioned in F. apply bind_ok in F. destruct F as (bytes & D & F).
  apply (check_decode sha_checksum sha_checksum_len sha_checksum_bytes) in D. destruct D as [(data & -> & B & ->)|(-> & _)]; [|discriminate].
  apply Forall_inv_tail in B.
  destruct (from_reader_strict BUF_CAP checked HashV1 (chunks_of data)) as [v'|e|] eqn:S; cbn [lift_bin] in F; try discriminate.
  injection F as ->. destruct data as [|b data]; [destruct checked; vm_compute in S; discriminate|].
  cbn [chunks_of] in S. set (bs := b :: data) in *.
  assert (G : exists rest, from_slice checked HashV1 bs = Ok (v, rest)).
  { apply C10_strict_general_partial in S; [|unfold BUF_CAP; lia|repeat constructor; discriminate].
    cbn [concat] in S. rewrite app_nil_r in S. exact S. }
  destruct G as (rest & G). pose proof G as G'. rewrite slice_hash in G'. apply C64_accepted in G'; [|exact B].
  destruct G' as (pre & E & A). apply acc_hash in A. destruct A as (w & n & h & -> & I & R & (L & Bh) & ->).
  destruct (int_form_length w n I) as (Lw & Bw).
  assert (LL : length bs = (length w + 32 + length rest)%nat) by (rewrite E, !app_length, L; reflexivity).
  destruct (C10_strict_short BUF_CAP checked HashV1 bs _ rest ltac:(unfold BUF_CAP; lia) G) as (_ & X); [lia|unfold BUF_CAP; lia|].
  destruct rest as [|x rest]; [|destruct (X ltac:(discriminate)) as (m & X'); congruence].
  rewrite app_nil_r in E. exists w, n, h. repeat (split; [assumption || reflexivity|]). unfold to_base58_string. rewrite <- E. reflexivity.
Qed.

(** Bytes with nothing but a large number have a long text. *)
Lemma text58_long : forall s x rest k, text58 s (x :: rest) -> bytes_ok (x :: rest) -> 1 <= x ->
  58 ^ Z.of_nat k <= x * 256 ^ Z.of_nat (length rest) -> (k < length s)%nat.
Proof.
  intros s x rest k (n & ds & r & E & _ & _ & F & N) B X Lo.
  destruct n as [|n]; [|cbn in E; injection E as -> _; lia]. cbn [repeat app] in *. subst r.
  apply ranks_chars in F. destruct F as [I ->]. rewrite map_length. inversion B as [|? ? _ BR]; subst.
  pose proof (number_range 256 rest ltac:(lia) BR) as R. pose proof (number_range 58 ds ltac:(lia) I) as RD. cbn [number] in N.
  assert (P : 58 ^ Z.of_nat k < 58 ^ Z.of_nat (length ds)) by lia. apply Z.pow_lt_mono_r_iff in P; lia.
Qed.

(** A text that is read as a hash of version 1 begins as its kind does, or it is
    longer than the texts of all kinds. *)
Theorem C129_read : forall checked kind ver pre n s x, In (kind, ver) hash_kinds -> In (kind, pre, n) forms ->
  from_base58_versioned sha_checksum checked ver HashV1 s = Ok (VTup [VInt 1; x]) ->
  (exists t, s = str_bytes pre ++ t /\ length s = n) \/ (52 < length s)%nat.
Proof.
  intros c kind ver pre n s x K F H. destruct (read_hash _ _ _ _ H) as (w & m & h & I & Bw & Bh & L & E & ->). injection E as <- ->.
  assert (V : byte_ok ver /\ 5 <= ver).
  { clear - K. cbn [In hash_kinds] in K. repeat (destruct K as [K|K]; [injection K as _ <-; unfold byte_ok; vm_compute; repeat split; discriminate|]). contradiction. }
  destruct V as [V V5]. destruct (length w =? 1)%nat eqn:W.
  - left. assert (w = [1]) by (inversion I; subst; cbn in W; try discriminate; reflexivity). subst w.
    destruct (C129_hash c kind ver pre n h K F Bh L) as (s & t & S & P & N). unfold to_base58_versioned in S. rewrite ser_hash in S by exact L. cbn [lift_bin bind] in S.
    assert (S' : to_base58_string sha_checksum ver ([1] ++ h) = s) by (unfold to_base58_string; cbn [app]; congruence).
    rewrite S'. exists t. auto.
  - right. assert (LW : (2 <= length w)%nat) by (destruct (int_form_length _ _ I); lia).
    assert (B : bytes_ok (w ++ h)) by (apply Forall_app; auto).
    assert (T : text58 (to_base58_string sha_checksum ver (w ++ h)) ((ver :: w ++ h) ++ firstn 4 (sha256 (sha256 (ver :: w ++ h))))) by (apply C53_hash_text_iff; auto).
    assert (B' : bytes_ok (ver :: w ++ h)) by (constructor; assumption). pose proof (checked_bytes _ B') as B2.
    pose proof (sha_checksum_len (ver :: w ++ h)) as LS. unfold sha_checksum in LS.
    apply (text58_long _ ver ((w ++ h) ++ firstn 4 (sha256 (sha256 (ver :: w ++ h)))) 52); [exact T|exact B2|lia|].
    rewrite !app_length, LS, L.
    assert (M : 256 ^ 38 <= 256 ^ Z.of_nat (length w + 32 + 4)) by (apply Z.pow_le_mono_r; lia).
    assert (Q : 58 ^ Z.of_nat 52 <= 5 * 256 ^ 38) by (apply Z.leb_le; vm_compute; reflexivity). nia.
Qed.

(** Such longer texts are read. *)
Theorem C129_long_refuted : forall checked, exists s v, from_base58_versioned sha_checksum checked STATE_HASH HashV1 s = Ok (VTup [VInt 1; v]) /\ (52 < length s)%nat.
Proof.
  intros checked. pose (h := repeat 7 32). pose (v := VTup (map VInt h)). assert (V : byte_ok STATE_HASH) by (unfold byte_ok, STATE_HASH; lia).
  assert (Bh : bytes_ok h) by (unfold h, bytes_ok, byte_ok; cbn [repeat]; repeat constructor; lia).
  assert (B : bytes_ok (255 :: 1 :: h)) by (do 2 (constructor; [unfold byte_ok; lia|]); exact Bh).
  exists (to_base58_string sha_checksum STATE_HASH (255 :: 1 :: h)), v. split.
  - unfold from_base58_versioned, to_base58_string. rewrite (check_encode sha_checksum sha_checksum_len sha_checksum_bytes) by assumption. rewrite Z.eqb_refl. cbn [bind].
    rewrite (strict_whole checked HashV1 (VTup [VInt 1; v]) (255 :: 1 :: h)); [reflexivity|].
    destruct checked; vm_compute; reflexivity.
  - assert (B' : bytes_ok (STATE_HASH :: 255 :: 1 :: h)) by (constructor; assumption). pose proof (checked_bytes _ B') as B2.
    pose proof (sha_checksum_len (STATE_HASH :: 255 :: 1 :: h)) as LS. unfold sha_checksum in LS.
    apply (text58_long _ STATE_HASH ((255 :: 1 :: h) ++ firstn 4 (sha256 (sha256 (STATE_HASH :: 255 :: 1 :: h)))) 52); [apply C53_hash_text_iff; auto|exact B2|unfold STATE_HASH; lia|].
    rewrite app_length, LS. apply Z.leb_le. vm_compute. reflexivity.
Qed.

Example C129_ex_read : exists s, from_base58_versioned sha_checksum true STATE_HASH HashV1 s = Ok (VTup [VInt 1; VTup (repeat (VInt 7) 32)]) /\ length s = 52%nat.
Proof.
  destruct (C129_hash true "StateHash" STATE_HASH "3N" 52 (repeat 7 32)) as (s & t & W & P & L).
  - cbn. auto 6.
  - cbn. auto 6.
  - unfold bytes_ok, byte_ok. cbn [repeat]. repeat constructor; lia.
  - reflexivity.
  - exists s. split; [|exact L].
    destruct (C53_versioned_round_trip sha_checksum sha_checksum_len sha_checksum_bytes true STATE_HASH HashV1 (VTup [VInt 1; VTup (map VInt (repeat 7 32))])) as (s' & W' & R).
    + unfold byte_ok, STATE_HASH. lia.
    + cbn. unfold byte_ok. repeat split; lia.
    + assert (s' = s) by congruence. subst s'. exact R.
Qed.

Print Assumptions C129_read.
Print Assumptions C129_long_refuted.
