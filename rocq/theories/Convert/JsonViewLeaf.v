(** The texts inside documents. *)

From Coq Require Import String ZArith List Bool Lia ZifyBool ZifyNat.
From Verif Require Import Lib.Res Lib.Bytes Lib.Decimal Lib.Text BinProt.Prim BinProt.PrimSpec BinProt.Codec BinProt.CodecSpec BinProt.FormatSpec
  BinProt.AcceptProps BinProt.BufRead BinProt.CodecProps BinProt.StrictProps Wire.Types
  Text.Base58 Text.Base58Props Text.Base64 Text.Base64Props Text.Checksum Text.ChecksumProps Text.FieldText Text.Numbers Text.NumbersSpec
  Text.NumbersProps Json.Json Json.JsonSpec Json.JsonFacts Json.JsonReadFacts Json.JsonProps Hashing.Command GraphQL.GraphQL GraphQL.GraphQLSpec
  GraphQL.GraphQLFacts Ledger.AccountWireSpec Convert.Conv Convert.ConvFacts Convert.ViewSpec.
From Verif Require Import Convert.JsonViewSpec Convert.JsonViewFacts.
Import ListNotations.
Local Open Scope list_scope.
Local Open Scope Z_scope.
Local Notation length := List.length.
Notation sha := sha_checksum.

(** ** Numbers *)
Lemma parse_number : forall bits s n, 0 < bits -> parse_uint bits s = inr n <-> number_text s n /\ n < 2 ^ bits.
Proof.
  intros bits s n B. rewrite parse_uint_ok by exact B. unfold number_text. split.
  - intros (d & S & N & D & V & L). split; [exists d; auto|exact L].
  - intros ((d & S & N & D & V) & L). exists d. auto 6.
Qed.
Lemma number_pos : forall s n, number_text s n -> 0 <= n.
Proof. intros s n (d & _ & _ & D & <-). apply dec_val_range in D. lia. Qed.
Lemma of_parse_ok : forall r n, of_parse r = Ok n <-> r = inr n.
Proof. intros [e|m] n; cbn [of_parse]; split; congruence. Qed.
Lemma num_ok : forall bits v n, w_num (2 ^ bits) v n -> v = VInt n /\ 0 <= n < 2 ^ bits.
Proof. intros bits v n H. exact H. Qed.
Lemma det_num : forall b, det (w_num b).
Proof. intros b v a a' (-> & _) (E & _). injection E as ->. reflexivity. Qed.
Lemma det_cast : det w_cast.
Proof. intros v a a' (y & -> & Y & Z & (q & D)) (y' & E & Y' & Z' & (q' & D')). injection E as <-. lia. Qed.
Lemma det_bytes : det w_bytes.
Proof. intros v a a' (-> & _) (E & _). injection E as E. clear - E. revert a' E. induction a as [|x a IH]; intros [|y a'] E; try discriminate; [reflexivity|]. cbn [map] in E. injection E as -> E. f_equal. auto. Qed.
Lemma det_vec : det w_vec.
Proof. intros v a a' (-> & _) (E & _). injection E as E. clear - E. revert a' E. induction a as [|x a IH]; intros [|y a'] E; try discriminate; [reflexivity|]. cbn [map] in E. injection E as -> E. f_equal. auto. Qed.
Lemma det_key : det w_key.
Proof.
  intros v [x o] [x' o'] (b & l & -> & B & E & _) (b' & l' & E' & B' & E'' & _). cbn [pk_odd pk_x] in *. injection E' as -> ->.
  rewrite (det_bytes _ _ _ B B') in E. congruence.
Qed.
Lemma det_sig : det w_sig.
Proof.
  intros v [x o] [x' o'] (a & b & k & l & -> & A & B & E & _ & E1 & _) (a' & b' & k' & l' & E' & A' & B' & E2 & _ & E3 & _). cbn [fst snd] in *. injection E' as -> ->.
  rewrite (det_bytes _ _ _ A A') in E. rewrite (det_bytes _ _ _ B B') in E1. congruence.
Qed.

(** ** Values of a type in base58 *)
Lemma versioned_iff : forall checked ver t s v, byte_ok ver -> (forall bs, from_slice checked t bs = from_slice false t bs) ->
  (forall v bs, acc t v bs -> (1 <= length bs < 1000)%nat) ->
  from_base58_versioned sha checked ver t s = Ok v <-> exists bs, acc t v bs /\ bytes_ok bs /\ s = b58c_encode sha ver bs.
Proof.
  intros checked ver t s v V C L. split.
  - intros F. unfold from_base58_versioned in F. apply bind_ok in F. destruct F as (bytes & D & F).
    apply (check_decode sha sha_checksum_len sha_checksum_bytes) in D. destruct D as [(data & -> & B & ->)|(-> & _)]; [|discriminate].
    apply Forall_inv_tail in B.
    destruct (from_reader_strict BUF_CAP checked t (chunks_of data)) as [v'|e|] eqn:S; cbn [lift_bin] in F; try discriminate.
    injection F as ->.
    assert (G : exists rest, from_slice checked t data = Ok (v, rest)).
    { apply C10_strict_general_partial in S; [|unfold BUF_CAP; lia|destruct data; repeat constructor; discriminate].
      destruct data; [exact S|]. cbn [chunks_of concat] in S. rewrite app_nil_r in S. exact S. }
    destruct G as (rest & G). pose proof G as G'. rewrite C in G'. apply C64_accepted in G'; [|exact B].
    destruct G' as (pre & E & A). pose proof (L _ _ A) as Lp.
    assert (LL : length data = (length pre + length rest)%nat) by (rewrite E, app_length; reflexivity).
    destruct (C10_strict_short BUF_CAP checked t data _ rest ltac:(unfold BUF_CAP; lia) G) as (_ & X); [lia|unfold BUF_CAP; lia|].
    destruct data as [|b data]; [cbn [length] in LL; lia|]. cbn [chunks_of] in S.
    destruct rest as [|x rest]; [|destruct (X ltac:(discriminate)) as (m & X'); congruence].
    rewrite app_nil_r in E. exists pre. rewrite <- E. split; [congruence|]. auto.
  - intros (bs & A & B & ->). unfold from_base58_versioned. rewrite (check_encode sha sha_checksum_len sha_checksum_bytes) by assumption.
    rewrite Z.eqb_refl. cbn [bind]. rewrite (strict_whole checked t v bs); [reflexivity|]. rewrite C. apply C64_accepted; [exact B|].
    exists bs. rewrite app_nil_r. auto.
Qed.
Lemma acc_tup : forall ts v bs, acc (TTup ts) v bs -> exists vs, v = VTup vs /\ accs ts vs bs.
Proof. intros ts v bs H. inversion H; subst. eauto. Qed.
Lemma accs_cons : forall t ts vs bs, accs (t :: ts) vs bs -> exists v vs' a b, vs = v :: vs' /\ bs = a ++ b /\ acc t v a /\ accs ts vs' b.
Proof. intros t ts vs bs H. inversion H; subst. eauto 8. Qed.
Lemma acc_sig : forall v bs, acc SignatureJsonTy v bs <-> exists w n h g, bs = w ++ h ++ g /\ int_form w n /\ 0 <= n < 2 ^ 16 /\ bytes32 h /\ bytes32 g /\
  v = VTup [VInt n; VTup [VTup (map VInt h); VTup (map VInt g)]].
Proof.
  intros v bs. split.
  - intros H. apply acc_tup in H. destruct H as (vs & -> & H). apply accs_cons in H. destruct H as (v1 & vs1 & w & b1 & -> & -> & I & H).
    apply accs_cons in H. destruct H as (v2 & vs2 & b2 & b3 & -> & -> & H & H0). inversion H0; subst. rewrite app_nil_r.
    apply acc_tup in H. destruct H as (us & -> & H). apply accs_cons in H. destruct H as (u1 & us1 & h & b4 & -> & -> & H1 & H).
    apply accs_cons in H. destruct H as (u2 & us2 & g & b5 & -> & -> & H2 & H). inversion H; subst. rewrite app_nil_r.
    apply acc_tup in H1. apply acc_tup in H2. destruct H1 as (p & -> & H1). destruct H2 as (q & -> & H2).
    apply (accs_bytes 32) in H1. apply (accs_bytes 32) in H2. destruct H1 as (-> & L6 & B6). destruct H2 as (-> & L7 & B7).
    inversion I; subst. match goal with X : int_form ?w ?n |- _ => exists w, n, h, g end. unfold bytes32.
    repeat match goal with |- _ /\ _ => split end; try assumption; try reflexivity; match goal with X : rust_ok _ _ |- _ => cbn in X; lia end.
  - intros (w & n & h & g & -> & I & R & (L & B) & (L' & B') & ->). apply A_tup. apply A_cons.
    + apply A_int; [exact I|]. cbn. lia.
    + assert (X : forall l, bytes_ok l -> length l = 32%nat -> acc Bytes32 (VTup (map VInt l)) l)
        by (intros l Bl Ll; apply A_tup; apply (accs_bytes 32); auto).
      assert (Y : accs [TTup [Bytes32; Bytes32]] [VTup [VTup (map VInt h); VTup (map VInt g)]] ((h ++ g ++ []) ++ [])).
      { apply A_cons; [|apply A_nil]. apply A_tup. apply A_cons; [apply X; assumption|]. apply A_cons; [apply X; assumption|apply A_nil]. }
      rewrite !app_nil_r in Y. exact Y.
Qed.

Lemma vec_inj : forall l a, VSeq (map VInt l) = VSeq (map VInt a) -> l = a.
Proof. intros l a E. injection E as E. revert a E. induction l as [|x l IH]; intros [|y a] E; try discriminate; [reflexivity|]. cbn [map] in E. injection E as -> E. f_equal. auto. Qed.
Lemma tup_inj : forall l a, VTup (map VInt l) = VTup (map VInt a) -> l = a.
Proof. intros l a E. injection E as E. apply vec_inj. now rewrite E. Qed.

Section Leaf.
  Variable checked : bool.
  Notation says := (says checked).
  Notation leaf_de := (leaf_de checked sha (from_address sha)).

  Lemma says_u32 : says (DLeaf LU32) (fun _ => d_num 32 true) (w_num (2 ^ 32)).
  Proof using Type.
    apply (says_leaf checked Z LU32 (d_num 32 true)); [reflexivity| | | |apply det_num].
    - intros v a (-> & R). split; [|exact I]. split; [exact R|exact I].
    - intros s v a E (-> & R). cbn [Json.leaf_de] in E. apply rmap_ok in E. destruct E as (n & E & [= ->]). apply conv_ok in E. apply of_parse_ok in E.
      apply parse_number in E; [|lia]. exists s. auto.
    - intros j a _ (s & -> & N & L). exists s, (VInt a). split; [reflexivity|]. cbn [Json.leaf_de]. unfold u32_json_de.
      rewrite (proj2 (parse_number 32 s a ltac:(lia)) (conj N L)). split; [reflexivity|]. split; [reflexivity|]. apply number_pos in N. lia.
  Qed.
  Lemma says_u64 : says (DLeaf LU64) (fun _ => d_num 64 true) (w_num (2 ^ 64)).
  Proof using Type.
    apply (says_leaf checked Z LU64 (d_num 64 true)); [reflexivity| | | |apply det_num].
    - intros v a (-> & R). split; [|exact I]. split; [exact R|exact I].
    - intros s v a E (-> & R). cbn [Json.leaf_de] in E. apply rmap_ok in E. destruct E as (n & E & [= ->]). apply conv_ok in E. apply of_parse_ok in E.
      apply parse_number in E; [|lia]. exists s. auto.
    - intros j a _ (s & -> & N & L). exists s, (VInt a). split; [reflexivity|]. cbn [Json.leaf_de]. unfold u64_json_de.
      rewrite (proj2 (parse_number 64 s a ltac:(lia)) (conj N L)). split; [reflexivity|]. split; [reflexivity|]. apply number_pos in N. lia.
  Qed.
  Lemma extended : forall n, 0 <= n < 2 ^ 32 -> w_cast (VInt (to_extended_u32 n)) n.
  Proof using Type.
    intros n N. exists (to_extended_u32 n). split; [reflexivity|]. unfold to_extended_u32, wraps, signed. change (32 - 1) with 31.
    change (2 ^ 32) with 4294967296 in *. change (2 ^ 31) with 2147483648 in *. rewrite Z.mod_small by lia.
    destruct (n <? 2147483648) eqn:E; (split; [lia|]; split; [exact N|]); [exists 0; lia|exists 1; lia].
  Qed.
  Lemma says_x32 : says (DLeaf LX32) (fun _ => d_num 32 true) w_cast.
  Proof using Type.
    apply (says_leaf checked Z LX32 (d_num 32 true)); [reflexivity| | | |apply det_cast].
    - intros v a (y & -> & R & _). split; [|exact I]. split; [exact R|exact I].
    - intros s v a E W. cbn [Json.leaf_de] in E. apply rmap_ok in E. destruct E as (n & E & ->). apply conv_ok in E. apply of_parse_ok in E.
      apply parse_number in E; [|lia]. pose proof (number_pos _ _ (proj1 E)). rewrite (det_cast _ _ _ W (extended n ltac:(lia))). exists s. auto.
    - intros j a _ (s & -> & N & L). exists s, (VInt (to_extended_u32 a)). split; [reflexivity|]. cbn [Json.leaf_de]. unfold u32_json_de.
      rewrite (proj2 (parse_number 32 s a ltac:(lia)) (conj N L)). split; [reflexivity|]. apply extended. apply number_pos in N. lia.
  Qed.
  Lemma rust_vec : forall v l, w_vec v l -> rust_val (TSeq TU8) v.
  Proof using Type. intros v l (-> & B & L). apply seq_bytes; assumption. Qed.
  Lemma says_aux : forall ver, byte_ok ver -> says (DLeaf (LAux ver)) (fun _ => d_check sha ver true) w_vec.
  Proof using Type.
    intros ver V. apply (says_leaf checked (list Z) (LAux ver) (d_check sha ver true)); [cbn [leaf_wf]; unfold byte_ok in V; lia| | | |apply det_vec].
    - intros v a W. split; [exact (rust_vec _ _ W)|exact I].
    - intros s v a E W. cbn [Json.leaf_de] in E. apply rmap_ok in E. destruct E as (l & E & ->). apply conv_ok in E.
      apply (C53_canonical sha sha_checksum_len sha_checksum_bytes) in E. destruct E as (B & ->).
      apply (fun W => vec_inj _ _ (proj1 W)) in W. subst. split; [exact B|reflexivity].
    - intros j a (J & _) (B & ->). exists (b58c_encode sha ver a), (VSeq (map VInt a)). split; [reflexivity|]. cbn [Json.leaf_de].
      pose proof (C53_round_trip sha sha_checksum_len sha_checksum_bytes ver a V B) as E. unfold to_base58_string in E. rewrite E. split; [reflexivity|].
      split; [reflexivity|]. split; [exact B|]. destruct J as (_ & _ & J). unfold from_base58 in E. apply bind_ok in E. destruct E as (bytes & E & E').
      apply b58c_shorter in E. destruct E as (_ & E). destruct bytes; [discriminate|]. injection E' as ->. cbn [length] in E. lia.
  Qed.
  Lemma memo_iff : forall s l, memo_json_de sha s = Ok l <-> bytes_ok l /\ s = b58c_encode sha 0x14 l.
  Proof using Type.
    intros s l. unfold memo_json_de. split.
    - intros E. apply bind_ok in E. destruct E as (bytes & E & E'). apply (check_decode sha sha_checksum_len sha_checksum_bytes) in E.
      destruct E as [(data & -> & B & ->)|(-> & _ & N)].
      + injection E' as <-. split; [exact (Forall_inv_tail B)|reflexivity].
      + rewrite sha_checksum_empty in N. discriminate.
    - intros (B & ->). rewrite (check_encode sha sha_checksum_len sha_checksum_bytes); [reflexivity|unfold byte_ok; lia|exact B].
  Qed.
  Lemma says_memo : says (DLeaf LMemo) (fun _ => d_check sha 0x14 true) w_vec.
  Proof using Type.
    apply (says_leaf checked (list Z) LMemo (d_check sha 0x14 true)); [reflexivity| | | |apply det_vec].
    - intros v a W. split; [exact (rust_vec _ _ W)|exact I].
    - intros s v a E W. cbn [Json.leaf_de] in E. apply rmap_ok in E. destruct E as (l & E & ->). apply conv_ok in E. apply memo_iff in E. destruct E as (B & ->).
      apply (fun W => vec_inj _ _ (proj1 W)) in W. subst. split; [exact B|reflexivity].
    - intros j a (J & _) (B & ->). exists (b58c_encode sha 0x14 a), (VSeq (map VInt a)). split; [reflexivity|]. cbn [Json.leaf_de].
      assert (E : memo_json_de sha (b58c_encode sha 0x14 a) = Ok a) by (apply memo_iff; auto). rewrite E. split; [reflexivity|].
      split; [reflexivity|]. split; [exact B|]. destruct J as (_ & _ & J). unfold memo_json_de in E. apply bind_ok in E. destruct E as (bytes & E & E').
      apply b58c_shorter in E. destruct E as (_ & E). assert (E2 : a = skipn 1 bytes) by congruence. rewrite E2, skipn_length. lia.
  Qed.
  Lemma says_vrf : says (DLeaf LVrf64) (fun _ => d_base64 true) w_vec.
  Proof using Type.
    apply (says_leaf checked (list Z) LVrf64 (d_base64 true)); [reflexivity| | | |apply det_vec].
    - intros v a W. split; [exact (rust_vec _ _ W)|exact I].
    - intros s v a E W. cbn [Json.leaf_de] in E. apply rmap_ok in E. destruct E as (l & E & ->). apply conv_opt_ok in E. apply C83_accepts_iff in E.
      apply (fun W => vec_inj _ _ (proj1 W)) in W. subst a.
      destruct E as (B & body & k & E & F & i & L & ->). split; [exact B|]. exists body, k, i. auto.
    - intros j a (J & _) (B & body & k & i & E & F & L & ->). exists (body ++ repeat 61 i), (VSeq (map VInt a)). split; [reflexivity|]. cbn [Json.leaf_de].
      assert (X : b64_decode (body ++ repeat 61 i) = Some a) by (apply C83_accepts_iff; split; [exact B|]; exists body, k; split; [exact E|]; split; [exact F|]; exists i; auto).
      rewrite X. split; [reflexivity|]. split; [reflexivity|]. split; [exact B|]. destruct J as (_ & _ & J). apply b64_shorter in X. lia.
  Qed.
  Lemma rust_bytes : forall v l, w_bytes v l -> rust_val Bytes32 v.
  Proof using Type. intros v l (-> & L & B). apply u8s_tup. exists l. auto. Qed.
  Lemma says_hash : forall ver, byte_ok ver -> says (DLeaf (LHash ver)) (fun _ => d_hash sha ver true) (w_ver w_bytes).
  Proof using Type.
    intros ver V. 
    assert (X : forall s v, from_base58_versioned sha checked ver HashV1 s = Ok v <-> exists h n, v = VTup [VInt n; VTup (map VInt h)] /\ bytes32 h /\
      exists w, int_form w n /\ 0 <= n < 2 ^ 16 /\ s = b58c_encode sha ver (w ++ h)).
    { intros s v. rewrite versioned_iff; [|exact V|apply slice_hash|].
      - split.
        + intros (bs & A & B & ->). apply acc_hash in A. destruct A as (w & n & h & -> & I & R & H & ->). exists h, n. split; [reflexivity|]. eauto 6.
        + intros (h & n & -> & H & w & I & R & ->). exists (w ++ h). split; [apply acc_hash; exists w, n, h; auto 6|]. split; [|reflexivity].
          apply bytes_ok_app. split; [apply (int_form_length w n I)|apply H].
      - intros u bs A. apply acc_hash in A. destruct A as (w & n & h & -> & I & _ & (L & _) & _). apply int_form_length in I. rewrite app_length, L. lia. }
    apply (says_leaf checked (list Z) (LHash ver) (d_hash sha ver true)); [cbn [leaf_wf]; unfold byte_ok in V; lia| | | |].
    - intros v a (n & w & -> & N & W). split; [|exact I]. apply rust_bytes in W. apply ver_shape. eauto.
    - intros s v a E (n & w & -> & N & W). cbn [Json.leaf_de] in E. apply conv_ok in E. apply X in E. destruct E as (h & n' & [= <- ->] & H & w' & I & R & ->).
      assert (W' : w_bytes (VTup (map VInt h)) h) by (split; [reflexivity|exact H]). rewrite (det_bytes _ _ _ W W'). eexists. split; [reflexivity|]. split; [exact H|]. eauto 6.
    - intros j a _ (s & -> & H & w & n & I & R & ->). exists (b58c_encode sha ver (w ++ a)), (VTup [VInt n; VTup (map VInt a)]). split; [reflexivity|]. cbn [Json.leaf_de].
      rewrite (proj2 (X _ (VTup [VInt n; VTup (map VInt a)]))) by (exists a, n; eauto 8). split; [reflexivity|]. exists n, (VTup (map VInt a)). split; [reflexivity|]. split; [exact R|]. split; [reflexivity|exact H].
    - intros v a a' (n & w & -> & _ & W) (n' & w' & [= <- <-] & _ & W'). exact (det_bytes _ _ _ W W').
  Qed.
  Lemma says_pub : says (DLeaf LPub) (fun _ => d_key sha true) w_key.
  Proof using Type.
    apply (says_leaf checked pubkey LPub (d_key sha true)); [reflexivity| | | |apply det_key].
    - intros v [x o] (b & l & -> & B & E & M). cbn [pk_x pk_odd] in *. pose proof (rust_bytes _ _ B) as R. split.
      + apply rust_tup. eexists. split; [reflexivity|]. split; [exact R|]. split; [split; exact I|exact I].
      + destruct B as (-> & _). change (le_val (ints (map VInt l)) < FP_MODULUS). rewrite ints_map. lia.
    - intros s v a E W. cbn [Json.leaf_de] in E. apply rmap_ok in E. destruct E as ((x & o) & E & ->). apply conv_opt_ok in E. cbn [fst snd] in W.
      assert (K : key_of sha s = Ok (mk_pk (le_val x) o)) by (unfold key_of; rewrite E; reflexivity).
      apply (key_of_iff sha sha_checksum_len sha_checksum_bytes) in K. exists s. split; [reflexivity|].
      destruct a as [ax ao]. destruct W as (b & l & EW & (-> & _) & L & M). cbn [pk_x pk_odd] in *. injection EW as E1 E2. subst ao ax. assert (E3 : x = l) by (apply tup_inj; f_equal; exact E1). rewrite E3 in K. exact K.
    - intros j a _ (s & -> & K). pose proof K as K'. apply (key_of_iff sha sha_checksum_len sha_checksum_bytes) in K'. unfold key_of in K'.
      destruct (from_address sha s) as [(x, o)|] eqn:E; [|discriminate]. cbn [conv_opt bind fst snd] in K'. injection K' as <-.
      exists s, (VTup [VTup (map VInt x); VBool o]). split; [reflexivity|]. cbn [Json.leaf_de]. rewrite E. split; [reflexivity|].
      apply (C53_address_canonical sha sha_checksum_len sha_checksum_bytes) in E. destruct E as (B & L & M & _).
      exists (VTup (map VInt x)), x. cbn [pk_x pk_odd]. split; [reflexivity|]. split; [split; [reflexivity|auto]|]. split; [reflexivity|exact M].
  Qed.
  Lemma slice_sig : forall c bs, from_slice c SignatureJsonTy bs = from_slice false SignatureJsonTy bs.
  Proof using Type. intros [] bs; reflexivity. Qed.
  Lemma le_same : forall l, length l = 32%nat -> bytes_ok l -> le_bytes 32 (le_val l) = l.
  Proof using Type. intros l L B. rewrite <- L. apply le_bytes_le_val. exact B. Qed.
  Lemma says_sig : says (DLeaf LSig) (fun _ => d_sig sha true) (w_ver w_sig).
  Proof using Type.
    assert (V : byte_ok SIGNATURE) by (unfold byte_ok, SIGNATURE; lia).
    assert (X : forall s v, from_base58_versioned sha checked SIGNATURE SignatureJsonTy s = Ok v <-> exists w n h g,
      int_form w n /\ 0 <= n < 2 ^ 16 /\ bytes32 h /\ bytes32 g /\ v = VTup [VInt n; VTup [VTup (map VInt h); VTup (map VInt g)]] /\
      s = b58c_encode sha SIGNATURE (w ++ h ++ g)).
    { intros s v. rewrite versioned_iff; [|exact V|apply slice_sig|].
      - split.
        + intros (bs & A & B & ->). apply acc_sig in A. destruct A as (w & n & h & g & -> & I & R & H & G & ->). exists w, n, h, g. auto 8.
        + intros (w & n & h & g & I & R & H & G & -> & ->). exists (w ++ h ++ g). split; [apply acc_sig; exists w, n, h, g; auto 8|]. split; [|reflexivity].
          apply bytes_ok_app. split; [apply (int_form_length w n I)|]. apply bytes_ok_app. split; [apply H|apply G].
      - intros u bs A. apply acc_sig in A. destruct A as (w & n & h & g & -> & I & _ & (L & _) & (L' & _) & _). apply int_form_length in I. rewrite !app_length, L, L'. lia. }
    apply (says_leaf checked (Z * Z) LSig (d_sig sha true)); [reflexivity| | | |].
    - intros v a (n & w & -> & N & (x & y & k & l & -> & A & B & _)). split; [|exact I]. apply rust_bytes in A. apply rust_bytes in B.
      apply ver_shape. eexists n, _. split; [reflexivity|]. split; [exact N|]. apply rust_tup. eexists. split; [reflexivity|]. split; [exact A|]. split; [exact B|exact I].
    - intros s v [a b] E (n & w & -> & N & W). cbn [Json.leaf_de] in E. apply conv_ok in E. apply X in E. destruct E as (w' & n' & h & g & I & R & H & G & [= <- ->] & ->).
      destruct W as (x & y & k & l & EW & (-> & _) & (-> & _) & Ek & Mk & El & Ml). cbn [fst snd] in *. injection EW as E1 E2.
      assert (h = k) as <- by (apply tup_inj; f_equal; exact E1). assert (g = l) as <- by (apply tup_inj; f_equal; exact E2).
      pose proof (le_val_range h (proj2 H)). pose proof (le_val_range g (proj2 G)).
      split; [cbn [fst]; lia|]. split; [cbn [snd]; lia|]. exists w', n. cbn [fst snd]. subst a b. split; [exact I|]. split; [exact R|].
      rewrite (le_same h), (le_same g) by (apply H || apply G). reflexivity.
    - intros j [a b] _ (Ra & Rb & w & n & I & R & ->). cbn [fst snd] in *.
      assert (Ba : bytes32 (le_bytes 32 a)) by (split; [apply le_bytes_length|apply le_bytes_ok]).
      assert (Bb : bytes32 (le_bytes 32 b)) by (split; [apply le_bytes_length|apply le_bytes_ok]).
      exists (b58c_encode sha SIGNATURE (w ++ le_bytes 32 a ++ le_bytes 32 b)), (VTup [VInt n; VTup [VTup (map VInt (le_bytes 32 a)); VTup (map VInt (le_bytes 32 b))]]).
      split; [reflexivity|]. cbn [Json.leaf_de]. rewrite (proj2 (X _ (VTup [VInt n; VTup [VTup (map VInt (le_bytes 32 a)); VTup (map VInt (le_bytes 32 b))]])))
        by (exists w, n, (le_bytes 32 a), (le_bytes 32 b); auto 8).
      split; [reflexivity|]. eexists n, _. split; [reflexivity|]. split; [exact R|]. exists (VTup (map VInt (le_bytes 32 a))), (VTup (map VInt (le_bytes 32 b))), (le_bytes 32 a), (le_bytes 32 b).
      split; [reflexivity|]. split; [split; [reflexivity|exact Ba]|]. split; [split; [reflexivity|exact Bb]|]. cbn [fst snd].
      rewrite !le_val_le_bytes, !Z.mod_small by (unfold FP_MODULUS, FQ_MODULUS in *; cbn; lia). lia.
    - intros v a a' (n & w & -> & _ & W) (n' & w' & [= <- <-] & _ & W'). exact (det_sig _ _ _ W W').
  Qed.
  Lemma plain_read : forall s n, plain_amount s n -> decimal_json_de checked s = Ok n.
  Proof using Type.
    intros s n (R & m & k & N & K & A). rewrite decimal_is_amount.
    assert (B : amount_fits m k) by (unfold amount_fits, amount_is in *; rewrite <- A; apply Z.mul_lt_mono_pos_r; [apply pow10_pos|lia]).
    destruct (C41_numerals_exact checked s m k N K B) as (a & E & A' & _). rewrite E. f_equal. unfold amount_is in *. pose proof (pow10_pos k). nia.
  Qed.
  Lemma says_dec : says (DLeaf LDec) (fun m => d_fee (understood m) true) (w_num (2 ^ 64)).
  Proof using Type.
    split; [|split; [|split; [|apply det_num]]].
    - intros j v a E (-> & R). destruct j as [| | | |s| |]; try discriminate. cbn [jde Json.leaf_de] in E. apply rmap_ok in E. destruct E as (n & E & [= ->]). apply conv_ok in E.
      exists s. split; [reflexivity|]. intros z P. apply plain_read in P. congruence.
    - intros j v a E (-> & R). cbn [jser] in E. apply rmap_ok in E. destruct E as (s & E & ->). exists s. split; [reflexivity|]. split; [exact R|].
      destruct (C42_text_denotes a R) as (m & k & N & K & A & _). exists m, k. cbn [Json.leaf_ser] in E. injection E as <-. auto.
    - intros j a _ (s & -> & P). exists (VInt a). cbn [jde Json.leaf_de]. rewrite (plain_read s a P). split; [reflexivity|]. split; [reflexivity|]. apply P.
  Qed.
End Leaf.
