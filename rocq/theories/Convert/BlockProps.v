(** C99-C102: blocks, protocol states and commands between bytes, wire values
    and base types. *)

From Coq Require Import String ZArith List Bool Lia ZifyBool ZifyNat.
From Verif Require Import Lib.Res Lib.Bytes BinProt.Prim BinProt.Codec BinProt.CodecSpec BinProt.BufRead BinProt.FormatSpec BinProt.CodecProps BinProt.AcceptProps Wire.Types Wire.WireProps Wire.Fixture
  Text.FieldText Hashing.Command Hashing.CommandProps Hashing.State Hashing.StateParts Hashing.StateProps Ledger.AccountWireSpec Convert.Conv Convert.BlockConv Convert.ConvSpec
  Convert.ConvFacts Convert.View Convert.ViewSpec Convert.ViewFacts Convert.Block Convert.BlockFacts.
Import ListNotations.
Local Open Scope list_scope.
Local Open Scope Z_scope.
Notation length := List.length.

(** ** C99: between wire and base values *)

(** Conversion crashes exactly when some public key or signature is none;
    otherwise there is a base value. *)
Theorem C99_crashes_iff : forall c t v, In (c, t) converted -> rust_val t v -> (down c v = Panic <-> bad t v).
Proof.
  intros c t v I R. destruct (down_correct c t (converted_agrees _ _ I) v R) as [(b & E & _ & _ & N)|(E & B)]; rewrite E.
  - split; [discriminate|intros B; contradiction].
  - split; auto.
Qed.
Theorem C99_converts_iff : forall c t v, In (c, t) converted -> rust_val t v -> ((exists b, down c v = Ok b) <-> ~ bad t v).
Proof.
  intros c t v I R. destruct (down_correct c t (converted_agrees _ _ I) v R) as [(b & E & _ & _ & N)|(E & B)]; rewrite E.
  - split; eauto.
  - split; [intros (b & F); discriminate|intros N; contradiction].
Qed.
(** The base value is one of the base type, and converting it back gives the
    wire value with all version numbers 1. *)
Theorem C99_kept : forall c t v b, In (c, t) converted -> rust_val t v -> down c v = Ok b -> base_val c t b /\ renumbered t v (up c b).
Proof.
  intros c t v b I R H. destruct (down_correct c t (converted_agrees _ _ I) v R) as [(b' & E & B & N & _)|(E & _)]; [|congruence].
  assert (b' = b) by congruence. subst. auto.
Qed.
(** So nothing at all is lost exactly if the version numbers are 1. *)
Theorem C99_exact_iff : forall c t v b, In (c, t) converted -> rust_val t v -> down c v = Ok b ->
  (up c b = v <-> forall n, inside (TInt U16) (VInt n) t v -> n = 1).
Proof.
  intros c t v b I R H. destruct (C99_kept c t v b I R H) as (_ & N). split.
  - intros <- n J. eapply renumbered_ones; [exact N|]. exact J.
  - intros J. eapply renumbered_eq; [exact N|]. exact J.
Qed.
(** Every base value has a wire value, from which it is recovered. *)
Theorem C99_back : forall c t b, In (c, t) converted -> base_val c t b -> rust_val t (up c b) /\ down c (up c b) = Ok b.
Proof. intros c t b I B. exact (up_correct c t (converted_agrees _ _ I) b B). Qed.
(** Wire values become the same base value exactly if they differ in version
    numbers only. *)
Theorem C99_same_iff : forall c t v w b d, In (c, t) converted -> rust_val t v -> rust_val t w -> down c v = Ok b -> down c w = Ok d ->
  (b = d <-> exists u, renumbered t v u /\ renumbered t w u).
Proof.
  intros c t v w b d I R S V W. destruct (C99_kept _ _ _ _ I R V) as (B & N), (C99_kept _ _ _ _ I S W) as (D & M). split.
  - intros <-. eauto.
  - intros (u & U & T). pose proof (renumbered_fun _ _ _ U _ N) as E. pose proof (renumbered_fun _ _ _ T _ M) as F.
    destruct (C99_back _ _ _ I B) as (_ & G), (C99_back _ _ _ I D) as (_ & H). congruence.
Qed.

(** *** Cases *)
(** Blocks with a command in each of two pre-diffs: every byte in a key, hash or
    signature is [b], every version number [n]. *)
Definition block (b n : Z) : val := sample b n ExternalTransitionV1.
Lemma block_ok : forall b n, byte_ok b -> 0 <= n < 2 ^ 16 -> rust_val ExternalTransitionV1 (block b n) /\ u64s_below ExternalTransitionV1 (block b n).
Proof.
  assert (F : full ExternalTransitionV1 = true) by (vm_compute; reflexivity).
  intros b n B N. split; [apply sample_typed; assumption|apply sample_small; exact F].
Qed.
(** No crash and no loss are false: values that the decoder can return. *)
Theorem C99_crash_refuted : exists v, rust_val ExternalTransitionV1 v /\ u64s_below ExternalTransitionV1 v /\ down C_block v = Panic.
Proof. exists (block 255 1). destruct (block_ok 255 1) as (R & U); [unfold byte_ok; lia|lia|]. split; [exact R|]. split; [exact U|]. vm_compute. reflexivity. Qed.
Definition first_int (v : val) : Z := match v with VTup (VInt n :: _) => n | _ => 0 end.
Theorem C99_loss_refuted : exists v b, rust_val ExternalTransitionV1 v /\ u64s_below ExternalTransitionV1 v /\ down C_block v = Ok b /\ up C_block b <> v.
Proof.
  destruct (block_ok 7 2) as (R & U); [unfold byte_ok; lia|lia|].
  assert (H : match down C_block (block 7 2) with Ok b => negb (first_int (up C_block b) =? 2) | _ => false end = true) by (vm_compute; reflexivity).
  exists (block 7 2). destruct (down C_block (block 7 2)) as [b|e|]; try discriminate. exists b. split; [exact R|]. split; [exact U|]. split; [reflexivity|].
  intros E. rewrite E in H. vm_compute in H. discriminate.
Qed.
Example C99_ex : rust_val ExternalTransitionV1 (block 7 1) /\ (exists b, down C_block (block 7 1) = Ok b /\ up C_block b = block 7 1) /\
  ~ bad ExternalTransitionV1 (block 7 1).
Proof.
  destruct (block_ok 7 1) as (R & U); [unfold byte_ok; lia|lia|]. split; [exact R|].
  assert (H : exists b, down C_block (block 7 1) = Ok b /\ up C_block b = block 7 1) by (eexists; split; [vm_compute; reflexivity|vm_compute; reflexivity]).
  split; [exact H|]. apply (C99_converts_iff C_block); [left; reflexivity|exact R|]. destruct H as (b & H & _). eauto.
Qed.

(** ** C100: what the base values say is what stands in the wire value *)
Theorem C100_state : forall v b s, rust_val ProtocolStateV1 v -> down C_state v = Ok b -> (w_state v s <-> s = state_of b).
Proof. intros v b s R D. pose proof (reads_state v b R D) as W. split; [intros H; exact (det_state _ _ _ H W)|intros ->; exact W]. Qed.
Theorem C100_command : forall v b c, rust_val SignedCommandV1 v -> down C_command v = Ok b -> (w_command v c <-> c = command_of b).
Proof. intros v b s R D. pose proof (reads_command v b R D) as W. split; [intros H; exact (det_command _ _ _ H W)|intros ->; exact W]. Qed.
Theorem C100_block : forall v b, rust_val ExternalTransitionV1 v -> down C_block v = Ok b -> w_block v (block_of b).
Proof. exact reads_block. Qed.
(** The commands of a block are the signed commands anywhere in its wire value. *)
Theorem C100_commands : forall v b, rust_val ExternalTransitionV1 v -> down C_block v = Ok b ->
  (forall x, inside SignedCommandV1 x ExternalTransitionV1 v -> exists c, In c (all_commands (block_of b)) /\ w_command x c) /\
  (forall c, In c (all_commands (block_of b)) -> exists x, inside SignedCommandV1 x ExternalTransitionV1 v /\ w_command x c).
Proof. intros v b R D. exact (finds_block v (block_of b) (reads_block v b R D)). Qed.

(** The protocol state of mainnet block 77749: its length, its slot and others. *)
Definition state_77749_bytes : list Z := firstn (Z.to_nat 846) (skipn 1 block_77749_bytes).
Definition readb (bs : list Z) (p : val -> bool) : bool :=
  match from_slice false ProtocolStateV1 bs with
  | Ok (v, []) => match down C_state v, to_bytes false ProtocolStateV1 v with Ok b, Ok bs' => p b && leqb bs' bs | _, _ => false end
  | _ => false
  end.
Lemma readb_ok : forall bs p, readb bs p = true -> bytes_ok bs -> exists v b, rust_val ProtocolStateV1 v /\ u64s_below ProtocolStateV1 v /\
  from_slice false ProtocolStateV1 bs = Ok (v, []) /\ down C_state v = Ok b /\ to_bytes false ProtocolStateV1 v = Ok bs /\ p b = true.
Proof.
  intros bs p H B. unfold readb in H. destruct (from_slice false ProtocolStateV1 bs) as [(v, [|x r])|e|] eqn:F; try discriminate.
  destruct (down C_state v) as [b|e|] eqn:D; try discriminate. destruct (to_bytes false ProtocolStateV1 v) as [bs'|e|] eqn:T; try discriminate.
  apply andb_true_iff in H. destruct H as (P & L). unfold leqb in L. destruct (list_eq_dec Z.eq_dec bs' bs) as [->|]; [|discriminate].
  exists v, b. split; [eapply C61_decode_sound; [exact B|exact F]|]. split; [|auto 6].
  apply (C64_accepted _ _ _ _ B) in F. destruct F as (pre & _ & A). eapply acc_small, A.
Qed.
Definition sayb (b : val) : bool :=
  let s := sl_body (state_of b) in
  (blockchain_length (bodyl_consensus s) =? 77749) && (slot_number (bodyl_consensus s) =? 111966) && (k (bodyl_constants s) =? 290) &&
  (slots_per_epoch (bodyl_constants s) =? 7140) && (bl_timestamp (bodyl_blockchain s) =? 1636093080000).
Lemma state_77749 : bytes_ok state_77749_bytes /\ readb state_77749_bytes sayb = true.
Proof. split; [apply fixture_bytes; vm_compute; reflexivity|vm_compute; reflexivity]. Qed.
Example C100_state_77749 : exists v b, rust_val ProtocolStateV1 v /\ down C_state v = Ok b /\
  to_bytes false ProtocolStateV1 v = Ok state_77749_bytes /\
  let s := sl_body (state_of b) in
  blockchain_length (bodyl_consensus s) = 77749 /\ slot_number (bodyl_consensus s) = 111966 /\ k (bodyl_constants s) = 290 /\
  slots_per_epoch (bodyl_constants s) = 7140 /\ bl_timestamp (bodyl_blockchain s) = 1636093080000.
Proof.
  destruct state_77749 as (B & H). revert B H. generalize state_77749_bytes. intros bs B H.
  destruct (readb_ok bs sayb H B) as (v & b & R & _ & _ & D & T & P). exists v, b. split; [exact R|]. split; [exact D|]. split; [exact T|].
  unfold sayb in P. cbv zeta in *. rewrite !andb_true_iff, !Z.eqb_eq in P. tauto.
Qed.
Example C100_ex : exists b, down C_block (block 7 1) = Ok b /\
  map (fun c => (fee (p_common (c_payload _ c)), nonce (p_common (c_payload _ c)))) (all_commands (block_of b)) = [(7, 7); (7, 7)].
Proof. eexists. split; [vm_compute; reflexivity|vm_compute; reflexivity]. Qed.

(** ** C101: between bytes and base values *)

(** What is written is read back, however the reader cuts it into pieces. *)
Theorem C101_round_trip : forall cap checked c t b, In (c, t) converted -> base_val c t b -> u64s_below t (up c b) -> 1 <= cap ->
  exists bs, try_into_binprot checked c t b = Ok bs /\ bytes_ok bs /\
    forall i, Forall (fun ch => ch <> []) i -> List.concat i = bs -> try_from_binprot cap checked c t i = Ok b.
Proof.
  intros cap checked c t b I B U Hc. destruct (C99_back _ _ _ I B) as (R & D).
  destruct (C11_round_trip checked t _ (converted_wire _ _ I) R U) as (bs & S & O & _). exists bs. split; [exact S|]. split; [exact O|].
  intros i Hi Hcat. unfold try_from_binprot. rewrite (C11_strict_round_trip cap checked t _ bs i (converted_wire _ _ I) R U S Hc Hi Hcat).
  cbn [bind]. rewrite D. reflexivity.
Qed.
(** What is read from any bytes is a base value, the one of the wire value that
    the bytes encode. *)
Theorem C101_sound : forall cap checked c t i b, In (c, t) converted -> 1 <= cap -> Forall (fun ch => ch <> []) i -> bytes_ok (List.concat i) ->
  (try_from_binprot cap checked c t i = Ok b <->
   exists v, from_reader_strict cap checked t i = Ok v /\ rust_val t v /\ u64s_below t v /\ ~ bad t v /\ base_val c t b /\ renumbered t v (up c b)).
Proof.
  intros cap checked c t i b I Hc Hi Hb. unfold try_from_binprot. split.
  - intros E. destruct (from_reader_strict cap checked t i) as [v|e|] eqn:F; try discriminate. cbn [bind] in E. exists v. split; [reflexivity|].
    destruct (strict_sound _ _ _ _ _ (converted_plain _ _ I) Hc Hi Hb F) as (R & U). destruct (down c v) as [b'|e|] eqn:D; try discriminate. injection E as ->.
    destruct (C99_kept _ _ _ _ I R D) as (B & N). repeat (split; [assumption|]). split; [apply (C99_converts_iff c); eauto|auto].
  - intros (v & F & R & _ & NB & B & N). rewrite F. cbn [bind]. apply (C99_converts_iff c t v I R) in NB. destruct NB as (d & D).
    destruct (C99_kept _ _ _ _ I R D) as (B' & M). pose proof (renumbered_fun _ _ _ N _ M) as E.
    destruct (C99_back _ _ _ I B) as (_ & G), (C99_back _ _ _ I B') as (_ & H). rewrite D. cbn [lift]. congruence.
Qed.
(** Reading crashes exactly if the bytes encode a value with a public key or a
    signature that is none. *)
Theorem C101_crashes_iff : forall cap checked c t i, In (c, t) converted -> 1 <= cap -> Forall (fun ch => ch <> []) i -> bytes_ok (List.concat i) ->
  (try_from_binprot cap checked c t i = Panic <-> exists v, from_reader_strict cap checked t i = Ok v /\ bad t v).
Proof.
  intros cap checked c t i I Hc Hi Hb. unfold try_from_binprot. pose proof (strict_calm cap checked t i (converted_plain _ _ I) Hc Hi) as N.
  destruct (from_reader_strict cap checked t i) as [v|e|] eqn:F; [|split; [discriminate|intros (v & E & _); discriminate]|contradiction].
  destruct (strict_sound _ _ _ _ _ (converted_plain _ _ I) Hc Hi Hb F) as (R & _). cbn [bind]. split.
  - intros E. exists v. split; [reflexivity|]. apply (C99_crashes_iff c t v I R).
    destruct (down_correct c t (converted_agrees _ _ I) v R) as [(b & D & _)|(D & _)]; [rewrite D in E; discriminate|exact D].
  - intros (w & E & B). injection E as <-. apply (C99_crashes_iff c t v I R) in B. rewrite B. reflexivity.
Qed.
(** What was read can be written, and reads as the same value again. *)
Theorem C101_again : forall cap checked c t i b, In (c, t) converted -> 1 <= cap -> Forall (fun ch => ch <> []) i -> bytes_ok (List.concat i) ->
  try_from_binprot cap checked c t i = Ok b -> exists bs, try_into_binprot checked c t b = Ok bs /\ bytes_ok bs /\
    forall j, Forall (fun ch => ch <> []) j -> List.concat j = bs -> try_from_binprot cap checked c t j = Ok b.
Proof.
  intros cap checked c t i b I Hc Hi Hb E. apply (C101_sound cap checked c t i b I Hc Hi Hb) in E. destruct E as (v & _ & _ & U & _ & B & N).
  apply (C101_round_trip cap checked c t b I B); [exact (renumbered_small _ _ _ N U)|exact Hc].
Qed.
(** The program's own encodings with version numbers 1 come back byte for byte. *)
Theorem C101_same_bytes : forall cap checked c t v bs i b, In (c, t) converted -> rust_val t v -> u64s_below t v -> to_bytes checked t v = Ok bs ->
  (forall n, inside (TInt U16) (VInt n) t v -> n = 1) -> 1 <= cap -> Forall (fun ch => ch <> []) i -> List.concat i = bs ->
  try_from_binprot cap checked c t i = Ok b -> try_into_binprot checked c t b = Ok bs.
Proof.
  intros cap checked c t v bs i b I R U S V1 Hc Hi Hcat E. unfold try_from_binprot in E.
  rewrite (C11_strict_round_trip cap checked t v bs i (converted_wire _ _ I) R U S Hc Hi Hcat) in E. cbn [bind] in E.
  destruct (down c v) as [b'|e|] eqn:D; try discriminate. injection E as ->. unfold try_into_binprot.
  rewrite (proj2 (C99_exact_iff c t v b I R D) V1). exact S.
Qed.
(** Crash from bytes. *)
Theorem C101_refuted : exists bs, bytes_ok bs /\ bs <> [] /\ try_from_binprot 8192 false C_block ExternalTransitionV1 [bs] = Panic.
Proof.
  assert (I : In (C_block, ExternalTransitionV1) converted) by (left; reflexivity).
  destruct (block_ok 255 1) as (R & U); [unfold byte_ok; lia|lia|].
  destruct (C11_round_trip false _ _ (converted_wire _ _ I) R U) as (bs & S & O & D). exists bs. split; [exact O|].
  assert (N : bs <> []) by (intros ->; specialize (D []); cbn [app] in D; vm_compute in D; discriminate). split; [exact N|].
  unfold try_from_binprot. rewrite (C11_strict_round_trip 8192 false _ _ bs [bs] (converted_wire _ _ I) R U S).
  - cbn [bind]. vm_compute. reflexivity.
  - lia.
  - constructor; [exact N|constructor].
  - cbn [List.concat]. apply app_nil_r.
Qed.
(** A value that meets the hypotheses. *)
Example C101_ex : exists b, down C_block (block 7 1) = Ok b /\ base_val C_block ExternalTransitionV1 b /\ u64s_below ExternalTransitionV1 (up C_block b).
Proof.
  destruct (block_ok 7 1) as (R & U); [unfold byte_ok; lia|lia|]. destruct C99_ex as (_ & (b & D & E) & _). exists b. split; [exact D|].
  split; [apply (C99_kept C_block _ (block 7 1)); [left; reflexivity|exact R|exact D]|]. rewrite E. exact U.
Qed.
(** Bytes of a protocol state, both ways. *)
Example C101_state_77749 : exists b, try_from_binprot 8192 false C_state ProtocolStateV1 [state_77749_bytes] = Ok b /\
  try_into_binprot false C_state ProtocolStateV1 b = Ok state_77749_bytes.
Proof.
  assert (G : match try_from_binprot 8192 false C_state ProtocolStateV1 [state_77749_bytes] with
    Ok b => match try_into_binprot false C_state ProtocolStateV1 b with Ok bs => leqb bs state_77749_bytes | _ => false end | _ => false end = true) by (vm_compute; reflexivity).
  revert G. generalize state_77749_bytes. intros bs G.
  destruct (try_from_binprot 8192 false C_state ProtocolStateV1 [bs]) as [b|e|]; try discriminate. exists b. split; [reflexivity|].
  destruct (try_into_binprot false C_state ProtocolStateV1 b) as [cs|e|]; try discriminate. unfold leqb in G. destruct (list_eq_dec Z.eq_dec cs bs); [congruence|discriminate].
Qed.

(** ** C102: verification and hash of a block received as bytes *)
Section Received.
  Variable PubKey : Type.
  Variable point : PubKey -> Z * Z.
  Variable decompress : pubkey -> option PubKey.
  Variable check : string -> list Z -> PubKey -> Z * Z -> bool.
  Variable cap : Z.
  Variable checked : bool.
  Notation verify := (transition_verify PubKey (Z * Z) point fst decompress check val val state_legacy).
  Notation valid := (valid PubKey (Z * Z) point fst decompress check).
  Notation receive i := (try_from_binprot cap checked C_block ExternalTransitionV1 i).
  Notation input i := (Forall (fun ch => ch <> []) i /\ bytes_ok (List.concat i)).
  Hypothesis Hc : 1 <= cap.

  Lemma received : forall i b, input i -> receive i = Ok b -> exists v, from_reader_strict cap checked ExternalTransitionV1 i = Ok v /\
    rust_val ExternalTransitionV1 v /\ down C_block v = Ok b.
  Proof.
    intros i b (Hi & Hb) E. unfold try_from_binprot in E. destruct (from_reader_strict cap checked ExternalTransitionV1 i) as [v|e|] eqn:F; try discriminate.
    exists v. split; [reflexivity|]. split; [exact (proj1 (strict_sound _ _ _ _ _ (converted_plain C_block _ (or_introl eq_refl)) Hc Hi Hb F))|].
    cbn [bind] in E. destruct (down C_block v); try discriminate. injection E as ->. reflexivity.
  Qed.
  (** A received block is accepted exactly when each signed command anywhere
      in the value that its bytes encode has a valid signature. *)
  Theorem C102_accepted_iff : forall net i b, input i -> receive i = Ok b ->
    (verify net (block_of b) = Ok true <-> exists v, from_reader_strict cap checked ExternalTransitionV1 i = Ok v /\
       forall x, inside SignedCommandV1 x ExternalTransitionV1 v -> exists c, w_command x c /\ valid net c).
  Proof using Hc.
    intros net i b Hi E. destruct (received i b Hi E) as (v & F & R & D). destruct (C100_commands v b R D) as (P & Q). rewrite C50_valid_iff. split.
    - intros A. exists v. split; [exact F|]. intros x I. destruct (P x I) as (c & C & W). exists c. split; [exact W|]. rewrite Forall_forall in A. apply A, C.
    - intros (w & F' & A). assert (w = v) by congruence. subst w. apply Forall_forall. intros c C. destruct (Q c C) as (x & I & W).
      destruct (A x I) as (d & W' & V). rewrite (det_command _ _ _ W W'). exact V.
  Qed.
  (** Verification of a received block can crash only on a command in it whose
      signer is not a point of the curve. *)
  Theorem C102_verify_crash : forall net i b, input i -> receive i = Ok b -> verify net (block_of b) = Panic ->
    exists v x c, from_reader_strict cap checked ExternalTransitionV1 i = Ok v /\ inside SignedCommandV1 x ExternalTransitionV1 v /\ w_command x c /\
      decompress (c_signer _ c) = None.
  Proof using Hc.
    intros net i b Hi E V. destruct (received i b Hi E) as (v & F & R & D). destruct (C100_commands v b R D) as (_ & Q).
    apply C86_panics_iff in V. destruct V as (pre & c & post & L & _ & N). destruct (Q c) as (x & I & W).
    { unfold all_commands. rewrite L. apply in_or_app. right. left. reflexivity. }
    exists v, x, c. auto.
  Qed.

  Variable sha256 : list Z -> list Z.
  Variable legacy : string -> list Z -> Z.
  Notation state b := (rest _ _ _ _ (block_of b)).
  Notation hash b := (state_hash_legacy sha256 legacy (state b)).
  Lemma received_ok : forall i b, input i -> receive i = Ok b -> bytes32 (sl_previous (state b)) /\ body_legacy_ok (sl_body (state b)).
  Proof using Hc.
    intros i b Hi E. destruct (received i b Hi E) as (v & _ & R & D). destruct (C100_block v b R D) as (n & w & _ & _ & x1 & x2 & x3 & x4 & x5 & x6 & x7 & _ & S & _).
    exact (state_ok2 _ _ S).
  Qed.
  (** Received blocks with the same state hash agree on everything that is
      hashed, or show a collision of the hash function. *)
  Theorem C102_same_hash : forall i j b d h, (forall x, bytes32 (sha256 x)) -> input i -> input j -> receive i = Ok b -> receive j = Ok d ->
    same_shape (bodyl_consensus (sl_body (state b))) (bodyl_consensus (sl_body (state d))) -> hash b = Ok h -> hash d = Ok h ->
    (sl_previous (state b) = sl_previous (state d) /\ body_legacy_view sha256 (sl_body (state b)) = body_legacy_view sha256 (sl_body (state d))) \/ collision legacy.
  Proof using Hc.
    intros i j b d h Hs Hi Hj Eb Ed S B D. destruct (received_ok i b Hi Eb) as (P & O), (received_ok j d Hj Ed) as (P' & O').
    exact (C90_state_legacy sha256 Hs legacy _ _ h P P' O O' S B D).
  Qed.
  (** The state hash of a received block is computed, or computing it crashes
      because some hash in it is no field element. *)
  Theorem C102_hash_crashes_iff : forall i b, input i -> receive i = Ok b ->
    (hash b = Panic <-> Exists (fun h => ~ canonical h) (sl_previous (state b) :: body_legacy_hashes (sl_body (state b)))).
  Proof using Hc. intros i b Hi E. apply C91_legacy_panics_iff. Qed.
End Received.

(** A block is received from bytes, and computing its state hash crashes,
    whatever the hash functions. *)
Definition overwrite (n : Z) (l bs : list Z) : list Z := firstn (Z.to_nat n) bs ++ l ++ skipn (Z.to_nat n + length l) bs.
Definition hash_bytes : list Z :=
  match to_bytes false ExternalTransitionV1 (block 7 1) with Ok bs => overwrite 4 (List.repeat 255 32) bs | _ => [] end.
Theorem C102_hash_refuted : exists bs, bytes_ok bs /\ exists b, try_from_binprot 8192 false C_block ExternalTransitionV1 [bs] = Ok b /\
  forall sha256 legacy, state_hash_legacy sha256 legacy (rest _ _ _ _ (block_of b)) = Panic.
Proof.
  assert (B : bytes_ok hash_bytes) by (apply fixture_bytes; vm_compute; reflexivity).
  assert (H : match try_from_binprot 8192 false C_block ExternalTransitionV1 [hash_bytes] with
    Ok b => FP_MODULUS <=? le_val (sl_previous (rest _ _ _ _ (block_of b))) | _ => false end = true) by (vm_compute; reflexivity).
  revert B H. generalize hash_bytes. intros bs B H. exists bs. split; [exact B|].
  destruct (try_from_binprot 8192 false C_block ExternalTransitionV1 [bs]) as [b|e|]; try discriminate. exists b. split; [reflexivity|].
  intros sha256 legacy. apply C91_legacy_panics_iff. apply Exists_cons_hd. unfold canonical. lia.
Qed.
(** A block that meets the hypotheses: with a scheme that accepts every
    signature it is accepted, with one that accepts none it is rejected, and
    its state hash is computed. *)
Example C102_ex : exists b bs, try_into_binprot false C_block ExternalTransitionV1 b = Ok bs /\ bytes_ok bs /\
  (bs <> [] -> try_from_binprot 8192 false C_block ExternalTransitionV1 [bs] = Ok b) /\
  transition_verify unit (Z * Z) (fun _ => (0, 0)) fst (fun _ => Some tt) (fun _ _ _ _ => true) val val state_legacy MAINNET (block_of b) = Ok true /\
  transition_verify unit (Z * Z) (fun _ => (0, 0)) fst (fun _ => Some tt) (fun _ _ _ _ => false) val val state_legacy MAINNET (block_of b) = Ok false /\
  exists h, state_hash_legacy (fun _ => List.repeat 7 32) (fun _ l => hd 0 l) (rest _ _ _ _ (block_of b)) = Ok h.
Proof.
  destruct C101_ex as (b & D & B & U). destruct (C101_round_trip 8192 false C_block _ b (or_introl eq_refl) B U ltac:(lia)) as (bs & S & O & T).
  assert (H : match down C_block (block 7 1) with
    Ok b => match transition_verify unit (Z * Z) (fun _ => (0, 0)) fst (fun _ => Some tt) (fun _ _ _ _ => true) val val state_legacy MAINNET (block_of b),
      transition_verify unit (Z * Z) (fun _ => (0, 0)) fst (fun _ => Some tt) (fun _ _ _ _ => false) val val state_legacy MAINNET (block_of b),
      state_hash_legacy (fun _ => List.repeat 7 32) (fun _ l => hd 0 l) (rest _ _ _ _ (block_of b)) with Ok true, Ok false, Ok _ => true | _, _, _ => false end
    | _ => false end = true) by (vm_compute; reflexivity).
  rewrite D in H. exists b, bs. split; [exact S|]. split; [exact O|]. split.
  { intros N. apply T; [constructor; [exact N|constructor]|]. cbn [List.concat]. apply app_nil_r. }
  revert H. generalize (block_of b). intros t H.
  destruct (transition_verify _ _ _ _ _ (fun _ _ _ _ => true) _ _ _ _ t) as [[|]|e|]; try discriminate.
  destruct (transition_verify _ _ _ _ _ (fun _ _ _ _ => false) _ _ _ _ t) as [[|]|e|]; try discriminate.
  destruct (state_hash_legacy _ _ (rest _ _ _ _ t)) as [h|e|]; try discriminate. eauto.
Qed.

Print Assumptions C99_crashes_iff.
Print Assumptions C99_converts_iff.
Print Assumptions C99_kept.
Print Assumptions C99_exact_iff.
Print Assumptions C99_back.
Print Assumptions C99_same_iff.
Print Assumptions C99_crash_refuted.
Print Assumptions C99_loss_refuted.
Print Assumptions C100_state.
Print Assumptions C100_command.
Print Assumptions C100_block.
Print Assumptions C100_commands.
Print Assumptions C101_round_trip.
Print Assumptions C101_sound.
Print Assumptions C101_crashes_iff.
Print Assumptions C101_again.
Print Assumptions C101_same_bytes.
Print Assumptions C101_refuted.
Print Assumptions C102_accepted_iff.
Print Assumptions C102_verify_crash.
Print Assumptions C102_same_hash.
Print Assumptions C102_hash_crashes_iff.
Print Assumptions C102_hash_refuted.
