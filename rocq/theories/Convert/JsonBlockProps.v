(** C123: blocks, protocol states and commands through JSON. *)

From Coq Require Import String ZArith List Bool Lia ZifyBool ZifyNat.
From Verif Require Import Lib.Res Lib.Bytes BinProt.Prim BinProt.Codec BinProt.CodecSpec BinProt.CodecProofs BinProt.BufRead Wire.Types Text.FieldText Text.Base58 Text.Base58Props
  Text.Checksum Text.ChecksumProps Ledger.AccountWire Ledger.AccountWireSpec Json.Json Json.JsonTypes Json.JsonSpec Json.JsonFacts Json.JsonReadFacts Json.JsonProps
  Convert.Conv Convert.BlockConv Convert.ConvSpec Convert.ConvFacts Convert.View Convert.Block Convert.BlockFacts Convert.BlockProps.
From Verif Require Import Convert.JsonBlock Convert.JsonBlockSpec Convert.JsonBlockFacts.
Import ListNotations.
Local Open Scope string_scope.
Local Open Scope list_scope.
Local Open Scope Z_scope.
Notation length := List.length.

Lemma forms_ok : forall d c t, In (d, c, t) json_forms -> json_type d t /\ In (c, t) converted.
Proof.
  intros d c t H. destruct H as [E|[E|[E|[]]]]; injection E as <- <- <-.
  - split; [exists "ExternalTransition"|left; reflexivity]. unfold json_types. repeat (try (left; reflexivity); right).
  - split; [exists "ProtocolState"|right; left; reflexivity]. unfold json_types. repeat (try (left; reflexivity); right).
  - split; [exists "SignedCommand"|right; right; left; reflexivity]. unfold json_types. repeat (try (left; reflexivity); right).
Qed.

Lemma read_keys : forall d v, leaves read_ok d v -> leaves key_ok d v.
Proof.
  enough (X : (forall d v, leaves read_ok d v -> leaves key_ok d v) /\ (forall fs vs, leaves_flds read_ok fs vs -> leaves_flds key_ok fs vs) /\
    (forall ws i vs, leaves_vars read_ok ws i vs -> leaves_vars key_ok ws i vs)) by apply X.
  apply json_ind; try (intros; exact I).
  - intros l v H. exact (proj1 H).
  - intros d0 IH v H. destruct v; try exact I. destruct vs as [|a [|b [|]]]; try exact I; destruct a; try exact I; exact (IH _ H).
  - intros d0 IH v H. destruct v; try exact I. exact (IH _ H).
  - intros d0 IH v H. destruct v; try exact I. exact (Forall_impl _ IH H).
  - intros fs IH v H. destruct v; try exact I. exact (IH _ H).
  - intros fs IH v H. destruct v; try exact I. exact (IH _ H).
  - intros tg p ws IH v H. destruct v; try exact I. exact (IH _ _ H).
  - intros nm sk d0 IHd fs IH vs H. destruct vs as [|v vs]; [destruct sk; exact I|]. destruct sk; [exact (IH _ H)|].
    exact (conj (IHd _ (proj1 H)) (IH _ (proj2 H))).
  - intros nm sh fs IHf ws IH i vs H. destruct i; [exact (IHf _ H)|exact (IH _ _ H)].
Qed.
Lemma up_every : forall c t b, In (c, t) converted -> base_val c t b ->
  rust_val t (up c b) /\ down c (up c b) = Ok b /\ every version_one t (up c b) /\ every key_good t (up c b).
Proof.
  intros c t b I B. destruct (C99_back c t b I B) as (R & D). split; [exact R|]. split; [exact D|].
  destruct (C99_kept c t _ b I R D) as (_ & N). split.
  - intros u w J -> n ->. exact (renumbered_ones _ _ _ N n J).
  - intros u w J -> K. assert (X : ~ bad t (up c b)) by (apply (C99_converts_iff c t _ I R); eauto).
    apply X. left. eauto.
Qed.

(** ** The block *)
Lemma block_shape : forall b, base_val C_block ExternalTransitionV1 b -> exists b1 b2 b3 b4 b5 b6 b7, b = VTup [b1; b2; b3; b4; b5; b6; b7] /\
  base_val C_block ExternalTransitionV1 (released b).
Proof.
  intros b B. inversion B as [|c t b' B1| | | | | | | | | | ]; subst. inversion B1 as [| | | | | | | | |wire fields ts us bs E Bs| | ]; subst. clear B B1.
  destruct us as [|u1 [|u2 [|u3 [|u4 [|u5 [|u6 [|u7 [|u8 us]]]]]]]]; try discriminate E.
  injection E as E1 E2 E3 E4 E5 E6 E7. cbn [map snd] in Bs.
  repeat match goal with H : base_vals (_ :: _) _ _ |- _ => inversion H; clear H; subst | H : base_vals [] _ _ |- _ => inversion H; clear H; subst end.
  do 7 eexists. split; [reflexivity|]. cbn [released]. apply B_ver. apply (B_struct _ _ _ [ProtocolStateV1; ProtocolStateProofV1; StagedLedgerDiffV1; DeltaTransitionChainProof; ProtocolVersionV1; TOpt ProtocolVersionV1; TUnit]); [reflexivity|].
  cbn [map snd]. do 4 (constructor; [assumption|]). constructor.
  { apply B_ver. apply (B_struct _ _ _ [TInt U32; TInt U32; TInt U32]); [reflexivity|]. cbn [map snd].
    repeat constructor; cbn; lia. }
  constructor; [apply B_none|]. constructor; [apply B_same; split; exact I|constructor].
Qed.
Lemma norm_same : forall d t u, no_skip d = true -> wire_ty d = t -> rust_val t u -> every version_one t u -> norm d u = u.
Proof. intros d t u K <- Ru Eu. apply (proj1 norm_all d u Ru). exact (proj1 declared_all d K u Ru Eu). Qed.
(** The carried part of a block on the wire is the wire form of [released]. *)
Lemma block_norm : forall b, base_val C_block ExternalTransitionV1 b -> norm jExternalTransition (up C_block b) = up C_block (released b).
Proof.
  intros b B. destruct (up_every C_block ExternalTransitionV1 b) as (R & _ & E & _); [left; reflexivity|exact B|].
  destruct (block_shape b B) as (b1 & b2 & b3 & b4 & b5 & b6 & b7 & -> & _). clear B. cbn [released].
  remember (up (Ver (Ver C_ProtocolState)) b1) as u1 eqn:U1. remember (up (Ver (Ver (Ver (Ver C_ProtocolStateProof)))) b2) as u2 eqn:U2.
  remember (up (Ver C_StagedLedgerDiff) b3) as u3 eqn:U3. remember (up C_DeltaTransitionChainProof b4) as u4 eqn:U4.
  assert (X : up C_block (VTup [b1; b2; b3; b4; b5; b6; b7]) = VTup [VInt 1; VTup [u1; u2; u3; u4; up (Ver C_ProtocolVersion) b5; up (Opt (Ver C_ProtocolVersion)) b6; b7]])
    by (subst; reflexivity).
  assert (Y : up C_block (VTup [b1; b2; b3; b4; VTup [VInt 2; VInt 0; VInt 0]; VNone; VUnit]) =
    VTup [VInt 1; VTup [u1; u2; u3; u4; DEFAULT_PROTOCOL_VERSION; VNone; VUnit]]) by (subst; reflexivity).
  rewrite X in *. rewrite Y. clear X Y U1 U2 U3 U4.
  apply ver_shape in R. destruct R as (n & w & Q & R). injection Q as <- <-.
  apply typed_tup in R. destruct R as (_ & vs & Q & R). injection Q as <-. destruct R as (R1 & R2 & R3 & R4 & _).
  apply every_tup in E. apply everys_cons in E. destruct E as (_ & E). apply everys_cons in E. destruct E as (E & _).
  apply every_tup in E. apply everys_cons in E. destruct E as (E1 & E). apply everys_cons in E. destruct E as (E2 & E).
  apply everys_cons in E. destruct E as (E3 & E). apply everys_cons in E. destruct E as (E4 & _).
  change (norm jExternalTransition _) with (VTup [VInt 1; VTup [norm jProtocolState u1; norm jProtocolStateProof64 u2; norm jDiff u3; norm jDeltaProof u4;
    DEFAULT_PROTOCOL_VERSION; VNone; VUnit]]).
  rewrite (norm_same jProtocolState ProtocolStateV1 u1), (norm_same jProtocolStateProof64 ProtocolStateProofV1 u2), (norm_same jDiff StagedLedgerDiffV1 u3),
    (norm_same jDeltaProof DeltaTransitionChainProof u4); auto; vm_compute; reflexivity.
Qed.

Lemma down_default : forall n v1 v2 v3 v4 b, down C_block (VTup [VInt n; VTup [v1; v2; v3; v4; DEFAULT_PROTOCOL_VERSION; VNone; VUnit]]) = Ok b ->
  released b = b.
Proof.
  intros n v1 v2 v3 v4 b D.
  remember (Ver (Ver C_ProtocolState)) as c1 eqn:C1. remember (Ver (Ver (Ver (Ver C_ProtocolStateProof)))) as c2 eqn:C2.
  remember (Ver C_StagedLedgerDiff) as c3 eqn:C3. remember C_DeltaTransitionChainProof as c4 eqn:C4.
  assert (X : down C_block (VTup [VInt n; VTup [v1; v2; v3; v4; DEFAULT_PROTOCOL_VERSION; VNone; VUnit]]) =
    let* bs := (let* b1 := down c1 v1 in let* bs := (let* b2 := down c2 v2 in let* bs := (let* b3 := down c3 v3 in let* bs := (let* b4 := down c4 v4 in
      let* bs := Ok [VTup [VInt 2; VInt 0; VInt 0]; VNone; VUnit] in Ok (b4 :: bs)) in Ok (b3 :: bs)) in Ok (b2 :: bs)) in Ok (b1 :: bs)) in Ok (VTup bs))
    by (subst; reflexivity).
  rewrite X in D. clear X C1 C2 C3 C4.
  destruct (down c1 v1); try discriminate. destruct (down c2 v2); try discriminate. destruct (down c3 v3); try discriminate.
  destruct (down c4 v4); try discriminate. cbn [bind] in D. injection D as <-. reflexivity.
Qed.

Section Props.
  Variable checked : bool.
  Notation into d c b := (try_into_json checked sha_checksum (into_address sha_checksum) d c b).
  Notation from d c j := (try_from_json checked sha_checksum (from_address sha_checksum) d c j).
  Notation write := (jser checked sha_checksum (into_address sha_checksum)).
  Notation read := (jde checked sha_checksum (from_address sha_checksum)).

  Lemma through : forall d c t b, In (d, c, t) json_forms -> base_val c t b ->
    exists j, into d c b = Ok j /\ read d j = Ok (up c (carried t b)) /\ from d c j = Ok (carried t b).
  Proof using Type.
    intros d c t b F B. destruct (forms_ok d c t F) as (T & I). destruct (up_every c t b I B) as (R & D & E & K).
    assert (L : leaves key_ok d (up c b)).
    { apply (proj1 keys_all); rewrite (json_type_wire d t T); assumption. }
    destruct (C82_round_trip checked sha_checksum (into_address sha_checksum) (from_address sha_checksum) sha_checksum_len sha_checksum_bytes sha_addr_back
      d t (up c b) T R L) as (j & S & J).
    exists j. split; [exact S|]. 
    assert (N : norm d (up c b) = up c (carried t b) /\ down c (up c (carried t b)) = Ok (carried t b)).
    { destruct F as [F|[F|[F|[]]]]; injection F as <- <- <-.
      - split; [exact (block_norm b B)|]. apply (C99_back _ _ _ I). destruct (block_shape b B) as (_ & _ & _ & _ & _ & _ & _ & _ & B'). exact B'.
      - split; [|exact D]. change (carried ProtocolStateV1 b) with b. apply (norm_same _ ProtocolStateV1); [vm_compute; reflexivity|vm_compute; reflexivity|exact R|exact E].
      - split; [|exact D]. change (carried SignedCommandV1 b) with b. apply (norm_same _ SignedCommandV1); [vm_compute; reflexivity|vm_compute; reflexivity|exact R|exact E]. }
    destruct N as (N & DN). rewrite N in J. split; [exact J|]. unfold try_from_json. rewrite J. cbn [bind]. rewrite DN. reflexivity.
  Qed.

  (** Every block, state and command is written, and read back with all that
      JSON carries. *)
  Theorem C123_round_trip : forall d c t b, In (d, c, t) json_forms -> base_val c t b ->
    exists j, into d c b = Ok j /\ from d c j = Ok (carried t b).
  Proof using Type. intros d c t b F B. destruct (through d c t b F B) as (j & S & _ & D). eauto. Qed.
  Theorem C123_exact_iff : forall d c t b, In (d, c, t) json_forms -> base_val c t b ->
    ((exists j, into d c b = Ok j /\ from d c j = Ok b) <-> carried t b = b).
  Proof using Type.
    intros d c t b F B. destruct (through d c t b F B) as (j & S & _ & D). split.
    - intros (j' & S' & D'). rewrite S in S'. injection S' as <-. rewrite D in D'. injection D' as E. exact E.
    - intros E. exists j. rewrite E in D. auto.
  Qed.
  (** Two values with one document agree in all that JSON carries. *)
  Theorem C123_injective : forall d c t a b, In (d, c, t) json_forms -> base_val c t a -> base_val c t b ->
    into d c a = into d c b -> carried t a = carried t b.
  Proof using Type.
    intros d c t a b F A B. destruct (through d c t a F A) as (j & S & _ & D). destruct (through d c t b F B) as (k & S' & _ & D').
    intros E. congruence.
  Qed.

  (** What the network sent and what JSON carries of it are the same block. *)
  Theorem C123_parity : forall cap d c t i b, In (d, c, t) json_forms -> 1 <= cap -> Forall (fun ch => ch <> []) i -> bytes_ok (List.concat i) ->
    try_from_binprot cap checked c t i = Ok b -> exists j, into d c b = Ok j /\ from d c j = Ok (carried t b).
  Proof using Type.
    intros cap d c t i b F Hc Hi Hb E. apply C123_round_trip; [exact F|].
    apply (C101_sound cap checked c t i b (proj2 (forms_ok d c t F)) Hc Hi Hb) in E. destruct E as (v & _ & _ & _ & _ & B & _). exact B.
  Qed.
  (** The commands and the protocol state are kept. *)
  Theorem C123_block_kept : forall b, base_val C_block ExternalTransitionV1 b ->
    exists j b', into jExternalTransition C_block b = Ok j /\ from jExternalTransition C_block j = Ok b' /\ block_of b' = block_of b.
  Proof using Type.
    intros b B. destruct (C123_round_trip jExternalTransition C_block ExternalTransitionV1 b) as (j & S & D); [left; reflexivity|exact B|].
    exists j, (released b). split; [exact S|]. split; [exact D|].
    destruct (block_shape b B) as (b1 & b2 & b3 & b4 & b5 & b6 & b7 & -> & _). reflexivity.
  Qed.

  (** What is read is a value of the type, and JSON carries all of it. *)
  Theorem C123_read_sound : forall d c t j b, In (d, c, t) json_forms -> json_ok j -> from d c j = Ok b ->
    base_val c t b /\ carried t b = b /\ exists j', into d c b = Ok j' /\ from d c j' = Ok b.
  Proof using Type.
    intros d c t j b F J H. destruct (forms_ok d c t F) as (T & I). unfold try_from_json in H.
    destruct (read d j) as [v|e|] eqn:E; try discriminate. cbn [bind] in H.
    destruct (C84_read_sound checked sha_checksum (from_address sha_checksum) sha_unaddr_ok d t j v T J E) as (R & Dv).
    destruct (down c v) as [b'|e|] eqn:D; try discriminate. injection H as ->.
    destruct (C99_kept c t v b I R D) as (B & _). split; [exact B|].
    enough (C : carried t b = b) by (split; [exact C|]; destruct (C123_round_trip d c t b F B) as (k & S & K); rewrite C in K; eauto).
    destruct F as [F|[F|[F|[]]]]; injection F as <- <- <-; try reflexivity.
    apply ver_shape in R. destruct R as (n & w & -> & R). apply typed_tup in R. destruct R as (_ & vs & -> & R).
    destruct vs as [|v1 [|v2 [|v3 [|v4 [|v5 [|v6 [|v7 [|v8 vs]]]]]]]]; cbn [typed_list] in R; try (exfalso; tauto).
    destruct Dv as (_ & Dv). cbn [declared_flds] in Dv. destruct Dv as (_ & _ & _ & _ & -> & -> & -> & _).
    exact (down_default _ _ _ _ _ _ D).
  Qed.

  (** Public keys are checked by the reader; a signature that is none crashes
      the conversion, and nothing else does. *)
  Theorem C123_crashes_iff : forall d c t j, In (d, c, t) json_forms -> json_ok j ->
    (from d c j = Panic <-> read d j = Panic \/ exists v, read d j = Ok v /\ bad_signature t v).
  Proof using Type.
    intros d c t j F J. destruct (forms_ok d c t F) as (T & I). unfold try_from_json.
    destruct (read d j) as [v|e|] eqn:E; cbn [bind].
    - destruct (C84_read_sound checked sha_checksum (from_address sha_checksum) sha_unaddr_ok d t j v T J E) as (R & Dv).
      assert (K : no_big t v).
      { destruct (proj1 (snd_all checked sha_checksum (from_address sha_checksum) sha_unaddr_ok) d (json_type_wf d t T) (json_type_defaults d t T) j v J E) as (R' & _ & L).
        rewrite <- (json_type_wire d t T). apply (proj1 addressed_all); [|exact R'|exact (read_keys _ _ L)].
        destruct F as [F|[F|[F|[]]]]; injection F as <- <- <-; vm_compute; reflexivity. }
      pose proof (C99_crashes_iff c t v I R) as W. split.
      + intros P. right. exists v. split; [reflexivity|]. assert (Q : down c v = Panic).
        { pose proof (C99_converts_iff c t v I R) as W'. destruct (down c v) as [b|u|] eqn:Dn; [discriminate| |reflexivity].
          exfalso. assert (NB : ~ ~ bad t v) by (intros N; apply W' in N; destruct N as (b & N); discriminate).
          apply NB. intros B. apply W in B. discriminate. }
        apply W in Q. destruct Q as [(k & Ik & Bk)|Q]; [destruct (K k Ik Bk)|exact Q].
      + intros [P|(w & P & B)]; [discriminate|]. injection P as <-. assert (Q : bad t v) by (right; exact B). apply W in Q. rewrite Q. reflexivity.
    - split; [discriminate|]. intros [P|(w & P & _)]; discriminate.
    - split; auto.
  Qed.
End Props.

(** ** Cases and counterexamples *)

Definition a_pub : val := VTup [VInt 7; VBool true].
(** a payment of an amount *)
Definition a_command (amount : Z) : val :=
  VTup [VTup [VTup [VInt 2000000; VInt 1; a_pub; VInt 3; VInt 4294967295; VSeq (map VInt (1 :: 2 :: 104 :: 105 :: List.repeat 0 30))];
              VEnum 0 [VTup [a_pub; VTup [VInt 8; VBool false]; VInt 1; VInt amount]]];
        a_pub; VTup [VInt 5; VInt 6]].
Lemma a_command_ok : base_val C_command SignedCommandV1 (a_command 1500) /\ base_val C_command SignedCommandV1 (a_command (2 ^ 63)).
Proof.
  split; (eapply (C99_kept C_command _ (up C_command (a_command _))); [right; right; left; reflexivity| |vm_compute; reflexivity]);
    vm_compute; repeat match goal with |- _ /\ _ => split end; first [exact I|discriminate|reflexivity].
Qed.
Example C123_ex : base_val C_command SignedCommandV1 (a_command 1500) /\ carried SignedCommandV1 (a_command 1500) = a_command 1500 /\
  exists j, try_into_json false sha_checksum (into_address sha_checksum) jSignedCommand C_command (a_command 1500) = Ok j /\
    match j with JObj [(_, JObj [_; (_, JArr [JStr k; JObj [_; _; _; (_, JStr a)]])]); _; _] => k = str_bytes "Payment" /\ a = str_bytes "1500" | _ => False end.
Proof. split; [apply a_command_ok|]. split; [reflexivity|]. eexists. split; vm_compute; [reflexivity|split; reflexivity]. Qed.
Example C123_block_ex : exists b, base_val C_block ExternalTransitionV1 b /\ base_val C_block ExternalTransitionV1 (released b) /\
  carried ExternalTransitionV1 (released b) = released b.
Proof.
  destruct C101_ex as (b & _ & B & _). exists b. split; [exact B|].
  destruct (block_shape b B) as (b1 & b2 & b3 & b4 & b5 & b6 & b7 & -> & B'). split; [exact B'|reflexivity].
Qed.

(** The protocol versions of a block are lost. *)
Theorem C123_version_refuted : exists b, base_val C_block ExternalTransitionV1 b /\ forall checked,
  exists j b', try_into_json checked sha_checksum (into_address sha_checksum) jExternalTransition C_block b = Ok j /\
    try_from_json checked sha_checksum (from_address sha_checksum) jExternalTransition C_block j = Ok b' /\ b' <> b.
Proof.
  destruct C101_ex as (b & D & B & _). exists b. split; [exact B|]. intros checked.
  destruct (C123_round_trip checked jExternalTransition C_block ExternalTransitionV1 b) as (j & S & R); [left; reflexivity|exact B|].
  exists j, (released b). split; [exact S|]. split; [exact R|]. intros E.
  assert (X : match down C_block (block 7 1) with Ok (VTup [_; _; _; _; VTup [VInt n; _; _]; _; _]) => n =? 7 | _ => false end = true) by (vm_compute; reflexivity).
  rewrite D in X. destruct (block_shape b B) as (b1 & b2 & b3 & b4 & b5 & b6 & b7 & -> & _). cbn [released] in E. injection E as <- <- <-. discriminate.
Qed.
(** A document is read whose signature crashes the conversion. *)
Definition bad_command : val :=
  match up C_command (a_command 1500) with
  | VTup [m; VTup [n; VTup [p; k; _]]] => VTup [m; VTup [n; VTup [p; k; VTup [VInt 1; VTup [VInt 1; VTup [bytes_to (List.repeat 255 32); bytes_to (List.repeat 0 32)]]]]]]
  | v => v
  end.
Theorem C123_signature_refuted : exists j, jde false sha_checksum (from_address sha_checksum) jSignedCommand j = Ok bad_command /\
  try_from_json false sha_checksum (from_address sha_checksum) jSignedCommand C_command j = Panic.
Proof.
  exists (match jser false sha_checksum (into_address sha_checksum) jSignedCommand bad_command with Ok j => j | _ => JNull end).
  split; vm_compute; reflexivity.
Qed.
(** A payment of 2^63 comes by JSON but cannot be handed on in bytes. *)
Theorem C123_sent_refuted : exists b, base_val C_command SignedCommandV1 b /\
  (exists j, try_into_json false sha_checksum (into_address sha_checksum) jSignedCommand C_command b = Ok j /\
    try_from_json false sha_checksum (from_address sha_checksum) jSignedCommand C_command j = Ok b) /\
  exists bs e, try_into_binprot false C_command SignedCommandV1 b = Ok bs /\ try_from_binprot 8192 false C_command SignedCommandV1 [bs] = Err e.
Proof.
  exists (a_command (2 ^ 63)). split; [apply a_command_ok|]. split.
  - apply (C123_exact_iff false jSignedCommand C_command SignedCommandV1); [right; right; left; reflexivity|apply a_command_ok|reflexivity].
  - assert (H : match try_into_binprot false C_command SignedCommandV1 (a_command (2 ^ 63)) with
      | Ok bs => match try_from_binprot 8192 false C_command SignedCommandV1 [bs] with Err _ => true | _ => false end | _ => false end = true)
      by (vm_compute; reflexivity).
    destruct (try_into_binprot _ _ _ _) as [bs|e|]; try discriminate. exists bs.
    destruct (try_from_binprot _ _ _ _ _) as [b|e|]; try discriminate. exists e. auto.
Qed.

Print Assumptions C123_round_trip.
Print Assumptions C123_exact_iff.
Print Assumptions C123_injective.
Print Assumptions C123_parity.
Print Assumptions C123_block_kept.
Print Assumptions C123_read_sound.
Print Assumptions C123_crashes_iff.
Print Assumptions C123_version_refuted.
Print Assumptions C123_signature_refuted.
Print Assumptions C123_sent_refuted.
