(** Signed commands: theorems. *)

From Coq Require Import String ZArith List Bool Lia ZifyBool ZifyNat.
From Verif Require Import Lib.Res Lib.Bytes Text.FieldText Text.Memo Hashing.ROInput Hashing.ROInputProps Hashing.Command.
Import ListNotations.
Local Open Scope string_scope.
Local Open Scope list_scope.
Local Open Scope Z_scope.
Notation length := List.length.

(** Values of the Rust types: unsigned integers of 32 and 64 bits, bytes. *)
Definition u32 (x : Z) : Prop := 0 <= x < 2 ^ 32.
Definition u64 (x : Z) : Prop := 0 <= x < 2 ^ 64.
Definition common_ok (c : common) : Prop :=
  u64 (fee c) /\ u64 (fee_token c) /\ u32 (nonce c) /\ u32 (valid_until c) /\ bytes_ok (memo c).
Definition body_ok (b : body) : Prop :=
  match b with Payment _ _ token amount => u64 token /\ u64 amount | SetDelegate _ _ => True end.
Definition payload_ok (p : payload) : Prop := common_ok (p_common p) /\ body_ok (p_body p).

(** ** The input of a payload, laid out *)

Definition body_bits (b : body) : list bool :=
  match b with
  | Payment s r t a => [false; false; false] ++ [pk_odd s] ++ [pk_odd r] ++ byte_bits (le_bytes 8 t) ++ byte_bits (le_bytes 8 a) ++ [false]
  | SetDelegate d n => [false; false; true] ++ [pk_odd d] ++ [pk_odd n] ++ byte_bits (le_bytes 8 1) ++ byte_bits (le_bytes 8 0) ++ [false]
  end.
Definition body_fields (b : body) : list Z :=
  match b with Payment s r _ _ => [pk_x s; pk_x r] | SetDelegate d n => [pk_x d; pk_x n] end.
Definition common_bits (c : common) : list bool :=
  byte_bits (le_bytes 8 (fee c)) ++ byte_bits (le_bytes 8 (fee_token c)) ++ [pk_odd (fee_payer_pk c)] ++
  byte_bits (le_bytes 4 (nonce c)) ++ byte_bits (le_bytes 4 (valid_until c)) ++ byte_bits (memo c).
Lemma roinput_eq : forall p, to_roinput p =
  mk_lroi (pk_x (fee_payer_pk (p_common p)) :: body_fields (p_body p)) (common_bits (p_common p) ++ body_bits (p_body p)).
Proof.
  intros [c b]. unfold to_roinput. cbn [p_body p_common].
  destruct b as [s r t a|d n]; unfold l_append_bools, PAYMENT_TX_TAG, DELEGATION_TX_TAG;
    unfold l_append_field, l_append_u64, l_append_u32, l_append_bytes, l_append_bool, l_new;
    cbn [fold_left l_fields l_bits app body_fields body_bits];
    unfold common_bits; repeat rewrite <- app_assoc; reflexivity.
Qed.
Lemma body_bits_length : forall b, length (body_bits b) = 134%nat.
Proof.
  intros [s r t a|d n]; unfold body_bits; rewrite !app_length, !byte_bits_length, !le_bytes_length; reflexivity.
Qed.
Lemma common_bits_length : forall c, length (common_bits c) = (193 + 8 * length (memo c))%nat.
Proof.
  intros c. unfold common_bits. rewrite !app_length, !byte_bits_length, !le_bytes_length. cbn [length]. lia.
Qed.

Lemma common_inj : forall c d, common_ok c -> common_ok d -> length (memo c) = length (memo d) ->
  pk_x (fee_payer_pk c) = pk_x (fee_payer_pk d) -> common_bits c = common_bits d -> c = d.
Proof.
  intros [f1 t1 [x1 o1] n1 v1 m1] [f2 t2 [x2 o2] n2 v2 m2] C D L X E. unfold common_ok, common_bits in *.
  cbn [fee fee_token fee_payer_pk nonce valid_until memo pk_x pk_odd] in *. destruct C as (C1 & C2 & C3 & C4 & C5), D as (D1 & D2 & D3 & D4 & D5).
  apply app_split in E; [|rewrite !byte_bits_length, !le_bytes_length; reflexivity]. destruct E as [E1 E].
  apply app_split in E; [|rewrite !byte_bits_length, !le_bytes_length; reflexivity]. destruct E as [E2 E].
  apply app_split in E; [|reflexivity]. destruct E as [E3 E].
  apply app_split in E; [|rewrite !byte_bits_length, !le_bytes_length; reflexivity]. destruct E as [E4 E].
  apply app_split in E; [|rewrite !byte_bits_length, !le_bytes_length; reflexivity]. destruct E as [E5 E].
  apply le_bits_inj in E1; [|assumption|assumption]. apply le_bits_inj in E2; [|assumption|assumption].
  apply le_bits_inj in E4; [|assumption|assumption]. apply le_bits_inj in E5; [|assumption|assumption].
  apply byte_bits_inj in E; [|assumption|assumption]. injection E3 as E3. subst. reflexivity.
Qed.
Lemma body_inj : forall a b, body_ok a -> body_ok b -> body_fields a = body_fields b -> body_bits a = body_bits b -> a = b.
Proof.
  intros [[x1 o1] [x2 o2] t1 a1|[x1 o1] [x2 o2]] [[y1 p1] [y2 p2] t2 a2|[y1 p1] [y2 p2]] A B F E;
    cbn [body_fields body_ok pk_x] in *; unfold body_bits in E; cbn [pk_odd] in E.
  - injection F as -> ->. destruct A as [A1 A2], B as [B1 B2].
    apply app_split in E; [|reflexivity]. destruct E as [_ E]. apply app_split in E; [|reflexivity]. destruct E as [O1 E].
    apply app_split in E; [|reflexivity]. destruct E as [O2 E]. injection O1 as ->. injection O2 as ->.
    apply app_split in E; [|rewrite !byte_bits_length, !le_bytes_length; reflexivity]. destruct E as [E1 E].
    apply app_split in E; [|rewrite !byte_bits_length, !le_bytes_length; reflexivity]. destruct E as [E2 _].
    apply le_bits_inj in E1; [|assumption|assumption]. apply le_bits_inj in E2; [|assumption|assumption]. subst. reflexivity.
  - discriminate.
  - discriminate.
  - injection F as -> ->.
    apply app_split in E; [|reflexivity]. destruct E as [_ E]. apply app_split in E; [|reflexivity]. destruct E as [O1 E].
    apply app_split in E; [|reflexivity]. destruct E as [O2 E]. injection O1 as ->. injection O2 as ->. reflexivity.
Qed.

(** ** C48 *)

Lemma roi_inj : forall a b c d, mk_lroi a b = mk_lroi c d -> a = c /\ b = d.
Proof. intros a b c d E. injection E as -> ->. split; reflexivity. Qed.
(** The input determines the payload. *)
Theorem C48_input_injective : forall p q, payload_ok p -> payload_ok q -> to_roinput p = to_roinput q -> p = q.
Proof.
  intros [c a] [d b] [P1 P2] [Q1 Q2]. rewrite !roinput_eq. cbn [p_common p_body] in *. intros E. apply roi_inj in E. destruct E as [F E]. injection F as X F.
  assert (L : length (memo c) = length (memo d)).
  { apply (f_equal (@length bool)) in E. rewrite !app_length, !body_bits_length, !common_bits_length in E. lia. }
  apply app_split in E; [|rewrite !common_bits_length; lia]. destruct E as [E1 E2].
  f_equal; [apply common_inj; assumption|apply body_inj; assumption].
Qed.

Section Scheme.
  Variables PubKey Sig : Type.
  Variable point : PubKey -> Z * Z.
  Variable rx : Sig -> Z.
  Notation message := (message PubKey Sig point rx).

  Lemma message_eq : forall p pk s, message p pk s =
    l_to_fields (mk_lroi (l_fields (to_roinput p) ++ [fst (point pk); snd (point pk); rx s]) (l_bits (to_roinput p))).
  Proof.
    intros. unfold message, Command.message. destruct (to_roinput p) as [fs bs].
    unfold l_append_field. cbn [l_fields l_bits]. rewrite <- !app_assoc. reflexivity.
  Qed.
  (** Also what the signer hashes determines the payload, among payloads with
      memos of one length; and it determines the key and the commitment. *)
  Theorem C48_message_injective : forall p q pk pk' s s', payload_ok p -> payload_ok q ->
    length (memo (p_common p)) = length (memo (p_common q)) ->
    message p pk s = message q pk' s' -> p = q /\ point pk = point pk' /\ rx s = rx s'.
  Proof.
    intros p q pk pk' s s' P Q L E. rewrite !message_eq in E. apply C49_legacy_injective in E.
    - apply roi_inj in E. destruct E as [E1 E2]. apply app_split in E1.
      + destruct E1 as [E1 E3]. injection E3 as X Y R. split; [|split; [|exact R]].
        * apply C48_input_injective; [assumption|assumption|]. destruct (to_roinput p), (to_roinput q). cbn in *. congruence.
        * destruct (point pk), (point pk'). cbn in *. congruence.
      + rewrite !roinput_eq. cbn [l_fields length]. f_equal. destruct (p_body p), (p_body q); reflexivity.
    - rewrite !roinput_eq. cbn [l_fields length app]. f_equal. destruct (p_body p), (p_body q); reflexivity.
    - rewrite !roinput_eq. cbn [l_bits]. rewrite !app_length, !body_bits_length, !common_bits_length. lia.
  Qed.
End Scheme.
(** The networks sign under different domains. *)
Theorem C48_networks : forall a b, domain_string a = domain_string b -> a = b.
Proof. intros [] [] H; try reflexivity; discriminate. Qed.

(** *** Memos of different lengths *)

Lemma bits_val_zeros : forall b k, bits_val (b ++ repeat false k) = bits_val b.
Proof.
  intros. rewrite bits_val_app. assert (Z0 : bits_val (repeat false k) = 0) by (induction k; [reflexivity|]; cbn [repeat bits_val Z.b2z]; lia).
  rewrite Z0. lia.
Qed.
Lemma chunks_fuel : forall k j b, (length b <= k)%nat -> (length b <= j)%nat -> bit_chunks k b = bit_chunks j b.
Proof.
  induction k as [|k IH]; intros j b K J.
  - destruct b; [|cbn in K; lia]. destruct j; reflexivity.
  - destruct j as [|j]; [destruct b; [reflexivity|cbn in J; lia]|]. destruct b as [|x b]; [reflexivity|].
    cbn [bit_chunks]. f_equal. cbn [length] in K, J. apply IH; rewrite skipn_length; cbn [length]; lia.
Qed.
Lemma chunks_zeros : forall k b z, (length b + z <= k)%nat -> b <> [] ->
  (Nat.modulo (length b - 1) 254 + z < 254)%nat ->
  map bits_val (bit_chunks k (b ++ repeat false z)) = map bits_val (bit_chunks k b).
Proof.
  induction k as [|k IH]; intros b z K N M; [destruct b; [congruence|cbn in K; lia]|].
  destruct b as [|x b]; [congruence|]. set (l := x :: b) in *. assert (L : (1 <= length l)%nat) by (cbn; lia).
  assert (U : forall m, m <> [] -> bit_chunks (S k) m = firstn 254 m :: bit_chunks k (skipn 254 m)) by (intros [|? ?]; [congruence|reflexivity]).
  rewrite !U by (unfold l; try rewrite <- app_comm_cons; discriminate). cbn [map]. clearbody l. clear U x b.
  destruct (le_lt_dec (length l) 254) as [S|S].
  - rewrite Nat.mod_small in M by lia.
    rewrite (firstn_all2 (l ++ repeat false z)) by (rewrite app_length, repeat_length; lia).
    rewrite (firstn_all2 l) by lia. rewrite !skipn_all2 by (try rewrite app_length, repeat_length; lia).
    rewrite bits_val_zeros. reflexivity.
  - rewrite firstn_app, skipn_app. replace (254 - length l)%nat with 0%nat by lia. rewrite firstn_O, app_nil_r.
    change (skipn 0 (repeat false z)) with (repeat false z).
    f_equal. apply IH.
    + rewrite skipn_length. lia.
    + intros E. apply (f_equal (@length bool)) in E. rewrite skipn_length in E. cbn in E. lia.
    + rewrite skipn_length. replace (length l - 1)%nat with (length l - 254 - 1 + 1 * 254)%nat in M by lia.
      rewrite Nat.mod_add in M by lia. exact M.
Qed.
Lemma to_fields_zeros : forall fs b z, b <> [] -> (Nat.modulo (length b - 1) 254 + z < 254)%nat ->
  l_to_fields (mk_lroi fs (b ++ repeat false z)) = l_to_fields (mk_lroi fs b).
Proof.
  intros fs b z N M. unfold l_to_fields. cbn [l_fields l_bits]. f_equal.
  rewrite (chunks_fuel (length b) (length (b ++ repeat false z)) b) by (try rewrite app_length; lia).
  apply chunks_zeros; [rewrite app_length, repeat_length; lia|assumption|assumption].
Qed.

(** The hashed bits are padded with zeros, so a memo with one more byte can
    stand for the start of the next field.  A payment of nothing in token 288
    and a delegation are signed by the same signatures. *)
Definition with_memo (c : common) (m : list Z) : common :=
  mk_common (fee c) (fee_token c) (fee_payer_pk c) (nonce c) (valid_until c) m.
Theorem C48_memo_length_refuted : forall PubKey Sig point rx check net c x1 x2 pk (s : Sig),
  length (memo c) = 34%nat ->
  let p := mk_payload c (Payment (mk_pk x1 false) (mk_pk x2 false) 288 0) in
  let q := mk_payload (with_memo c (memo c ++ [0])) (SetDelegate (mk_pk x1 false) (mk_pk x2 false)) in
  p <> q /\ ctx_verify PubKey Sig point rx check net s pk p = ctx_verify PubKey Sig point rx check net s pk q.
Proof.
  intros PubKey Sig point rx check net c x1 x2 pk s L p q. split; [discriminate|]. unfold ctx_verify. f_equal.
  rewrite !message_eq. rewrite !roinput_eq. cbn [l_fields l_bits p q p_common p_body body_fields with_memo fee_payer_pk].
  assert (E : common_bits (with_memo c (memo c ++ [0])) ++ body_bits (SetDelegate (mk_pk x1 false) (mk_pk x2 false)) =
     (common_bits c ++ body_bits (Payment (mk_pk x1 false) (mk_pk x2 false) 288 0)) ++ repeat false 8).
  { unfold common_bits. cbn [with_memo fee fee_token fee_payer_pk nonce valid_until memo]. rewrite byte_bits_app.
    rewrite <- !app_assoc. do 6 f_equal. }
  cbn [pk_x app] in *. rewrite E. symmetry. apply to_fields_zeros.
  - intros N. apply (f_equal (@length bool)) in N. rewrite app_length, body_bits_length in N. cbn in N. lia.
  - rewrite app_length, body_bits_length, common_bits_length, L. apply Nat.ltb_lt. reflexivity.
Qed.

Example C48_ex : exists p q, payload_ok p /\ payload_ok q /\ p <> q /\ length (memo (p_common p)) = length (memo (p_common q)) /\
  to_roinput p <> to_roinput q.
Proof.
  exists (mk_payload (mk_common 2000000000 1 (mk_pk 5 true) 16 271828 (1 :: 0 :: repeat 0 32)) (Payment (mk_pk 5 true) (mk_pk 9 false) 1 1729)),
         (mk_payload (mk_common 2000000000 1 (mk_pk 5 true) 16 271829 (1 :: 0 :: repeat 0 32)) (Payment (mk_pk 5 true) (mk_pk 9 false) 1 1729)).
  assert (B : bytes_ok (1 :: 0 :: repeat 0 32)) by (repeat (apply Forall_cons; [unfold byte_ok; lia|]); apply Forall_nil).
  split; [|split; [|split; [|split]]].
  1,2: unfold payload_ok, common_ok, body_ok, u32, u64; cbn [p_common p_body fee fee_token nonce valid_until memo];
    repeat split; try lia; exact B.
  - discriminate.
  - reflexivity.
  - vm_compute. discriminate.
Qed.

(** ** C50, C51, C86: verification *)

Section Verify.
  Variables PubKey Sig Keypair : Type.
  Variable point : PubKey -> Z * Z.
  Variable rx : Sig -> Z.
  Variable public : Keypair -> PubKey.
  Variable compress : PubKey -> pubkey.
  Variable decompress : pubkey -> option PubKey.
  Variable check : string -> list Z -> PubKey -> Sig -> bool.
  Variable make_sig : string -> lroi -> Keypair -> Sig.
  Variables Status Works Rest : Type.
  Notation ctx_verify := (ctx_verify PubKey Sig point rx check).
  Notation command_verify := (command_verify PubKey Sig point rx decompress check).
  Notation all_verify := (all_verify PubKey Sig point rx decompress check Status).
  Notation transition_verify := (transition_verify PubKey Sig point rx decompress check Status Works Rest).
  Notation with_status := (with_status Sig Status).
  Notation transition := (transition Sig Status Works Rest).
  Notation signed_command := (signed_command Sig).

  (** The signer is a point of the curve, and the signature is theirs. *)
  Definition valid (net : network) (c : signed_command) : Prop :=
    exists pk, decompress (c_signer _ c) = Some pk /\ ctx_verify net (c_signature _ c) pk (c_payload _ c) = true.
  Definition of_user (w : with_status) : signed_command := match data _ _ w with SignedCommand _ c => c end.
  (** The commands of a block in the order of verification. *)
  Definition block_commands (t : transition) : list signed_command :=
    let d := staged_ledger_diff _ _ _ _ t in
    map of_user (match diff_one _ _ _ d with Some one => commands _ _ _ one | None => [] end ++ commands _ _ _ (diff_two _ _ _ d)).

  Lemma all_app : forall net a b, all_verify net (a ++ b) =
    (let* x := all_verify net a in if x then all_verify net b else Ok false).
  Proof.
    induction a as [|w a IH]; intros b; cbn [app Command.all_verify bind]; [reflexivity|].
    destruct (user_command_verify _ _ _ _ _ _ net (data _ _ w)) as [x|e|]; cbn [bind]; [|reflexivity|reflexivity].
    destruct x; [apply IH|reflexivity].
  Qed.
  Lemma transition_all : forall net t, exists ws, transition_verify net t = all_verify net ws /\ block_commands t = map of_user ws.
  Proof.
    intros net [[two one] r]. unfold transition_verify, Command.transition_verify, diff_verify, block_commands.
    cbn [staged_ledger_diff diff_one diff_two]. unfold prediff_verify. destruct one as [one|].
    - eexists. split; [|reflexivity]. rewrite all_app. reflexivity.
    - eexists. split; [|reflexivity]. reflexivity.
  Qed.
  Lemma user_eq : forall net w, user_command_verify PubKey Sig point rx decompress check net (data _ _ w) = command_verify net (of_user w).
  Proof. intros net [[c] s]. reflexivity. Qed.
  Lemma command_true : forall net c, command_verify net c = Ok true <-> valid net c.
  Proof.
    intros. unfold command_verify, Command.command_verify, valid. destruct (decompress _) as [pk|]; split.
    - intros E. injection E as E. eauto.
    - intros (pk' & E & V). injection E as <-. now rewrite V.
    - discriminate.
    - intros (pk' & E & V). discriminate.
  Qed.

  Lemma all_true : forall net ws, all_verify net ws = Ok true <-> Forall (valid net) (map of_user ws).
  Proof.
    intros net ws. induction ws as [|w ws IH]; cbn [Command.all_verify map]; [split; [constructor|reflexivity]|].
    rewrite user_eq. split.
    - intros E. destruct (command_verify net (of_user w)) as [b|e|] eqn:C; cbn [bind] in E; try discriminate.
      destruct b; [|discriminate]. constructor; [apply command_true; exact C|apply IH; exact E].
    - intros F. inversion F as [|? ? V F']; subst. apply command_true in V. rewrite V. cbn [bind]. apply IH, F'.
  Qed.
  (** A block verifies exactly when all its commands are valid. *)
  Theorem C50_valid_iff : forall net t, transition_verify net t = Ok true <-> Forall (valid net) (block_commands t).
  Proof. intros net t. destruct (transition_all net t) as (ws & -> & ->). apply all_true. Qed.
  (** Verification is rejected at the first command that is not valid, when
      its signer is a point of the curve. *)
  Theorem C50_rejects_iff : forall net t, transition_verify net t = Ok false <->
    exists pre c post, block_commands t = pre ++ c :: post /\ Forall (valid net) pre /\
      exists pk, decompress (c_signer _ c) = Some pk /\ ctx_verify net (c_signature _ c) pk (c_payload _ c) = false.
  Proof.
    intros net t. destruct (transition_all net t) as (ws & -> & ->). induction ws as [|w ws IH]; cbn [Command.all_verify map].
    - split; [discriminate|]. intros ([|? ?] & ? & ? & E & _); discriminate.
    - rewrite user_eq. unfold command_verify, Command.command_verify. destruct (decompress _) as [pk|] eqn:D; cbn [bind].
      + destruct (ctx_verify net _ pk _) eqn:V.
        * rewrite IH. split.
          { intros (pre & c & post & E & F & K). exists (of_user w :: pre), c, post. rewrite E. split; [reflexivity|]. split; [|exact K].
            constructor; [exists pk; split; assumption|exact F]. }
          { intros ([|w' pre] & c & post & E & F & K).
            - cbn [app] in E. injection E as <- <-. destruct K as (pk' & D' & V'). rewrite D in D'. injection D' as <-. rewrite V in V'. discriminate.
            - cbn [app] in E. injection E as <- E. inversion F; subst. exists pre, c, post. auto. }
        * split; [|reflexivity]. intros _. exists [], (of_user w), (map of_user ws). split; [reflexivity|]. split; [constructor|]. eauto.
      + split; [discriminate|]. intros ([|w' pre] & c & post & E & F & K).
        * cbn [app] in E. injection E as <- <-. destruct K as (pk' & D' & V'). rewrite D in D'. discriminate.
        * cbn [app] in E. injection E as <- E. inversion F as [|? ? (pk' & D' & _) _]; subst. rewrite D in D'. discriminate.
  Qed.
  (** Verification panics exactly when it reaches a command whose signer is
      not a point of the curve. *)
  Theorem C86_panics_iff : forall net t, transition_verify net t = Panic <->
    exists pre c post, block_commands t = pre ++ c :: post /\ Forall (valid net) pre /\ decompress (c_signer _ c) = None.
  Proof.
    intros net t. destruct (transition_all net t) as (ws & -> & ->). induction ws as [|w ws IH]; cbn [Command.all_verify map].
    - split; [discriminate|]. intros ([|? ?] & ? & ? & E & _); discriminate.
    - rewrite user_eq. unfold command_verify, Command.command_verify. destruct (decompress _) as [pk|] eqn:D; cbn [bind].
      + destruct (ctx_verify net _ pk _) eqn:V.
        * rewrite IH. split.
          { intros (pre & c & post & E & F & K). exists (of_user w :: pre), c, post. rewrite E. split; [reflexivity|]. split; [|exact K].
            constructor; [exists pk; split; assumption|exact F]. }
          { intros ([|w' pre] & c & post & E & F & K).
            - cbn [app] in E. injection E as <- <-. rewrite D in K. discriminate.
            - cbn [app] in E. injection E as <- E. inversion F; subst. exists pre, c, post. auto. }
        * split; [discriminate|]. intros ([|w' pre] & c & post & E & F & K).
          { cbn [app] in E. injection E as <- <-. rewrite D in K. discriminate. }
          { cbn [app] in E. injection E as <- E. inversion F as [|? ? (pk' & D' & V') _]; subst. rewrite D in D'. injection D' as <-.
            rewrite V in V'. discriminate. }
      + split; [|reflexivity]. intros _. exists [], (of_user w), (map of_user ws). split; [reflexivity|]. split; [constructor|exact D].
  Qed.
  (** One key that is not a point of the curve is enough. *)
  Theorem C86_refuted : forall net x s st wk rt p, decompress x = None ->
    transition_verify net (mk_transition Sig Status Works Rest
      (mk_diff _ _ _ (mk_prediff _ _ _ [mk_ws _ _ (SignedCommand _ (mk_command _ p x s)) st] wk) None) rt) = Panic.
  Proof.
    intros net x s st wk rt p D. apply C86_panics_iff. unfold block_commands. cbn [staged_ledger_diff diff_one diff_two commands map app of_user data].
    exists [], (mk_command _ p x s), []. split; [reflexivity|]. split; [constructor|exact D].
  Qed.
  (** Verification looks at nothing else in a block, nor at the statuses. *)
  Theorem C50_only_commands : forall net t u, block_commands t = block_commands u -> transition_verify net t = transition_verify net u.
  Proof.
    intros net t u E. destruct (transition_all net t) as (ws & -> & E1), (transition_all net u) as (vs & -> & E2).
    rewrite E1, E2 in E. clear E1 E2. revert vs E. induction ws as [|w ws IH]; intros [|v vs] E; try discriminate; [reflexivity|].
    cbn [map Command.all_verify] in *. injection E as E1 E2. rewrite !user_eq, E1. rewrite (IH vs E2). reflexivity.
  Qed.

  (** A scheme in which signatures made with a key verify under it. *)
  Definition scheme_ok : Prop :=
    (forall kp, decompress (compress (public kp)) = Some (public kp)) /\
    (forall net p kp, let s := make_sig (domain_string net) (to_roinput p) kp in ctx_verify net s (public kp) p = true).
  (** A command signed with any key verifies, whoever its fee payer is. *)
  Theorem C51_refuted : scheme_ok -> forall net p kp, pk_x (fee_payer_pk (p_common p)) <> pk_x (compress (public kp)) ->
    let c := from_payload PubKey Sig Keypair public compress make_sig p kp net in
    command_verify net c = Ok true /\ c_signer _ c <> fee_payer_pk (p_common (c_payload _ c)).
  Proof.
    intros [R S] net p kp X c. unfold c, from_payload. split; [|cbn; congruence].
    apply command_true. exists (public kp). cbn [c_signer c_signature c_payload]. split; [apply R|apply S].
  Qed.
  (** So does a block that contains it. *)
  Theorem C51_block_refuted : scheme_ok -> forall net p kp st wk rt, pk_x (fee_payer_pk (p_common p)) <> pk_x (compress (public kp)) ->
    exists t, transition_verify net t = Ok true /\
      exists c, In c (block_commands t) /\ c_payload _ c = p /\ c_signer _ c <> fee_payer_pk p.(p_common) /\
      t = mk_transition Sig Status Works Rest (mk_diff _ _ _ (mk_prediff _ _ _ [mk_ws _ _ (SignedCommand _ c) st] wk) None) rt.
  Proof.
    intros S net p kp st wk rt X. destruct (C51_refuted S net p kp X) as [V N].
    eexists. split; [|eexists; split; [|split; [|split; [|reflexivity]]]].
    - apply C50_valid_iff. unfold block_commands. cbn [staged_ledger_diff diff_one diff_two commands map app of_user data].
      constructor; [apply command_true; exact V|constructor].
    - unfold block_commands. cbn [staged_ledger_diff diff_one diff_two commands map app of_user data]. left. reflexivity.
    - reflexivity.
    - exact N.
  Qed.
  (** Signing and verifying on the same network. *)
  Theorem C87_signed_verifies : scheme_ok -> forall net p kp, let c := from_payload PubKey Sig Keypair public compress make_sig p kp net in
    command_verify net c = Ok true /\ c_payload _ c = p /\ decompress (c_signer _ c) = Some (public kp).
  Proof.
    intros [R S] net p kp. cbv zeta. split; [|split; [reflexivity|apply R]]. apply command_true. exists (public kp). unfold from_payload. cbn [c_signer c_signature c_payload]. split; [apply R|apply S].
  Qed.
End Verify.

(** A toy scheme: keys are numbers below 1000, and a signature is the key with the
    domain that was signed.  The keys 1000 and above have no point. *)
Definition toy_public (k : nat) : Z := Z.of_nat k mod 1000.
Definition toy_compress (k : Z) : pubkey := mk_pk k false.
Definition toy_decompress (p : pubkey) : option Z := if pk_x p <? 1000 then Some (pk_x p) else None.
Definition toy_check (d : string) (m : list Z) (k : Z) (s : Z * string) : bool := (fst s =? k) && String.eqb (snd s) d.
Definition toy_sig (d : string) (r : lroi) (k : nat) : Z * string := (toy_public k, d).
Example C51_ex :
  scheme_ok Z (Z * string) nat (fun k => (k, k)) fst toy_public toy_compress toy_decompress toy_check toy_sig /\
  (exists kp p, pk_x (fee_payer_pk (p_common p)) <> pk_x (toy_compress (toy_public kp))) /\
  exists x, toy_decompress x = None.
Proof.
  split; [|split; [|exists (mk_pk 1000 true); reflexivity]].
  - split.
    + intros kp. unfold toy_decompress, toy_compress, toy_public. cbn [pk_x].
      assert (Z.of_nat kp mod 1000 < 1000) by (apply Z.mod_pos_bound; lia). destruct (Z.ltb_spec (Z.of_nat kp mod 1000) 1000); [reflexivity|lia].
    + intros net p kp s. unfold ctx_verify, toy_check, s, toy_sig. cbn [fst snd]. rewrite Z.eqb_refl, String.eqb_refl. reflexivity.
  - exists 7%nat, (mk_payload (mk_common 1 1 (mk_pk 8 false) 0 0 []) (Payment (mk_pk 8 false) (mk_pk 7 false) 1 5)). discriminate.
Qed.
(** A block with a valid and a forged command is rejected; one with a valid
    command alone is accepted. *)
Example C50_ex :
  let p := mk_payload (mk_common 1 1 (mk_pk 7 false) 0 0 []) (Payment (mk_pk 7 false) (mk_pk 9 false) 1 5) in
  let good := mk_ws _ unit (SignedCommand _ (mk_command (Z * string) p (mk_pk 7 false) (7, "CodaSignature"))) tt in
  let forged := mk_ws _ unit (SignedCommand _ (mk_command (Z * string) p (mk_pk 7 false) (9, "CodaSignature"))) tt in
  let v l1 l2 := transition_verify Z (Z * string) (fun k => (k, k)) fst toy_decompress toy_check unit unit unit TESTNET
                   (mk_transition _ _ _ _ (mk_diff _ _ _ (mk_prediff _ _ _ l2 tt) (Some (mk_prediff _ _ _ l1 tt))) tt) in
  v [good] [good] = Ok true /\ v [good] [forged] = Ok false /\ v [forged] [good] = Ok false.
Proof. vm_compute. repeat split. Qed.

(** ** C88: the payment builder *)

(** What a field is after some calls of setters: the argument of the last call
    that sets it, or the default. *)
Definition last_set {A : Type} (sel : setter -> option A) (d : A) (ops : list setter) (v : A) : Prop :=
  (v = d /\ Forall (fun s => sel s = None) ops) \/
  (exists pre s post, ops = pre ++ s :: post /\ sel s = Some v /\ Forall (fun s => sel s = None) post).
Definition sel_transfer (s : setter) : option Z := match s with SetTransferToken t => Some t | _ => None end.
Definition sel_fee_token (s : setter) : option Z := match s with SetFeeToken t => Some t | _ => None end.
Definition sel_fee_payer (s : setter) : option pubkey := match s with SetFeePayer p => Some p | _ => None end.
Definition sel_memo (s : setter) : option (list Z) := match s with SetMemo m => Some m | _ => None end.
Definition sel_valid (s : setter) : option Z := match s with SetValidUntil v => Some v | _ => None end.

Lemma last_set_step : forall A (sel : setter -> option A) d ops s v,
  last_set sel d ops v -> last_set sel d (ops ++ [s]) (match sel s with Some w => w | None => v end).
Proof.
  intros A sel d ops s v H. destruct (sel s) as [w|] eqn:E.
  - right. exists ops, s, []. split; [reflexivity|]. split; [exact E|constructor].
  - destruct H as [[-> F]|(pre & t & post & -> & T & F)].
    + left. split; [reflexivity|]. apply Forall_app. split; [exact F|repeat constructor; exact E].
    + right. exists pre, t, (post ++ [s]). split; [rewrite <- app_assoc; reflexivity|]. split; [exact T|].
      apply Forall_app. split; [exact F|repeat constructor; exact E].
Qed.
(** The built payload: amount, fee, nonce, sender and receiver are those the
    builder was created with; each other field is the last value set, or its
    default. *)
Theorem C88_build : forall from to amount f n ops,
  exists tt ft fp m vu,
    build (fold_left set ops (builder_new from to amount f n)) =
      mk_payload (mk_common f ft fp n vu m) (Payment from to tt amount) /\
    last_set sel_transfer 1 ops tt /\ last_set sel_fee_token 1 ops ft /\ last_set sel_fee_payer from ops fp /\
    last_set sel_memo [] ops m /\ last_set sel_valid (2 ^ 32 - 1) ops vu.
Proof.
  intros from to amount f n ops.
  enough (H : exists tt ft fp m vu, fold_left set ops (builder_new from to amount f n) = mk_builder to from amount tt ft f n m fp vu /\
    last_set sel_transfer 1 ops tt /\ last_set sel_fee_token 1 ops ft /\ last_set sel_fee_payer from ops fp /\
    last_set sel_memo [] ops m /\ last_set sel_valid (2 ^ 32 - 1) ops vu).
  { destruct H as (tt & ft & fp & m & vu & -> & H). exists tt, ft, fp, m, vu. split; [reflexivity|exact H]. }
  induction ops as [|s ops IH] using rev_ind.
  - exists 1, 1, from, [], (2 ^ 32 - 1). split; [reflexivity|]. repeat split; left; split; auto.
  - destruct IH as (tt & ft & fp & m & vu & E & H1 & H2 & H3 & H4 & H5). rewrite fold_left_app. cbn [fold_left]. rewrite E.
    eexists _, _, _, _, _. split; [|split; [apply (last_set_step _ _ _ _ s) in H1; exact H1|
      split; [apply (last_set_step _ _ _ _ s) in H2; exact H2|split; [apply (last_set_step _ _ _ _ s) in H3; exact H3|
      split; [apply (last_set_step _ _ _ _ s) in H4; exact H4|apply (last_set_step _ _ _ _ s) in H5; exact H5]]]]].
    destruct s; reflexivity.
Qed.
(** The specification is a function: it leaves one value. *)
Theorem C88_last_unique : forall A (sel : setter -> option A) d ops v w,
  last_set sel d ops v -> last_set sel d ops w -> v = w.
Proof.
  intros A sel d ops. induction ops as [|s ops IH] using rev_ind; intros v w V W.
  - destruct V as [[-> _]|([|? ?] & ? & ? & E & _)]; try discriminate. destruct W as [[-> _]|([|? ?] & ? & ? & E & _)]; try discriminate. reflexivity.
  - assert (K : forall u, last_set sel d (ops ++ [s]) u -> (sel s = Some u) \/ (sel s = None /\ last_set sel d ops u)).
    { intros u [[-> F]|(pre & t & post & E & T & F)].
      - apply Forall_app in F. destruct F as [F G]. inversion G; subst. right. split; [assumption|left; auto].
      - destruct post as [|q post _] using rev_ind.
        + apply app_inj_tail in E. destruct E as [-> ->]. left. exact T.
        + rewrite app_comm_cons, app_assoc in E. apply app_inj_tail in E. destruct E as [-> ->].
          apply Forall_app in F. destruct F as [F G]. inversion G; subst. right. split; [assumption|]. right. exists pre, t, post. auto. }
    destruct (K v V) as [A1|[A1 A2]], (K w W) as [B1|[B1 B2]]; try congruence. apply IH; assumption.
Qed.
(** A payment built without a memo is not the one built with the memo of the
    empty text, and is signed differently. *)
Theorem C88_default_memo_refuted : forall from to amount f n m, try_from_text [] = Ok m ->
  let p := build (builder_new from to amount f n) in
  let q := build (set (builder_new from to amount f n) (SetMemo m)) in
  p <> q /\ to_roinput p <> to_roinput q.
Proof.
  intros from to amount f n m E p q. vm_compute in E. injection E as <-. split; [discriminate|].
  intros X. apply (f_equal (fun r => length (l_bits r))) in X. rewrite !roinput_eq in X. cbn [l_bits] in X.
  rewrite !app_length, !body_bits_length, !common_bits_length in X. vm_compute in X. discriminate.
Qed.
Example C88_ex : exists ops, length ops = 3%nat /\
  memo (p_common (build (fold_left set ops (builder_new (mk_pk 1 true) (mk_pk 2 true) 5 6 7)))) = [4] /\
  fee_token (p_common (build (fold_left set ops (builder_new (mk_pk 1 true) (mk_pk 2 true) 5 6 7)))) = 9.
Proof. exists [SetMemo [3]; SetFeeToken 9; SetMemo [4]]. repeat split. Qed.

Print Assumptions C48_input_injective.
Print Assumptions C48_message_injective.
Print Assumptions C48_networks.
Print Assumptions C48_memo_length_refuted.
Print Assumptions C50_valid_iff.
Print Assumptions C50_rejects_iff.
Print Assumptions C86_panics_iff.
Print Assumptions C86_refuted.
Print Assumptions C50_only_commands.
Print Assumptions C51_refuted.
Print Assumptions C51_block_refuted.
Print Assumptions C87_signed_verifies.
Print Assumptions C88_build.
Print Assumptions C88_last_unique.
Print Assumptions C88_default_memo_refuted.
