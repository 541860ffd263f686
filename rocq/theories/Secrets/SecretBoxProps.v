(** Wallet files: theorems, with the real checksum of base58 texts. *)

From Coq Require Import String ZArith List Bool Lia ZifyBool ZifyNat.
From Verif Require Import Lib.Res Lib.Bytes Text.Base58 Text.Base58Props Text.Hex Text.HexSpec Text.HexProps Text.Checksum Text.ChecksumProps
  Json.Json GraphQL.GraphQL GraphQL.GraphQLSpec GraphQL.GraphQLFacts Secrets.SecretBox Secrets.SecretBoxSpec.
Import ListNotations.
Local Open Scope string_scope.
Local Open Scope list_scope.
Local Open Scope Z_scope.
Notation length := List.length.
Notation sha := sha_checksum.

(** ** C59: wallet documents *)

Lemma text58_iff : forall s b, base58_decode sha s = Ok b <-> text58 sha s b.
Proof.
  intros s b. unfold base58_decode, text58, VERSION_CHECK_BYTE. split.
  - destruct (from_base58 sha 2 s) eqn:E; try discriminate. intros [= <-].
    apply (C53_canonical sha sha_checksum_len sha_checksum_bytes) in E. exact E.
  - intros (B & ->). change (b58_encode (2 :: b ++ sha (2 :: b))) with (to_base58_string sha 2 b).
    rewrite (C53_round_trip sha sha_checksum_len sha_checksum_bytes); [reflexivity|unfold byte_ok; lia|exact B].
Qed.
Lemma text58_calm : forall s, base58_decode sha s <> Panic.
Proof.
  intros s H. unfold base58_decode in H. destruct (from_base58 sha VERSION_CHECK_BYTE s) eqn:E; try discriminate.
  apply (C53_panics_iff sha sha_checksum_len sha_checksum_bytes) in E. destruct E as (_ & E). vm_compute in E. discriminate.
Qed.
Lemma text58_unique : forall s b b', text58 sha s b -> text58 sha s b' -> b = b'.
Proof. intros s b b' H H'. apply text58_iff in H, H'. congruence. Qed.

Lemma six_iff : forall a b c d e f w, six a b c d e f = Ok w <->
  a = JStr (j_box_primitive w) /\ b = JStr (j_pw_primitive w) /\ c = JStr (j_nonce w) /\ d = JStr (j_pwsalt w) /\
  e = JArr [JNum (j_pwdiff0 w); JNum (j_pwdiff1 w)] /\ f = JStr (j_ciphertext w) /\ j_pwdiff0 w < 2 ^ 63 /\ j_pwdiff1 w < 2 ^ 63.
Proof.
  intros a b c d e f w. split.
  - unfold six. destruct a, b, c, d; cbn [string_of bind]; try discriminate.
    destruct e as [| | | | |[|x [|y [|? ?]]]|]; try discriminate. destruct x as [| |x| | | |]; try discriminate. cbn [i64_of]. destruct (x <? 2 ^ 63) eqn:X; [|discriminate].
    cbn [bind]. destruct y as [| |y| | | |]; try discriminate. cbn [i64_of]. destruct (y <? 2 ^ 63) eqn:Y; [|discriminate]. cbn [bind].
    destruct f; try discriminate. cbn [string_of bind]. intros [= <-].
    cbn [j_box_primitive j_pw_primitive j_nonce j_pwsalt j_pwdiff0 j_pwdiff1 j_ciphertext]. repeat split; lia.
  - intros (-> & -> & -> & -> & -> & -> & X & Y). unfold six, i64_of. cbn [string_of bind].
    replace (j_pwdiff0 w <? 2 ^ 63) with true by lia. replace (j_pwdiff1 w <? 2 ^ 63) with true by lia. destruct w. reflexivity.
Qed.
Lemma box_json_iff : forall j w, box_json_of j = Ok w <->
  members j (JStr (j_box_primitive w)) (JStr (j_pw_primitive w)) (JStr (j_nonce w)) (JStr (j_pwsalt w))
    (JArr [JNum (j_pwdiff0 w); JNum (j_pwdiff1 w)]) (JStr (j_ciphertext w)) /\ j_pwdiff0 w < 2 ^ 63 /\ j_pwdiff1 w < 2 ^ 63.
Proof.
  intros j w. unfold members. split.
  - intros H. destruct j as [| | | | |l|m]; try discriminate.
    + destruct l as [|a [|b [|c [|d [|e [|f [|? ?]]]]]]]; try discriminate. apply six_iff in H.
      destruct H as (-> & -> & -> & -> & -> & -> & X & Y). auto.
    + apply six_iff in H. destruct H as (A & B & C & D & E & F & X & Y). split; [|auto]. right.
      repeat split; apply has_iff; first [discriminate|assumption].
  - intros ([->|(A & B & C & D & E & F)] & X & Y).
    + apply six_iff. repeat split; assumption.
    + assert (O : exists m, j = JObj m) by (destruct A as (a & b & -> & _); eauto). destruct O as (m & ->).
      apply has_iff in A, B, C, D, E, F; try discriminate. cbn [box_json_of]. apply six_iff. repeat split; assumption.
Qed.

(** Exactly the documents that are read, and what is read: the number of
    passes is reduced to 32 bits, and a salt has at most 48 bytes. *)
Theorem C59_read_iff : forall j b, box_of sha j = Ok b <->
  box_primitive b = str_bytes "xsalsa20poly1305" /\ pw_primitive b = str_bytes "argon2i" /\ (length (pwsalt b) <= 48)%nat /\
  exists ops, wallet sha j (nonce b) (pwsalt b) (pw_mem_limit_bytes b) ops (ciphertext b) /\ pw_ops_limit b = ops mod 2 ^ 32.
Proof.
  intros j b. unfold wallet, box_of. split.
  - intros H. apply bind_ok in H. destruct H as (w & W & H). apply box_json_iff in W. unfold of_box_json in H.
    destruct (key_eqb (j_box_primitive w) SECRET_BOX_PRIMITIVE) eqn:P; [|discriminate]. apply key_eqb_iff in P.
    destruct (key_eqb (j_pw_primitive w) PASSWORD_HASH_PRIMITIVE) eqn:Q; [|discriminate]. apply key_eqb_iff in Q. cbn [negb] in H.
    apply bind_ok in H. destruct H as (s & S & H). apply bind_ok in H. destruct H as (s' & L & H).
    destruct (48 <? length s)%nat eqn:LL; [discriminate|]. injection L as <-.
    apply bind_ok in H. destruct H as (n & N & H). apply bind_ok in H. destruct H as (c & C & H). injection H as <-.
    apply text58_iff in S, N, C. cbn [box_primitive pw_primitive nonce pwsalt pw_mem_limit_bytes pw_ops_limit ciphertext].
    rewrite P, Q in *. split; [reflexivity|]. split; [reflexivity|]. split; [lia|].
    exists (j_pwdiff1 w). split; [|reflexivity]. exists (j_nonce w), (j_pwsalt w), (j_ciphertext w). tauto.
  - intros (P & Q & L & ops & (ns & ss & cs & M & N & S & C & X & Y) & O).
    set (w := mk_box_json (str_bytes "xsalsa20poly1305") (str_bytes "argon2i") ns ss (pw_mem_limit_bytes b) ops cs).
    assert (W : box_json_of j = Ok w) by (apply box_json_iff; split; [exact M|split; assumption]).
    rewrite W. cbn [bind]. unfold of_box_json, w.
    cbn [j_box_primitive j_pw_primitive j_nonce j_pwsalt j_pwdiff0 j_pwdiff1 j_ciphertext].
    replace (key_eqb (str_bytes "xsalsa20poly1305") SECRET_BOX_PRIMITIVE) with true by reflexivity.
    replace (key_eqb (str_bytes "argon2i") PASSWORD_HASH_PRIMITIVE) with true by reflexivity. cbn [negb].
    apply text58_iff in N, S, C. rewrite S. cbn [bind]. replace (48 <? length (pwsalt b))%nat with false by lia. cbn [bind].
    rewrite N, C. cbn [bind]. unfold wrapu. rewrite <- O, <- P, <- Q. destruct b. reflexivity.
Qed.
Theorem C59_read_no_crash : forall j, box_of sha j <> Panic.
Proof.
  intros j H. unfold box_of in H. apply bind_panic in H. destruct H as [H|(w & _ & H)].
  - assert (S : forall a b c d e f, six a b c d e f <> Panic).
    { intros a b c d e f. unfold six. destruct a, b, c, d; cbn [string_of bind]; try discriminate.
      destruct e as [| | | | |[|x [|y [|? ?]]]|]; try discriminate. destruct x; try discriminate. cbn [i64_of]. destruct (_ <? 2 ^ 63); [|discriminate].
      cbn [bind]. destruct y; try discriminate. cbn [i64_of]. destruct (_ <? 2 ^ 63); [|discriminate]. destruct f; discriminate. }
    destruct j as [| | | | |l|m]; try discriminate; [|exact (S _ _ _ _ _ _ H)].
    destruct l as [|a [|b [|c [|d [|e [|f [|? ?]]]]]]]; try discriminate. exact (S _ _ _ _ _ _ H).
  - unfold of_box_json in H. destruct (negb _); [discriminate|]. destruct (negb _); [discriminate|].
    apply bind_panic in H. destruct H as [H|(s & _ & H)]; [exact (text58_calm _ H)|].
    apply bind_panic in H. destruct H as [H|(s' & _ & H)]; [destruct (48 <? length s)%nat; discriminate|].
    apply bind_panic in H. destruct H as [H|(n & _ & H)]; [exact (text58_calm _ H)|].
    apply bind_panic in H. destruct H as [H|(c & _ & H)]; [exact (text58_calm _ H)|discriminate].
Qed.

(** The document that is written for a box. *)
Definition canonical (ns ss : list Z) (mem ops : Z) (cs : list Z) : json :=
  JObj [(str_bytes "box_primitive", JStr (str_bytes "xsalsa20poly1305")); (str_bytes "pw_primitive", JStr (str_bytes "argon2i"));
        (str_bytes "nonce", JStr ns); (str_bytes "pwsalt", JStr ss); (str_bytes "pwdiff", JArr [JNum mem; JNum ops]);
        (str_bytes "ciphertext", JStr cs)].

(** Salts of 3 to 48 bytes are valid salts, shorter ones are not. *)
Definition salt_rule (view : list Z -> res serr (list Z)) : Prop :=
  forall s, ((3 <= length s <= 48)%nat -> view s = Ok s) /\ ((length s < 3)%nat -> forall t, view s <> Ok t).
Definition short_panics (s : list Z) : res serr (list Z) := if (length s <? 3)%nat then Panic else Ok s.
Lemma short_panics_rule : salt_rule short_panics.
Proof. intros s. unfold short_panics. split; intros H; [replace (length s <? 3)%nat with false by lia|intros t; replace (length s <? 3)%nat with true by lia]; [reflexivity|discriminate]. Qed.

Lemma canonical_members : forall ns ss mem ops cs,
  members (canonical ns ss mem ops cs) (JStr (str_bytes "xsalsa20poly1305")) (JStr (str_bytes "argon2i")) (JStr ns) (JStr ss) (JArr [JNum mem; JNum ops]) (JStr cs).
Proof. intros. right. repeat split; apply has_iff; first [discriminate|reflexivity]. Qed.

(** A box written and read again is the same box, for salts of 3 to 16 bytes;
    other boxes are not written. *)
Theorem C59_box_round_trip : forall view b, salt_rule view ->
  box_primitive b = str_bytes "xsalsa20poly1305" -> pw_primitive b = str_bytes "argon2i" ->
  bytes_ok (nonce b) -> bytes_ok (pwsalt b) -> bytes_ok (ciphertext b) -> i64 (pw_mem_limit_bytes b) -> 0 <= pw_ops_limit b < 2 ^ 32 ->
  (3 <= length (pwsalt b) <= 16)%nat -> exists j, box_to sha view b = Ok j /\ box_of sha j = Ok b.
Proof.
  intros view b R P Q N S C M O L.
  exists (canonical (base58_encode sha (nonce b)) (base58_encode sha (pwsalt b)) (pw_mem_limit_bytes b) (pw_ops_limit b) (base58_encode sha (ciphertext b))). split.
  - unfold box_to, to_box_json. rewrite (proj1 (R _)) by lia. cbn [bind]. replace (16 <? length (pwsalt b))%nat with false by lia. cbn [bind].
    unfold box_json_to. cbn [j_box_primitive j_pw_primitive j_nonce j_pwsalt j_pwdiff0 j_pwdiff1 j_ciphertext]. rewrite P, Q. reflexivity.
  - apply C59_read_iff. split; [exact P|]. split; [exact Q|]. split; [lia|]. exists (pw_ops_limit b). split.
    + do 3 eexists. split; [apply canonical_members|]. unfold i64 in M.
      split; [split; [exact N|reflexivity]|]. split; [split; [exact S|reflexivity]|]. split; [split; [exact C|reflexivity]|]. lia.
    + rewrite Z.mod_small; [reflexivity|exact O].
Qed.
Theorem C59_written_iff : forall view b, salt_rule view -> (length (pwsalt b) <= 48)%nat ->
  ((exists j, box_to sha view b = Ok j) <-> (3 <= length (pwsalt b) <= 16)%nat).
Proof.
  intros view b R L. unfold box_to, to_box_json. split.
  - intros (j & H). apply bind_ok in H. destruct H as (w & H & _). apply bind_ok in H. destruct H as (s & E & H).
    apply bind_ok in H. destruct H as (s' & F & _). destruct (Nat.lt_ge_cases (length (pwsalt b)) 3) as [K|K].
    + exfalso. exact (proj2 (R _) K s E).
    + rewrite (proj1 (R _)) in E by lia. injection E as <-. destruct (16 <? length (pwsalt b))%nat eqn:X; [discriminate|lia].
  - intros K. rewrite (proj1 (R _)) by lia. cbn [bind]. replace (16 <? length (pwsalt b))%nat with false by lia. cbn [bind]. eauto.
Qed.
(** A document in the written form that is read and written again is the same
    document exactly if the number of passes has 32 bits and the salt 3 to 16
    bytes. *)
Theorem C59_document_iff : forall view ns ss mem ops cs b, salt_rule view -> box_of sha (canonical ns ss mem ops cs) = Ok b ->
  (box_to sha view b = Ok (canonical ns ss mem ops cs) <-> 0 <= ops < 2 ^ 32 /\ (3 <= length (pwsalt b) <= 16)%nat).
Proof.
  intros view ns ss mem ops cs b R H. apply C59_read_iff in H. destruct H as (P & Q & L & ops' & (ns' & ss' & cs' & M & N & S & C & X & Y) & O).
  assert (E : ns' = ns /\ ss' = ss /\ pw_mem_limit_bytes b = mem /\ ops' = ops /\ cs' = cs).
  { destruct M as [M|(_ & _ & A & B & D & F)]; [discriminate|]. apply has_iff in A, B, D, F; try discriminate.
    vm_compute in A, B, D, F. injection A as ->. injection B as ->. injection D as -> ->. injection F as ->. auto. }
  destruct E as (-> & -> & E & -> & ->). split.
  - intros W. assert (K : (3 <= length (pwsalt b) <= 16)%nat) by (apply (C59_written_iff view b R L); eauto). split; [|exact K].
    unfold box_to, to_box_json in W. rewrite (proj1 (R _)) in W by lia. cbn [bind] in W.
    replace (16 <? length (pwsalt b))%nat with false in W by lia. cbn [bind box_json_to] in W.
    assert (W' : pw_ops_limit b = ops) by (unfold canonical in W; injection W; intros; assumption). rewrite <- W', O.
    apply Z.mod_pos_bound. lia.
  - intros (K & L'). unfold box_to, to_box_json. rewrite (proj1 (R _)) by lia. cbn [bind]. replace (16 <? length (pwsalt b))%nat with false by lia. cbn [bind].
    unfold box_json_to, canonical. cbn [j_box_primitive j_pw_primitive j_nonce j_pwsalt j_pwdiff0 j_pwdiff1 j_ciphertext].
    rewrite P, Q, E, O, Z.mod_small by exact K. destruct N as (_ & ->), S as (_ & ->), C as (_ & ->). reflexivity.
Qed.

(** The wallet of the tests. *)
Definition fixture (ss : string) (ops : Z) : json :=
  canonical (str_bytes "6gqjM2uNavEkeV6DRpc7jtR7H84b5LLY36sJEoX") (str_bytes ss) 134217728 ops
    (str_bytes "C6akiMy3NarEYxkQ2ta4AweAz67Cq1Qn81VxdX5SQKUXebAEcrY97DRb5AdWxQdG9msbXWUqr").
Example C59_ex : exists b, box_of sha (fixture "BADzTUe8oh125ccdgxafGzfuyCdE" 6) = Ok b /\ length (nonce b) = 24%nat /\ length (pwsalt b) = 16%nat /\
  length (ciphertext b) = 49%nat /\ pw_ops_limit b = 6 /\ box_to sha short_panics b = Ok (fixture "BADzTUe8oh125ccdgxafGzfuyCdE" 6).
Proof. eexists. split; [vm_compute; reflexivity|]. vm_compute. auto 6. Qed.
(** 2 ^ 32 + 6 passes are read as 6, and written as 6. *)
Theorem C59_passes_refuted : exists j b j', box_of sha j = Ok b /\ box_to sha short_panics b = Ok j' /\ j' <> j /\ box_of sha j' = Ok b /\
  wallet sha j (nonce b) (pwsalt b) (pw_mem_limit_bytes b) (2 ^ 32 + 6) (ciphertext b) /\ pw_ops_limit b = 6.
Proof.
  assert (E : exists b, box_of sha (fixture "BADzTUe8oh125ccdgxafGzfuyCdE" (2 ^ 32 + 6)) = Ok b /\ pw_ops_limit b = 6 /\
      box_to sha short_panics b = Ok (fixture "BADzTUe8oh125ccdgxafGzfuyCdE" 6) /\ box_of sha (fixture "BADzTUe8oh125ccdgxafGzfuyCdE" 6) = Ok b).
  { eexists. split; [vm_compute; reflexivity|]. vm_compute. auto. }
  destruct E as (b & E & O & W & E'). exists (fixture "BADzTUe8oh125ccdgxafGzfuyCdE" (2 ^ 32 + 6)), b, (fixture "BADzTUe8oh125ccdgxafGzfuyCdE" 6).
  split; [exact E|]. split; [exact W|]. split; [|split; [exact E'|split; [|exact O]]].
  - unfold fixture, canonical. intros X. injection X as X. vm_compute in X. discriminate.
  - apply C59_read_iff in E. destruct E as (_ & _ & _ & ops & H & _). destruct H as (ns & ss & cs & M & H). exists ns, ss, cs.
    assert (Q : ops = 2 ^ 32 + 6); [|subst ops; exact (conj M H)]. clear - M.
    destruct M as [M|(_ & _ & _ & _ & D & _)]; [discriminate|]. apply has_iff in D; [|discriminate]. cbn in D. injection D as _ D. lia.
Qed.
(** A wallet with a salt of 17 bytes is read and cannot be written; one without
    a salt is read, and writing it panics (in the version of the crate that
    does). *)
Theorem C59_salt_refuted : exists j b j' b', box_of sha j = Ok b /\ length (pwsalt b) = 17%nat /\ box_to sha short_panics b = Err PasswordHash /\
  box_of sha j' = Ok b' /\ pwsalt b' = [] /\ box_to sha short_panics b' = Panic.
Proof.
  set (j s := canonical (base58_encode sha (repeat 7 24)) (base58_encode sha s) 134217728 6 (base58_encode sha [1; 2; 3])).
  exists (j (repeat 9 17)), (mk_box SECRET_BOX_PRIMITIVE PASSWORD_HASH_PRIMITIVE (repeat 7 24) (repeat 9 17) 134217728 6 [1; 2; 3]),
    (j []), (mk_box SECRET_BOX_PRIMITIVE PASSWORD_HASH_PRIMITIVE (repeat 7 24) [] 134217728 6 [1; 2; 3]).
  vm_compute. auto 7.
Qed.

(** ** C96: unlocking *)
Section Unlock.
  Variable kdf : Z -> Z -> list Z -> list Z -> res serr (list Z).
  Variable decrypt : list Z -> list Z -> list Z -> option (list Z).
  Notation unlock := (private_key_bytes kdf decrypt).
  (** The derived key has 32 bytes; deriving does not panic. *)
  Hypothesis kdf_len : forall m t s p k, kdf m t s p = Ok k -> length k = 32%nat.
  Hypothesis kdf_calm : forall m t s p, kdf m t s p <> Panic.

  (** Unlocking a wallet gives a key exactly if what is sealed, under the key
      derived with the costs that the wallet states, is this key with a byte in
      front; if the memory limit is below 2 ^ 42 bytes and the number of passes
      has 32 bits. *)
  Theorem C96_sealed_key : forall j nonce salt mem ops ct password,
    wallet sha j nonce salt mem ops ct -> (length salt <= 48)%nat -> length nonce = 24%nat ->
    0 <= mem < 2 ^ 42 -> 0 <= ops < 2 ^ 32 ->
    exists b, box_of sha j = Ok b /\ forall key, unlock b password = Ok key <->
      exists secret version, kdf (mem / 1024) ops salt password = Ok secret /\ decrypt secret nonce ct = Some (version :: key).
  Proof.
    intros j n s mem ops ct pw W L N M O.
    exists (mk_box (str_bytes "xsalsa20poly1305") (str_bytes "argon2i") n s mem ops ct). split.
    - apply C59_read_iff. cbn [box_primitive pw_primitive nonce pwsalt pw_mem_limit_bytes pw_ops_limit ciphertext].
      split; [reflexivity|]. split; [reflexivity|]. split; [exact L|]. exists ops. split; [exact W|]. rewrite Z.mod_small; [reflexivity|exact O].
    - intros key. unfold private_key_bytes, gen_secret. cbn [nonce pwsalt pw_mem_limit_bytes pw_ops_limit ciphertext].
      rewrite Z.quot_div_nonneg by lia. unfold wrapu. rewrite Z.mod_small by (split; [apply Z.div_pos; lia|apply Z.div_lt_upper_bound; lia]).
      destruct (kdf (mem / 1024) ops s pw) as [secret|e|] eqn:K; cbn [bind]; [|split; [discriminate|intros (x & v & Q & _); discriminate]|split; [discriminate|intros (x & v & Q & _); discriminate]].
      rewrite (kdf_len _ _ _ _ _ K), N. cbn [Nat.eqb negb]. split.
      + intros H. destruct (decrypt secret n ct) as [[|v k]|] eqn:D; try discriminate. injection H as ->. exists secret, v. auto.
      + intros (x & v & Q & D). injection Q as <-. rewrite D. reflexivity.
  Qed.
  (** Outside of these limits other costs are used than the wallet says: *)
  Theorem C96_memory_refuted : forall b mem password, 0 <= mem ->
    private_key_bytes kdf decrypt (mk_box (box_primitive b) (pw_primitive b) (nonce b) (pwsalt b) (mem + 2 ^ 42) (pw_ops_limit b) (ciphertext b)) password =
    private_key_bytes kdf decrypt (mk_box (box_primitive b) (pw_primitive b) (nonce b) (pwsalt b) mem (pw_ops_limit b) (ciphertext b)) password.
  Proof using Type.
    clear kdf_len kdf_calm. intros b mem pw M. unfold private_key_bytes, gen_secret. cbn [nonce pwsalt pw_mem_limit_bytes pw_ops_limit ciphertext].
    rewrite !Z.quot_div_nonneg by lia. replace (mem + 2 ^ 42) with (mem + 2 ^ 32 * 1024) by lia. rewrite Z.div_add by lia. unfold wrapu.
    replace (mem / 1024 + 2 ^ 32) with (mem / 1024 + 1 * 2 ^ 32) by lia. rewrite Z.mod_add by lia. reflexivity.
  Qed.
  (** Unlocking crashes exactly if a key is derived and the nonce has not 24
      bytes or what is sealed is empty. *)
  Theorem C96_crashes_iff : forall b password, unlock b password = Panic <->
    exists secret, gen_secret kdf b password = Ok secret /\ (length (nonce b) <> 24%nat \/ decrypt secret (nonce b) (ciphertext b) = Some []).
  Proof.
    intros b pw. unfold private_key_bytes. destruct (gen_secret kdf b pw) as [k|e|] eqn:G; cbn [bind].
    - unfold gen_secret in G. rewrite (kdf_len _ _ _ _ _ G). cbn [Nat.eqb negb]. split.
      + intros H. exists k. split; [reflexivity|]. destruct (length (nonce b) =? 24)%nat eqn:N; [right|left; lia]. cbn [negb] in H.
        destruct (decrypt k (nonce b) (ciphertext b)) as [[|? ?]|]; [reflexivity|discriminate|discriminate].
      + intros (s & [= <-] & [N|D]).
        * replace (length (nonce b) =? 24)%nat with false by lia. reflexivity.
        * rewrite D. destruct (negb _); reflexivity.
    - split; [discriminate|intros (s & H & _); discriminate].
    - exfalso. exact (kdf_calm _ _ _ _ G).
  Qed.
  (** Every nonce of another length can be read from a wallet, and crashes: *)
  Theorem C96_nonce_refuted : forall n salt mem ops ct password, bytes_ok n -> bytes_ok salt -> bytes_ok ct -> (length salt <= 48)%nat -> length n <> 24%nat ->
    0 <= mem < 2 ^ 42 -> 0 <= ops < 2 ^ 32 -> (exists secret, kdf (mem / 1024) ops salt password = Ok secret) ->
    exists j b, box_of sha j = Ok b /\ nonce b = n /\ unlock b password = Panic.
  Proof.
    intros n salt mem ops ct pw N S C L NL M O (secret & K).
    exists (canonical (base58_encode sha n) (base58_encode sha salt) mem ops (base58_encode sha ct)),
      (mk_box (str_bytes "xsalsa20poly1305") (str_bytes "argon2i") n salt mem ops ct). split; [|split; [reflexivity|]].
    - apply C59_read_iff. cbn [box_primitive pw_primitive nonce pwsalt pw_mem_limit_bytes pw_ops_limit ciphertext].
      split; [reflexivity|]. split; [reflexivity|]. split; [exact L|]. exists ops. split; [|rewrite Z.mod_small; [reflexivity|exact O]].
      do 3 eexists. split; [apply canonical_members|]. repeat split; try assumption; lia.
    - apply C96_crashes_iff. exists secret. split; [|left; exact NL]. unfold gen_secret. cbn [pwsalt pw_mem_limit_bytes pw_ops_limit].
      rewrite Z.quot_div_nonneg by lia. unfold wrapu. rewrite Z.mod_small by (split; [apply Z.div_pos; lia|apply Z.div_lt_upper_bound; lia]). exact K.
  Qed.

  (** The key pair is the one of the key read as a little-endian number. *)
  Theorem C96_keypair : forall (K : Type) (from_hex : list Z -> option K) b password key, unlock b password = Ok key -> bytes_ok key ->
    exists s, hex_number s (le_val key) /\ length s = (2 * length key)%nat /\
      get_keypair kdf decrypt K from_hex b password = match from_hex s with Some k => Ok k | None => Err KeypairError end.
  Proof using Type.
    clear kdf_len kdf_calm. intros K f b pw key H B. exists (hex_encode (rev key)). split; [|split].
    - exists (rev key). split; [apply hexes_encode; apply Forall_rev; exact B|]. clear.
      induction key as [|x key IH]; [reflexivity|]. cbn [rev le_val]. rewrite fold_left_app. cbn [fold_left]. lia.
    - rewrite <- (rev_length key). generalize (rev key) as l. induction l as [|x l IH]; [reflexivity|]. cbn [hex_encode length]. lia.
    - unfold get_keypair. rewrite H. reflexivity.
  Qed.
End Unlock.

(** The hypotheses hold of a cipher and a key derivation that do nothing, with
    the wallet of the tests. *)
Definition toy_kdf (m t : Z) (s p : list Z) : res serr (list Z) := if m <? 8 then Err Argon2Error else Ok (repeat (t mod 256) 32).
Definition toy_decrypt (k n c : list Z) : option (list Z) := Some c.
Example C96_ex : (forall m t s p k, toy_kdf m t s p = Ok k -> length k = 32%nat) /\ (forall m t s p, toy_kdf m t s p <> Panic) /\
  exists b key, box_of sha (fixture "BADzTUe8oh125ccdgxafGzfuyCdE" 6) = Ok b /\ private_key_bytes toy_kdf toy_decrypt b [1] = Ok key /\
    length key = 48%nat /\ bytes_ok key.
Proof.
  split; [|split].
  - intros m t s p k. unfold toy_kdf. destruct (m <? 8); [discriminate|]. intros [= <-]. reflexivity.
  - intros m t s p. unfold toy_kdf. destruct (m <? 8); discriminate.
  - eexists. eexists. split; [vm_compute; reflexivity|]. split; [vm_compute; reflexivity|]. split; [reflexivity|].
    repeat (apply Forall_cons; [unfold byte_ok; lia|]). apply Forall_nil.
Qed.

Print Assumptions C59_read_iff.
Print Assumptions C59_read_no_crash.
Print Assumptions C59_box_round_trip.
Print Assumptions C59_written_iff.
Print Assumptions C59_document_iff.
Print Assumptions C59_passes_refuted.
Print Assumptions C59_salt_refuted.
Print Assumptions C96_sealed_key.
Print Assumptions C96_memory_refuted.
Print Assumptions C96_crashes_iff.
Print Assumptions C96_nonce_refuted.
Print Assumptions C96_keypair.
