(** C126: wallet files as texts, with the real checksum of base58 texts. *)

From Coq Require Import String ZArith List Bool Lia ZifyBool ZifyNat Permutation.
From Verif Require Import Lib.Res Lib.Bytes Lib.Decimal Lib.Text Text.Base58 Text.Base58Props Text.Checksum Text.ChecksumProps
  Json.Json Json.JsonSpec Json.Grammar Json.Parse Json.ParseFacts Json.JsonText Json.TextSpec Json.PrintFacts Json.TextReadFacts Json.TextWriteFacts Json.SaysFacts
  Convert.JsonViewSpec GraphQL.GraphQL GraphQL.GraphQLSpec GraphQL.GraphQLFacts Secrets.SecretBox Secrets.SecretBoxSpec Secrets.SecretBoxProps.
From Verif Require Import Json.Pretty Json.PrettyFacts Secrets.WalletText.
From Verif Require Import Secrets.WalletTextSpec.
Import ListNotations.
Local Open Scope string_scope.
Local Open Scope list_scope.
Local Open Scope Z_scope.
Notation length := List.length.
Notation sha := sha_checksum.

(** ** Numbers and members *)
Lemma int_num : forall float_of t z, num_of float_of t = Some (JNum z) <-> int_text t z /\ int64 z.
Proof.
  intros float_of t z. split.
  - unfold num_of. destruct t as [|c ds]; [destruct (float_of []); discriminate|]. destruct (c =? 45) eqn:E.
    + assert (c = 45) as -> by lia. destruct (all_digits ds && (0 <? dec_val ds) && (dec_val ds <=? 2 ^ 63)) eqn:G; [|destruct (float_of _); discriminate].
      intros [= <-]. apply andb_prop in G. destruct G as [G G3]. apply andb_prop in G. destruct G as [G1 G2]. split; [|unfold int64; lia].
      apply I_minus; [apply all_digits_iff, G1|lia].
    + destruct (all_digits (c :: ds) && (dec_val (c :: ds) <? 2 ^ 64)) eqn:G; [|destruct (float_of _); discriminate].
      intros [= <-]. apply andb_prop in G. destruct G as [G1 G2]. apply all_digits_iff in G1. pose proof (dec_val_range (c :: ds) G1).
      split; [|unfold int64; lia]. apply I_plus; [discriminate|exact G1].
  - intros [I R]. apply num_says. apply Y_int; assumption.
Qed.
Lemma text_i64_iff : forall r z, text_i64 r = Ok z <-> i64_text r z.
Proof.
  intros r z. unfold i64_text, text_i64. split.
  - destruct r as [| |t| | |]; try discriminate. destruct (num_of (fun _ => None) t) as [[| |z'| | | |]|] eqn:E; try discriminate.
    destruct (z' <? 2 ^ 63) eqn:L; [|discriminate]. intros [= <-]. apply int_num in E. destruct E as [I R]. exists t.
    split; [reflexivity|]. split; [exact I|]. unfold int64 in R. unfold i64. lia.
  - intros (t & -> & I & R). unfold i64 in R. rewrite (proj2 (int_num (fun _ => None) t z)) by (split; [exact I|unfold int64; lia]).
    replace (z <? 2 ^ 63) with true by lia. reflexivity.
Qed.
Lemma text_string_iff : forall r s, text_string r = Ok s <-> r = RStr s.
Proof. intros r s. unfold text_string. destruct r; split; congruence. Qed.
Lemma filter_none : forall (m : list (list Z * raw)) k, filter (fun p => key_eqb k (fst p)) m = [] <-> ~ In k (map fst m).
Proof.
  induction m as [|[k' r] m IH]; intros k; cbn [filter map fst In]; [tauto|]. destruct (key_eqb k k') eqn:E.
  - apply key_eqb_iff in E. subst. split; [discriminate|intros H; contradiction H; left; reflexivity].
  - rewrite IH. assert (k' <> k) by (intros ->; rewrite (proj2 (key_eqb_iff k k) eq_refl) in E; discriminate). tauto.
Qed.
Lemma field_iff : forall m k r, field m k = Ok r <-> only m k r.
Proof.
  intros m k r. unfold field, only. split.
  - induction m as [|[k' r'] m IH]; cbn [filter fst]; [discriminate|]. destruct (key_eqb (str_bytes k) k') eqn:E.
    + apply key_eqb_iff in E. subst k'. destruct (filter _ m) eqn:F; [|discriminate]. intros [= ->]. exists [], m.
      split; [reflexivity|]. split; [intros []|]. apply filter_none, F.
    + intros H. destruct (IH H) as (a & b & -> & A & B). exists ((k', r') :: a), b. split; [reflexivity|]. split; [|exact B].
      cbn [map fst In]. intros [X|X]; [|exact (A X)]. subst k'. rewrite (proj2 (key_eqb_iff _ _) eq_refl) in E. discriminate.
  - intros (a & b & -> & A & B). rewrite filter_app. rewrite (proj2 (filter_none a _) A). cbn [app filter fst].
    rewrite (proj2 (key_eqb_iff _ _) eq_refl), (proj2 (filter_none b _) B). reflexivity.
Qed.
Lemma text_six_iff : forall a b c d e f w, text_six a b c d e f = Ok w <->
  a = RStr (j_box_primitive w) /\ b = RStr (j_pw_primitive w) /\ c = RStr (j_nonce w) /\ d = RStr (j_pwsalt w) /\
  (exists x y, e = RArr [x; y] /\ i64_text x (j_pwdiff0 w) /\ i64_text y (j_pwdiff1 w)) /\ f = RStr (j_ciphertext w).
Proof.
  intros a b c d e f w. unfold text_six. split.
  - intros H. apply bind_ok in H. destruct H as (a' & A & H). apply bind_ok in H. destruct H as (b' & B & H). apply bind_ok in H. destruct H as (c' & C & H).
    apply bind_ok in H. destruct H as (d' & D & H). destruct e as [| | | |[|x [|y [|? ?]]]|]; try discriminate.
    apply bind_ok in H. destruct H as (x' & X & H). apply bind_ok in H. destruct H as (y' & Y & H). apply bind_ok in H. destruct H as (f' & F & H).
    injection H as <-. apply text_string_iff in A, B, C, D, F. apply text_i64_iff in X, Y. cbn. repeat (split; [assumption|]). split; [|exact F]. eauto.
  - intros (-> & -> & -> & -> & (x & y & -> & X & Y) & ->). apply text_i64_iff in X, Y. cbn [text_string bind]. rewrite X, Y. destruct w. reflexivity.
Qed.
Lemma text_box_iff : forall r w, text_box_json r = Ok w <->
  exists x y, tree_members r (RStr (j_box_primitive w)) (RStr (j_pw_primitive w)) (RStr (j_nonce w)) (RStr (j_pwsalt w)) (RArr [x; y]) (RStr (j_ciphertext w)) /\
    i64_text x (j_pwdiff0 w) /\ i64_text y (j_pwdiff1 w).
Proof.
  intros r w. unfold tree_members. split.
  - destruct r as [| | | |l|m]; try discriminate.
    + destruct l as [|a [|b [|c [|d [|e [|f [|? ?]]]]]]]; try discriminate. cbn [text_box_json]. intros H. apply text_six_iff in H.
      destruct H as (-> & -> & -> & -> & (x & y & -> & X & Y) & ->). exists x, y. auto.
    + cbn [text_box_json]. intros H. apply bind_ok in H. destruct H as (a & A & H). apply bind_ok in H. destruct H as (b & B & H).
      apply bind_ok in H. destruct H as (c & C & H). apply bind_ok in H. destruct H as (d & D & H). apply bind_ok in H. destruct H as (e & E & H).
      apply bind_ok in H. destruct H as (f & F & H). apply text_six_iff in H.
      destruct H as (-> & -> & -> & -> & (x & y & -> & X & Y) & ->). apply field_iff in A, B, C, D, E, F. exists x, y. split; [|auto]. right. exists m. auto 10.
  - intros (x & y & [->|(m & -> & A & B & C & D & E & F)] & X & Y).
    + cbn [text_box_json]. apply text_six_iff. do 4 (split; [reflexivity|]). split; [eauto|reflexivity].
    + apply field_iff in A, B, C, D, E, F. cbn [text_box_json]. rewrite A, B, C, D, E, F. cbn [bind]. apply text_six_iff.
      do 4 (split; [reflexivity|]). split; [eauto|reflexivity].
Qed.

(** ** Reading *)
Lemma of_box_iff : forall w b, of_box_json sha w = Ok b <->
  j_box_primitive w = str_bytes "xsalsa20poly1305" /\ j_pw_primitive w = str_bytes "argon2i" /\
  box_primitive b = str_bytes "xsalsa20poly1305" /\ pw_primitive b = str_bytes "argon2i" /\ (length (pwsalt b) <= 48)%nat /\
  text58 sha (j_nonce w) (nonce b) /\ text58 sha (j_pwsalt w) (pwsalt b) /\ text58 sha (j_ciphertext w) (ciphertext b) /\
  pw_mem_limit_bytes b = j_pwdiff0 w /\ pw_ops_limit b = j_pwdiff1 w mod 2 ^ 32.
Proof.
  intros w b. unfold of_box_json. split.
  - intros H. destruct (key_eqb (j_box_primitive w) SECRET_BOX_PRIMITIVE) eqn:P; [|discriminate]. apply key_eqb_iff in P.
    destruct (key_eqb (j_pw_primitive w) PASSWORD_HASH_PRIMITIVE) eqn:Q; [|discriminate]. apply key_eqb_iff in Q. cbn [negb] in H.
    apply bind_ok in H. destruct H as (s & S & H). apply bind_ok in H. destruct H as (s' & L & H). apply bind_ok in H. destruct H as (n & N & H).
    apply bind_ok in H. destruct H as (c & C & H). injection H as <-. destruct (48 <? length s)%nat eqn:K; [discriminate|]. injection L as <-.
    cbn [box_primitive pw_primitive nonce pwsalt pw_mem_limit_bytes pw_ops_limit ciphertext].
    apply text58_iff in S, N, C. repeat (split; [first [exact P|exact Q|assumption|lia]|]). reflexivity.
  - intros (P & Q & P' & Q' & L & N & S & C & M & O). 
    change (str_bytes "xsalsa20poly1305") with SECRET_BOX_PRIMITIVE in *. change (str_bytes "argon2i") with PASSWORD_HASH_PRIMITIVE in *.
    rewrite (proj2 (key_eqb_iff _ _) P), (proj2 (key_eqb_iff _ _) Q). cbn [negb].
    apply text58_iff in N, S, C. rewrite S. cbn [bind]. replace (48 <? length (pwsalt b))%nat with false by lia. cbn [bind]. rewrite N. cbn [bind]. rewrite C. cbn [bind].
    destruct b; cbn in *. subst. rewrite P, Q. reflexivity.
Qed.
(** A text is read as a box exactly if it is a wallet file for it; the number
    of passes is truncated to 32 bits. *)
Theorem C126_read_iff : forall s b, wallet_of_text sha s = Ok b <->
  box_primitive b = str_bytes "xsalsa20poly1305" /\ pw_primitive b = str_bytes "argon2i" /\ (length (pwsalt b) <= 48)%nat /\
  exists ops, wallet_text sha s (nonce b) (pwsalt b) (pw_mem_limit_bytes b) ops (ciphertext b) /\ pw_ops_limit b = ops mod 2 ^ 32.
Proof.
  intros s b. unfold wallet_of_text, wallet_text, wallet_parts. split.
  - destruct (parse s) as [r|] eqn:P; [|discriminate]. apply parse_iff in P. intros H. apply bind_ok in H. destruct H as (w & W & H).
    apply text_box_iff in W. destruct W as (x & y & M & X & Y). apply of_box_iff in H. destruct H as (A & B & A' & B' & L & N & S & C & E & O).
    do 3 (split; [assumption|]). exists (j_pwdiff1 w). split; [|exact O]. rewrite A, B in M. rewrite E.
    exists (j_nonce w), (j_pwsalt w), (j_ciphertext w). split; [|auto]. exists r, x, y. auto.
  - intros (A & B & L & ops & (ns & ss & cs & (r & x & y & P & M & X & Y) & N & S & C) & O). apply parse_iff in P. rewrite P.
    set (w := mk_box_json (str_bytes "xsalsa20poly1305") (str_bytes "argon2i") ns ss (pw_mem_limit_bytes b) ops cs).
    assert (W : text_box_json r = Ok w) by (apply text_box_iff; exists x, y; split; [exact M|split; assumption]).
    rewrite W. cbn [bind]. apply of_box_iff. unfold w. cbn [j_box_primitive j_pw_primitive j_nonce j_pwsalt j_pwdiff0 j_pwdiff1 j_ciphertext].
    repeat (split; [first [reflexivity|assumption]|]). exact O.
Qed.
Lemma of_box_cases : forall w, of_box_json sha w <> Panic /\ of_box_json sha w <> Err JsonSerde.
Proof.
  intros w. unfold of_box_json. assert (N : forall s, base58_decode sha s <> Err JsonSerde).
  { intros s. unfold base58_decode. destruct (from_base58 _ _ _); discriminate. }
  destruct (key_eqb (j_box_primitive w) SECRET_BOX_PRIMITIVE); [|split; discriminate].
  destruct (key_eqb (j_pw_primitive w) PASSWORD_HASH_PRIMITIVE); [|split; discriminate]. cbn [negb].
  pose proof (text58_calm (j_pwsalt w)) as S. pose proof (N (j_pwsalt w)) as S'. destruct (base58_decode sha (j_pwsalt w)); cbn [bind]; [|split; congruence|congruence].
  destruct (48 <? length a)%nat; cbn [bind]; [split; discriminate|].
  pose proof (text58_calm (j_nonce w)) as T. pose proof (N (j_nonce w)) as T'. destruct (base58_decode sha (j_nonce w)); cbn [bind]; [|split; congruence|congruence].
  pose proof (text58_calm (j_ciphertext w)) as U. pose proof (N (j_ciphertext w)) as U'. destruct (base58_decode sha (j_ciphertext w)); cbn [bind]; split; congruence.
Qed.
Lemma text_string_no : forall r, text_string r <> Panic.
Proof. intros []; discriminate. Qed.
Lemma text_i64_no : forall r, text_i64 r <> Panic.
Proof. intros []; try discriminate. cbn [text_i64]. destruct (num_of _ _) as [[]|]; try discriminate. destruct (_ <? 2 ^ 63); discriminate. Qed.
Lemma field_no : forall m k, field m k <> Panic.
Proof. intros m k. unfold field. destruct (filter _ m) as [|[? ?] [|? ?]]; discriminate. Qed.
Lemma text_box_no : forall r, text_box_json r <> Panic /\ (forall e, text_box_json r = Err e -> e = JsonSerde).
Proof.
  assert (B : forall (A C : Type) (x : res serr A) (g : A -> res serr C), x <> Panic -> (forall e, x = Err e -> e = JsonSerde) ->
    (forall a, g a <> Panic /\ (forall e, g a = Err e -> e = JsonSerde)) -> (let* a := x in g a) <> Panic /\ (forall e, (let* a := x in g a) = Err e -> e = JsonSerde)).
  { intros A C x g P E G. destruct x as [a|e|]; cbn [bind]; [apply G|split; [discriminate|intros e' [= <-]; apply E; reflexivity]|congruence]. }
  assert (S1 : forall r e, text_string r = Err e -> e = JsonSerde) by (intros [] e; cbn; congruence).
  assert (S2 : forall r e, text_i64 r = Err e -> e = JsonSerde).
  { intros [] e; try (cbn; congruence). cbn [text_i64]. destruct (num_of _ _) as [[]|]; try congruence. destruct (_ <? 2 ^ 63); congruence. }
  assert (S3 : forall m k e, field m k = Err e -> e = JsonSerde).
  { intros m k e. unfold field. destruct (filter _ m) as [|[? ?] [|? ?]]; congruence. }
  assert (X : forall a b c d e f, text_six a b c d e f <> Panic /\ (forall x, text_six a b c d e f = Err x -> x = JsonSerde)).
  { intros a b c d e f. unfold text_six. do 4 (apply B; [apply text_string_no|apply S1|intros ?]).
    destruct e as [| | | |[|x [|y [|? ?]]]|]; try (split; [discriminate|congruence]).
    do 2 (apply B; [apply text_i64_no|apply S2|intros ?]). apply B; [apply text_string_no|apply S1|intros ?]. split; discriminate. }
  intros [| | | |l|m]; try (split; [discriminate|cbn; congruence]).
  - destruct l as [|a [|b [|c [|d [|e [|f [|? ?]]]]]]]; try (split; [discriminate|cbn; congruence]). apply X.
  - cbn [text_box_json]. do 6 (apply B; [apply field_no|apply S3|intros ?]). apply X.
Qed.
Theorem C126_read_no_crash : forall s, wallet_of_text sha s <> Panic.
Proof.
  intros s. unfold wallet_of_text. destruct (parse s) as [r|]; [|discriminate]. intros H. apply bind_panic in H.
  destruct H as [H|(w & _ & H)]; [exact (proj1 (text_box_no r) H)|exact (proj1 (of_box_cases w) H)].
Qed.
(** The error of the JSON library is for the texts without the six parts. *)
Theorem C126_json_error_iff : forall s, wallet_of_text sha s = Err JsonSerde <->
  forall prim pw ns ss mem ops cs, ~ wallet_parts s prim pw ns ss mem ops cs.
Proof.
  intros s. unfold wallet_of_text, wallet_parts. split.
  - intros H prim pw ns ss mem ops cs (r & x & y & P & M & X & Y). apply parse_iff in P. rewrite P in H.
    set (w := mk_box_json prim pw ns ss mem ops cs).
    assert (W : text_box_json r = Ok w) by (apply text_box_iff; exists x, y; split; [exact M|split; assumption]).
    rewrite W in H. exact (proj2 (of_box_cases w) H).
  - intros H. destruct (parse s) as [r|] eqn:P; [|reflexivity]. apply parse_iff in P. destruct (text_box_json r) as [w|e|] eqn:W.
    + exfalso. apply text_box_iff in W. destruct W as (x & y & M & X & Y). eapply H. exists r, x, y. eauto.
    + cbn [bind]. rewrite (proj2 (text_box_no r) e W). reflexivity.
    + exfalso. exact (proj1 (text_box_no r) W).
Qed.
(** A part that comes twice is refused. *)
Theorem C126_repeated : forall s a b c k x y,
  In k ["box_primitive"; "pw_primitive"; "nonce"; "pwsalt"; "pwdiff"; "ciphertext"] ->
  json_text s (RObj (a ++ (str_bytes k, x) :: b ++ (str_bytes k, y) :: c)) -> wallet_of_text sha s = Err JsonSerde.
Proof.
  intros s a b c k x y K J. apply C126_json_error_iff. intros prim pw ns ss mem ops cs (r & u & v & P & M & _).
  assert (r = RObj (a ++ (str_bytes k, x) :: b ++ (str_bytes k, y) :: c)) as -> by (apply parse_iff in P, J; congruence).
  assert (T : forall z, ~ only (a ++ (str_bytes k, x) :: b ++ (str_bytes k, y) :: c) k z).
  { intros z O. apply field_iff in O. unfold field in O. rewrite filter_app in O. cbn [filter fst] in O. rewrite filter_app in O. cbn [filter fst] in O.
    rewrite (proj2 (key_eqb_iff _ _) eq_refl) in O.
    destruct (filter _ a) as [|p1 [|p2 p]]; cbn [app] in O; [| |destruct p1; discriminate].
    - destruct (filter _ b) as [|? ?]; discriminate.
    - destruct p1; discriminate. }
  destruct M as [M|(m & M & A & B & C & D & E & F)]; [discriminate|]. injection M as <-.
  cbn [In] in K. destruct K as [<-|[<-|[<-|[<-|[<-|[<-|[]]]]]]]; eapply T; eassumption.
Qed.

(** A text without repeated names is read as its document is. *)
Section Document.
  Variable float_of : list Z -> option Z.
  Notation says := (says float_of).
  Lemma string_says : forall r j, says r j -> text_string r = string_of j.
  Proof. intros r j []; reflexivity. Qed.
  Lemma i64_says : forall r j, says r j -> text_i64 r = i64_of j.
  Proof.
    intros r j []; try reflexivity; cbn [text_i64 i64_of].
    - rewrite (proj2 (int_num (fun _ => None) t z)) by (split; assumption). reflexivity.
    - destruct (num_of (fun _ => None) t) as [j'|] eqn:E; [|reflexivity]. destruct (num_of_shape _ _ _ E) as [(z & ->)|(b' & ->)]; [|reflexivity].
      apply int_num in E. destruct E as [I R]. contradiction (H z I R).
  Qed.
  Lemma six_says : forall a b c d e f a' b' c' d' e' f', says a a' -> says b b' -> says c c' -> says d d' -> says e e' -> says f f' ->
    text_six a b c d e f = six a' b' c' d' e' f'.
  Proof.
    intros a b c d e f a' b' c' d' e' f' A B C D E F. unfold text_six, six. rewrite (string_says a a' A), (string_says b b' B), (string_says c c' C), (string_says d d' D).
    destruct (string_of a'); [|reflexivity|reflexivity]. cbn [bind]. destruct (string_of b'); [|reflexivity|reflexivity]. cbn [bind].
    destruct (string_of c'); [|reflexivity|reflexivity]. cbn [bind]. destruct (string_of d'); [|reflexivity|reflexivity]. cbn [bind].
    destruct E as [| | | | |l js L|]; try reflexivity. destruct L as [|x x' l l' X L]; [reflexivity|]. destruct L as [|y y' l l' Y L]; [reflexivity|].
    destruct L; [|reflexivity]. rewrite (i64_says x x' X), (i64_says y y' Y). rewrite (string_says f f' F). reflexivity.
  Qed.
  Lemma field_says : forall k m ms, Forall2 (fun p q => fst p = fst q /\ says (snd p) (snd q)) m ms -> NoDup (map fst m) ->
    (exists r, field m k = Ok r /\ says r (index (JObj ms) k)) \/ (field m k = Err JsonSerde /\ index (JObj ms) k = JNull).
  Proof.
    intros k m ms H. unfold field. cbn [index]. induction H as [|[k1 r] [k2 j] m ms [E S] H IH]; intros N.
    - right. split; reflexivity.
    - cbn [fst snd] in E, S. subst k1. cbn [map fst] in N. inversion N as [|? ? N1 N2]; subst. cbn [filter fst find_member]. destruct (key_eqb (str_bytes k) k2) eqn:K.
      + apply key_eqb_iff in K. subst k2. rewrite (proj2 (filter_none m _) N1). left. exists r. split; [reflexivity|]. rewrite (proj2 (key_eqb_iff _ _) eq_refl). exact S.
      + assert (key_eqb k2 (str_bytes k) = false) as ->
          by (destruct (key_eqb k2 (str_bytes k)) eqn:K'; [|reflexivity]; apply key_eqb_iff in K'; subst k2; rewrite (proj2 (key_eqb_iff _ _) eq_refl) in K; discriminate).
        apply IH, N2.
  Qed.
  Lemma i64_cases : forall j, (exists z, i64_of j = Ok z) \/ i64_of j = Err JsonSerde.
  Proof. intros []; cbn [i64_of]; auto. destruct (z <? 2 ^ 63); eauto. Qed.
  Lemma box_says : forall r j, says r j -> once r -> text_box_json r = box_json_of j.
  Proof.
    intros r j S O. destruct S as [| | | | |l js L|m ms M]; try reflexivity.
    - cbn [text_box_json box_json_of].
      destruct L as [|a a' l l' A L]; [reflexivity|]. destruct L as [|b b' l l' B L]; [reflexivity|]. destruct L as [|c c' l l' C L]; [reflexivity|].
      destruct L as [|d d' l l' D L]; [reflexivity|]. destruct L as [|e e' l l' E L]; [reflexivity|]. destruct L as [|f f' l l' F L]; [reflexivity|].
      destruct L; [|reflexivity]. apply six_says; assumption.
    - cbn [text_box_json box_json_of]. apply once_obj in O. destruct O as [N _].
      assert (J : forall a b c d e f, (a = JNull \/ b = JNull \/ c = JNull \/ d = JNull \/ e = JNull \/ f = JNull) -> six a b c d e f = Err JsonSerde).
      { intros a b c d e f H. unfold six. destruct (string_of a) eqn:A; cbn [bind]; [|destruct a; cbn in A; congruence|destruct a; discriminate].
        destruct (string_of b) eqn:B; cbn [bind]; [|destruct b; cbn in B; congruence|destruct b; discriminate].
        destruct (string_of c) eqn:C; cbn [bind]; [|destruct c; cbn in C; congruence|destruct c; discriminate].
        destruct (string_of d) eqn:D; cbn [bind]; [|destruct d; cbn in D; congruence|destruct d; discriminate].
        destruct e as [| | | | |[|x [|y [|? ?]]]|]; try reflexivity.
        destruct (i64_cases x) as [(? & ->)| ->]; cbn [bind]; [|reflexivity].
        destruct (i64_cases y) as [(? & ->)| ->]; cbn [bind]; [|reflexivity].
        destruct f; try reflexivity. destruct H as [->|[->|[->|[->|[H|H]]]]]; discriminate. }
      destruct (field_says "box_primitive" m ms M N) as [(a & -> & A)|[-> ->]]; cbn [bind]; [|symmetry; apply J; auto].
      destruct (field_says "pw_primitive" m ms M N) as [(b & -> & B)|[-> ->]]; cbn [bind]; [|symmetry; apply J; auto].
      destruct (field_says "nonce" m ms M N) as [(c & -> & C)|[-> ->]]; cbn [bind]; [|symmetry; apply J; auto].
      destruct (field_says "pwsalt" m ms M N) as [(d & -> & D)|[-> ->]]; cbn [bind]; [|symmetry; apply J; auto].
      destruct (field_says "pwdiff" m ms M N) as [(e & -> & E)|[-> ->]]; cbn [bind]; [|symmetry; apply J; auto 10].
      destruct (field_says "ciphertext" m ms M N) as [(f & -> & F)|[-> ->]]; cbn [bind]; [|symmetry; apply J; auto 10].
      apply six_says; assumption.
  Qed.
  Theorem C126_document : forall s r j, json_text s r -> says r j -> once r -> wallet_of_text sha s = box_of sha j.
  Proof. intros s r j P S O. apply parse_iff in P. unfold wallet_of_text, box_of. rewrite P, (box_says r j S O). reflexivity. Qed.

  (** ** Writing *)
  Variable float_text : Z -> list Z.
  (** Every document without floats is printed as a text for it. *)
  Theorem C126_pretty : forall j, no_float j -> in_range j -> strings bytes_ok j -> exists r, json_text (pretty float_text 0 j) r /\ says r j.
  Proof.
    intros j N R B. exists (raw_of float_text j). split; [apply parse_iff, parse_pretty; assumption|apply raw_says; assumption].
  Qed.
  Lemma names_distinct : forall a b c d e f : json,
    NoDup (map fst [(str_bytes "box_primitive", a); (str_bytes "pw_primitive", b); (str_bytes "nonce", c); (str_bytes "pwsalt", d); (str_bytes "pwdiff", e); (str_bytes "ciphertext", f)]).
  Proof. intros a b c d e f. vm_compute. repeat constructor; cbn [In]; intuition discriminate. Qed.
  Lemma canonical_good : forall ns ss mem ops cs, bytes_ok ns -> bytes_ok ss -> bytes_ok cs -> i64 mem -> i64 ops ->
    good 2 (canonical ns ss mem ops cs) /\ distinct (canonical ns ss mem ops cs).
  Proof.
    intros ns ss mem ops cs N S C M O. unfold i64 in M, O. unfold canonical. split.
    - apply good_obj. repeat (apply Forall_cons; [split; [apply str_bytes_ok|cbn [snd good]; first [apply str_bytes_ok|assumption|repeat split; lia]]|]). apply Forall_nil.
    - split; [apply names_distinct|]. cbn [distinct]. auto 20.
  Qed.
  Lemma canonical_sorted : forall ns ss mem ops cs, box_of sha (sorted (canonical ns ss mem ops cs)) = box_of sha (canonical ns ss mem ops cs).
  Proof. reflexivity. Qed.
  (** A box is written as a wallet file, on several lines, and the file is
      read as the box. *)
  Theorem C126_round_trip : forall view b, salt_rule view ->
    box_primitive b = str_bytes "xsalsa20poly1305" -> pw_primitive b = str_bytes "argon2i" ->
    bytes_ok (nonce b) -> bytes_ok (pwsalt b) -> bytes_ok (ciphertext b) -> i64 (pw_mem_limit_bytes b) -> 0 <= pw_ops_limit b < 2 ^ 32 ->
    (3 <= length (pwsalt b) <= 16)%nat ->
    exists s j, wallet_to_text sha view float_text b = Ok s /\ wallet_of_text sha s = Ok b /\
      wallet_to_value sha view float_of float_text b = Ok j /\ box_of sha j = Ok b /\
      wallet_text sha s (nonce b) (pwsalt b) (pw_mem_limit_bytes b) (pw_ops_limit b) (ciphertext b).
  Proof.
    intros view b R P Q N S C M O L. destruct (C59_box_round_trip view b R P Q N S C M O L) as (j & W & E).
    assert (J : j = canonical (base58_encode sha (nonce b)) (base58_encode sha (pwsalt b)) (pw_mem_limit_bytes b) (pw_ops_limit b) (base58_encode sha (ciphertext b))).
    { unfold box_to, to_box_json in W. rewrite (proj1 (R _)) in W by lia. cbn [bind] in W. replace (16 <? length (pwsalt b))%nat with false in W by lia.
      cbn [bind] in W. injection W as <-. unfold box_json_to. cbn [j_box_primitive j_pw_primitive j_nonce j_pwsalt j_pwdiff0 j_pwdiff1 j_ciphertext]. rewrite P, Q. reflexivity. }
    destruct (canonical_good (base58_encode sha (nonce b)) (base58_encode sha (pwsalt b)) (pw_mem_limit_bytes b) (pw_ops_limit b) (base58_encode sha (ciphertext b))) as [G D];
      [apply b58_bytes|apply b58_bytes|apply b58_bytes|exact M|unfold i64; lia|]. rewrite <- J in G, D.
    destruct (good_parts float_text j 2 G) as (NF & IR & B & DP).
    exists (pretty float_text 0 j), (sorted j). assert (T : wallet_to_text sha view float_text b = Ok (pretty float_text 0 j)) by (unfold wallet_to_text; rewrite W; reflexivity).
    pose proof (parse_pretty float_text j NF B) as PP.
    assert (RD : wallet_of_text sha (pretty float_text 0 j) = Ok b).
    { rewrite (C126_document (pretty float_text 0 j) (raw_of float_text j) j); [exact E|apply parse_iff, PP|apply raw_says; assumption|apply raw_once, D]. }
    split; [exact T|]. split; [exact RD|]. split; [|split].
    - unfold wallet_to_value. rewrite T. cbn [bind]. rewrite PP, (value_of_raw float_of float_text j NF IR).
      replace (depth (raw_of float_text j) <=? MAX_DEPTH)%nat with true by (unfold MAX_DEPTH; lia). reflexivity.
    - rewrite J, canonical_sorted, <- J. exact E.
    - exists (base58_encode sha (nonce b)), (base58_encode sha (pwsalt b)), (base58_encode sha (ciphertext b)).
      split; [|split; [split; [exact N|reflexivity]|split; split; [exact S|reflexivity|exact C|reflexivity]]].
      exists (raw_of float_text j), (RNum (print_int (pw_mem_limit_bytes b))), (RNum (print_int (pw_ops_limit b))). split; [apply parse_iff, PP|].
      assert (I : forall z, i64 z -> i64_text (RNum (print_int z)) z).
      { intros z Z. unfold i64 in Z. exists (print_int z). split; [reflexivity|]. split; [|exact Z]. apply (int_num float_of). apply num_of_int. lia. }
      split; [|split; apply I; [exact M|unfold i64; lia]]. right. rewrite J. eexists. split; [reflexivity|].
      repeat match goal with |- _ /\ _ => split end; apply field_iff; reflexivity.
  Qed.
  Lemma plain58 : forall s ds, digits_of s = Ok ds -> flat_map escape s = s.
  Proof.
    induction s as [|c s IH]; intros ds H; [reflexivity|]. cbn [digits_of] in H. apply bind_ok in H. destruct H as (d & D & H). apply bind_ok in H. destruct H as (ds' & H & _).
    cbn [flat_map]. rewrite (IH ds' H). enough (escape c = [c]) as -> by reflexivity. unfold digit_of in D. destruct (127 <? c); [discriminate|].
    destruct (index_of c alphabet 0) as [x|] eqn:E; [|discriminate]. assert (I : In c alphabet).
    { clear - E. revert E. generalize 0. induction alphabet as [|a l IHl]; intros n E; cbn [index_of] in E; [discriminate|]. destruct (a =? c) eqn:A; [left; lia|right; exact (IHl _ E)]. }
    assert (F : forallb (fun c => match escape c with [d] => d =? c | _ => false end) alphabet = true) by (vm_compute; reflexivity).
    rewrite forallb_forall in F. specialize (F c I). destruct (escape c) as [|d' [|]]; try discriminate. f_equal. lia.
  Qed.
  Lemma plain_text : forall data, bytes_ok data -> print_str (base58_encode sha data) = quoted (base58_encode sha data).
  Proof.
    intros data B. unfold print_str, quoted. do 2 f_equal. unfold base58_encode, to_base58_string.
    match goal with |- flat_map escape ?s = _ => assert (X : exists ds, digits_of s = Ok ds) end; [|destruct X as (ds & X); exact (plain58 _ ds X)].
    unfold b58c_encode. match goal with |- context[b58_encode ?x] => assert (D : b58_decode (b58_encode x) = Ok x) end.
    { apply decode_encode. constructor; [unfold byte_ok, VERSION_CHECK_BYTE; lia|]. apply Forall_app. split; [exact B|apply sha_checksum_bytes]. }
    unfold b58_decode in D. apply bind_ok in D. destruct D as (ds & D & _). eauto.
  Qed.
  Lemma print_int_text : forall z, int_text (print_int z) z.
  Proof.
    intros z. unfold print_int. destruct (z <? 0) eqn:E.
    - pose proof (dec_val_dec (- z) ltac:(lia)) as V. replace z with (- dec_val (dec (- z))) at 2 by lia. apply I_minus; [exact (dec_digits (- z) ltac:(lia))|lia].
    - pose proof (dec_val_dec z ltac:(lia)) as V. rewrite <- V at 2. apply I_plus; [apply dec_nonempty|exact (dec_digits z ltac:(lia))].
  Qed.
  (** The lines of the file, for every box. *)
  Theorem C126_written : forall view b, salt_rule view ->
    box_primitive b = str_bytes "xsalsa20poly1305" -> pw_primitive b = str_bytes "argon2i" ->
    bytes_ok (nonce b) -> bytes_ok (pwsalt b) -> bytes_ok (ciphertext b) -> (3 <= length (pwsalt b) <= 16)%nat ->
    exists ns ss mem ops cs, wallet_to_text sha view float_text b = Ok (wallet_lines ns ss mem ops cs) /\
      text58 sha ns (nonce b) /\ text58 sha ss (pwsalt b) /\ text58 sha cs (ciphertext b) /\
      int_text mem (pw_mem_limit_bytes b) /\ int_text ops (pw_ops_limit b).
  Proof.
    intros view b R P Q N S C L. exists (base58_encode sha (nonce b)), (base58_encode sha (pwsalt b)), (print_int (pw_mem_limit_bytes b)), (print_int (pw_ops_limit b)), (base58_encode sha (ciphertext b)).
    split; [|split; [split; [exact N|reflexivity]|split; [split; [exact S|reflexivity]|split; [split; [exact C|reflexivity]|]]]].
    - unfold wallet_to_text, box_to, to_box_json. rewrite (proj1 (R _)) by lia. cbn [bind]. replace (16 <? length (pwsalt b))%nat with false by lia. cbn [bind].
      unfold box_json_to. cbn [j_box_primitive j_pw_primitive j_nonce j_pwsalt j_pwdiff0 j_pwdiff1 j_ciphertext]. rewrite P, Q. f_equal.
      unfold canonical. cbn [pretty map joined flat_map fst snd print]. rewrite (plain_text _ N), (plain_text _ S), (plain_text _ C).
      generalize (base58_encode sha (nonce b)), (base58_encode sha (pwsalt b)), (print_int (pw_mem_limit_bytes b)), (print_int (pw_ops_limit b)), (base58_encode sha (ciphertext b)).
      clear. intros ns ss mem ops cs. unfold wallet_lines, member_line, quoted. repeat first [rewrite <- app_assoc|rewrite <- app_comm_cons]. reflexivity.
    - split; apply print_int_text.
  Qed.
End Document.

(** ** The wallet of the tests: /repo/secrets/tests/data/test-wallet *)
Definition quote (s : string) : list Z := flat_map (fun c => if c =? 39 then [34] else [c]) (str_bytes s).
Definition test_wallet : list Z := quote
  "{'box_primitive':'xsalsa20poly1305','pw_primitive':'argon2i','nonce':'6gqjM2uNavEkeV6DRpc7jtR7H84b5LLY36sJEoX','pwsalt':'BADzTUe8oh125ccdgxafGzfuyCdE','pwdiff':[134217728,6],'ciphertext':'C6akiMy3NarEYxkQ2ta4AweAz67Cq1Qn81VxdX5SQKUXebAEcrY97DRb5AdWxQdG9msbXWUqr'}".
Definition no_floats (t : list Z) : option Z := None.
Definition no_text (b : Z) : list Z := [].
(** tests/secret_box.rs 18-25: the box as a value is the value of the text; and
    the lines that are written. *)
Example C126_ex : exists b j, wallet_of_text sha test_wallet = Ok b /\ length (nonce b) = 24%nat /\ pw_mem_limit_bytes b = 134217728 /\ pw_ops_limit b = 6 /\
  wallet_to_value sha short_panics no_floats no_text b = Ok j /\ match parse test_wallet with Some r => value_of no_floats r | None => None end = Some j /\
  wallet_to_text sha short_panics no_text b = Ok (str_bytes "{" ++ 10 :: quote "  'box_primitive': 'xsalsa20poly1305'," ++ 10 :: quote "  'pw_primitive': 'argon2i'," ++
    10 :: quote "  'nonce': '6gqjM2uNavEkeV6DRpc7jtR7H84b5LLY36sJEoX'," ++ 10 :: quote "  'pwsalt': 'BADzTUe8oh125ccdgxafGzfuyCdE'," ++
    10 :: quote "  'pwdiff': [" ++ 10 :: quote "    134217728," ++ 10 :: quote "    6" ++ 10 :: quote "  ]," ++
    10 :: quote "  'ciphertext': 'C6akiMy3NarEYxkQ2ta4AweAz67Cq1Qn81VxdX5SQKUXebAEcrY97DRb5AdWxQdG9msbXWUqr'" ++ 10 :: quote "}").
Proof.
  eexists. eexists. split; [vm_compute; reflexivity|]. split; [vm_compute; reflexivity|]. split; [vm_compute; reflexivity|]. split; [vm_compute; reflexivity|].
  split; [vm_compute; reflexivity|]. split; [vm_compute; reflexivity|]. vm_compute. reflexivity.
Qed.
(** A repeated part, a number that is not whole, and no text at all. *)
Example C126_bad : wallet_of_text sha (quote "{'nonce':'x','nonce':'x'}") = Err JsonSerde /\ wallet_of_text sha (quote "['a','b','c','d',[1,2.0],'e']") = Err JsonSerde /\
  wallet_of_text sha (quote "['a','b','c','d',[1,2],'e']") = Err InvalidSecretBoxPrimitive /\ wallet_of_text sha [] = Err JsonSerde.
Proof. vm_compute. auto. Qed.


Print Assumptions C126_read_iff.
Print Assumptions C126_read_no_crash.
Print Assumptions C126_json_error_iff.
Print Assumptions C126_repeated.
Print Assumptions C126_document.
Print Assumptions C126_pretty.
Print Assumptions C126_round_trip.
Print Assumptions C126_written.
