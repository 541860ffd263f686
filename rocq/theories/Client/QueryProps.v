(** C107: what a GraphQL server reads in the requests of the wasm clients. *)
From Coq Require Import String ZArith List Bool Lia ZifyNat.
From Verif Require Import Lib.Res Lib.Bytes Lib.Decimal Lib.Text Json.Json.
From Verif Require Import Client.GqlSpec Client.GqlFacts Client.ReadingFacts Client.Query.
Import ListNotations.
Local Open Scope string_scope.
Local Open Scope list_scope.
Local Open Scope Z_scope.

(** ** What the requests are meant to ask *)
Definition payment_call (alias : option (list Z)) (fee amount : Z) (to from : list Z) : sel :=
  call alias "sendPayment" [(nm "fee", AStr (dec fee)); (nm "amount", AStr (dec amount));
    (nm "to", AStr to); (nm "from", AStr from)] [node "payment" [field "id"]].
Definition lock_call (key : list Z) : sel :=
  call None "lockAccount" [(nm "publicKey", AStr key)] [node "account" [field "locked"]].
Definition unlock_call (key password : list Z) : sel :=
  call None "unlockAccount" [(nm "publicKey", AStr key); (nm "password", AStr password)] [node "account" [field "locked"]].
Definition account_call (key : list Z) : sel :=
  Sel None (nm "account") [(nm "publicKey", AStr key)]
    [node "balance" [field "total"]; field "inferredNonce"; field "locked"].

(** A text that can stand between quotes as it is. *)
Definition writable (s : list Z) : Prop :=
  Forall (fun c => (32 <= c <= 255 \/ c = 9) /\ c <> 34 /\ c <> 92) s.

Lemma writable_plain : forall s, writable s <-> plain s.
Proof.
  intros s. unfold writable, plain. rewrite !Forall_forall. unfold plain_char.
  split; intros H x Hx; specialize (H x Hx); destruct (Z.eqb_spec x 34), (Z.eqb_spec x 92), (Z.eqb_spec x 9),
    (Z.leb_spec 32 x), (Z.leb_spec x 255); cbn in *; try reflexivity; try discriminate; try (repeat split; lia); try lia.
Qed.

Lemma dec_plain : forall n, 0 <= n -> plain (dec n).
Proof.
  intros n H. eapply Forall_impl; [|exact (dec_digits n H)]. cbn beta. intros c D.
  unfold is_digit in D. unfold plain_char.
  destruct (Z.leb_spec 48 c), (Z.leb_spec c 57); try discriminate D.
  destruct (Z.eqb_spec c 34), (Z.eqb_spec c 92), (Z.leb_spec 32 c), (Z.leb_spec c 255); try lia; reflexivity.
Qed.

(** ** Reading a literal, a string and what follows *)
Definition toks (a : string) : list token := match pre [] (str_bytes a) with Some t => t | None => [] end.

Lemma seg : forall a s tail ts, pre [] (str_bytes a) <> None -> tail_ok tail -> ~ begins (Z.eqb 34) tail ->
  (lexes (str_bytes a ++ 34 :: s ++ 34 :: tail) (toks a ++ TStr s :: ts) <-> plain s /\ lexes tail ts).
Proof.
  intros a s tail ts H T N. unfold toks. destruct (pre [] (str_bytes a)) as [ta|] eqn:E; [|congruence].
  rewrite (pre_iff _ _ _ _ E). apply lex_string; auto.
Qed.

Lemma seg_end : forall a, pre [] (str_bytes a) <> None -> lexes (str_bytes a) (toks a).
Proof.
  intros a H. unfold toks. destruct (pre [] (str_bytes a)) as [ta|] eqn:E; [|congruence].
  rewrite <- (app_nil_r (str_bytes a)), <- (app_nil_r ta). apply (pre_iff _ _ _ _ E). constructor.
Qed.

Definition plainb (a : string) : bool := forallb plain_char (str_bytes a).
Lemma tail_plain : forall a r, plainb a = true -> tail_ok (str_bytes a ++ 34 :: r).
Proof. intros a r H. apply tail_ok_plain. now apply Forall_forall, forallb_forall. Qed.
Lemma tail_none : forall a, forallb (fun c => negb (Z.eqb c 34)) (str_bytes a) = true -> tail_ok (str_bytes a).
Proof.
  intros a H. apply tail_ok_none. apply Forall_forall. intros c Hc ->.
  rewrite forallb_forall in H. now specialize (H _ Hc).
Qed.

Ltac seg_side := first [discriminate | apply tail_plain; reflexivity | apply tail_none; reflexivity | (cbn; discriminate)].

Local Notation S0 := "mutation MyMutation {  
            sendPayment(input: {fee: ".
Local Notation S9 := "}) {    payment {      id    }  }
        }".

Lemma send_split : forall fee amount to from, send_payment_query fee amount to from =
  str_bytes S0 ++ 34 :: dec fee ++ 34 ::
  (str_bytes ", amount: " ++ 34 :: dec amount ++ 34 ::
  (str_bytes ", to: " ++ 34 :: to ++ 34 ::
  (str_bytes ", from: " ++ 34 :: from ++ 34 :: str_bytes S9))).
Proof. reflexivity. Qed.

Lemma send_tokens : forall fee amount to from, doc_tokens (mutation [payment_call None fee amount to from]) =
  toks S0 ++ TStr (dec fee) ::
  (toks ", amount: " ++ TStr (dec amount) ::
  (toks ", to: " ++ TStr to ::
  (toks ", from: " ++ TStr from :: toks S9))).
Proof. reflexivity. Qed.

(** C107 (payments): the server reads the request as the one payment that was
    asked for exactly if both addresses can stand between quotes as they are. *)
Theorem C107_payment_iff : forall fee amount to from, 0 <= fee -> 0 <= amount ->
  (asks (send_payment_query fee amount to from) (mutation [payment_call None fee amount to from]) <->
   writable to /\ writable from).
Proof.
  intros fee amount to from Hf Ha. unfold asks. rewrite send_split, send_tokens, !writable_plain.
  rewrite seg by seg_side. rewrite seg by seg_side. rewrite seg by seg_side. rewrite seg by seg_side.
  pose proof (dec_plain fee Hf). pose proof (dec_plain amount Ha).
  assert (lexes (str_bytes S9) (toks S9)) by (apply seg_end; discriminate). tauto.
Qed.

(** At most one document is read in a text. *)
Theorem C107_one_reading : forall t d d', asks t d -> asks t d' -> d = d'.
Proof. exact asks_unique. Qed.

Corollary C107_payment_only : forall fee amount to from d, 0 <= fee -> 0 <= amount -> writable to -> writable from ->
  asks (send_payment_query fee amount to from) d -> d = mutation [payment_call None fee amount to from].
Proof.
  intros fee amount to from d Hf Ha Ht Hr H. eapply asks_unique; [exact H|].
  now apply C107_payment_iff.
Qed.

(** Expected: a call of sendPayment asks for one payment, of the given amount and
    fee.  Refuted: whoever chooses the recipient text can add a payment of any
    amount to anyone, paid by the sender of the first. *)
Definition S1 : string := "}) {payment {id}} second: sendPayment(input: {fee: ".
Definition smuggled (to1 from1 : list Z) (fee2 amount2 : Z) (to2 : list Z) : list Z :=
  to1 ++ 34 :: (str_bytes ", from: " ++ 34 :: from1 ++ 34 ::
  (str_bytes S1 ++ 34 :: dec fee2 ++ 34 ::
  (str_bytes ", amount: " ++ 34 :: dec amount2 ++ 34 ::
  (str_bytes ", to: " ++ 34 :: to2)))).

Theorem C107_payment_refuted : forall fee amount to from fee2 amount2 to2,
  0 <= fee -> 0 <= amount -> 0 <= fee2 -> 0 <= amount2 -> writable to -> writable from -> writable to2 ->
  asks (send_payment_query fee amount (smuggled to from fee2 amount2 to2) from)
    (mutation [payment_call None fee amount to from; payment_call (Some (nm "second")) fee2 amount2 to2 from]).
Proof.
  intros fee amount to from fee2 amount2 to2 H1 H2 H3 H4 Wt Wf Wt2.
  apply writable_plain in Wt, Wf, Wt2. unfold asks.
  assert (E : send_payment_query fee amount (smuggled to from fee2 amount2 to2) from =
    str_bytes S0 ++ 34 :: dec fee ++ 34 ::
    (str_bytes ", amount: " ++ 34 :: dec amount ++ 34 ::
    (str_bytes ", to: " ++ 34 :: to ++ 34 ::
    (str_bytes ", from: " ++ 34 :: from ++ 34 ::
    (str_bytes S1 ++ 34 :: dec fee2 ++ 34 ::
    (str_bytes ", amount: " ++ 34 :: dec amount2 ++ 34 ::
    (str_bytes ", to: " ++ 34 :: to2 ++ 34 ::
    (str_bytes ", from: " ++ 34 :: from ++ 34 :: str_bytes S9)))))))).
  { rewrite send_split. unfold smuggled. repeat (rewrite <- ?app_assoc, <- ?app_comm_cons). reflexivity. }
  assert (T : doc_tokens (mutation [payment_call None fee amount to from; payment_call (Some (nm "second")) fee2 amount2 to2 from]) =
    toks S0 ++ TStr (dec fee) ::
    (toks ", amount: " ++ TStr (dec amount) ::
    (toks ", to: " ++ TStr to ::
    (toks ", from: " ++ TStr from ::
    (toks S1 ++ TStr (dec fee2) ::
    (toks ", amount: " ++ TStr (dec amount2) ::
    (toks ", to: " ++ TStr to2 ::
    (toks ", from: " ++ TStr from :: toks S9)))))))) by reflexivity.
  rewrite E, T. do 8 (rewrite seg by seg_side).
  repeat (split; [auto using dec_plain|]). apply seg_end. discriminate.
Qed.

(** ** The other calls *)
Local Notation K0 := "mutation MyMutation {  
            lockAccount(input: {publicKey: ".
Local Notation K9 := "}) {    account {      locked    }  }
        }".
Local Notation U0 := "mutation MyMutation {  
            unlockAccount(input: {publicKey: ".
Local Notation A0 := "query MyQuery {  
            account(publicKey: ".
Local Notation A9 := ") { balance { total } inferredNonce locked  }
        }".

Theorem C107_lock_iff : forall key, asks (lock_account_query key) (mutation [lock_call key]) <-> writable key.
Proof.
  intros key. rewrite writable_plain. unfold asks.
  change (lexes (str_bytes K0 ++ 34 :: key ++ 34 :: str_bytes K9) (toks K0 ++ TStr key :: toks K9) <-> plain key).
  rewrite seg by seg_side. assert (lexes (str_bytes K9) (toks K9)) by (apply seg_end; discriminate). tauto.
Qed.

Theorem C107_account_iff : forall key, asks (account_info_query key) (query "MyQuery" [account_call key]) <-> writable key.
Proof.
  intros key. rewrite writable_plain. unfold asks.
  change (lexes (str_bytes A0 ++ 34 :: key ++ 34 :: str_bytes A9) (toks A0 ++ TStr key :: toks A9) <-> plain key).
  rewrite seg by seg_side. assert (lexes (str_bytes A9) (toks A9)) by (apply seg_end; discriminate). tauto.
Qed.

Lemma unlock_split : forall key password, unlock_account_query key password =
  str_bytes U0 ++ 34 :: key ++ 34 :: (str_bytes ", password: " ++ 34 :: password ++ 34 :: str_bytes K9).
Proof. reflexivity. Qed.

(** The server is told the password that was typed exactly if it can stand
    between quotes as it is. *)
Theorem C107_unlock_iff : forall key password,
  asks (unlock_account_query key password) (mutation [unlock_call key password]) <-> writable key /\ writable password.
Proof.
  intros key password. rewrite !writable_plain. unfold asks. rewrite unlock_split.
  change (doc_tokens (mutation [unlock_call key password])) with
    (toks U0 ++ TStr key :: (toks ", password: " ++ TStr password :: toks K9)).
  rewrite !seg by seg_side. assert (lexes (str_bytes K9) (toks K9)) by (apply seg_end; discriminate). tauto.
Qed.

(** Expected: every password reaches the server.  Refuted: one with two
    backslashes in a row is read with one of them. *)
Theorem C107_password_refuted : forall key a b, writable key -> writable a -> writable b ->
  asks (unlock_account_query key (a ++ [92; 92] ++ b)) (mutation [unlock_call key (a ++ [92] ++ b)]).
Proof.
  intros key a b Wk Wa Wb. apply writable_plain in Wk, Wa, Wb. unfold asks. rewrite unlock_split.
  change (doc_tokens (mutation [unlock_call key (a ++ [92] ++ b)])) with
    (toks U0 ++ TStr key :: (toks ", password: " ++ TStr (a ++ [92] ++ b) :: toks K9)).
  rewrite seg by seg_side. split; [assumption|].
  apply (pre_lexes (str_bytes ", password: ") [] (toks ", password: ")); [constructor|reflexivity|].
  apply L_string.
  - apply body_app; [now apply plain_body|]. cbn [app]. apply (SB_escape 92 92); [reflexivity|now apply plain_body].
  - intros [E _]. now destruct a.
  - apply seg_end. discriminate.
Qed.

(** ** The chain and the tracked accounts *)
Definition is_name (n : list Z) : Prop :=
  match n with [] => False | c :: r => name_start c = true /\ Forall (fun c => name_more c = true) r end.

Definition tracked (a : list Z) : sel :=
  Sel (Some a) (nm "account") [(nm "publicKey", AStr a)]
    [node "merklePath" [field "left"; field "right"]; field "leafHash"].
Definition epoch_fields : list sel :=
  [field "epochLength"; field "lockCheckpoint"; field "seed"; field "startCheckpoint";
   node "ledger" [field "hash"; field "totalCurrency"]].
Definition state_fields : list sel :=
  [field "previousStateHash";
   node "consensusState" (map field ["blockCreator"; "blockHeight"; "blockStakeWinner"; "epoch"; "blockchainLength";
     "coinbaseReceiever"; "epochCount"; "hasAncestorInSameCheckpointWindow"; "lastVrfOutput"; "minWindowDensity"; "slot";
     "slotSinceGenesis"; "superchargedCoinbase"; "totalCurrency"] ++
     [node "nextEpochData" epoch_fields; node "stakingEpochData" epoch_fields]);
   node "blockchainState" (map field ["bodyReference"; "date"; "snarkedLedgerHash"; "stagedLedgerAuxHash";
     "stagedLedgerHash"; "stagedLedgerPendingCoinbaseAux"; "stagedLedgerPendingCoinbaseHash"; "stagedLedgerProofEmitted"; "utcDate"])].
Definition chain_document (accounts : list (list Z)) : document :=
  query "Query" (Sel None (nm "bestChain") [(nm "maxLength", AInt (nm "1000000"))] [node "protocolState" state_fields] ::
    node "genesisBlock" [node "protocolState" [node "blockchainState" [field "snarkedLedgerHash"]]] ::
    map tracked accounts).

Local Notation W1 := "
            ".
Local Notation W2 := "
            
            ".
Local Notation Q0 := ": account(publicKey: ".
Local Notation Q9 := ") {
                merklePath {
                  left
                  right
                }
                leafHash
              }
            ".

Lemma lex_name : forall a r ts, lexes (a ++ 58 :: r) (TName a :: TPunct 58 :: ts) <->
  is_name a /\ lexes r ts.
Proof.
  intros a r ts. split.
  - intros H. remember (a ++ 58 :: r) as t eqn:Et. remember (TName a :: TPunct 58 :: ts) as all eqn:Ea.
    assert (N : is_name a).
    { clear Et r. induction H; try discriminate; auto. injection Ea as <- ->. split; assumption. }
    split; [exact N|]. destruct a as [|c n]; [destruct N|]. destruct N as [N1 N2]. cbn [app] in Et. subst t all.
    assert (E : word (c :: n) 58 = Some (TName (c :: n))) by (cbn [word]; now rewrite N1).
    destruct (word_inv (c :: n) 58 _ r _ (Forall_cons _ (eq_trans (f_equal (fun b => orb b _) N1) eq_refl) N2) eq_refl E H)
      as (ts' & Q & L).
    injection Q as <-. inversion L; subst; try discriminate; auto.
  - intros [N L]. destruct a as [|c n]; [destruct N|]. destruct N as [N1 N2]. cbn [app].
    apply L_name; auto; [discriminate|]. now apply L_punct.
Qed.

Lemma name_plain : forall a, is_name a -> plain a.
Proof.
  intros [|c n] N; [constructor|]. destruct N as [N1 N2].
  assert (M : forall x, name_more x = true -> plain_char x = true).
  { intros x. unfold name_more, name_start, digit, plain_char. intros H.
    repeat match goal with |- context [?a <=? ?b] => destruct (Z.leb_spec a b)
                         | H : context [?a <=? ?b] |- _ => destruct (Z.leb_spec a b)
                         | |- context [?a =? ?b] => destruct (Z.eqb_spec a b)
                         | H : context [?a =? ?b] |- _ => destruct (Z.eqb_spec a b) end;
      cbn in H |- *; try discriminate; try reflexivity; lia. }
  constructor; [apply M; unfold name_more; now rewrite N1|]. eapply Forall_impl; [|exact N2]. exact M.
Qed.

Lemma account_queries_snoc : forall l a, account_queries (l ++ [a]) = account_query (account_queries l) a.
Proof. intros. unfold account_queries. now rewrite fold_left_app. Qed.

Lemma accounts_iff : forall l r ts,
  (lexes (account_queries l ++ r) (flat_map sel_tokens (map tracked l) ++ ts) <-> Forall is_name l /\ lexes r ts).
Proof.
  induction l as [|a l IH] using rev_ind; intros r ts.
  - cbn. split; [intros; split; [constructor|assumption]|tauto].
  - rewrite account_queries_snoc, map_app, flat_map_app, Forall_app.
    assert (E : account_query (account_queries l) a ++ r =
      str_bytes W1 ++ account_queries l ++ (str_bytes W2 ++ (a ++ 58 :: (str_bytes " account(publicKey: " ++ 34 :: a ++ 34 ::
        (str_bytes Q9 ++ r))))).
    { unfold account_query. rewrite <- !app_assoc. cbn [map flat_map]. reflexivity. }
    rewrite E. clear E.
    assert (T : (flat_map sel_tokens (map tracked l) ++ flat_map sel_tokens (map tracked [a])) ++ ts =
      [] ++ flat_map sel_tokens (map tracked l) ++ ([] ++ (TName a :: TPunct 58 :: (toks " account(publicKey: " ++ TStr a :: (toks Q9 ++ ts))))).
    { rewrite <- app_assoc. reflexivity. }
    rewrite T. clear T.
    rewrite (pre_iff (str_bytes W1) []) by reflexivity. rewrite IH.
    rewrite (pre_iff (str_bytes W2) []) by reflexivity. rewrite lex_name.
    assert (G : plain a -> (lexes (str_bytes " account(publicKey: " ++ 34 :: a ++ 34 :: str_bytes Q9 ++ r)
        (toks " account(publicKey: " ++ TStr a :: toks Q9 ++ ts) <-> lexes r ts)).
    { intros Ha. rewrite (pre_iff (str_bytes " account(publicKey: ")) by reflexivity.
      rewrite lex_string_plain; [|exact Ha|cbn; discriminate]. apply (pre_iff (str_bytes Q9)). reflexivity. }
    assert (F : Forall is_name [a] <-> is_name a).
    { split; [now inversion 1|auto]. }
    rewrite F. pose proof (name_plain a). tauto.
Qed.

(** C107 (the best chain): the request asks for the chain and for every tracked
    account under its own key exactly if the keys are names (letters, digits and
    underscores, as keys in base 58 are). *)
Theorem C107_chain_iff : forall accounts,
  asks (best_chain_query accounts) (chain_document accounts) <-> Forall is_name accounts.
Proof.
  intros accounts. unfold asks, best_chain_query.
  match goal with |- lexes (str_bytes ?a ++ _ ++ str_bytes ?b) _ <-> _ =>
    assert (T : doc_tokens (chain_document accounts) = toks a ++ flat_map sel_tokens (map tracked accounts) ++ toks b);
    [reflexivity|rewrite T; clear T; rewrite (pre_iff (str_bytes a) (toks a)) by reflexivity;
     rewrite accounts_iff; assert (lexes (str_bytes b) (toks b)) by (apply seg_end; discriminate); tauto] end.
Qed.

(** ** The latest blocks *)
Lemma dec_loop_head : forall fuel n acc, 0 < n < 10 ^ Z.of_nat fuel ->
  exists c r, dec_loop fuel n acc = c :: r /\ c <> 48.
Proof.
  induction fuel as [|fuel IH]; intros n acc H; [cbn in H; lia|]. cbn [dec_loop]. cbv zeta.
  rewrite Nat2Z.inj_succ, Z.pow_succ_r in H by lia.
  destruct (Z.eqb_spec (n / 10) 0) as [E|E].
  - eexists _, _. split; [reflexivity|]. lia.
  - apply IH. lia.
Qed.
Lemma dec_head : forall n c r, 0 <= n -> dec n = c :: r -> c = 48 -> r = [].
Proof.
  intros n c r H E ->. destruct (Z.eq_dec n 0) as [->|N].
  - change (dec 0) with [48] in E. now injection E as <-.
  - destruct (dec_loop_head (S (Z.to_nat (Z.log2 n))) n []) as (c & r' & E' & C).
    + split; [lia|]. apply log2_fuel. exact H.
    + unfold dec in E. rewrite E in E'. injection E' as <- _. lia.
Qed.

Definition latest_document (limit : Z) : document :=
  query "Query" [Sel None (nm "blocks") [(nm "limit", AInt (dec limit)); (nm "sortBy", AEnum (nm "RECEIVEDTIME_DESC"))]
    [field "blockHeight"; field "stateHash"]].

(** C107 (the latest blocks): the request asks for as many blocks as are wanted. *)
Theorem C107_latest : forall limit, 0 <= limit -> asks (latest_blocks_query limit) (latest_document limit).
Proof.
  intros limit H. unfold asks, latest_blocks_query.
  match goal with |- lexes (str_bytes ?a ++ _ ++ str_bytes ?b) _ =>
    change (doc_tokens (latest_document limit)) with (toks a ++ TInt (dec limit) :: toks b);
    apply (pre_iff (str_bytes a) (toks a)); [reflexivity|];
    assert (L : lexes (str_bytes b) (toks b)) by (apply seg_end; discriminate);
    pose proof (dec_digits limit H) as D; pose proof (dec_nonempty limit) as N; pose proof (dec_head limit) as Hd;
    destruct (dec limit) as [|c n]; [congruence|];
    inversion D as [|? ? D1 D2]; subst;
    apply (L_int c n (str_bytes b)); [exact D1|exact D2|exact (Hd c n H eq_refl)|cbn; discriminate|exact L] end.
Qed.

(** ** Cases *)
Definition alice : list Z := nm "B62qiy32p8kAKnny8ZFwoMhYpBppM1DWVCqAPBYNcXnsAHhnfAAuXgg".
Definition bob : list Z := nm "B62qknCv9QdyAvt4Te58oo3nrZTacpEcjpJg1MV61r94h5rDPDUyPP8".

Lemma alice_writable : writable alice.
Proof. apply writable_plain. apply Forall_forall, forallb_forall. reflexivity. Qed.
Lemma bob_writable : writable bob.
Proof. apply writable_plain. apply Forall_forall, forallb_forall. reflexivity. Qed.
Lemma alice_name : is_name alice.
Proof. split; [reflexivity|]. apply Forall_forall, forallb_forall. reflexivity. Qed.
Lemma bob_name : is_name bob.
Proof. split; [reflexivity|]. apply Forall_forall, forallb_forall. reflexivity. Qed.

Example C107_payment_example :
  asks (send_payment_query 1000000 5000000000 bob alice) (mutation [payment_call None 1000000 5000000000 bob alice]).
Proof. apply C107_payment_iff; [lia|lia|split; [exact bob_writable|exact alice_writable]]. Qed.

(** Alice pays Bob one unit; the text given as Bob's address makes a million. *)
Example C107_smuggled_example :
  asks (send_payment_query 1 1 (smuggled bob alice 1 1000000 bob) alice)
    (mutation [payment_call None 1 1 bob alice; payment_call (Some (nm "second")) 1 1000000 bob alice]) /\
  ~ asks (send_payment_query 1 1 (smuggled bob alice 1 1000000 bob) alice)
      (mutation [payment_call None 1 1 (smuggled bob alice 1 1000000 bob) alice]).
Proof.
  assert (A : asks (send_payment_query 1 1 (smuggled bob alice 1 1000000 bob) alice)
    (mutation [payment_call None 1 1 bob alice; payment_call (Some (nm "second")) 1 1000000 bob alice])).
  { apply C107_payment_refuted; try lia; auto using alice_writable, bob_writable. }
  split; [exact A|]. intros B. pose proof (asks_unique _ _ _ A B) as E. discriminate E.
Qed.

Example C107_password_example :
  asks (unlock_account_query alice (nm "a\\b")) (mutation [unlock_call alice (nm "a\b")]) /\
  ~ asks (unlock_account_query alice (nm "a\\b")) (mutation [unlock_call alice (nm "a\\b")]).
Proof.
  split.
  - apply (C107_password_refuted alice (nm "a") (nm "b")); [exact alice_writable|apply writable_plain; repeat constructor..].
  - rewrite C107_unlock_iff. intros [_ W]. inversion W as [|? ? _ W']; subst. inversion W'; subst. lia.
Qed.

Example C107_chain_example : asks (best_chain_query [alice; bob]) (chain_document [alice; bob]).
Proof. apply C107_chain_iff. apply Forall_cons; [exact alice_name|]. apply Forall_cons; [exact bob_name|constructor]. Qed.

(** A key with a dash is no name; the request for it is not what was meant. *)
Example C107_not_a_name_example : ~ asks (best_chain_query [nm "not-a-name"]) (chain_document [nm "not-a-name"]).
Proof.
  rewrite C107_chain_iff. intros H. apply Forall_inv in H as [_ N].
  rewrite Forall_forall in N. specialize (N 45). cbn in N. assert (false = true) by tauto. discriminate.
Qed.

Example C107_latest_example : asks (latest_blocks_query 10) (latest_document 10) /\ d_sels (latest_document 10) <> [].
Proof. split; [apply C107_latest; lia|discriminate]. Qed.

Print Assumptions C107_payment_iff.
Print Assumptions C107_one_reading.
Print Assumptions C107_payment_refuted.
Print Assumptions C107_lock_iff.
Print Assumptions C107_account_iff.
Print Assumptions C107_unlock_iff.
Print Assumptions C107_password_refuted.
Print Assumptions C107_chain_iff.
Print Assumptions C107_latest.
