(** C108: what the payment calls of the wasm clients send and return. *)
From Coq Require Import String ZArith List Bool Lia.
From Verif Require Import Lib.Res Lib.Bytes Lib.Decimal Lib.Text Json.Json.
From Verif Require Import Client.GqlSpec Client.Query Client.QueryProps Client.Payment.
Import ListNotations.
Local Open Scope string_scope.
Local Open Scope list_scope.
Local Open Scope Z_scope.

(** The text denotes the number: decimal digits, possibly behind one plus. *)
Definition denotes (s : list Z) (n : Z) : Prop :=
  exists d, (s = d \/ s = 43 :: d) /\ d <> [] /\ Forall (fun c => 48 <= c <= 57) d /\ dec_val d = n.

Lemma denotes_iff : forall bits s n, 0 < bits -> parse_uint bits s = inr n <-> denotes s n /\ n < 2 ^ bits.
Proof.
  intros bits s n B. rewrite parse_uint_ok by exact B. unfold denotes, digits.
  assert (D : forall d, Forall (fun c => is_digit c = true) d <-> Forall (fun c => 48 <= c <= 57) d).
  { intros d. rewrite !Forall_forall. unfold is_digit. split; intros H x Hx; specialize (H x Hx);
      destruct (Z.leb_spec 48 x), (Z.leb_spec x 57); cbn in *; try discriminate; try reflexivity; lia. }
  split.
  - intros (d & E & N & F & V & L). split; [|exact L]. exists d. rewrite <- D. auto.
  - intros [(d & E & N & F & V) L]. exists d. rewrite D. auto.
Qed.

(** C108 (numbers): fee and amount are taken exactly if their text denotes a
    number of 64 bits, and then as that number. *)
Theorem C108_fee_iff : forall p n, fee_u64 p = Ok n <-> denotes (js_to_string (p_fee p)) n /\ n < 2 ^ 64.
Proof.
  intros p n. unfold fee_u64, map_js_err. rewrite <- denotes_iff by lia.
  destruct (parse_uint 64 _); split; congruence.
Qed.
Theorem C108_amount_iff : forall p n, amount_u64 p = Ok n <-> denotes (js_to_string (p_amount p)) n /\ n < 2 ^ 64.
Proof.
  intros p n. unfold amount_u64, map_js_err. rewrite <- denotes_iff by lia.
  destruct (parse_uint 64 _); split; congruence.
Qed.

(** Numbers and big integers of JavaScript are taken as what they are; negative
    and too large ones are not taken. *)
Lemma dec_denotes : forall z, 0 <= z -> denotes (dec z) z.
Proof.
  intros z H. exists (dec z). split; [auto|]. split; [apply dec_nonempty|]. split; [|now apply dec_val_dec].
  eapply Forall_impl; [|exact (dec_digits z H)]. cbn beta. intros c D. unfold is_digit in D.
  destruct (Z.leb_spec 48 c), (Z.leb_spec c 57); try discriminate; lia.
Qed.
Lemma denotes_unique : forall s a b, denotes s a -> denotes s b -> a = b.
Proof.
  intros s a b (d & E & N & F & <-) (d' & E' & N' & F' & <-).
  assert (X : forall x r, Forall (fun c => 48 <= c <= 57) (x :: r) -> x <> 43) by (intros x r H; inversion H; lia).
  destruct E as [->| ->], E' as [E'|E']; try congruence.
  - subst d. now apply X in F.
  - subst d'. now apply X in F'.
Qed.
Theorem C108_integer : forall p z n, (p_amount p = JsInt z \/ p_amount p = JsBigInt z) ->
  (amount_u64 p = Ok n <-> n = z /\ 0 <= z < 2 ^ 64).
Proof.
  intros p z n H. rewrite C108_amount_iff.
  assert (T : js_to_string (p_amount p) = signed_dec z) by (destruct H as [-> | ->]; reflexivity).
  rewrite T. unfold signed_dec. destruct (Z.ltb_spec z 0) as [L|L].
  - split; [|lia]. intros [(d & E & N & F & _) _].
    destruct E as [<-|E]; [|discriminate E]. inversion F; lia.
  - pose proof (dec_denotes z L) as D. split.
    + intros [D' B]. pose proof (denotes_unique _ _ _ D' D). lia.
    + intros [-> B]. split; [exact D|lia].
Qed.

(** C108 (validity): nothing, null and the empty text mean no limit, every other
    value must denote a number of 32 bits. *)
Theorem C108_valid_until_none : forall p, valid_until_u32 p = Ok None <->
  p_valid_until p = JsUndefined \/ p_valid_until p = JsNull \/ js_to_string (p_valid_until p) = [].
Proof.
  intros p. unfold valid_until_u32. destruct (p_valid_until p) as [| |s|z|z|t]; [tauto|tauto| | | |];
    (cbn [js_to_string];
     match goal with |- context [match ?x with [] => _ | _ => _ end] => destruct x as [|c l] eqn:E end;
     [tauto|unfold rmap, map_js_err;
       match goal with |- context [parse_uint 32 ?l] => destruct (parse_uint 32 l) end;
       (split; [discriminate|intros [H|[H|H]]; discriminate])]).
Qed.
Theorem C108_valid_until_some : forall p n, valid_until_u32 p = Ok (Some n) <->
  p_valid_until p <> JsUndefined /\ p_valid_until p <> JsNull /\
  denotes (js_to_string (p_valid_until p)) n /\ n < 2 ^ 32.
Proof.
  intros p n. rewrite <- denotes_iff by lia. unfold valid_until_u32.
  assert (E0 : forall n, parse_uint 32 [] <> inr n) by discriminate.
  destruct (p_valid_until p) as [| |s|z|z|t];
    [split; [discriminate|tauto]|split; [discriminate|tauto]| | | |];
    (cbn [js_to_string];
     match goal with |- context [match ?x with [] => _ | _ => _ end] => destruct x as [|c l] eqn:E end;
     [split; [discriminate|intros (_ & _ & H); now apply E0 in H]|unfold rmap, map_js_err;
       match goal with |- context [parse_uint 32 ?l] => destruct (parse_uint 32 l) end;
       (split; [try discriminate; intros [= ->]; repeat split; discriminate|intros (_ & _ & H); congruence])]).
Qed.

Section Server.
  Variable server : request -> reply.
  Variable endpoint : list Z.

  (** The payment a request asks for, as a server reads it. *)
  Definition asks_for (r : request) (d : document) : Prop :=
    exists q, r_body r = JObj [(nm "query", JStr q)] /\ asks q d.

  (** C108 (one request): with good numbers one request goes to the endpoint; it
      asks for the payment of that fee and amount. *)
  Theorem C108_sent : forall p fee amount,
    denotes (js_to_string (p_fee p)) fee -> fee < 2 ^ 64 -> denotes (js_to_string (p_amount p)) amount -> amount < 2 ^ 64 ->
    writable (p_to p) -> writable (p_from p) ->
    exists r, fst (send_payment server endpoint p) = [r] /\ r_endpoint r = endpoint /\
      asks_for r (mutation [payment_call None fee amount (p_to p) (p_from p)]).
  Proof.
    intros p fee amount Df Lf Da La Wt Wf.
    assert (F : fee_u64 p = Ok fee) by (apply C108_fee_iff; auto).
    assert (A : amount_u64 p = Ok amount) by (apply C108_amount_iff; auto).
    assert (NN : forall s n, denotes s n -> 0 <= n).
    { intros s n (d & _ & _ & D & <-). apply dec_val_range. eapply Forall_impl; [|exact D]. cbn beta. intros c H.
      unfold is_digit. destruct (Z.leb_spec 48 c), (Z.leb_spec c 57); lia || reflexivity. }
    unfold send_payment. rewrite F, A. cbn [fst post]. eexists. split; [reflexivity|]. split; [reflexivity|].
    eexists. split; [reflexivity|]. apply C107_payment_iff; eauto.
  Qed.

  (** With a bad number nothing is sent and the call fails with an error. *)
  Theorem C108_not_sent : forall p,
    (fst (send_payment server endpoint p) = [] <-> (forall n, fee_u64 p <> Ok n) \/ (forall n, amount_u64 p <> Ok n)) /\
    (fst (send_payment server endpoint p) = [] <-> snd (send_payment server endpoint p) = Err JsError).
  Proof.
    intros p. unfold send_payment, fee_u64, amount_u64, map_js_err.
    destruct (parse_uint 64 (js_to_string (p_fee p))) as [e|fee];
      [cbn; split; split; auto; intros _; left; intros n; discriminate|].
    destruct (parse_uint 64 (js_to_string (p_amount p))) as [e|amount];
      [cbn; split; split; auto; intros _; right; intros n; discriminate|].
    cbn [post fst snd]. split; split; try discriminate.
    - intros [H|H]; [now specialize (H fee)|now specialize (H amount)].
    - destruct (server _); discriminate.
  Qed.

  (** C108 (dropped): expected that nonce, memo and validity of a payment reach the
      server.  Refuted: they do not occur in the request at all. *)
  Theorem C108_dropped_refuted : forall p p',
    p_to p = p_to p' -> p_from p = p_from p' -> p_fee p = p_fee p' -> p_amount p = p_amount p' ->
    send_payment server endpoint p = send_payment server endpoint p'.
  Proof.
    intros p p' H1 H2 H3 H4. unfold send_payment, fee_u64, amount_u64. now rewrite H1, H2, H3, H4.
  Qed.

  (** An invalid validity limit is not noticed either. *)
  Theorem C108_unchecked_refuted : forall p, exists p',
    p_to p' = p_to p /\ p_from p' = p_from p /\ p_fee p' = p_fee p /\ p_amount p' = p_amount p /\
    valid_until_u32 p' = Err JsError /\ send_payment server endpoint p' = send_payment server endpoint p.
  Proof.
    intros p. exists {| p_to := p_to p; p_from := p_from p; p_fee := p_fee p; p_amount := p_amount p;
      p_nonce := p_nonce p; p_memo := p_memo p; p_valid_until := JsInt (-1) |}.
    repeat split.
  Qed.

  (** C108 (replies): expected an error if the server cannot be reached or does not
      answer with JSON.  Refuted: each such call panics. *)
  Theorem C108_reply_refuted : forall p r, fst (send_payment server endpoint p) = [r] ->
    (server r = NoReply \/ server r = NotJson) <-> snd (send_payment server endpoint p) = Panic.
  Proof.
    intros p r. unfold send_payment.
    destruct (fee_u64 p) as [fee|e|]; [|discriminate|discriminate].
    destruct (amount_u64 p) as [amount|e|]; [|discriminate|discriminate].
    cbn [post fst snd]. intros [= <-].
    match goal with |- context [server ?r] => destruct (server r) end; split; auto; try discriminate; intros [H|H]; discriminate.
  Qed.

  (** Expected: success means that the server took the payment.  Refuted: every
      JSON answer is returned as success, also one that reports errors. *)
  Theorem C108_success_refuted : forall p r j, fst (send_payment server endpoint p) = [r] -> server r = Reply j ->
    snd (send_payment server endpoint p) = Ok j.
  Proof.
    intros p r j. unfold send_payment.
    destruct (fee_u64 p) as [fee|e|]; [|discriminate|discriminate].
    destruct (amount_u64 p) as [amount|e|]; [|discriminate|discriminate].
    cbn [post fst snd]. intros [= <-] ->. reflexivity.
  Qed.

  (** The other calls: one request each, and the same treatment of the answer. *)
  Theorem C108_lock : forall key, writable key -> exists r, fst (lock_account server endpoint key) = [r] /\
    r_endpoint r = endpoint /\ asks_for r (mutation [lock_call key]) /\
    (forall j, snd (lock_account server endpoint key) = Ok j <-> server r = Reply j).
  Proof.
    intros key W. eexists. split; [reflexivity|]. split; [reflexivity|]. split.
    - eexists. split; [reflexivity|]. now apply C107_lock_iff.
    - intros j. unfold lock_account, post. cbn [snd]. destruct (server _); split; congruence.
  Qed.
  Theorem C108_unlock : forall key password, writable key -> writable password ->
    exists r, fst (unlock_account server endpoint key password) = [r] /\
    r_endpoint r = endpoint /\ asks_for r (mutation [unlock_call key password]) /\
    (forall j, snd (unlock_account server endpoint key password) = Ok j <-> server r = Reply j).
  Proof.
    intros key password W W'. eexists. split; [reflexivity|]. split; [reflexivity|]. split.
    - eexists. split; [reflexivity|]. now apply C107_unlock_iff.
    - intros j. unfold unlock_account, post. cbn [snd]. destruct (server _); split; congruence.
  Qed.
  Theorem C108_account : forall key, writable key -> exists r, fst (account_info server endpoint key) = [r] /\
    r_endpoint r = endpoint /\ asks_for r (query "MyQuery" [account_call key]) /\
    (forall j, snd (account_info server endpoint key) = Ok j <-> server r = Reply j).
  Proof.
    intros key W. eexists. split; [reflexivity|]. split; [reflexivity|]. split.
    - eexists. split; [reflexivity|]. now apply C107_account_iff.
    - intros j. unfold account_info, post. cbn [snd]. destruct (server _); split; congruence.
  Qed.
End Server.

(** ** Cases *)
Definition some_payment (amount : js) (memo : option (list Z)) : payment :=
  {| p_to := bob; p_from := alice; p_fee := JsInt 1000000; p_amount := amount; p_nonce := Some 7;
     p_memo := memo; p_valid_until := JsUndefined |}.
Definition error_server (r : request) : reply := Reply (JObj [(nm "errors", JArr [])]).

Example C108_sent_example : exists r, fst (send_payment error_server (nm "http://localhost:3085/graphql")
    (some_payment (JsString (nm "+5000000000")) None)) = [r] /\
  asks_for r (mutation [payment_call None 1000000 5000000000 bob alice]).
Proof.
  destruct (C108_sent error_server (nm "http://localhost:3085/graphql") (some_payment (JsString (nm "+5000000000")) None)
    1000000 5000000000) as (r & H1 & _ & H2); eauto.
  - apply (dec_denotes 1000000). lia.
  - cbn. lia.
  - exists (nm "5000000000"). split; [auto|]. split; [discriminate|]. split; [|reflexivity].
    apply Forall_forall. intros c Hc. cbn in Hc. lia.
  - cbn. lia.
  - exact bob_writable.
  - exact alice_writable.
Qed.

Example C108_memo_example :
  send_payment error_server [] (some_payment (JsInt 5) (Some (nm "rent"))) = send_payment error_server [] (some_payment (JsInt 5) None) /\
  some_payment (JsInt 5) (Some (nm "rent")) <> some_payment (JsInt 5) None.
Proof. split; [now apply C108_dropped_refuted|discriminate]. Qed.

(** A number of JavaScript that prints with an exponent is refused. *)
Example C108_exponent_example : amount_u64 (some_payment (JsOther (nm "1e+21")) None) = Err JsError /\
  fst (send_payment error_server [] (some_payment (JsOther (nm "1e+21")) None)) = [].
Proof. split; reflexivity. Qed.

Example C108_panic_example : snd (send_payment (fun _ => NoReply) [] (some_payment (JsInt 5) None)) = Panic /\
  snd (send_payment error_server [] (some_payment (JsInt 5) None)) = Ok (JObj [(nm "errors", JArr [])]).
Proof. split; reflexivity. Qed.

Print Assumptions C108_fee_iff.
Print Assumptions C108_amount_iff.
Print Assumptions C108_integer.
Print Assumptions C108_valid_until_none.
Print Assumptions C108_valid_until_some.
Print Assumptions C108_sent.
Print Assumptions C108_not_sent.
Print Assumptions C108_dropped_refuted.
Print Assumptions C108_unchecked_refuted.
Print Assumptions C108_reply_refuted.
Print Assumptions C108_success_refuted.
Print Assumptions C108_lock.
Print Assumptions C108_unlock.
Print Assumptions C108_account.
