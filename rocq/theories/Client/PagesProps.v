(** Properties C120 and C121: the pages of the demos and their log. *)
From Coq Require Import String ZArith List Bool Lia ZifyBool.
From Verif Require Import Lib.Bytes Client.Payment.
From Verif Require Import Client.Pages.
Import ListNotations.
Local Open Scope list_scope.
Local Open Scope Z_scope.

(** ** The payment page *)

(** The user gave this key, or this password. *)
Definition gave_key (es : list event) (k : text) : Prop := In (TypeKey k) es \/ In (ClickLock (Some k)) es.
Definition gave_password (es : list event) (w : text) : Prop := In (ClickUnlock (Some w)) es.

Lemma text_eqb_eq : forall a b, text_eqb a b = true <-> a = b.
Proof.
  intros a. induction a as [|x a IH]; intros [|y b]; cbn [text_eqb]; try (split; congruence).
  rewrite andb_true_iff, Z.eqb_eq, IH. split; [intros [-> ->]; reflexivity|intros E; injection E; auto].
Qed.
Lemma member_assign_same : forall n v o, member n (assign n v o) = Some v.
Proof.
  intros n v o. induction o as [|[m w] o IH]; cbn [assign member].
  - rewrite (proj2 (text_eqb_eq n n) eq_refl). reflexivity.
  - destruct (text_eqb n m) eqn:E; cbn [member]; rewrite E; auto.
Qed.
Lemma member_assign_other : forall n m v o, m <> n -> member m (assign n v o) = member m o.
Proof.
  intros n m v o N. induction o as [|[k w] o IH]; cbn [assign member].
  - destruct (text_eqb m n) eqn:E; [|reflexivity]. apply text_eqb_eq in E. contradiction.
  - destruct (text_eqb n k) eqn:E; cbn [member]; [|rewrite IH; reflexivity].
    destruct (text_eqb m k) eqn:F; [|reflexivity]. apply text_eqb_eq in E, F. congruence.
Qed.

Section PageFacts.
Variable parse : text -> option obj.
Variable stringify : obj -> text.
Variable type_error parse_error : text.
Notation step := (step parse stringify type_error parse_error).
Notation run := (run parse stringify type_error parse_error).

(** The texts that were in the payment box when a payment was sent. *)
Definition payment_text (s : text) (es : list event) (t : text) : Prop :=
  t = s \/ In (TypePayment t) es \/ exists k t0 o, gave_key es k /\ parse t0 = Some o /\ t = stringify (assign from_name (JsString k) o).

(** What a call says comes from the user. *)
Definition from_user (s : text) (es : list event) (c : call) : Prop :=
  match c with
  | AccountInfo k => k <> [] /\ gave_key es k
  | LockAccount k => gave_key es k
  | UnlockAccount k w => k <> [] /\ gave_key es k /\ gave_password es w
  | SendPayment o => exists k t o0, k <> [] /\ gave_key es k /\ payment_text s es t /\ parse t = Some o0 /\
      member from_name o = Some (JsString k) /\ forall n, n <> from_name -> member n o = member n o0
  end.

Definition key_ok es v := v = JsUndefined \/ v = JsNull \/ exists k, v = JsString k /\ gave_key es k.
Definition password_ok es v := falsy v = true \/ exists w, v = JsString w /\ gave_password es w.
Definition page_ok s es (p : page) :=
  key_ok es (public_key p) /\ password_ok es (password p) /\ payment_text s es (payment_str p).

Ltac parts := unfold page_ok; repeat match goal with |- _ /\ _ => split end.
Lemma key_more : forall es e k, gave_key es k -> gave_key (es ++ [e]) k.
Proof. intros es e k [H|H]; [left|right]; apply in_or_app; auto. Qed.
Lemma ok_more : forall s es e p, page_ok s es p -> page_ok s (es ++ [e]) p.
Proof.
  intros s es e p (K & W & T). parts.
  - destruct K as [K|[K|(k & K & G)]]; [left; exact K|right; left; exact K|]. right. right. exists k. split; [exact K|]. apply key_more, G.
  - destruct W as [W|(w & W & G)]; [left; exact W|]. right. exists w. split; [exact W|]. apply in_or_app. auto.
  - destruct T as [T|[T|(k & t0 & o & G & P & E)]]; [left; exact T|right; left; apply in_or_app; auto|].
    right. right. exists k, t0, o. split; [apply key_more, G|auto].
Qed.

Lemma ok_fields : forall s es p q, public_key q = public_key p -> password q = password p -> payment_str q = payment_str p ->
  page_ok s es p -> page_ok s es q.
Proof. intros s es p q E1 E2 E3 H. unfold page_ok. rewrite E1, E2, E3. exact H. Qed.

Lemma key_text : forall es v, key_ok es v -> falsy v = false -> exists k, v = JsString k /\ k <> [] /\ gave_key es k.
Proof.
  intros es v [->|[->|(k & -> & G)]] F; try discriminate. exists k. destruct k; [discriminate|].
  split; [reflexivity|]. split; [discriminate|exact G].
Qed.

Lemma step_ok : forall s es p e, page_ok s es p ->
  page_ok s (es ++ [e]) (fst (step p e)) /\ Forall (from_user s (es ++ [e])) (snd (step p e)).
Proof.
  intros s es p e OK. apply (ok_more s es e) in OK. set (fs := es ++ [e]) in *.
  assert (IN : In e fs) by (unfold fs; apply in_or_app; right; left; reflexivity). clearbody fs.
  pose proof OK as OK'. destruct OK' as (K & W & T).
  destruct e as [t|t| |a|a| |id o]; cbn [Pages.step].
  - split; [|constructor]. parts; cbn; auto. right. right. exists t. split; [reflexivity|left; exact IN].
  - split; [|constructor]. parts; cbn; auto. right. left. exact IN.
  - unfold click_info. destruct (falsy (public_key p)) eqn:F; [split; [exact OK|constructor]|].
    destruct (key_text fs _ K F) as (k & E & N & G). rewrite E. cbn [string_arg send fst snd].
    split; [apply (ok_fields s fs p); auto|]. constructor; [|constructor]. split; assumption.
  - unfold click_lock. destruct (falsy (public_key p)) eqn:F.
    + destruct a as [k|]; cbn [answer with_key public_key string_arg send fst snd].
      * assert (G : gave_key fs k) by (right; exact IN).
        split; [|constructor; [exact G|constructor]].
        parts; cbn; auto. right. right. exists k. auto.
      * split; [|constructor]. parts; cbn; auto. right. left. reflexivity.
    + destruct (key_text fs _ K F) as (k & E & N & G). rewrite E. cbn [string_arg send fst snd].
      split; [apply (ok_fields s fs p); auto|]. constructor; [exact G|constructor].
  - unfold click_unlock. destruct (falsy (public_key p)) eqn:F; [split; [exact OK|constructor]|].
    destruct (key_text fs _ K F) as (k & E & N & G).
    destruct (falsy (password p)) eqn:FW.
    + cbn [with_password public_key password]. rewrite E. destruct a as [w|]; cbn [answer string_arg send fst snd].
      * assert (GW : gave_password fs w) by exact IN.
        split; [|constructor; [|constructor]]; [|cbn [from_user]; auto].
        parts; cbn; auto. right. exists w. auto.
      * split; [|constructor]. parts; cbn; auto. left. reflexivity.
    + destruct W as [W|(w & EW & GW)]; [congruence|]. rewrite E, EW. cbn [string_arg send fst snd].
      split; [apply (ok_fields s fs p); auto|]. constructor; [|constructor]. cbn [from_user]. auto.
  - unfold click_send. destruct (falsy (public_key p)) eqn:F; [split; [exact OK|constructor]|].
    destruct (key_text fs _ K F) as (k & E & N & G).
    destruct (parse (payment_str p)) as [o|] eqn:P.
    + cbn [send fst snd]. split.
      * parts; cbn; auto. right. right. exists k, (payment_str p), o. rewrite E. auto.
      * constructor; [|constructor]. cbn [from_user]. exists k, (payment_str p), o. rewrite E.
        parts; auto; [apply member_assign_same|].
        intros n Hn. apply member_assign_other. exact Hn.
    + split; [apply (ok_fields s fs p); auto|constructor].
  - destruct (take id (under_way p)) as [[c l]|] eqn:TK; [|split; [exact OK|constructor]]. cbn [fst snd]. split; [|constructor].
    destruct c as [k|k|k w|ob]; try (apply (ok_fields s fs p); auto; fail).
    destruct o as [t|t]; cbn [after shown]; [|apply (ok_fields s fs p); auto].
    parts; cbn; auto. left. reflexivity.
Qed.

Lemma run_ok : forall s es2 es1 p, page_ok s es1 p -> Forall (from_user s (es1 ++ es2)) (snd (run p es2)).
Proof.
  intros s es2. induction es2 as [|e es2 IH]; intros es1 p OK; cbn [Pages.run]; [constructor|].
  destruct (step p e) as [p1 c1] eqn:S. destruct (run p1 es2) as [p2 c2] eqn:R. cbn [snd].
  destruct (step_ok s es1 p e OK) as [OK1 C1]. rewrite S in OK1, C1. cbn [fst snd] in *.
  specialize (IH (es1 ++ [e]) p1 OK1). rewrite R in IH. cbn [snd] in IH. rewrite <- app_assoc in IH. cbn [app] in IH.
  apply Forall_app. split; [|exact IH].
  eapply Forall_impl; [|exact C1]. clear. intros c.
  assert (KM : forall k, gave_key (es1 ++ [e]) k -> gave_key (es1 ++ e :: es2) k).
  { intros k [H|H]; [left|right]; apply in_app_or in H; apply in_or_app; destruct H as [H|[H|[]]]; auto; right; left; exact H. }
  assert (WM : forall w, gave_password (es1 ++ [e]) w -> gave_password (es1 ++ e :: es2) w).
  { intros w H. apply in_app_or in H. apply in_or_app. destruct H as [H|[H|[]]]; auto. right. left. exact H. }
  destruct c as [k|k|k w|o]; cbn [from_user]; auto.
  - intros [N G]. auto.
  - intros (N & G & H). auto.
  - intros (k & t & o0 & N & G & PT & P & M1 & M2). exists k, t, o0.
    parts; auto.
    destruct PT as [H|[H|(k' & t0 & o' & G' & P' & E')]]; [left; exact H| |].
    + right. left. apply in_app_or in H. apply in_or_app. destruct H as [H|[H|[]]]; auto. right. left. exact H.
    + right. right. exists k', t0, o'. auto.
Qed.

(** Whatever the user does and however calls end: every call that leaves the
    page carries a key and a password the user gave; a payment is the object
    in the box with [from] set to a key given, and nothing else changed. *)
Theorem C120_sent : forall s es c, In c (snd (run (first_page s) es)) -> from_user s es c.
Proof.
  intros s es c H. pose proof (run_ok s es [] (first_page s)) as R. cbn [app] in R.
  assert (OK : page_ok s [] (first_page s)).
  { parts; cbn; [left|left|left]; reflexivity. }
  specialize (R OK). rewrite Forall_forall in R. auto.
Qed.

(** Without a key nothing is sent. *)
Theorem C120_no_key : forall s es, (forall k, ~ gave_key es k) -> snd (run (first_page s) es) = [].
Proof.
  intros s es N. destruct (snd (run (first_page s) es)) as [|c l] eqn:E; [reflexivity|].
  assert (F : from_user s es c) by (apply C120_sent; rewrite E; left; reflexivity). exfalso.
  destruct c as [k|k|k w|o]; cbn [from_user] in F.
  - apply (N k). apply F.
  - apply (N k). exact F.
  - apply (N k). apply F.
  - destruct F as (k & t & o0 & _ & G & _). apply (N k). exact G.
Qed.

(** The line about the lock changes only to how a call to lock or unlock that
    was under way has ended, or to a refusal of an argument, with nothing sent. *)
Theorem C120_shown : forall p e, is_account_locked (fst (step p e)) <> is_account_locked p ->
  (exists id o c, e = End id o /\ In (id, c) (under_way p) /\
     ((exists k, c = LockAccount k) \/ exists k w, c = UnlockAccount k w) /\ is_account_locked (fst (step p e)) = shown o) \/
  (snd (step p e) = [] /\ is_account_locked (fst (step p e)) = type_error).
Proof.
  intros p e N. destruct e as [t|t| |a|a| |id o]; cbn [Pages.step] in *; try (cbn in N; congruence).
  - unfold click_info in N. destruct (falsy _); [cbn in N; congruence|]. destruct (string_arg _); cbn in N; congruence.
  - right. unfold click_lock in *. set (p' := if falsy (public_key p) then with_key p (answer a) else p) in *.
    assert (is_account_locked p' = is_account_locked p) by (unfold p'; destruct (falsy _); reflexivity).
    destruct (string_arg _); cbn in *; [congruence|]. split; reflexivity.
  - right. unfold click_unlock in *. destruct (falsy (public_key p)); [cbn in N; congruence|].
    set (p' := if falsy (password p) then with_password p (answer a) else p) in *.
    assert (is_account_locked p' = is_account_locked p) by (unfold p'; destruct (falsy _); reflexivity).
    destruct (string_arg (public_key p')), (string_arg (password p')); cbn in *; try congruence; split; reflexivity.
  - unfold click_send in N. destruct (falsy _); [cbn in N; congruence|]. destruct (parse _); cbn in N; congruence.
  - left. destruct (take id (under_way p)) as [[c l]|] eqn:T; [|cbn in N; congruence].
    assert (I : In (id, c) (under_way p)).
    { clear - T. revert c l T. induction (under_way p) as [|[i d] q IH]; intros c l T; cbn [take] in T; [discriminate|].
      destruct (Nat.eqb_spec id i) as [->|]; [injection T as -> _; left; reflexivity|].
      destruct (take id q) as [[d' r]|]; [|discriminate]. injection T as -> _. right. eapply IH. reflexivity. }
    exists id, o, c. split; [reflexivity|]. split; [exact I|].
    destruct c as [k|k|k w|ob]; cbn in N; try congruence.
    + split; [left; eauto|]. destruct o; reflexivity.
    + split; [right; eauto|]. reflexivity.
Qed.

(** The password is forgotten when an account was locked; a refused lock keeps it. *)
Theorem C120_forgotten : forall p id o k l, take id (under_way p) = Some (LockAccount k, l) ->
  password (fst (step p (End id o))) = match o with Resolved _ => JsString [] | Rejected _ => password p end.
Proof. intros p id o k l T. cbn [Pages.step]. rewrite T. destruct o; reflexivity. Qed.

(** Expected: after a refused password the user is asked for another.  They are
    not: as long as nothing is locked, every further call to unlock, whatever
    was refused and whatever is answered to a prompt, has the same password. *)
Definition no_lock (l : list (nat * call)) : Prop := forall id k, ~ In (id, LockAccount k) l.
Lemma take_in : forall id l c r, take id l = Some (c, r) -> In (id, c) l /\ forall x, In x r -> In x l.
Proof.
  intros id l. induction l as [|[i d] l IH]; intros c r T; cbn [take] in T; [discriminate|].
  destruct (Nat.eqb_spec id i) as [->|].
  - injection T as -> ->. split; [left; reflexivity|]. intros x H. right. exact H.
  - destruct (take id l) as [[d' r']|]; [|discriminate]. injection T as -> <-.
    destruct (IH _ _ eq_refl) as [H1 H2]. split; [right; exact H1|]. intros x [H|H]; [left; exact H|right; auto].
Qed.
Theorem C120_retry_refuted : forall es p w, password p = JsString w -> w <> [] -> no_lock (under_way p) ->
  (forall a, ~ In (ClickLock a) es) ->
  forall k v, In (UnlockAccount k v) (snd (run p es)) -> v = w.
Proof.
  intros es. induction es as [|e es IH]; intros p w PW NW NL NC k v H; cbn [Pages.run] in H; [destruct H|].
  destruct (step p e) as [p1 c1] eqn:S. destruct (run p1 es) as [p2 c2] eqn:R. cbn [snd] in H.
  assert (NC' : forall a, ~ In (ClickLock a) es) by (intros a I; apply (NC a); right; exact I).
  assert (FW : falsy (JsString w) = false) by (destruct w; [congruence|reflexivity]).
  assert (K : password p1 = JsString w /\ no_lock (under_way p1) /\ forall k v, In (UnlockAccount k v) c1 -> v = w).
  { destruct e as [t|t| |a|a| |id o]; cbn [Pages.step] in S.
    - injection S as <- <-. cbn. split; [exact PW|]. split; [exact NL|]. intros ? ? [].
    - injection S as <- <-. cbn. split; [exact PW|]. split; [exact NL|]. intros ? ? [].
    - unfold click_info in S. destruct (falsy (public_key p)); [injection S as <- <-; split; [exact PW|]; split; [exact NL|intros ? ? []]|].
      destruct (string_arg (public_key p)); injection S as <- <-; cbn.
      + split; [exact PW|]. split; [intros i q [Q|Q]; [discriminate|exact (NL i q Q)]|]. intros ? ? [Q|[]]. discriminate.
      + split; [exact PW|]. split; [exact NL|]. intros ? ? [].
    - exfalso. apply (NC a). left. reflexivity.
    - unfold click_unlock in S. destruct (falsy (public_key p)); [injection S as <- <-; split; [exact PW|]; split; [exact NL|intros ? ? []]|].
      rewrite PW, FW in S. destruct (string_arg (public_key p)) as [kk|]; [rewrite PW in S; cbn [string_arg] in S|]; injection S as <- <-; cbn.
      + split; [exact PW|]. split; [intros i q [Q|Q]; [discriminate|exact (NL i q Q)]|]. intros ? ? [Q|[]]. congruence.
      + split; [exact PW|]. split; [exact NL|]. intros ? ? [].
    - unfold click_send in S. destruct (falsy (public_key p)); [injection S as <- <-; split; [exact PW|]; split; [exact NL|intros ? ? []]|].
      destruct (parse (payment_str p)); injection S as <- <-; cbn.
      + split; [exact PW|]. split; [intros i q [Q|Q]; [discriminate|exact (NL i q Q)]|]. intros ? ? [Q|[]]. discriminate.
      + split; [exact PW|]. split; [exact NL|]. intros ? ? [].
    - destruct (take id (under_way p)) as [[c l]|] eqn:T; injection S as <- <-; [|split; [exact PW|]; split; [exact NL|intros ? ? []]].
      destruct (take_in _ _ _ _ T) as [I SUB].
      assert (NL' : no_lock l) by (intros i q Q; exact (NL i q (SUB _ Q))).
      destruct c as [kk|kk|kk ww|ob]; cbn; try (split; [exact PW|]; split; [exact NL'|intros ? ? []]).
      exfalso. exact (NL id kk I). }
  destruct K as (K1 & K2 & K3). apply in_app_or in H. destruct H as [H|H]; [exact (K3 k v H)|].
  specialize (IH p1 w K1 NW K2 NC' k v). rewrite R in IH. cbn [snd] in IH. auto.
Qed.
End PageFacts.
Ltac parts := repeat match goal with |- _ /\ _ => split end.

(** Expected: the line about the lock tells how the last request ended.  It tells
    how the last call to end has ended: here the account was unlocked, then locked. *)
Definition ex_key : text := str_bytes "B62q".
Definition ex_events : list event :=
  [TypeKey ex_key; ClickUnlock (Some (str_bytes "pw")); ClickLock None;
   End 1 (Resolved (str_bytes "locked")); End 0 (Resolved (str_bytes "unlocked"))].
Theorem C120_order_refuted : exists es, let r := run (fun _ => None) (fun _ => []) [] [] (first_page []) es in
  snd r = [UnlockAccount ex_key (str_bytes "pw"); LockAccount ex_key] /\
  under_way (fst r) = [] /\ is_account_locked (fst r) = str_bytes "unlocked" /\
  In (End 1 (Resolved (str_bytes "locked"))) es.
Proof. exists ex_events. repeat split; try reflexivity. cbn [ex_events In]. auto. Qed.

(** A wrong password, refused, and the payment sent with the key in [from]. *)
Definition ex_obj : obj := [(str_bytes "to", JsString (str_bytes "B62r")); (from_name, JsString []); (str_bytes "fee", JsInt 1000000)].
Example C120_example :
  let r := run (fun _ => Some ex_obj) (fun _ => str_bytes "{}") (str_bytes "TypeError") [] (first_page [])
    [ClickSend; ClickUnlock (Some (str_bytes "x")); TypeKey ex_key; ClickUnlock None; ClickUnlock (Some (str_bytes "wrong"));
     End 0 (Rejected (str_bytes "refused")); ClickUnlock (Some (str_bytes "right")); ClickSend] in
  snd r = [UnlockAccount ex_key (str_bytes "wrong"); UnlockAccount ex_key (str_bytes "wrong");
           SendPayment [(str_bytes "to", JsString (str_bytes "B62r")); (from_name, JsString ex_key); (str_bytes "fee", JsInt 1000000)]] /\
  is_account_locked (fst r) = str_bytes "refused" /\ payment_str (fst r) = str_bytes "{}".
Proof. repeat split; reflexivity. Qed.

(** ** The text about the best chain *)

Fixpoint updates (k : nat) (t : text) : text := match k with O => t | S k' => updating ++ updates k' t end.

Definition distinct (b : board) : Prop :=
  NoDup (map fst (polls b)) /\ Forall (fun x => (fst x < poll_number b)%nat) (polls b).
Lemma drop_map : forall id l, incl (map fst (drop id l)) (map fst l) /\ ~ In id (map fst (drop id l)) /\
  (NoDup (map fst l) -> NoDup (map fst (drop id l))).
Proof.
  intros id l. unfold drop. induction l as [|[i s] l (IH1 & IH2 & IH3)]; cbn [filter map fst]; [split; [intros x []|]; split; [intros []|auto]|].
  destruct (Nat.eqb_spec id i) as [->|N]; cbn [negb map fst].
  - split; [intros x H; right; auto|]. split; [exact IH2|]. intros H. inversion H; auto.
  - split; [intros x [H|H]; [left; exact H|right; auto]|]. split; [intros [H|H]; [congruence|auto]|].
    intros H. inversion H as [|? ? NI ND]; subst. constructor; [|auto]. intros C. apply NI. auto.
Qed.
Lemma drop_absent : forall id l, ~ In id (map fst l) -> drop id l = l.
Proof.
  intros id l. unfold drop. induction l as [|[i s] l IH]; intros N; cbn [filter fst]; [reflexivity|].
  cbn [map fst In] in N. destruct (Nat.eqb_spec id i) as [->|]; [exfalso; apply N; left; reflexivity|].
  cbn [negb]. f_equal. apply IH. intros H. apply N. right. exact H.
Qed.
Lemma drop_length : forall id l s, NoDup (map fst l) -> stage_of id l = Some s -> length l = S (length (drop id l)).
Proof.
  intros id l s. induction l as [|[i s'] l IH]; intros ND H; cbn [stage_of] in H; [discriminate|].
  inversion ND as [|? ? NI ND']; subst. unfold drop. cbn [filter fst].
  destruct (Nat.eqb_spec id i) as [->|]; cbn [negb length].
  - fold (drop i l). rewrite (drop_absent i l NI). reflexivity.
  - fold (drop id l). f_equal. apply IH; assumption.
Qed.
Lemma stage_in : forall id l s, stage_of id l = Some s -> In id (map fst l).
Proof.
  intros id l s. induction l as [|[i s'] l IH]; intros H; cbn [stage_of] in H; [discriminate|].
  destruct (Nat.eqb_spec id i) as [->|]; [left; reflexivity|right; auto].
Qed.
Lemma distinct_step : forall b e, distinct b -> distinct (poll_step b e).
Proof.
  intros b e [ND FA]. destruct e as [|id ok|id t]; cbn [poll_step].
  - split; cbn [polls poll_number map fst].
    + constructor; [|exact ND]. intros H. apply in_map_iff in H. destruct H as ([i s] & E & H).
      rewrite Forall_forall in FA. specialize (FA _ H). cbn in *. lia.
    + constructor; [cbn; lia|]. eapply Forall_impl; [|exact FA]. intros a H. cbn in *. lia.
  - destruct (stage_of id (polls b)) as [[|]|] eqn:ST; try (split; assumption).
    destruct (drop_map id (polls b)) as (I & NI & N2).
    assert (FD : Forall (fun x => (fst x < poll_number b)%nat) (drop id (polls b))).
    { apply Forall_forall. intros x H. apply filter_In in H. rewrite Forall_forall in FA. apply FA. apply H. }
    assert (LT : (id < poll_number b)%nat).
    { apply stage_in in ST. apply in_map_iff in ST. destruct ST as (x & <- & H). rewrite Forall_forall in FA. exact (FA _ H). }
    destruct ok; split; cbn [polls poll_number map fst]; auto.
    + constructor; auto.
  - destruct (stage_of id (polls b)) as [[|]|] eqn:ST; try (split; assumption).
    destruct (drop_map id (polls b)) as (I & NI & N2). split; cbn [polls poll_number]; auto.
    apply Forall_forall. intros x H. apply filter_In in H. rewrite Forall_forall in FA. apply FA. apply H.
Qed.

(** At any time the text is the last answer shown (nothing at first), below one
    line [updating] for every poll asked for since; and without a failed poll
    there are never more such lines than polls under way. *)
Theorem C121_board : forall es, let b := poll_run first_board es in
  exists k t, best b = updates k t /\ (t = [] \/ exists id, In (ChainEnds id t) es) /\
    (k <= length (filter (fun e => match e with ClickPoll => true | _ => false end) es))%nat /\
    ((forall id, ~ In (PollEnds id false) es) -> (k <= length (polls b))%nat).
Proof.
  assert (G : forall es, distinct (poll_run first_board es) /\ exists k t, best (poll_run first_board es) = updates k t /\
    (t = [] \/ exists id, In (ChainEnds id t) es) /\
    (k <= length (filter (fun e => match e with ClickPoll => true | _ => false end) es))%nat /\
    ((forall id, ~ In (PollEnds id false) es) -> (k <= length (polls (poll_run first_board es)))%nat)).
  { intros es. induction es as [|e es IH] using rev_ind.
    - split; [split; constructor|]. exists O, []. parts; auto.
    - destruct IH as (D & k & t & B & T & C & L). unfold poll_run in *. rewrite fold_left_app. cbn [fold_left].
      set (b := fold_left poll_step es first_board) in *. split; [apply distinct_step; exact D|].
      rewrite filter_app, app_length.
      assert (T' : t = [] \/ exists id, In (ChainEnds id t) (es ++ [e])).
      { destruct T as [T|[id T]]; [left; exact T|]. right. exists id. apply in_or_app. auto. }
      assert (L' : (forall id, ~ In (PollEnds id false) (es ++ [e])) -> (k <= length (polls b))%nat).
      { intros H. apply L. intros id I. apply (H id). apply in_or_app. auto. }
      destruct D as [ND _].
      destruct e as [|id ok|id u]; cbn [poll_step filter length].
      + exists (S k), t. cbn [best polls updates length]. rewrite B.
        parts; auto; [lia|]. intros H. specialize (L' H). lia.
      + exists k, t. destruct (stage_of id (polls b)) as [[|]|] eqn:ST; cbn [best polls];
          parts; auto; try lia.
        intros H. specialize (L' H). pose proof (drop_length id (polls b) _ ND ST).
        destruct ok; cbn [length]; [lia|]. exfalso. apply (H id). apply in_or_app. right. left. reflexivity.
      + destruct (stage_of id (polls b)) as [[|]|] eqn:ST; cbn [best polls];
          try (exists k, t; parts; auto; lia).
        exists O, u. cbn [updates]. parts; auto; try lia.
        right. exists id. apply in_or_app. right. left. reflexivity. }
  intros es. apply G.
Qed.

(** The answer [ChainEnds id t] after the events [es] is to a poll under way. *)
Definition counts (es : list poll_event) (id : nat) : Prop := stage_of id (polls (poll_run first_board es)) = Some Reading.
Definition clicks (es : list poll_event) : nat := length (filter (fun e => match e with ClickPoll => true | _ => false end) es).
(** No answer in [es], which follows [es0], counts. *)
Definition none_counts (es0 es : list poll_event) : Prop :=
  forall a id t c, es = a ++ ChainEnds id t :: c -> ~ counts (es0 ++ a) id.

(** Exactly: below one line for each click since it, the last answer that counts. *)
Theorem C121_text : forall es,
  (none_counts [] es /\ best (poll_run first_board es) = updates (clicks es) []) \/
  (exists es1 id t es2, es = es1 ++ ChainEnds id t :: es2 /\ counts es1 id /\
     none_counts (es1 ++ [ChainEnds id t]) es2 /\ best (poll_run first_board es) = updates (clicks es2) t).
Proof.
  assert (SN : forall (a : list poll_event) e, clicks (a ++ [e]) = (clicks a + match e with ClickPoll => 1 | _ => 0 end)%nat).
  { intros a e. unfold clicks. rewrite filter_app, app_length. destruct e; reflexivity. }
  assert (NC : forall es0 es e, none_counts es0 es ->
    (forall id t, e = ChainEnds id t -> ~ counts (es0 ++ es) id) -> none_counts es0 (es ++ [e])).
  { intros es0 es e H N a id t c E. destruct c as [|x c] using rev_ind.
    - apply app_inj_tail in E. destruct E as [<- ->]. apply N with (t := t). reflexivity.
    - clear IHc. rewrite app_comm_cons, app_assoc in E. apply app_inj_tail in E. destruct E as [E _]. eapply H. exact E. }
  intros es. induction es as [|e es IH] using rev_ind.
  - left. split; [|reflexivity]. intros a id t c E. destruct a; discriminate.
  - assert (ST : poll_run first_board (es ++ [e]) = poll_step (poll_run first_board es) e).
    { unfold poll_run. rewrite fold_left_app. reflexivity. }
    destruct (match e with ChainEnds id t => stage_of id (polls (poll_run first_board es)) | _ => None end) as [[|]|] eqn:CE.
    2:{ destruct e as [|? ?|id t]; try discriminate. right. exists es, id, t, []. split; [reflexivity|]. split; [exact CE|].
        split; [intros a i u c E; destruct a; discriminate|]. rewrite ST. cbn [poll_step]. rewrite CE. reflexivity. }
    all: assert (N : forall id t, e = ChainEnds id t -> ~ counts es id) by (intros id t ->; unfold counts; rewrite CE; discriminate).
    all: assert (B : best (poll_run first_board (es ++ [e])) =
      match e with ClickPoll => updating ++ best (poll_run first_board es) | _ => best (poll_run first_board es) end)
      by (rewrite ST; destruct e as [|id ok|id t]; cbn [poll_step]; [reflexivity|destruct (stage_of _ _) as [[|]|]; reflexivity|
          rewrite CE; reflexivity]).
    all: destruct IH as [[IH1 IH2]|(es1 & id & t & es2 & E & C & IH1 & IH2)];
      [left; split; [apply NC; [exact IH1|exact N]|] | right; exists es1, id, t, (es2 ++ [e]);
        repeat match goal with |- _ /\ _ => split end;
        [rewrite E, <- app_assoc; reflexivity|exact C|apply NC; [exact IH1|]|] ].
    all: try (rewrite B, SN, IH2; destruct e; rewrite ?Nat.add_1_r, ?Nat.add_0_r; reflexivity).
    all: intros i u Q; rewrite <- app_assoc; cbn [app]; rewrite <- E; exact (N i u Q).
Qed.

(** When no poll has failed and none is under way, the text is an answer. *)
Theorem C121_settled : forall es, (forall id, ~ In (PollEnds id false) es) -> polls (poll_run first_board es) = [] ->
  best (poll_run first_board es) = [] \/ exists id t, In (ChainEnds id t) es /\ best (poll_run first_board es) = t.
Proof.
  intros es N E. destruct (C121_board es) as (k & t & B & T & _ & L). specialize (L N). rewrite E in L. cbn [length] in L.
  assert (k = O) by lia. subst k. cbn [updates] in B. rewrite B. destruct T as [->|[id T]]; [left; reflexivity|].
  right. exists id, t. auto.
Qed.

(** Expected: [updating] is shown exactly while a poll is under way.  After a
    failed poll it stays, and other events do not take it away until some
    poll is answered; and it is taken away by the answer to an older poll. *)
Theorem C121_failed_refuted : forall b es, (forall e, In e es -> exists id ok, e = PollEnds id ok) ->
  best (poll_run b es) = best b.
Proof.
  intros b es. revert b. induction es as [|e es IH]; intros b H; [reflexivity|].
  unfold poll_run in *. cbn [fold_left]. rewrite IH by (intros x I; apply H; right; exact I).
  destruct (H e (or_introl eq_refl)) as (id & ok & ->). cbn [poll_step].
  destruct (stage_of id (polls b)) as [[|]|]; reflexivity.
Qed.
Theorem C121_idle_refuted : exists es, polls (poll_run first_board es) = [] /\ best (poll_run first_board es) = updating ++ updating.
Proof. exists [ClickPoll; PollEnds 0 false; ClickPoll; PollEnds 1 false]. split; reflexivity. Qed.
Theorem C121_busy_refuted : exists es t, polls (poll_run first_board es) = [(1%nat, Polling)] /\ best (poll_run first_board es) = t /\ t = [65].
Proof. exists [ClickPoll; PollEnds 0 true; ClickPoll; ChainEnds 0 [65]], [65]. repeat split; reflexivity. Qed.
Example C121_board_example : let es := [ClickPoll; PollEnds 0 true; ChainEnds 0 [65]; ClickPoll] in
  best (poll_run first_board es) = updates 1 [65] /\ length (polls (poll_run first_board es)) = 1%nat /\
  (forall id, ~ In (PollEnds id false) es).
Proof. cbn zeta. split; [reflexivity|]. split; [reflexivity|]. intros id [H|[H|[H|[H|[]]]]]; discriminate. Qed.

(** ** The log *)

Definition is_init (e : log_event) : bool := match e with InitLogger => true | _ => false end.
(** The records in the log, from what has happened, the newest event first. *)
Fixpoint newest (es : list log_event) : list record :=
  match es with
  | [] => []
  | ClearLog :: _ => []
  | InitLogger :: es' => newest es'
  | Log r :: es' =>
    if existsb is_init es' && match r_level r with LTrace => false | _ => true end
    then r :: newest es' else newest es'
  end.
Definition lines (rs : list record) : text := flat_map (fun r => 10 :: record_to_string r) rs.

Lemma log_state : forall es, let s := log_run first_logging es in
  logger_set s = existsb is_init (rev es) /\ max_level s = (if existsb is_init (rev es) then 4 else 0) /\
  log_text s = lines (rev (newest (rev es))).
Proof.
  intros es. induction es as [|e es IH] using rev_ind; [repeat split|].
  cbn zeta in *. unfold log_run in *. rewrite fold_left_app. cbn [fold_left]. rewrite rev_app_distr. cbn [rev app].
  set (s := fold_left _ es first_logging) in *. destruct IH as (I1 & I2 & I3).
  destruct e as [|r|]; cbn [log_step fst existsb is_init orb newest logger_set max_level log_text].
  - auto.
  - rewrite I1, I2. destruct (existsb is_init (rev es)); cbn [andb].
    + destruct (r_level r); cbn [level_number Z.leb Z.compare Pos.compare Pos.compare_cont andb fst logger_set max_level log_text rev];
        try (rewrite I3; unfold lines; rewrite flat_map_app; cbn [flat_map]; rewrite app_nil_r; auto).
      cbn [existsb]. auto.
    + rewrite andb_false_r. cbn [andb fst]. auto.
  - auto.
Qed.

(** The log has every record below level trace since the logger was first set
    and the log was last cleared, in order, each on a new line. *)
Theorem C121_log : forall es, log_text (log_run first_logging es) = lines (rev (newest (rev es))).
Proof. intros es. apply (log_state es). Qed.

(** Setting the logger again is reported as an error and changes nothing. *)
Theorem C121_init_twice : forall es, let s := log_run first_logging es in
  snd (log_step s InitLogger) = negb (existsb is_init es) /\
  (existsb is_init es = true -> fst (log_step s InitLogger) = s).
Proof.
  intros es s. destruct (log_state es) as (I1 & I2 & I3). fold s in I1, I2, I3.
  assert (E : existsb is_init (rev es) = existsb is_init es).
  { destruct (existsb is_init es) eqn:E.
    - apply existsb_exists in E. destruct E as (x & H & X). apply existsb_exists. exists x. split; [apply in_rev in H; exact H|exact X].
    - apply not_true_is_false. intros C. apply existsb_exists in C. destruct C as (x & H & X).
      assert (existsb is_init es = true); [|congruence]. apply existsb_exists. exists x. split; [apply in_rev; exact H|exact X]. }
  rewrite E in I1, I2. split.
  - cbn [log_step snd]. rewrite I1. reflexivity.
  - intros H. rewrite H in I1, I2. destruct s as [m l t]. cbn in *. subst. reflexivity.
Qed.

(** Cut at line ends. *)
Fixpoint split_lines (t : text) : list text :=
  match t with
  | [] => [[]]
  | c :: t' => if c =? 10 then [] :: split_lines t'
               else match split_lines t' with l :: ls => (c :: l) :: ls | [] => [[c]] end
  end.
Lemma split_plain : forall a, ~ In 10 a -> split_lines a = [a].
Proof.
  intros a. induction a as [|c a IH]; intros N; [reflexivity|]. cbn [split_lines In] in *.
  destruct (Z.eqb_spec c 10) as [->|]; [exfalso; apply N; left; reflexivity|].
  rewrite IH by (intros H; apply N; right; exact H). reflexivity.
Qed.
Lemma split_app : forall a t, ~ In 10 a -> split_lines (a ++ 10 :: t) = a :: split_lines t.
Proof.
  intros a t. induction a as [|c a IH]; intros N; [reflexivity|]. cbn [app split_lines In] in *.
  destruct (Z.eqb_spec c 10) as [->|]; [exfalso; apply N; left; reflexivity|].
  rewrite IH by (intros H; apply N; right; exact H). reflexivity.
Qed.
Lemma split_log : forall rs, Forall (fun r => ~ In 10 (record_to_string r)) rs ->
  split_lines (lines rs) = [] :: map record_to_string rs.
Proof.
  intros rs F. destruct rs as [|r rs]; [reflexivity|]. inversion F as [|? ? N F']; subst. clear F.
  unfold lines. cbn [flat_map app map]. cbn [split_lines]. change (10 =? 10) with true. cbn iota. f_equal.
  revert r N. induction F' as [|q rs M F' IH]; intros r N; cbn [flat_map map].
  - rewrite app_nil_r. apply split_plain. exact N.
  - rewrite <- app_comm_cons. rewrite split_app by exact N. f_equal. apply IH. exact M.
Qed.

(** A record has a line of its own if its target and message have no line end. *)
Theorem C121_lines : forall es, Forall (fun r => ~ In 10 (r_target r) /\ ~ In 10 (r_args r)) (newest (rev es)) ->
  split_lines (log_text (log_run first_logging es)) = [] :: map record_to_string (rev (newest (rev es))).
Proof.
  intros es F. rewrite C121_log. apply split_log. apply Forall_forall. intros r H. apply in_rev in H.
  rewrite Forall_forall in F. destruct (F r H) as [N1 N2]. unfold record_to_string. intros C.
  repeat (apply in_app_or in C; destruct C as [C|C]); auto.
  - cbn in C. intuition discriminate.
  - destruct (r_level r); cbn in C; intuition discriminate.
  - cbn in C. intuition discriminate.
  - cbn in C. intuition discriminate.
Qed.
Definition ex_record (l : log_level) (a : string) : record := {| r_level := l; r_target := str_bytes "wasm"; r_args := str_bytes a |}.
(** A message with a line end looks like two records. *)
Theorem C121_forged_refuted : exists r1 r2 r3,
  log_text (log_run first_logging [InitLogger; Log r1]) = log_text (log_run first_logging [InitLogger; Log r2; Log r3]).
Proof.
  exists {| r_level := LInfo; r_target := str_bytes "wasm"; r_args := str_bytes "a" ++ 10 :: record_to_string (ex_record LError "b") |},
    (ex_record LInfo "a"), (ex_record LError "b"). reflexivity.
Qed.
Example C121_log_example :
  log_text (log_run first_logging [Log (ex_record LError "early"); InitLogger; Log (ex_record LInfo "gone"); ClearLog;
    Log (ex_record LTrace "fine"); Log (ex_record LDebug "kept"); InitLogger; Log (ex_record LWarn "too")]) =
  10 :: str_bytes "[DEBUG][wasm]: kept" ++ 10 :: str_bytes "[WARN][wasm]: too".
Proof. reflexivity. Qed.

Print Assumptions C120_sent.
Print Assumptions C120_no_key.
Print Assumptions C120_shown.
Print Assumptions C120_forgotten.
Print Assumptions C120_retry_refuted.
Print Assumptions C120_order_refuted.
Print Assumptions C121_board.
Print Assumptions C121_text.
Print Assumptions C121_settled.
Print Assumptions C121_failed_refuted.
Print Assumptions C121_idle_refuted.
Print Assumptions C121_busy_refuted.
Print Assumptions C121_log.
Print Assumptions C121_init_twice.
Print Assumptions C121_lines.
Print Assumptions C121_forged_refuted.
