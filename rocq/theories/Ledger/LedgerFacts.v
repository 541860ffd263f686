(** Lemmas about loading ledgers. *)

From Coq Require Import String ZArith List Bool Sorted Lia ZifyBool ZifyNat.
From Verif Require Import Lib.Res Lib.Bytes Lib.Vec BinProt.Codec BinProt.CodecSpec BinProt.CodecFacts BinProt.CodecProps BinProt.BufRead BinProt.FormatSpec
  BinProt.AcceptProps BinProt.WidthProps Text.Base58 Merkle.Tree Merkle.MerkleSpec Merkle.Poseidon Wire.WireProps Json.JsonCrashFacts Ledger.AccountWireFacts Ledger.Ledger Ledger.LedgerSpec.
Import ListNotations.
Local Open Scope list_scope.
Local Open Scope Z_scope.
Notation length := List.length.

(** ** Keys *)
Lemma key_ltb_before : forall a b, key_ltb a b = true <-> before a b.
Proof.
  intros a b. split.
  - revert b. induction a as [|x a IH]; intros [|y b] E; cbn [key_ltb] in E; try discriminate; [constructor|].
    apply orb_true_iff in E. destruct E as [E|E]; [apply B_less; lia|]. apply andb_true_iff in E. destruct E as (E1 & E2).
    replace y with x by lia. apply B_same, IH, E2.
  - intros H. induction H as [|x y a b H|x a b H IH]; cbn [key_ltb]; [reflexivity| |].
    + apply orb_true_iff. left. lia.
    + rewrite IH, Z.eqb_refl. apply orb_true_r.
Qed.
Lemma below_prefix : forall k, key_ltb k [ACCOUNT_PREFIX] = match k with [] => true | x :: _ => x <? 254 end.
Proof.
  intros [|x k]; [reflexivity|]. cbn [key_ltb]. unfold ACCOUNT_PREFIX. destruct k; cbn [key_ltb]; rewrite andb_false_r, orb_false_r; reflexivity.
Qed.
Lemma none_after : forall e db, ordered (e :: db) -> (match fst e with x :: _ => 254 < x | [] => False end) -> records db = [].
Proof.
  intros e db O H. inversion O as [|? ? _ F]; subst. unfold records. induction db as [|f db IH]; [reflexivity|]. cbn [filter].
  inversion F as [|? ? B F']; subst.
  assert (N : is_record f = false).
  { unfold is_record. inversion B as [y b E|x y a b L E E'|x a b L E E']; subst; rewrite <- E in H; [contradiction| |]; lia. }
  rewrite N. apply IH; [|exact F']. inversion O as [|? ? O1 O2]; subst. constructor; [|exact F']. inversion O1; assumption.
Qed.
(** From the first key that is not below the prefix on, the records come first. *)
Lemma seek_records : forall db, ordered db -> exists rest, seek [ACCOUNT_PREFIX] db = records db ++ rest /\
  match rest with e :: _ => is_record e = false | [] => True end.
Proof.
  induction db as [|e db IH]; intros O; [exists []; split; [reflexivity|exact I]|].
  assert (O' : ordered db) by (inversion O; assumption).
  cbn [seek]. rewrite below_prefix. unfold records. cbn [filter]. fold (records db).
  destruct e as (k, v). cbn [fst]. destruct k as [|x k].
  - apply IH, O'.
  - change (is_record (x :: k, v)) with (x =? 254). destruct (x <? 254) eqn:L.
    + replace (x =? 254) with false by lia. apply IH, O'.
    + destruct (x =? 254) eqn:E.
      * destruct (IH O') as (rest & S & H). exists rest. split; [|exact H]. cbn [app]. f_equal.
        (* nothing after it is below the prefix *)
        assert (Z0 : seek [ACCOUNT_PREFIX] db = db); [|rewrite <- S; symmetry; exact Z0].
        clear IH S H rest. destruct db as [|f db]; [reflexivity|]. cbn [seek]. rewrite below_prefix.
        inversion O as [|? ? _ F]; subst. inversion F as [|? ? B _]; subst. cbn [fst] in B.
        inversion B as [y b E1 E2|x1 y a b L1 E1 E2|x1 a b L1 E1 E2]; subst.
        -- replace (y <? 254) with false by lia. reflexivity.
        -- rewrite L. reflexivity.
      * exists ((x :: k, v) :: db). split.
        -- rewrite (none_after _ _ O); [reflexivity|]. cbn [fst]. lia.
        -- unfold is_record. cbn [fst]. exact E.
Qed.
Lemma take_while_app : forall A (p : A -> bool) l r, forallb p l = true -> match r with x :: _ => p x = false | [] => True end ->
  take_while p (l ++ r) = l.
Proof.
  intros A p l r. induction l as [|x l IH]; intros F H; cbn [app take_while].
  - destruct r as [|y r]; [reflexivity|]. cbn [take_while]. rewrite H. reflexivity.
  - cbn [forallb] in F. apply andb_true_iff in F. destruct F as (F1 & F2). rewrite F1, (IH F2 H). reflexivity.
Qed.
Lemma records_prefixed : forall db, forallb prefixed (map Ok (records db)) = true.
Proof.
  intros db. apply forallb_forall. intros r I. apply in_map_iff in I. destruct I as (e & <- & I). apply filter_In in I. destruct I as (_ & I).
  unfold is_record in I. destruct e as ([|x k], v); cbn [fst] in I; [discriminate|]. cbn [prefixed]. unfold ACCOUNT_PREFIX. exact I.
Qed.
Lemma firstn_forallb : forall A (p : A -> bool) n l, forallb p l = true -> forallb p (firstn n l) = true.
Proof.
  intros A p n. induction n as [|n IH]; intros [|x l] F; cbn [firstn forallb] in *; try reflexivity.
  apply andb_true_iff in F. destruct F as (-> & F2). exact (IH l F2).
Qed.
Lemma entries_seen : forall db fault, ordered db -> take_while prefixed (items (seek [ACCOUNT_PREFIX] db) fault) = map Ok (seen db fault).
Proof.
  intros db fault O. destruct (seek_records db O) as (rest & -> & H). unfold items, seen. destruct fault as [n|].
  - rewrite firstn_app, map_app, <- app_assoc. apply take_while_app.
    + rewrite <- firstn_map. apply firstn_forallb, records_prefixed.
    + destruct (n - length (records db))%nat as [|m]; [reflexivity|]. destruct rest as [|e rest]; [reflexivity|]. cbn [firstn map app].
      destruct e as ([|x k], v); [reflexivity|]. exact H.
  - rewrite map_app. apply take_while_app; [apply records_prefixed|]. destruct rest as [|e rest]; [exact I|]. cbn [map].
    destruct e as ([|x k], v); [reflexivity|]. exact H.
Qed.

(** ** Values *)
Section Load.
  Variable T : ty.
  Variable A : Type.
  Variable into : val -> res unit A.
  Variable checked : bool.
  Variable R : val -> A -> Prop.
  Variable big : val -> Prop.
  Hypothesis F : fine T into R big.
  Hypothesis T_bounded : bounded T = true.
  Hypothesis T_min : (1 <= min_size T)%nat.
  Hypothesis T_max : Z.of_nat (max_size T) < BUF_CAP.
  Hypothesis T_plain : plain T = true.

  Lemma strict_acc : forall bs v, bytes_ok bs -> from_reader_strict BUF_CAP checked T (chunks_of bs) = Ok v <-> acc T v bs.
  Proof. intros bs v Hb. apply (C10_strict_bounded BUF_CAP checked T bs v T_bounded T_min T_max Hb). Qed.
  Lemma acc_rust : forall bs v, bytes_ok bs -> acc T v bs -> rust_val T v.
  Proof.
    intros bs v Hb H. apply (C61_decode_sound false T bs v [] Hb). apply C64_accepted; [exact Hb|]. exists bs. rewrite app_nil_r. auto.
  Qed.
  Lemma acc_fun : forall bs v w, bytes_ok bs -> acc T v bs -> acc T w bs -> v = w.
  Proof. intros bs v w Hb V W. apply strict_acc in V, W; try exact Hb. congruence. Qed.
  (** What becomes of a record. *)
  Lemma decode_cases : forall k bs, bytes_ok bs -> let d := decode_account_from_kv T A into checked (Ok (k, bs)) in
    (exists a, d = Ok a /\ stores T A R bs a) \/ ((exists e, d = Err (Disconnect e k bs)) /\ undecodable T bs) \/ (d = Panic /\ stores_big T big bs).
  Proof.
    intros k bs Hb d. subst d. unfold decode_account_from_kv. cbn [bind].
    pose proof (strict_no_panic checked T bs T_plain) as N. pose proof (fun v => strict_acc bs v Hb) as S.
    destruct (from_reader_strict BUF_CAP checked T (chunks_of bs)) as [v|e|]; [| |contradiction].
    - pose proof (proj1 (S v) eq_refl) as V. cbn [bind]. destruct F as (F1 & _ & F3 & _). destruct (F3 v (acc_rust _ _ Hb V)) as [(a & H)|(G & P)].
      + left. exists a. rewrite (F1 _ _ H). split; [reflexivity|]. exists v. auto.
      + right. right. rewrite P. split; [reflexivity|]. exists v. auto.
    - right. left. split; [exists e; reflexivity|]. intros v V. apply S in V. discriminate.
  Qed.
  Lemma stores_fun : forall bs a b, bytes_ok bs -> stores T A R bs a -> stores T A R bs b -> a = b.
  Proof.
    intros bs a b Hb (v & V & Ra) (w & W & Rb). rewrite (acc_fun bs v w Hb V W) in Ra. destruct F as (F1 & _). apply F1 in Ra, Rb. congruence.
  Qed.
  Lemma flatten_spec : forall es, Forall (fun e => bytes_ok (snd e)) es ->
    let r := flatten A (map (decode_account_from_kv T A into checked) (map Ok es)) in
    (forall l, r = Ok l <-> kept T A R es l) /\ (r = Panic <-> Exists (fun e => stores_big T big (snd e)) es).
  Proof.
    induction es as [|(k, bs) es IH]; intros Hb; cbn zeta.
    - cbn. split; [|split; [discriminate|intros H; inversion H]]. intros l. split; [intros E; injection E as <-; constructor|intros K; inversion K; reflexivity].
    - inversion Hb as [|? ? H1 H2]; subst. cbn [snd] in H1. destruct (IH H2) as (G & P). cbn [map].
      assert (X : stores_big T big bs -> (forall a, ~ stores T A R bs a) /\ ~ undecodable T bs).
      { intros (v & V & B). split; [|intros U; exact (U v V)]. intros a (w & W & Ra). rewrite (acc_fun bs v w H1 V W) in B. destruct F as (_ & _ & _ & F4). exact (F4 _ _ Ra B). }
      destruct (decode_cases k bs H1) as [(a & -> & S)|[((e & ->) & U)|(-> & B)]].
      + cbn [flatten]. destruct (flatten A _) as [l'|e|] eqn:E.
        * cbn [bind]. split.
          -- intros l. split.
             ++ intros Q. injection Q as <-. apply K_take; [exact S|]. apply G. reflexivity.
             ++ intros K. inversion K as [|? ? b l2 S' K' E1 E2|? ? l2 U K' E1 E2]; subst; cbn [snd] in *.
                ** apply G in K'. injection K' as ->. rewrite (stores_fun bs a b H1 S S'). reflexivity.
                ** exfalso. destruct S as (v & V & _). exact (U v V).
          -- split; [discriminate|]. intros Q. inversion Q as [? ? Q'|? ? Q']; subst; cbn [snd] in *; [exfalso; exact (proj1 (X Q') a S)|]. apply P in Q'. discriminate.
        * exfalso. clear - E. revert E. generalize (map (decode_account_from_kv T A into checked) (map Ok es)). intros l. revert e.
          induction l as [|[x|x|] l IHl]; intros e E; cbn [flatten] in E; try discriminate; [|eauto].
          destruct (flatten A l) as [y|y|]; cbn [bind] in E; try discriminate. eapply IHl. reflexivity.
        * cbn [bind]. split.
          -- intros l. split; [discriminate|]. intros K. inversion K as [|? ? b l2 S' K' E1 E2|? ? l2 U K' E1 E2]; subst; apply G in K'; discriminate.
          -- split; [|reflexivity]. intros _. apply Exists_cons_tl. apply P. reflexivity.
      + cbn [flatten]. split.
        * intros l. rewrite G. split; [intros K; apply K_skip; assumption|]. intros K. inversion K as [|? ? b l2 S' K' E1 E2|? ? l2 U' K' E1 E2]; subst; cbn [snd] in *; [|exact K'].
          destruct S' as (v & V & _). destruct (U v V).
        * rewrite P. split; [apply Exists_cons_tl|]. intros Q. inversion Q as [? ? Q'|? ? Q']; subst; cbn [snd] in *; [destruct (proj2 (X Q') U)|exact Q'].
      + cbn [flatten]. destruct (X B) as (X1 & X2). split.
        * intros l. split; [discriminate|]. intros K. inversion K as [|? ? b l2 S' K' E1 E2|? ? l2 U' K' E1 E2]; subst; cbn [snd] in *; [destruct (X1 _ S')|destruct (X2 U')].
        * split; [|reflexivity]. intros _. apply Exists_cons_hd. exact B.
  Qed.
  Lemma loaded_spec : forall db fault, ordered db -> Forall (fun e => bytes_ok (snd e)) db ->
    let r := flatten A (accounts T A into checked db fault) in
    (forall l, r = Ok l <-> kept T A R (seen db fault) l) /\ (r = Panic <-> Exists (fun e => stores_big T big (snd e)) (seen db fault)).
  Proof.
    intros db fault O Hb. unfold accounts. rewrite (entries_seen db fault O). apply flatten_spec.
    assert (Hr : Forall (fun e => bytes_ok (snd e)) (records db)).
    { apply Forall_forall. intros e I. apply filter_In in I. exact (proj1 (Forall_forall _ _) Hb e (proj1 I)). }
    destruct fault as [n|]; cbn [seen]; [|exact Hr]. apply Forall_forall. intros e I. apply (proj1 (Forall_forall _ _) Hr e).
    rewrite <- (firstn_skipn n). apply in_or_app. left. exact I.
  Qed.
End Load.

(** ** Roots *)
Section Roots.
  Variable poseidon : option (list Z) -> list Z -> Z.
  Variable e0 : Z.
  Notation proot := (perfect_root (merge_present poseidon) e0).

  Lemma repeat_cut : forall n m (l : list Z), exists m', firstn n (l ++ repeat e0 m) = firstn n l ++ repeat e0 m'.
  Proof.
    induction n as [|n IH]; intros m l; [exists O; reflexivity|]. destruct l as [|x l].
    - destruct m as [|m]; [exists O; reflexivity|]. cbn [repeat app firstn]. destruct (IH m []) as (m' & E). exists (S m'). cbn [repeat].
      f_equal. etransitivity; [exact E|]. destruct n; reflexivity.
    - cbn [app firstn]. destruct (IH m l) as (m' & ->). exists m'. reflexivity.
  Qed.
  Lemma repeat_drop : forall n m (l : list Z), exists m', skipn n (l ++ repeat e0 m) = skipn n l ++ repeat e0 m'.
  Proof.
    induction n as [|n IH]; intros m l; [exists m; reflexivity|]. destruct l as [|x l].
    - destruct m as [|m]; [exists O; reflexivity|]. cbn [repeat app skipn]. destruct (IH m []) as (m' & E). exists m'. etransitivity; [exact E|]. destruct n; reflexivity.
    - apply IH.
  Qed.
  (** Missing leaves are empty ones. *)
  Lemma perfect_padding : forall k l m, proot k (l ++ repeat e0 m) = proot k l.
  Proof.
    induction k as [|k IH]; intros l m; cbn [perfect_root].
    - destruct l as [|x l]; [|reflexivity]. destruct m; reflexivity.
    - destruct (repeat_cut (2 ^ k) m l) as (a & ->). destruct (repeat_drop (2 ^ k) m l) as (b & ->). rewrite !IH. reflexivity.
  Qed.
  Lemma nth_firstn : forall n i (l : list Z), nth i (firstn n l) e0 = if (i <? n)%nat then nth i l e0 else e0.
  Proof.
    induction n as [|n IH]; intros i l; [destruct i; reflexivity|]. destruct l as [|x l].
    - cbn [firstn]. destruct i; destruct (_ <? _)%nat; reflexivity.
    - cbn [firstn]. destruct i as [|i]; [reflexivity|]. cbn [nth]. rewrite IH. reflexivity.
  Qed.
  Lemma nth_skipn : forall n i (l : list Z), nth i (skipn n l) e0 = nth (n + i) l e0.
  Proof. induction n as [|n IH]; intros i l; [reflexivity|]. destruct l as [|x l]; [destruct i; reflexivity|]. cbn [skipn Nat.add nth]. apply IH. Qed.
  (** Equal roots have equal leaves, or the hash function has a collision. *)
  Lemma perfect_inj : forall k l1 l2, (length l1 <= 2 ^ k)%nat -> (length l2 <= 2 ^ k)%nat -> proot k l1 = proot k l2 ->
    collision poseidon \/ forall i, nth i l1 e0 = nth i l2 e0.
  Proof.
    induction k as [|k IH]; intros l1 l2 H1 H2 E.
    - right. cbn [perfect_root] in E. cbn [Nat.pow] in *.
      intros [|i]; [destruct l1, l2; exact E|]. destruct l1 as [|x [|y l1]], l2 as [|x' [|y' l2]]; cbn [List.length] in *; try lia; destruct i; reflexivity.
    - cbn [perfect_root] in E. unfold merge_present in E. replace (2 ^ S k)%nat with (2 ^ k + 2 ^ k)%nat in * by (cbn; lia).
      match type of E with poseidon ?d ?x = poseidon _ ?y => destruct (list_eq_dec Z.eq_dec x y) as [Q|Q]; [|left; exists d, x, y; auto] end.
      assert (Q1 := f_equal (hd 0) Q). assert (Q2 := f_equal (fun l => hd 0 (tl l)) Q). cbn [hd tl] in Q1, Q2. clear Q E.
      apply IH in Q1; [|rewrite firstn_length; lia|rewrite firstn_length; lia]. apply IH in Q2; [|rewrite skipn_length; lia|rewrite skipn_length; lia].
      destruct Q1 as [Q1|Q1]; [left; exact Q1|]. destruct Q2 as [Q2|Q2]; [left; exact Q2|]. right. intros i.
      destruct (Nat.ltb_spec i (2 ^ k)) as [L|L].
      + specialize (Q1 i). rewrite !nth_firstn in Q1. replace (i <? 2 ^ k)%nat with true in Q1 by lia. exact Q1.
      + specialize (Q2 (i - 2 ^ k)%nat). rewrite !nth_skipn in Q2. replace (2 ^ k + (i - 2 ^ k))%nat with i in Q2 by lia. exact Q2.
  Qed.
  Lemma nth_all : forall l1 l2, ~ In e0 l1 -> ~ In e0 l2 -> (forall i, nth i l1 e0 = nth i l2 e0) -> l1 = l2.
  Proof.
    induction l1 as [|x l1 IH]; intros [|y l2] N1 N2 E; [reflexivity| | |].
    - exfalso. apply N2. left. symmetry. exact (E O).
    - exfalso. apply N1. left. exact (E O).
    - pose proof (E O) as E0. cbn [nth] in E0. subst y. f_equal. apply IH.
      + intros I. apply N1. right. exact I.
      + intros I. apply N2. right. exact I.
      + intros i. exact (E (S i)).
  Qed.
End Roots.
