(** The buffered source decodes what the slice decodes. *)
From Coq Require Import ZArith List Bool Lia ZifyBool ZifyNat.
From Verif Require Import Lib.Res Lib.Bytes BinProt.Prim BinProt.PrimProofs BinProt.Codec
  BinProt.CodecSpec BinProt.CodecProofs BinProt.BufRead.
Import ListNotations.
Open Scope Z_scope.

Definition chunks_ok (i : inner) : Prop := Forall (fun c => c <> []) i.
Definition content (s : bufr) : list Z := fst s ++ concat (snd s).

Lemma inner_read_spec : forall k i l i', 1 <= k -> chunks_ok i -> inner_read k i = (l, i') ->
  chunks_ok i' /\ concat i = l ++ concat i' /\ (l = [] -> concat i = []) /\
  Z.of_nat (length l) <= k.
Proof.
  intros k i l i' Hk Hi H. unfold inner_read in H. destruct i as [|ch i].
  - injection H as <- <-. repeat split; auto; cbn; lia.
  - inversion Hi; subst.
    destruct (Z.leb_spec (Z.of_nat (length ch)) k); injection H as <- <-.
    + repeat split; auto. intros E. congruence.
    + assert (L : (Z.to_nat k < length ch)%nat) by lia. repeat split.
      * constructor; auto. intros E. apply (f_equal (@length Z)) in E. rewrite skipn_length in E. cbn in E. lia.
      * cbn [concat]. rewrite app_assoc, firstn_skipn. reflexivity.
      * intros E. apply (f_equal (@length Z)) in E. rewrite firstn_length in E. cbn in E. lia.
      * rewrite firstn_length. lia.
Qed.

Section WithCap.
  Variable cap : Z.
  Hypothesis Hcap : 1 <= cap.

  Lemma buf_read_spec : forall k s l s', 1 <= k -> chunks_ok (snd s) ->
    buf_read cap k s = (l, s') ->
    chunks_ok (snd s') /\ content s = l ++ content s' /\ (l = [] -> content s = []) /\
    Z.of_nat (length l) <= k.
  Proof.
    intros k (buf, i) l s' Hk Hi H. unfold buf_read, content in *. cbn [fst snd] in *.
    assert (A : forall b : list Z, firstn (Z.to_nat k) b = [] -> b = []).
    { intros b E. destruct b; auto. destruct (Z.to_nat k) eqn:K; [lia|discriminate]. }
    destruct buf as [|b buf].
    - destruct (Z.leb_spec cap k).
      + destruct (inner_read k i) as (l1, i1) eqn:E. injection H as <- <-.
        apply inner_read_spec in E; auto.
      + destruct (inner_read cap i) as (b, i1) eqn:E. injection H as <- <-.
        apply inner_read_spec in E; auto. destruct E as (E1 & E2 & E3 & E4).
        cbn [fst snd app]. repeat split; auto.
        * rewrite app_assoc, firstn_skipn. auto.
        * rewrite firstn_length. lia.
    - injection H as <- <-. cbn [fst snd]. repeat split; auto.
      + rewrite app_assoc, firstn_skipn. reflexivity.
      + intros E. apply A in E. discriminate.
      + rewrite firstn_length. lia.
  Qed.

  Lemma read_loop_spec : forall fuel k acc s, 0 <= k -> chunks_ok (snd s) ->
    (length (content s) < fuel)%nat ->
    match slice_read_exact k (content s) with
    | Ok (l, r) => exists s', read_loop cap fuel k acc s = Ok (acc ++ l, s') /\ content s' = r /\ chunks_ok (snd s')
    | Err e => read_loop cap fuel k acc s = Err e
    | Panic => False
    end.
  Proof.
    induction fuel as [|fuel IH]; intros k acc s Hk Hi Hf; [lia|].
    cbn [read_loop]. destruct (Z.leb_spec k 0).
    - replace k with 0 by lia. unfold slice_read_exact.
      destruct (Z.leb_spec 0 (Z.of_nat (length (content s)))); [|lia]. cbn.
      exists s. rewrite app_nil_r. auto.
    - destruct (buf_read cap k s) as (l, s') eqn:E.
      apply buf_read_spec in E; auto; [|lia]. destruct E as (E1 & E2 & E3 & E4).
      destruct l as [|b l].
      + rewrite (E3 eq_refl). unfold slice_read_exact. cbn [length Z.of_nat].
        destruct (Z.leb_spec k 0); [lia|]. reflexivity.
      + set (l0 := b :: l) in *. assert (L0 : (length l0 >= 1)%nat) by (subst l0; cbn; lia).
        assert (Lc : length (content s) = (length l0 + length (content s'))%nat).
        { rewrite E2, app_length. reflexivity. }
        specialize (IH (k - Z.of_nat (length l0)) (acc ++ l0) s' ltac:(lia) E1 ltac:(lia)).
        unfold slice_read_exact in *.
        destruct (Z.leb_spec (k - Z.of_nat (length l0)) (Z.of_nat (length (content s'))));
          destruct (Z.leb_spec k (Z.of_nat (length (content s)))); try lia.
        * destruct IH as (s2 & R1 & R2 & R3). exists s2. rewrite R1, E2.
          rewrite firstn_app, skipn_app.
          replace (Z.to_nat k - length l0)%nat with (Z.to_nat (k - Z.of_nat (length l0))) by lia.
          rewrite (firstn_all2 l0) by lia. rewrite (skipn_all2 l0) by lia.
          rewrite <- app_assoc. cbn [app]. auto.
        * auto.
  Qed.

  Lemma buf_read_exact_spec : forall k s, 0 <= k -> chunks_ok (snd s) ->
    match slice_read_exact k (content s) with
    | Ok (l, r) => exists s', buf_read_exact cap k s = Ok (l, s') /\ content s' = r /\ chunks_ok (snd s')
    | Err e => buf_read_exact cap k s = Err e
    | Panic => False
    end.
  Proof.
    intros k (buf, i) Hk Hi. unfold buf_read_exact.
    destruct (Z.leb_spec k (Z.of_nat (length buf))).
    - unfold slice_read_exact, content. cbn [fst snd]. rewrite app_length.
      destruct (Z.leb_spec k (Z.of_nat (length buf + length (concat i)))); [|lia].
      exists (skipn (Z.to_nat k) buf, i). cbn [fst snd].
      rewrite firstn_app, skipn_app.
      replace (Z.to_nat k - length buf)%nat with 0%nat by lia.
      cbn [firstn skipn]. rewrite app_nil_r. auto.
    - apply (read_loop_spec (S (length buf + length (concat i))) k [] (buf, i)); auto.
      unfold content. cbn [fst snd]. rewrite app_length. lia.
  Qed.

  Lemma buf_sim : forall n s1 s2, 0 <= n ->
    (content s1 = s2 /\ chunks_ok (snd s1)) ->
    rel bufr (list Z) (fun a b => content a = b /\ chunks_ok (snd a)) True
      (buf_read_exact cap n s1) (slice_read_exact n s2).
  Proof.
    intros n s1 s2 Hn (<- & Hi). pose proof (buf_read_exact_spec n s1 Hn Hi) as H.
    destruct (slice_read_exact n (content s1)) as [(l, r)|e|] eqn:E.
    - destruct H as (s' & -> & H1 & H2). cbn [rel]. eauto.
    - rewrite H. cbn [rel]. auto.
    - contradiction.
  Qed.

  Lemma buf_de : forall c t i, chunks_ok i ->
    match from_slice c t (concat i) with
    | Ok (v, r) => exists s, de c bufr (buf_read_exact cap) t ([], i) = Ok (v, s) /\
                             content s = r /\ chunks_ok (snd s)
    | Err e => de c bufr (buf_read_exact cap) t ([], i) = Err e
    | Panic => de c bufr (buf_read_exact cap) t ([], i) = Panic
    end.
  Proof.
    intros c t i Hi.
    pose proof (sim_de c _ _ (buf_read_exact cap) slice_read_exact _ True buf_sim t ([], i) (concat i)
      (conj eq_refl Hi)) as H.
    unfold rel in H. unfold from_slice.
    destruct (de c bufr (buf_read_exact cap) t ([], i)) as [(v, s)|e|].
    - destruct H as (s2 & -> & H1 & H2). eauto.
    - rewrite (H I). reflexivity.
    - rewrite H. reflexivity.
  Qed.

  (** One chunk that fits the buffer: what is unread is all in the buffer, or
      nothing has been read. *)
  Lemma buf_sim1 : forall bs, Z.of_nat (length bs) <= cap -> bs <> [] ->
    forall n s1 s2, 0 <= n ->
    (content s1 = s2 /\ (snd s1 = [] \/ s1 = ([], [bs]))) ->
    rel bufr (list Z) (fun a b => content a = b /\ (snd a = [] \/ a = ([], [bs]))) True
      (buf_read_exact cap n s1) (slice_read_exact n s2).
  Proof.
    intros bs Hbs Hne n s1 s2 Hn (<- & J).
    assert (Hi : chunks_ok (snd s1)).
    { destruct J as [-> | ->]; repeat constructor; auto. }
    pose proof (buf_read_exact_spec n s1 Hn Hi) as H.
    destruct (slice_read_exact n (content s1)) as [(l, r)|e|] eqn:E.
    - destruct H as (s' & H0 & H1 & H2). rewrite H0. cbn [rel]. exists r. split; auto. split; auto.
      assert (M : forall fuel k acc s s', 0 <= k -> snd s = [] ->
        read_loop cap fuel k acc s = Ok (l, s') -> snd s' = []).
      { clear -Hcap. induction fuel as [|fuel IH]; intros k acc s s' Hk Hs H; cbn [read_loop] in H.
        - destruct (k <=? 0); [injection H as <- <-; auto|discriminate].
        - destruct (Z.leb_spec k 0); [injection H as <- <-; auto|].
          destruct s as (buf, i). cbn in Hs. subst i.
          destruct (buf_read cap k (buf, [])) as (l1, s1) eqn:E.
          assert (B : snd s1 = [] /\ Z.of_nat (length l1) <= k).
          { split.
            - unfold buf_read in E. destruct buf; [destruct (cap <=? k)|]; cbn in E;
                injection E as <- <-; reflexivity.
            - eapply buf_read_spec in E; [|lia|constructor]. tauto. }
          destruct l1; [discriminate|]. eapply IH in H; eauto; [lia|tauto]. }
      destruct J as [J | ->].
      + left. destruct s1 as (buf, i). cbn in J. subst i. unfold buf_read_exact in H0.
        destruct (n <=? Z.of_nat (length buf)); [injection H0 as <- <-; reflexivity|].
        eapply M in H0; auto; reflexivity.
      + unfold buf_read_exact in H0. cbn [length Z.of_nat] in H0.
        destruct (Z.leb_spec n 0).
        * injection H0 as <- <-. rewrite skipn_nil. right; reflexivity.
        * left. cbn [read_loop] in H0. destruct (Z.leb_spec n 0); [lia|].
          destruct (buf_read cap n ([], [bs])) as (l1, s1) eqn:E1.
          assert (B : snd s1 = [] /\ Z.of_nat (length l1) <= n).
          { split.
            - unfold buf_read, inner_read in E1. destruct (Z.leb_spec cap n).
              + destruct (Z.leb_spec (Z.of_nat (length bs)) n); [|lia]. injection E1 as <- <-. reflexivity.
              + destruct (Z.leb_spec (Z.of_nat (length bs)) cap); [|lia]. injection E1 as <- <-. reflexivity.
            - eapply buf_read_spec in E1; [|lia|auto]. tauto. }
          destruct l1; [discriminate|]. eapply M in H0; [auto|lia|tauto].
    - rewrite H. cbn [rel]. auto.
    - contradiction.
  Qed.

  Lemma buf_de1 : forall c t bs, Z.of_nat (length bs) <= cap -> bs <> [] ->
    match from_slice c t bs with
    | Ok (v, r) => exists s, de c bufr (buf_read_exact cap) t ([], [bs]) = Ok (v, s) /\
                             content s = r /\ (snd s = [] \/ s = ([], [bs]))
    | Err e => de c bufr (buf_read_exact cap) t ([], [bs]) = Err e
    | Panic => de c bufr (buf_read_exact cap) t ([], [bs]) = Panic
    end.
  Proof.
    intros c t bs Hb Hne.
    pose proof (sim_de c _ _ (buf_read_exact cap) slice_read_exact _ True (buf_sim1 bs Hb Hne) t ([], [bs]) bs) as H.
    assert (X : content ([], [bs]) = bs) by (unfold content; cbn; apply app_nil_r).
    specialize (H (conj X (or_intror eq_refl))).
    unfold rel in H. unfold from_slice.
    destruct (de c bufr (buf_read_exact cap) t ([], [bs])) as [(v, s)|e|].
    - destruct H as (s2 & -> & H1 & H2). eauto.
    - rewrite (H I). reflexivity.
    - rewrite H. reflexivity.
  Qed.

  (** Reading [n] single bytes out of a filled buffer. *)
  Lemma de_bytes_buffered : forall c l junk,
    de_list c bufr (buf_read_exact cap) (map (fun _ => TU8) l) (l, junk) =
      Ok (map VInt l, ([], junk)).
  Proof.
    intros c l junk. induction l as [|b l IH]; [reflexivity|].
    cbn [map de_list de]. unfold read_u8. cbn [buf_read_exact length].
    destruct (Z.leb_spec 1 (Z.of_nat (S (length l)))); [|lia].
    change (Z.to_nat 1) with 1%nat. cbn [firstn skipn bind le_val]. rewrite IH. cbn [bind].
    do 4 f_equal. lia.
  Qed.

  Lemma strict_boundary : forall c b l junk,
    Z.of_nat (length (b :: l)) = cap ->
    from_reader_strict cap c (TTup (map (fun _ => TU8) (b :: l))) [(b :: l) ++ junk] =
      Ok (VTup (map VInt (b :: l))).
  Proof.
    intros c b l junk HL. unfold from_reader_strict. rewrite de_tup.
    cbn [map de_list de]. unfold read_u8.
    assert (E : exists i, buf_read_exact cap 1 ([], [(b :: l) ++ junk]) = Ok ([b], (l, i))).
    { unfold buf_read_exact. cbn [length Z.of_nat]. destruct (Z.leb_spec 1 0); [lia|].
      cbn [read_loop]. destruct (Z.leb_spec 1 0); [lia|].
      unfold buf_read.
      assert (Hin : exists i, inner_read cap [(b :: l) ++ junk] = (b :: l, i)).
      { unfold inner_read. rewrite app_length.
        destruct (Z.leb_spec (Z.of_nat (length (b :: l) + length junk)) cap).
        - destruct junk; [rewrite app_nil_r; eauto|cbn [length] in *; lia].
        - rewrite <- HL, Nat2Z.id, firstn_app, Nat.sub_diag, firstn_all, firstn_O, app_nil_r. eauto. }
      destruct Hin as (i & Hin).
      destruct (Z.leb_spec cap 1).
      - assert (cap = 1) by lia. rewrite <- H2. rewrite Hin.
        assert (l = []) by (destruct l; [auto|cbn [length] in HL; lia]). subst l.
        cbn [length]. exists i. cbn [concat length app Nat.add read_loop]. 
        destruct (Z.leb_spec (cap - Z.of_nat 1) 0); [reflexivity|lia].
      - rewrite Hin. cbn [firstn skipn]. change (Z.to_nat 1) with 1%nat. cbn [firstn skipn].
        exists i. cbn [concat length app Nat.add read_loop]. reflexivity. }
    destruct E as (i & ->). cbn [bind le_val].
    rewrite de_bytes_buffered. cbn [bind fst]. do 4 f_equal. lia.
  Qed.
End WithCap.
