(** C10: the strict reader and values shorter than its buffer. *)
From Coq Require Import ZArith List Bool Lia ZifyBool ZifyNat.
From Verif Require Import Lib.Res Lib.Bytes BinProt.Prim BinProt.PrimProofs BinProt.Codec
  BinProt.CodecSpec BinProt.CodecProofs BinProt.BufRead BinProt.BufReadProofs BinProt.CodecFacts.
Import ListNotations.
Open Scope Z_scope.

Section Strict.
  Variable cap : Z.
  Hypothesis Hcap : 1 <= cap.
  Variable bs : list Z.
  Hypothesis long : cap < Z.of_nat (length bs).

  (** Nothing read, a full buffer read, or the buffer partly read. *)
  Definition stage (a : bufr) (b : list Z) : Prop :=
    content a = b /\ chunks_ok (snd a) /\
    (a = ([], [bs]) \/ Z.of_nat (length b) + cap <= Z.of_nat (length bs) \/ snd a = [skipn (Z.to_nat cap) bs]).

  Lemma stage_sim : forall n s1 s2, 0 <= n -> stage s1 s2 ->
    rel bufr (list Z) stage True (buf_read_exact cap n s1) (slice_read_exact n s2).
  Proof.
    intros n s1 s2 Hn (<- & Hi & J).
    pose proof (buf_read_exact_spec cap Hcap n s1 Hn Hi) as H.
    destruct (slice_read_exact n (content s1)) as [(l, r)|e|] eqn:E; [|rewrite H; cbn [rel]; auto|contradiction].
    destruct H as (s' & H0 & H1 & H2). rewrite H0. cbn [rel]. exists r. split; [reflexivity|]. split; [exact H1|]. split; [exact H2|].
    assert (R : Z.of_nat (length r) + n = Z.of_nat (length (content s1))).
    { unfold slice_read_exact in E. destruct (Z.leb_spec n (Z.of_nat (length (content s1)))); [|discriminate].
      injection E as _ <-. rewrite skipn_length. lia. }
    destruct J as [->|[J|J]].
    - assert (X : content ([], [bs]) = bs) by (unfold content; cbn; apply app_nil_r). rewrite X in R.
      destruct (Z.leb_spec cap n); [right; left; lia|]. unfold buf_read_exact in H0. cbn [length Z.of_nat] in H0.
      destruct (Z.leb_spec n 0).
      + injection H0 as _ <-. rewrite skipn_nil. left. reflexivity.
      + right. right. cbn [read_loop] in H0. destruct (Z.leb_spec n 0); [lia|].
        unfold buf_read, inner_read in H0. destruct (Z.leb_spec cap n); [lia|].
        destruct (Z.leb_spec (Z.of_nat (length bs)) cap); [lia|].
        destruct (firstn (Z.to_nat n) (firstn (Z.to_nat cap) bs)) as [|x l1] eqn:F; [discriminate|].
        assert (L : Z.of_nat (length (x :: l1)) = n) by (rewrite <- F, !firstn_length; lia).
        rewrite L, Z.sub_diag in H0. destruct (0 + length (concat [bs]))%nat; cbn [read_loop Z.leb Z.compare] in H0; injection H0 as _ <-; reflexivity.
    - right. left. lia.
    - destruct s1 as (buf, i). cbn [snd] in J. subst i. unfold buf_read_exact in H0.
      destruct (Z.leb_spec n (Z.of_nat (length buf))).
      + injection H0 as _ <-. right. right. reflexivity.
      + right. left. unfold content in R. cbn [fst snd concat] in R. rewrite app_nil_r, app_length, skipn_length in R. lia.
  Qed.

  Lemma stage_de : forall c t v r, from_slice c t bs = Ok (v, r) -> (length r < length bs)%nat ->
    Z.of_nat (length bs) < Z.of_nat (length r) + cap -> exists b buf i,
    de c bufr (buf_read_exact cap) t ([], [bs]) = Ok (v, (b :: buf, i)).
  Proof.
    intros c t v r E L M.
    assert (X : content ([], [bs]) = bs) by (unfold content; cbn; apply app_nil_r).
    assert (N : bs <> []) by (intros ->; cbn in L; lia).
    pose proof (sim_de c _ _ (buf_read_exact cap) slice_read_exact stage True stage_sim t ([], [bs]) bs) as H.
    assert (S0 : stage ([], [bs]) bs) by (split; [exact X|]; split; [repeat constructor; exact N|left; reflexivity]).
    specialize (H S0). clear S0.
    unfold rel in H. unfold from_slice in E.
    destruct (de c bufr (buf_read_exact cap) t ([], [bs])) as [(w, s)|e|].
    - destruct H as (s2 & H & S & _ & J). rewrite E in H. injection H as <- <-. 
      destruct J as [->|[J|J]].
      + rewrite X in S. rewrite S in L. lia.
      + lia.
      + destruct s as ([|b buf], i); [|eauto]. cbn [snd] in J. subst i. rewrite <- S in M. unfold content in M.
        cbn [fst snd concat app] in M. rewrite app_nil_r, skipn_length in M. lia.
    - rewrite (H I) in E. discriminate.
    - rewrite H in E. discriminate.
  Qed.
End Strict.

(** C10: on one slice of any length, if the value that is read takes at least
    one byte and less than a whole buffer, the strict reader succeeds exactly
    if nothing is left over. *)
Theorem C10_strict_short : forall cap checked t bs v r, 1 <= cap -> from_slice checked t bs = Ok (v, r) ->
  (length r < length bs)%nat -> Z.of_nat (length bs) < Z.of_nat (length r) + cap ->
  (r = [] -> from_reader_strict cap checked t [bs] = Ok v) /\
  (r <> [] -> exists n, from_reader_strict cap checked t [bs] = Err (EStreamNotFullyConsumed n)).
Proof.
  intros cap c t bs v r Hc E L M. destruct (Z.leb_spec (Z.of_nat (length bs)) cap) as [S|S].
  - assert (N : bs <> []) by (intros ->; cbn in L; lia).
    pose proof (buf_de1 cap Hc c t bs S N) as B. rewrite E in B. destruct B as ((buf, i) & D & C & J).
    unfold from_reader_strict. rewrite D. cbn [bind fst]. unfold content in C. cbn [fst snd] in C.
    destruct J as [J|J].
    + cbn [snd] in J. subst i. cbn [concat] in C. rewrite app_nil_r in C. subst buf. destruct r; split; intros; try easy. eauto.
    + injection J as -> ->. cbn in C. rewrite app_nil_r in C. subst r. lia.
  - destruct (stage_de cap Hc bs S c t v r E L M) as (b & buf & i & D). unfold from_reader_strict. rewrite D. cbn [bind fst].
    split; [intros ->; cbn in M; lia|eauto].
Qed.
(** A 33-byte hash out of a slice, with and without a byte behind, in a buffer
    of 40 bytes. *)
Example C10_short_ex :
  from_reader_strict 40 true (TTup (repeat TU8 33)) [repeat 7 33] = Ok (VTup (repeat (VInt 7) 33)) /\
  from_slice true (TTup (repeat TU8 33)) (repeat 7 100) = Ok (VTup (repeat (VInt 7) 33), repeat 7 67) /\
  from_reader_strict 40 true (TTup (repeat TU8 33)) [repeat 7 100] = Err (EStreamNotFullyConsumed 7).
Proof. vm_compute. auto. Qed.

Print Assumptions C10_strict_short.
