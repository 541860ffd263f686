(** The check of UTF-8 (BinProt/Prim.v) accepts exactly the encodings of
    sequences of Unicode scalar values (Proto/PbSpec.v). *)

From Coq Require Import ZArith List Bool Lia ZifyBool ZifyNat.
From Verif Require Import Lib.Bytes BinProt.Prim Proto.PbSpec.
Import ListNotations.
Local Open Scope Z_scope.
Ltac Zify.zify_post_hook ::= Z.to_euclidean_division_equations.

Lemma utf8_cons : forall c cs, utf8 (c :: cs) = utf8_point c ++ utf8 cs.
Proof. reflexivity. Qed.
Lemma utf8_app : forall a b, utf8 (a ++ b) = utf8 a ++ utf8 b.
Proof. intros. apply flat_map_app. Qed.
Lemma utf8_point_ok : forall c, scalar c -> bytes_ok (utf8_point c).
Proof.
  intros c S. unfold scalar in S. unfold utf8_point.
  destruct (c <? 128) eqn:A, (c <? 2048) eqn:B, (c <? 65536) eqn:C; repeat (apply Forall_cons || apply Forall_nil); unfold byte_ok; lia.
Qed.
Lemma utf8_ok : forall cs, Forall scalar cs -> bytes_ok (utf8 cs).
Proof.
  induction 1; [constructor|]. rewrite utf8_cons. apply Forall_app. split; [apply utf8_point_ok; assumption|assumption].
Qed.

Lemma valid_point : forall c rest, scalar c -> utf8_valid (utf8_point c ++ rest) = utf8_valid rest.
Proof.
  intros c rest S. unfold scalar in S. unfold utf8_point.
  destruct (c <? 128) eqn:A; [cbn [app utf8_valid]; rewrite A; reflexivity|].
  destruct (c <? 2048) eqn:B.
  { cbn [app utf8_valid]. replace (192 + c / 64 <? 128) with false by lia. unfold btw, cont.
    replace ((194 <=? _) && _) with true by lia. replace ((128 <=? _) && _) with true by lia. reflexivity. }
  destruct (c <? 65536) eqn:C.
  { cbn [app utf8_valid]. replace (224 + c / 4096 <? 128) with false by lia. unfold btw, cont.
    replace ((194 <=? 224 + c / 4096) && (224 + c / 4096 <=? 223)) with false by lia.
    destruct (224 + c / 4096 =? 224) eqn:E0.
    { replace ((160 <=? _) && _) with true by lia. replace ((128 <=? _) && _) with true by lia. reflexivity. }
    destruct ((225 <=? 224 + c / 4096) && (224 + c / 4096 <=? 236) || (238 <=? 224 + c / 4096) && (224 + c / 4096 <=? 239)) eqn:E1.
    { replace ((128 <=? 128 + c / 64 mod 64) && (128 + c / 64 mod 64 <=? 191)) with true by lia.
      replace ((128 <=? 128 + c mod 64) && (128 + c mod 64 <=? 191)) with true by lia. reflexivity. }
    replace (224 + c / 4096 =? 237) with true by lia.
    replace ((128 <=? 128 + c / 64 mod 64) && (128 + c / 64 mod 64 <=? 159)) with true by lia.
    replace ((128 <=? 128 + c mod 64) && (128 + c mod 64 <=? 191)) with true by lia. reflexivity. }
  cbn [app utf8_valid]. unfold btw, cont.
  replace (240 + c / 262144 <? 128) with false by lia.
  replace ((194 <=? 240 + c / 262144) && (240 + c / 262144 <=? 223)) with false by lia.
  replace (240 + c / 262144 =? 224) with false by lia.
  replace ((225 <=? 240 + c / 262144) && (240 + c / 262144 <=? 236) || (238 <=? 240 + c / 262144) && (240 + c / 262144 <=? 239)) with false by lia.
  replace (240 + c / 262144 =? 237) with false by lia.
  replace ((128 <=? 128 + c / 64 mod 64) && (128 + c / 64 mod 64 <=? 191)) with true by lia.
  replace ((128 <=? 128 + c mod 64) && (128 + c mod 64 <=? 191)) with true by lia.
  destruct (240 + c / 262144 =? 240) eqn:E0.
  { replace ((144 <=? _) && _) with true by lia. reflexivity. }
  destruct ((241 <=? 240 + c / 262144) && (240 + c / 262144 <=? 243)) eqn:E1.
  { replace ((128 <=? 128 + c / 4096 mod 64) && (128 + c / 4096 mod 64 <=? 191)) with true by lia. reflexivity. }
  replace (240 + c / 262144 =? 244) with true by lia.
  replace ((128 <=? 128 + c / 4096 mod 64) && (128 + c / 4096 mod 64 <=? 143)) with true by lia. reflexivity.
Qed.
Lemma valid_utf8_app : forall cs rest, Forall scalar cs -> utf8_valid (utf8 cs ++ rest) = utf8_valid rest.
Proof.
  induction 1; [reflexivity|]. rewrite utf8_cons, <- app_assoc, valid_point by assumption. assumption.
Qed.
Lemma valid_utf8 : forall cs, Forall scalar cs -> utf8_valid (utf8 cs) = true.
Proof. intros cs S. rewrite <- (app_nil_r (utf8 cs)). rewrite valid_utf8_app by exact S. reflexivity. Qed.

Lemma point2 : forall a b, 194 <= a <= 223 -> 128 <= b <= 191 ->
  exists c, scalar c /\ utf8_point c = [a; b].
Proof.
  intros a b A B. exists ((a - 192) * 64 + (b - 128)). unfold scalar, utf8_point. split; [lia|].
  replace (_ <? 128) with false by lia. replace (_ <? 2048) with true by lia. repeat f_equal; lia.
Qed.
Lemma point3 : forall a b c, 224 <= a <= 239 -> 128 <= b <= 191 -> 128 <= c <= 191 -> (a = 224 -> 160 <= b) -> (a = 237 -> b <= 159) ->
  exists x, scalar x /\ utf8_point x = [a; b; c].
Proof.
  intros a b c A B C D E. exists ((a - 224) * 4096 + (b - 128) * 64 + (c - 128)). unfold scalar, utf8_point. split; [lia|].
  replace (_ <? 128) with false by lia. replace (_ <? 2048) with false by lia. replace (_ <? 65536) with true by lia.
  repeat f_equal; lia.
Qed.
Lemma point4 : forall a b c d, 240 <= a <= 244 -> 128 <= b <= 191 -> 128 <= c <= 191 -> 128 <= d <= 191 ->
  (a = 240 -> 144 <= b) -> (a = 244 -> b <= 143) ->
  exists x, scalar x /\ utf8_point x = [a; b; c; d].
Proof.
  intros a b c d A B C D E F. exists ((a - 240) * 262144 + (b - 128) * 4096 + (c - 128) * 64 + (d - 128)).
  unfold scalar, utf8_point. split; [lia|].
  replace (_ <? 128) with false by lia. replace (_ <? 2048) with false by lia. replace (_ <? 65536) with false by lia.
  repeat f_equal; lia.
Qed.

Lemma valid_is_utf8 : forall n l, (length l <= n)%nat -> bytes_ok l -> utf8_valid l = true ->
  exists cs, Forall scalar cs /\ l = utf8 cs.
Proof.
  induction n; intros l L B V.
  { destruct l; [|cbn in L; lia]. exists []. split; [constructor|reflexivity]. }
  destruct l as [|a l1]; [exists []; split; [constructor|reflexivity]|].
  assert (STEP : forall p r, a :: l1 = p ++ r -> p <> [] -> (exists x, scalar x /\ utf8_point x = p) -> utf8_valid r = true ->
    exists cs, Forall scalar cs /\ a :: l1 = utf8 cs).
  { intros p r E NE (x & S & P) V'. destruct (IHn r) as (cs & F & R).
    - apply (f_equal (@length Z)) in E. rewrite app_length in E. destruct p; [congruence|]. cbn [length] in *. lia.
    - rewrite E in B. apply Forall_app in B. apply B.
    - exact V'.
    - exists (x :: cs). split; [constructor; assumption|]. rewrite utf8_cons, P, <- R. exact E. }
  pose proof B as B'. inversion B' as [|? ? B1 Br1]; subst. unfold byte_ok in B1. clear B'.
  cbn [utf8_valid] in V. destruct (a <? 128) eqn:E1.
  { apply (STEP [a] l1); [reflexivity|discriminate| |exact V]. exists a. split; [unfold scalar; lia|]. unfold utf8_point. rewrite E1. reflexivity. }
  destruct l1 as [|b l2]; [discriminate|]. inversion Br1 as [|? ? B2 Br2]; subst.
  unfold btw, cont in V. destruct ((194 <=? a) && (a <=? 223)) eqn:E2.
  { apply andb_prop in V as (V1 & V2). apply (STEP [a; b] l2); [reflexivity|discriminate|apply point2; lia|exact V2]. }
  destruct l2 as [|c l3]; [discriminate|]. inversion Br2 as [|? ? B3 Br3]; subst.
  assert (T3 : forall q : bool, q && ((128 <=? c) && (c <=? 191)) && utf8_valid l3 = true ->
    (q = true -> 224 <= a <= 239 /\ 128 <= b <= 191 /\ (a = 224 -> 160 <= b) /\ (a = 237 -> b <= 159)) ->
    exists cs, Forall scalar cs /\ a :: b :: c :: l3 = utf8 cs).
  { intros q W Q. apply andb_prop in W as (W & W3). apply andb_prop in W as (W1 & W2). destruct (Q W1) as (Q1 & Q2 & Q3 & Q4).
    apply (STEP [a; b; c] l3); [reflexivity|discriminate|apply point3; lia|exact W3]. }
  destruct (a =? 224) eqn:E3; [apply (T3 _ V); lia|].
  destruct (_ || _) eqn:E4; [apply (T3 _ V); lia|].
  destruct (a =? 237) eqn:E5; [apply (T3 _ V); lia|].
  destruct l3 as [|d l4]; [discriminate|].
  assert (T4 : forall q : bool, q && ((128 <=? c) && (c <=? 191)) && ((128 <=? d) && (d <=? 191)) && utf8_valid l4 = true ->
    (q = true -> 240 <= a <= 244 /\ 128 <= b <= 191 /\ (a = 240 -> 144 <= b) /\ (a = 244 -> b <= 143)) ->
    exists cs, Forall scalar cs /\ a :: b :: c :: d :: l4 = utf8 cs).
  { intros q W Q. apply andb_prop in W as (W & W4). apply andb_prop in W as (W & W3). apply andb_prop in W as (W1 & W2).
    destruct (Q W1) as (Q1 & Q2 & Q3 & Q4).
    apply (STEP [a; b; c; d] l4); [reflexivity|discriminate|apply point4; lia|exact W4]. }
  destruct (a =? 240) eqn:E6; [apply (T4 _ V); lia|].
  destruct ((241 <=? a) && (a <=? 243)) eqn:E7; [apply (T4 _ V); lia|].
  destruct (a =? 244) eqn:E8; [apply (T4 _ V); lia|discriminate].
Qed.
Lemma utf8_valid_iff : forall l, bytes_ok l -> utf8_valid l = true <-> exists cs, Forall scalar cs /\ l = utf8 cs.
Proof.
  intros l B. split; [apply (valid_is_utf8 (length l)); [lia|exact B]|]. intros (cs & S & ->). apply valid_utf8. exact S.
Qed.
