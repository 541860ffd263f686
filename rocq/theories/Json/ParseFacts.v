(** The reader of JSON texts reads exactly the texts of the grammar.
    Models no code. *)

From Coq Require Import String ZArith List Bool Lia ZifyBool ZifyNat.
From Verif Require Import Lib.Bytes Lib.Decimal Lib.Text Text.Base58 Proto.PbSpec Json.Json.
From Verif Require Import Json.Grammar Json.Parse.
Import ListNotations.
Local Open Scope string_scope.
Local Open Scope list_scope.
Local Open Scope Z_scope.
Notation length := List.length.

(** ** Spaces *)
Lemma is_white_iff : forall c, is_white c = true <-> white c.
Proof. intros c. unfold is_white, white. lia. Qed.
Lemma skip_blank : forall w s, blank w -> skip (w ++ s) = skip s.
Proof.
  induction w as [|c w IH]; intros s B; [reflexivity|]. inversion B as [|? ? W B']; subst. cbn [app skip].
  rewrite (proj2 (is_white_iff c) W). apply IH, B'.
Qed.
Lemma skip_stop : forall c s, ~ white c -> skip (c :: s) = c :: s.
Proof. intros c s N. cbn [skip]. destruct (is_white c) eqn:E; [|reflexivity]. exfalso. apply N, is_white_iff, E. Qed.
Lemma skip_nil : forall w, blank w -> skip w = [].
Proof. intros w B. rewrite <- (app_nil_r w), skip_blank by exact B. reflexivity. Qed.
Lemma skip_split : forall s, exists w, s = w ++ skip s /\ blank w.
Proof.
  induction s as [|c s (w & E & B)]; [exists []; split; [reflexivity|constructor]|]. cbn [skip].
  destruct (is_white c) eqn:W.
  - exists (c :: w). split; [cbn [app]; f_equal; exact E|constructor; [apply is_white_iff, W|exact B]].
  - exists []. split; [reflexivity|constructor].
Qed.
Lemma strip_sound : forall p s r, strip p s = Some r -> s = p ++ r.
Proof.
  induction p as [|a p IH]; intros s r E; cbn [strip] in E; [injection E as ->; reflexivity|].
  destruct s as [|b s]; [discriminate E|]. destruct (a =? b) eqn:D; [|discriminate E]. rewrite (IH _ _ E). cbn [app]. f_equal. lia.
Qed.
Lemma strip_app : forall p s, strip p (p ++ s) = Some s.
Proof. induction p as [|a p IH]; intros s; [destruct s; reflexivity|]. cbn [strip app]. rewrite Z.eqb_refl. apply IH. Qed.

(** ** Numbers *)
Lemma digits_iff : forall s, digits s <-> Forall (fun c => is_digit c = true) s.
Proof. intros s. unfold digits. reflexivity. Qed.
Definition no_digit (s : list Z) : Prop := match s with c :: _ => is_digit c = false | [] => True end.
Lemma span_sound : forall s a b, span s = (a, b) -> s = a ++ b /\ digits a.
Proof.
  induction s as [|c s IH]; intros a b E; cbn [span] in E; [injection E as <- <-; split; [reflexivity|constructor]|].
  destruct (is_digit c) eqn:D.
  - destruct (span s) as [a' b'] eqn:S. injection E as <- <-. destruct (IH _ _ eq_refl) as [-> F]. split; [reflexivity|constructor; auto].
  - injection E as <- <-. split; [reflexivity|constructor].
Qed.
Lemma span_app : forall a b, digits a -> no_digit b -> span (a ++ b) = (a, b).
Proof.
  induction a as [|c a IH]; intros b D N.
  - destruct b as [|c b]; [reflexivity|]. cbn [app span]. cbn in N. rewrite N. reflexivity.
  - inversion D as [|? ? Dc D']; subst. cbn [app span]. rewrite Dc, (IH b D' N). reflexivity.
Qed.
(** what may follow a value *)
Definition follows (s : list Z) : Prop := match s with c :: _ => white c \/ c = 44 \/ c = 93 \/ c = 125 | [] => True end.

Lemma p_num_sound : forall s t r, p_num s = Some (t, r) -> s = t ++ r /\ num_text t.
Proof.
  intros s t r E. unfold p_num in E. destruct (p_minus s) as [sg s1] eqn:Es.
  assert (Hs : s = sg ++ s1 /\ minus_text sg).
  { unfold p_minus in Es. destruct s as [|c s]; [injection Es as <- <-; split; [reflexivity|left; reflexivity]|].
    destruct (c =? 45) eqn:D; injection Es as <- <-; (split; [|first [left; reflexivity|right; reflexivity]]); [|reflexivity].
    cbn [app]. f_equal. lia. }
  destruct (p_whole s1) as [[i s2]|] eqn:Ei; [|discriminate E].
  assert (Hi : s1 = i ++ s2 /\ whole_text i).
  { unfold p_whole in Ei. destruct s1 as [|c s1]; [discriminate Ei|]. destruct (c =? 48) eqn:D.
    - injection Ei as <- <-. split; [cbn [app]; f_equal; lia|left; reflexivity].
    - destruct (is_digit c) eqn:Dc; [|discriminate Ei]. destruct (span s1) as [ds r'] eqn:Sp. injection Ei as <- <-.
      destruct (span_sound _ _ _ Sp) as [-> F]. split; [reflexivity|right]. exists c, ds. unfold is_digit in Dc. repeat split; auto; lia. }
  destruct (p_fraction s2) as [[f s3]|] eqn:Ef; [|discriminate E].
  assert (Hf : s2 = f ++ s3 /\ fraction_text f).
  { unfold p_fraction in Ef. destruct s2 as [|c s2]; [injection Ef as <- <-; split; [reflexivity|left; reflexivity]|].
    destruct (c =? 46) eqn:D; [|injection Ef as <- <-; split; [reflexivity|left; reflexivity]].
    destruct (span s2) as [ds r'] eqn:Sp. destruct (span_sound _ _ _ Sp) as [-> F]. destruct ds as [|d ds]; [discriminate Ef|].
    injection Ef as <- <-. split; [cbn [app]; f_equal; lia|right]. exists (d :: ds). repeat split; auto; discriminate. }
  destruct (p_exponent s3) as [[e s4]|] eqn:Ee; [|discriminate E].
  assert (He : s3 = e ++ s4 /\ exponent_text e).
  { unfold p_exponent in Ee. destruct s3 as [|c s3]; [injection Ee as <- <-; split; [reflexivity|left; reflexivity]|].
    destruct ((c =? 101) || (c =? 69)) eqn:D; [|injection Ee as <- <-; split; [reflexivity|left; reflexivity]].
    destruct (p_sign s3) as [g r1] eqn:Eg.
    assert (Hg : s3 = g ++ r1 /\ (g = [] \/ g = [43] \/ g = [45])).
    { unfold p_sign in Eg. destruct s3 as [|x s3]; [injection Eg as <- <-; auto|].
      destruct ((x =? 43) || (x =? 45)) eqn:Dx; injection Eg as <- <-; [|auto]. split; [reflexivity|right].
      assert (x = 43 \/ x = 45) as [->| ->] by lia; auto. }
    destruct Hg as [-> Hg]. destruct (span r1) as [ds r2] eqn:Sp. destruct (span_sound _ _ _ Sp) as [-> F]. destruct ds as [|d ds]; [discriminate Ee|].
    injection Ee as <- <-. split; [cbn [app]; rewrite <- app_assoc; reflexivity|right]. exists c, g, (d :: ds).
    repeat split; auto; [lia|discriminate]. }
  injection E as <- <-. destruct Hs as [-> Hs], Hi as [-> Hi], Hf as [-> Hf], He as [-> He].
  split; [rewrite <- !app_assoc; reflexivity|]. exists sg, i, f, e. auto.
Qed.
Definition no_point (s : list Z) : Prop := match s with c :: _ => c <> 46 | [] => True end.
Definition no_exp (s : list Z) : Prop := match s with c :: _ => c <> 101 /\ c <> 69 | [] => True end.
Lemma whole_first : forall i s, whole_text i -> exists c r, i ++ s = c :: r /\ 48 <= c <= 57.
Proof. intros i s [->|(d & ds & -> & R & _)]; [exists 48, s; split; [reflexivity|lia]|]. exists d, (ds ++ s). split; [reflexivity|lia]. Qed.
Lemma p_num_complete : forall t r, num_text t -> follows r -> p_num (t ++ r) = Some (t, r).
Proof.
  intros t r (sg & i & f & e & -> & Hs & Hi & Hf & He) W. rewrite <- !app_assoc.
  assert (Nd : no_digit r /\ no_point r /\ no_exp r).
  { destruct r as [|c r]; cbn; [auto|]. cbn in W. unfold white in W. unfold is_digit. repeat split; lia. }
  destruct Nd as (Nd & Np & Ne).
  assert (E4 : p_exponent (e ++ r) = Some (e, r)).
  { destruct He as [->|(x & g & ds & -> & X & G & N & D)].
    - cbn [app]. unfold p_exponent. destruct r as [|c r]; [reflexivity|]. cbn in Ne.
      replace ((c =? 101) || (c =? 69)) with false by lia. reflexivity.
    - rewrite <- app_comm_cons, <- app_assoc. unfold p_exponent. replace ((x =? 101) || (x =? 69)) with true by lia.
      assert (Eg : p_sign (g ++ ds ++ r) = (g, ds ++ r)).
      { destruct G as [->|[->| ->]]; [|reflexivity|reflexivity]. destruct ds as [|d ds]; [contradiction|]. inversion D as [|? ? Dd _]; subst.
        unfold is_digit in Dd. unfold p_sign. cbn [app]. replace ((d =? 43) || (d =? 45)) with false by lia. reflexivity. }
      rewrite Eg, (span_app ds r D Nd). destruct ds; [contradiction|reflexivity]. }
  assert (Nd3 : no_digit (e ++ r) /\ no_point (e ++ r)).
  { destruct He as [->|(x & g & ds & -> & X & _)]; [auto|]. cbn. unfold is_digit. lia. }
  assert (E3 : p_fraction (f ++ e ++ r) = Some (f, e ++ r)).
  { destruct Hf as [->|(ds & -> & N & D)].
    - cbn [app]. unfold p_fraction. destruct (e ++ r) as [|c q]; [reflexivity|]. destruct Nd3 as [_ P]. cbn in P.
      replace (c =? 46) with false by lia. reflexivity.
    - rewrite <- app_comm_cons. unfold p_fraction. change (46 =? 46) with true. cbv iota. rewrite (span_app ds _ D (proj1 Nd3)).
      destruct ds; [contradiction|reflexivity]. }
  assert (Nd2 : no_digit (f ++ e ++ r)).
  { destruct Hf as [->|(ds & -> & _)]; [apply Nd3|reflexivity]. }
  assert (E2 : p_whole (i ++ f ++ e ++ r) = Some (i, f ++ e ++ r)).
  { destruct Hi as [->|(d & ds & -> & R & D)]; [reflexivity|]. rewrite <- app_comm_cons. unfold p_whole.
    replace (d =? 48) with false by lia. replace (is_digit d) with true by (unfold is_digit; lia). rewrite (span_app ds _ D Nd2). reflexivity. }
  assert (E1 : p_minus (sg ++ i ++ f ++ e ++ r) = (sg, i ++ f ++ e ++ r)).
  { destruct Hs as [->| ->]; [|reflexivity]. cbn [app]. destruct (whole_first i (f ++ e ++ r) Hi) as (c & q & -> & R).
    unfold p_minus. replace (c =? 45) with false by lia. reflexivity. }
  unfold p_num. rewrite E1, E2, E3, E4. reflexivity.
Qed.

(** ** Strings *)
Lemma p_hex_iff : forall c v, p_hex c = Some v <-> hex_value c v.
Proof.
  intros c v. unfold p_hex, hex_value.
  destruct ((48 <=? c) && (c <=? 57)) eqn:A; [split; [injection 1 as <-; lia|intros; f_equal; lia]|].
  destruct ((65 <=? c) && (c <=? 70)) eqn:B; [split; [injection 1 as <-; lia|intros; f_equal; lia]|].
  destruct ((97 <=? c) && (c <=? 102)) eqn:C; [split; [injection 1 as <-; lia|intros; f_equal; lia]|].
  split; [discriminate|lia].
Qed.
Lemma p_hex4_sound : forall a b c d n, p_hex4 a b c d = Some n -> hex4 [a; b; c; d] n.
Proof.
  intros a b c d n E. unfold p_hex4 in E.
  destruct (p_hex a) as [w|] eqn:A; [|discriminate E]. destruct (p_hex b) as [x|] eqn:B; [|discriminate E].
  destruct (p_hex c) as [y|] eqn:C; [|discriminate E]. destruct (p_hex d) as [z|] eqn:D; [|discriminate E].
  injection E as <-. apply p_hex_iff in A, B, C, D. exists a, b, c, d, w, x, y, z. auto 10.
Qed.
Lemma hex4_inv : forall h n, hex4 h n -> exists a b c d, h = [a; b; c; d] /\ p_hex4 a b c d = Some n.
Proof.
  intros h n (a & b & c & d & w & x & y & z & -> & A & B & C & D & ->). exists a, b, c, d. split; [reflexivity|].
  apply p_hex_iff in A, B, C, D. unfold p_hex4. rewrite A, B, C, D. reflexivity.
Qed.
Lemma p_short_iff : forall c v, p_short c = Some v <-> short c v.
Proof.
  intros c v. unfold p_short, short.
  repeat match goal with |- context [if ?c =? ?k then _ else _] => let E := fresh in destruct (c =? k) eqn:E end;
    (split; [first [injection 1 as <-; lia|discriminate]|first [intros; f_equal; lia|lia]]).
Qed.
Lemma p_str_complete : forall s l, chars s l -> forall rest, p_str (s ++ 34 :: rest) = Some (l, rest).
Proof.
  induction 1 as [|c s l R N1 N2 _ IH|c v s l Hs _ IH|h n s l Hh Hn _ IH|h n k m s l Hh Hn Hk Hm _ IH]; intros rest; cbn [app].
  - reflexivity.
  - cbn [p_str]. replace (c =? 34) with false by lia. replace (c =? 92) with false by lia.
    replace ((32 <=? c) && (c <? 256)) with true by lia. rewrite IH. reflexivity.
  - cbn [p_str]. change (92 =? 34) with false. change (92 =? 92) with true. cbv iota.
    assert (c =? 117 = false) as -> by (unfold short in Hs; lia). rewrite (proj2 (p_short_iff c v) Hs), IH. reflexivity.
  - destruct (hex4_inv _ _ Hh) as (a & b & c & d & -> & Hp). cbn [app p_str]. change (92 =? 34) with false. change (92 =? 92) with true.
    change (117 =? 117) with true. cbv iota. rewrite Hp. replace ((0xd800 <=? n) && (n <? 0xdc00)) with false by lia.
    replace ((0xdc00 <=? n) && (n <? 0xe000)) with false by lia. rewrite IH. reflexivity.
  - destruct (hex4_inv _ _ Hh) as (a & b & c & d & -> & Hp). destruct (hex4_inv _ _ Hk) as (a' & b' & c' & d' & -> & Hq).
    cbn [app p_str]. change (92 =? 34) with false. change (92 =? 92) with true.
    change (117 =? 117) with true. cbv iota. rewrite Hp, Hq. replace ((0xd800 <=? n) && (n <? 0xdc00)) with true by lia. cbn [andb].
    replace ((0xdc00 <=? m) && (m <? 0xe000)) with true by lia. rewrite IH. reflexivity.
Qed.
Lemma before_inv : forall l r x, before l r = Some x -> exists l' s, r = Some (l', s) /\ x = (l ++ l', s).
Proof. intros l [[l' s]|] x E; [|discriminate E]. injection E as <-. exists l', s. auto. Qed.
Lemma p_str_sound_n : forall n s l rest, (length s <= n)%nat -> p_str s = Some (l, rest) -> exists t, s = t ++ 34 :: rest /\ chars t l.
Proof.
  induction n as [|n IH]; intros s l rest L E; (destruct s as [|c s1]; [discriminate E|]); cbn [List.length] in L; [lia|].
  cbn [p_str] in E. destruct (c =? 34) eqn:E34.
  { injection E as <- <-. exists []. split; [cbn [app]; f_equal; lia|constructor]. }
  destruct (c =? 92) eqn:E92.
  - assert (c = 92) as -> by lia. clear E34 E92. destruct s1 as [|e s2]; [discriminate E|]. destruct (e =? 117) eqn:Eu.
    + assert (e = 117) as -> by lia. clear Eu.
      destruct s2 as [|h1 [|h2 [|h3 [|h4 s3]]]]; try discriminate E. destruct (p_hex4 h1 h2 h3 h4) as [u|] eqn:Hp; [|discriminate E].
      apply p_hex4_sound in Hp. cbn [List.length] in L. destruct ((0xd800 <=? u) && (u <? 0xdc00)) eqn:Hi.
      * destruct s3 as [|x [|y [|k1 [|k2 [|k3 [|k4 s4]]]]]]; try discriminate E. destruct ((x =? 92) && (y =? 117)) eqn:Exy; [|discriminate E].
        assert (x = 92) as -> by lia. assert (y = 117) as -> by lia. destruct (p_hex4 k1 k2 k3 k4) as [m|] eqn:Hq; [|discriminate E].
        apply p_hex4_sound in Hq. destruct ((0xdc00 <=? m) && (m <? 0xe000)) eqn:Lo; [|discriminate E].
        destruct (before_inv _ _ _ E) as (l' & s' & E' & Q). injection Q as -> ->. cbn [List.length] in L.
        destruct (IH s4 l' s' ltac:(lia) E') as (t & -> & C).
        exists (92 :: 117 :: [h1; h2; h3; h4] ++ 92 :: 117 :: [k1; k2; k3; k4] ++ t). split; [reflexivity|]. apply Ch_pair; auto; lia.
      * destruct ((0xdc00 <=? u) && (u <? 0xe000)) eqn:Lo; [discriminate E|].
        destruct (before_inv _ _ _ E) as (l' & s' & E' & Q). injection Q as -> ->.
        destruct (IH s3 l' s' ltac:(lia) E') as (t & -> & C).
        exists (92 :: 117 :: [h1; h2; h3; h4] ++ t). split; [reflexivity|]. apply Ch_unicode; auto; lia.
    + destruct (p_short e) as [v|] eqn:Hs; [|discriminate E]. apply p_short_iff in Hs.
      destruct (before_inv _ _ _ E) as (l' & s' & E' & Q). injection Q as -> ->. cbn [List.length] in L.
      destruct (IH s2 l' s' ltac:(lia) E') as (t & -> & C). exists (92 :: e :: t). split; [reflexivity|]. apply Ch_short; auto.
  - destruct ((32 <=? c) && (c <? 256)) eqn:R; [|discriminate E]. destruct (before_inv _ _ _ E) as (l' & s' & E' & Q). injection Q as -> ->.
    destruct (IH s1 l' s' ltac:(lia) E') as (t & -> & C). exists (c :: t). split; [reflexivity|]. apply Ch_plain; auto; lia.
Qed.
Lemma p_str_sound : forall s l rest, p_str s = Some (l, rest) -> exists t, s = t ++ 34 :: rest /\ chars t l.
Proof. intros s l rest. apply (p_str_sound_n (length s)). lia. Qed.

(** ** Values *)
Scheme value_ind' := Minimality for value Sort Prop
  with elements_ind' := Minimality for elements Sort Prop
  with members_ind' := Minimality for members Sort Prop.
Combined Scheme grammar_ind from value_ind', elements_ind', members_ind'.

Definition starter (c : Z) : Prop := ~ white c /\ c <> 93 /\ c <> 125 /\ c <> 44.
Lemma value_first : forall v r, value v r -> exists c v', v = c :: v' /\ starter c.
Proof.
  unfold starter, white. intros v r H.
  inversion H as [| | |s (sg & i & f & e & -> & Hs & Hi & _)|s l _|w _|s l _|w _|s l _]; subst.
  { exists 110, (str_bytes "ull"). split; [reflexivity|lia]. }
  { exists 116, (str_bytes "rue"). split; [reflexivity|lia]. }
  { exists 102, (str_bytes "alse"). split; [reflexivity|lia]. }
  { destruct Hs as [->| ->].
       - destruct (whole_first i (f ++ e) Hi) as (c & q & E & R). exists c, q. split; [exact E|lia].
       - eexists _, _. split; [reflexivity|lia]. }
  all: eexists _, _; (split; [reflexivity|lia]).
Qed.
Lemma num_first : forall t, num_text t -> exists c t', t = c :: t' /\ (c = 45 \/ 48 <= c <= 57).
Proof.
  intros t (sg & i & f & e & -> & [->| ->] & Hi & _).
  - destruct (whole_first i (f ++ e) Hi) as (c & q & E & R). exists c, q. split; [exact E|lia].
  - eexists _, _. split; [reflexivity|lia].
Qed.
Lemma skip_starter : forall w c s, blank w -> starter c -> skip (w ++ c :: s) = c :: s.
Proof. intros w c s B (N & _). rewrite skip_blank by exact B. apply skip_stop, N. Qed.
Lemma follows_blank : forall w c s, blank w -> c = 44 \/ c = 93 \/ c = 125 -> follows (w ++ c :: s).
Proof. intros [|x w] c s B C; cbn; [tauto|]. inversion B; subst. left. assumption. Qed.
Lemma follows_blank_nil : forall w, blank w -> follows w.
Proof. intros [|x w] B; cbn; [exact I|]. inversion B; subst. left. assumption. Qed.

Lemma elements_first : forall s l, elements s l -> forall rest, exists c q, skip (s ++ rest) = c :: q /\ starter c.
Proof.
  intros s l H rest.
  inversion H as [w v w' r B V B'|w v w' r s' l' B V B' X]; subst; destruct (value_first _ _ V) as (c & v' & -> & S);
    rewrite <- app_assoc; cbn [app]; rewrite (skip_starter w c _ B S); eauto.
Qed.
Lemma members_first : forall s l, members s l -> forall rest, exists q, skip (s ++ rest) = 34 :: q.
Proof.
  intros s l H rest.
  assert (S : starter 34) by (unfold starter, white; lia).
  inversion H as [w k n w1 w2 v w' r B X1 X2 X3 X4 X5|w k n w1 w2 v w' r s' m B X1 X2 X3 X4 X5 X6]; subst;
    rewrite <- app_assoc; cbn [app]; rewrite (skip_starter w 34 _ B S); eauto.
Qed.

Lemma complete :
  (forall v r, value v r -> forall n rest, (2 * length v <= n)%nat -> follows rest -> p_val n (v ++ rest) = Some (r, rest)) /\
  (forall s l, elements s l -> forall n rest, (2 * length s + 1 <= n)%nat -> p_elems n (s ++ 93 :: rest) = Some (l, rest)) /\
  (forall s m, members s m -> forall n rest, (2 * length s + 1 <= n)%nat -> p_members n (s ++ 125 :: rest) = Some (m, rest)).
Proof.
  apply grammar_ind.
  - intros n rest L F. destruct n; [cbn in L; lia|]. reflexivity.
  - intros n rest L F. destruct n; [cbn in L; lia|]. reflexivity.
  - intros n rest L F. destruct n; [cbn in L; lia|]. reflexivity.
  - intros s Hs n rest L F. pose proof (p_num_complete s rest Hs F) as E. destruct (num_first s Hs) as (c & t & -> & R).
    destruct n; [cbn in L; lia|]. cbn [app] in E |- *. cbn [p_val]. replace (c =? 34) with false by lia. replace (c =? 91) with false by lia.
    replace (c =? 123) with false by lia.
    assert (X : forall x p, x <> c -> strip (x :: p) (c :: t ++ rest) = None) by (intros x p N; cbn [strip]; replace (x =? c) with false by lia; reflexivity).
    change (str_bytes "null") with (110 :: str_bytes "ull"). change (str_bytes "true") with (116 :: str_bytes "rue").
    change (str_bytes "false") with (102 :: str_bytes "alse"). rewrite !X by lia. rewrite E. reflexivity.
  - intros s l Hs n rest L F. destruct n; [cbn in L; lia|]. rewrite <- app_comm_cons, <- app_assoc. cbn [p_val app]. change (34 =? 34) with true. cbv iota.
    rewrite (p_str_complete s l Hs). reflexivity.
  - intros w B n rest L F. destruct n; [cbn in L; lia|]. rewrite <- app_comm_cons, <- app_assoc. cbn [p_val app].
    change (91 =? 34) with false. change (91 =? 91) with true. cbv iota.
    rewrite skip_blank, skip_stop by first [exact B|unfold white; lia]. change (93 :: rest) with ([93] ++ rest). rewrite strip_app. reflexivity.
  - intros s l Hs IH n rest L F. destruct n; [cbn in L; lia|]. rewrite <- app_comm_cons, <- app_assoc. cbn [p_val app].
    change (91 =? 34) with false. change (91 =? 91) with true. cbv iota.
    destruct (elements_first s l Hs (93 :: rest)) as (c & q & E & S). rewrite E. cbn [strip]. replace (93 =? c) with false by (unfold starter in S; lia).
    rewrite IH; [reflexivity|]. cbn [List.length] in L. rewrite app_length in L. cbn in L. lia.
  - intros w B n rest L F. destruct n; [cbn in L; lia|]. rewrite <- app_comm_cons, <- app_assoc. cbn [p_val app].
    change (123 =? 34) with false. change (123 =? 91) with false. change (123 =? 123) with true. cbv iota.
    rewrite skip_blank, skip_stop by first [exact B|unfold white; lia]. change (125 :: rest) with ([125] ++ rest). rewrite strip_app. reflexivity.
  - intros s m Hs IH n rest L F. destruct n; [cbn in L; lia|]. rewrite <- app_comm_cons, <- app_assoc. cbn [p_val app].
    change (123 =? 34) with false. change (123 =? 91) with false. change (123 =? 123) with true. cbv iota.
    destruct (members_first s m Hs (125 :: rest)) as (q & E). rewrite E. cbn [strip]. change (125 =? 34) with false. cbv iota.
    rewrite IH; [reflexivity|]. cbn [List.length] in L. rewrite app_length in L. cbn in L. lia.
  - intros w v w' r B V IH B' n rest L. destruct n; [lia|]. rewrite !app_length in L. rewrite <- !app_assoc. cbn [p_elems].
    destruct (value_first _ _ V) as (c & v' & Ev & S). rewrite Ev at 1. cbn [app]. rewrite (skip_starter w c _ B S).
    rewrite (app_comm_cons v' _ c), <- Ev. rewrite IH; [|lia|apply follows_blank; auto].
    rewrite skip_blank, skip_stop by first [exact B'|unfold white; lia]. reflexivity.
  - intros w v w' r s l B V IH B' Hs IHs n rest L. destruct n; [lia|]. rewrite !app_length in L. cbn [List.length] in L. rewrite <- !app_assoc. cbn [p_elems app].
    destruct (value_first _ _ V) as (c & v' & Ev & S). rewrite Ev at 1. cbn [app]. rewrite (skip_starter w c _ B S).
    rewrite (app_comm_cons v' _ c), <- Ev. rewrite IH; [|lia|apply follows_blank; auto].
    rewrite skip_blank, skip_stop by first [exact B'|unfold white; lia]. change (44 =? 93) with false. change (44 =? 44) with true. cbv iota.
    rewrite IHs by lia. reflexivity.
  - intros w k nm w1 w2 v w' r B Hk B1 B2 V IH B' n rest L. destruct n; [lia|]. repeat (rewrite ?app_length in L; cbn [List.length] in L).
    replace ((w ++ (34 :: k ++ [34]) ++ w1 ++ 58 :: w2 ++ v ++ w') ++ 125 :: rest) with (w ++ 34 :: k ++ 34 :: (w1 ++ 58 :: w2 ++ v ++ w' ++ 125 :: rest))
      by (repeat (rewrite <- ?app_assoc, <- ?app_comm_cons; cbn [app]); reflexivity).
    cbn [p_members]. rewrite skip_starter by first [exact B|unfold starter, white; lia].
    cbn [strip]. change (34 =? 34) with true. cbv iota. rewrite (p_str_complete k nm Hk). rewrite skip_blank, skip_stop by first [exact B1|unfold white; lia].
    cbn [strip]. change (58 =? 58) with true. cbv iota.
    destruct (value_first _ _ V) as (c & v' & Ev & S). rewrite Ev at 1. cbn [app]. rewrite (skip_starter w2 c _ B2 S).
    rewrite (app_comm_cons v' _ c), <- Ev. rewrite IH; [|lia|apply follows_blank; auto].
    rewrite skip_blank, skip_stop by first [exact B'|unfold white; lia]. reflexivity.
  - intros w k nm w1 w2 v w' r s m B Hk B1 B2 V IH B' Hs IHs n rest L. destruct n; [lia|]. repeat (rewrite ?app_length in L; cbn [List.length] in L).
    replace ((w ++ (34 :: k ++ [34]) ++ w1 ++ 58 :: w2 ++ v ++ w' ++ 44 :: s) ++ 125 :: rest) with (w ++ 34 :: k ++ 34 :: (w1 ++ 58 :: w2 ++ v ++ w' ++ 44 :: s ++ 125 :: rest))
      by (repeat (rewrite <- ?app_assoc, <- ?app_comm_cons; cbn [app]); reflexivity).
    cbn [p_members]. rewrite skip_starter by first [exact B|unfold starter, white; lia].
    cbn [strip]. change (34 =? 34) with true. cbv iota. rewrite (p_str_complete k nm Hk). rewrite skip_blank, skip_stop by first [exact B1|unfold white; lia].
    cbn [strip]. change (58 =? 58) with true. cbv iota.
    destruct (value_first _ _ V) as (c & v' & Ev & S). rewrite Ev at 1. cbn [app]. rewrite (skip_starter w2 c _ B2 S).
    rewrite (app_comm_cons v' _ c), <- Ev. rewrite IH; [|lia|apply follows_blank; auto].
    rewrite skip_blank, skip_stop by first [exact B'|unfold white; lia]. change (44 =? 125) with false. change (44 =? 44) with true. cbv iota.
    rewrite IHs by lia. reflexivity.
Qed.

Lemma sound : forall n,
  (forall s r rest, p_val n s = Some (r, rest) -> exists v, s = v ++ rest /\ value v r) /\
  (forall s l rest, p_elems n s = Some (l, rest) -> exists t, s = t ++ 93 :: rest /\ elements t l) /\
  (forall s m rest, p_members n s = Some (m, rest) -> exists t, s = t ++ 125 :: rest /\ members t m).
Proof.
  induction n as [|n (IHv & IHe & IHm)]; [split; [|split]; discriminate|]. split; [|split].
  - intros s r rest E. cbn [p_val] in E. destruct s as [|c s]; [discriminate E|].
    destruct (c =? 34) eqn:E34.
    { destruct (p_str s) as [[l r']|] eqn:Ep; [|discriminate E]. injection E as <- <-. destruct (p_str_sound _ _ _ Ep) as (t & -> & C).
      exists (34 :: t ++ [34]). split; [cbn [app]; rewrite <- app_assoc; cbn [app]; f_equal; lia|constructor; exact C]. }
    destruct (c =? 91) eqn:E91.
    { destruct (skip_split s) as (w & Ew & B). destruct (strip [93] (skip s)) as [r'|] eqn:Es.
      - injection E as <- <-. rewrite (strip_sound _ _ _ Es) in Ew. exists (91 :: w ++ [93]).
        split; [cbn [app]; rewrite <- app_assoc; f_equal; [lia|exact Ew]|constructor; exact B].
      - destruct (p_elems n s) as [[l r']|] eqn:Ee; [|discriminate E]. injection E as <- <-. destruct (IHe _ _ _ Ee) as (t & -> & C).
        exists (91 :: t ++ [93]). split; [cbn [app]; rewrite <- app_assoc; cbn [app]; f_equal; lia|apply V_arr; exact C]. }
    destruct (c =? 123) eqn:E123.
    { destruct (skip_split s) as (w & Ew & B). destruct (strip [125] (skip s)) as [r'|] eqn:Es.
      - injection E as <- <-. rewrite (strip_sound _ _ _ Es) in Ew. exists (123 :: w ++ [125]).
        split; [cbn [app]; rewrite <- app_assoc; f_equal; [lia|exact Ew]|constructor; exact B].
      - destruct (p_members n s) as [[l r']|] eqn:Ee; [|discriminate E]. injection E as <- <-. destruct (IHm _ _ _ Ee) as (t & -> & C).
        exists (123 :: t ++ [125]). split; [cbn [app]; rewrite <- app_assoc; cbn [app]; f_equal; lia|apply V_obj; exact C]. }
    destruct (strip (str_bytes "null") (c :: s)) as [r'|] eqn:En.
    { injection E as <- <-. eexists. split; [exact (strip_sound _ _ _ En)|constructor]. }
    destruct (strip (str_bytes "true") (c :: s)) as [r'|] eqn:Et.
    { injection E as <- <-. eexists. split; [exact (strip_sound _ _ _ Et)|constructor]. }
    destruct (strip (str_bytes "false") (c :: s)) as [r'|] eqn:Ef.
    { injection E as <- <-. eexists. split; [exact (strip_sound _ _ _ Ef)|constructor]. }
    destruct (p_num (c :: s)) as [[t r']|] eqn:Ep; [|discriminate E]. injection E as <- <-. destruct (p_num_sound _ _ _ Ep) as [Es N].
    exists t. split; [exact Es|constructor; exact N].
  - intros s l rest E. cbn [p_elems] in E. destruct (skip_split s) as (w & Ew & B).
    destruct (p_val n (skip s)) as [[v r]|] eqn:Ev; [|discriminate E]. destruct (IHv _ _ _ Ev) as (t & Et & V). rewrite Et in Ew.
    destruct (skip_split r) as (w' & Ew' & B'). destruct (skip r) as [|x r'] eqn:Er; [discriminate E|]. destruct (x =? 93) eqn:E93.
    + injection E as <- <-. exists (w ++ t ++ w'). split; [|constructor; assumption]. rewrite Ew, Ew'. rewrite <- !app_assoc. repeat f_equal. lia.
    + destruct (x =? 44) eqn:E44; [|discriminate E]. destruct (p_elems n r') as [[l' r'']|] eqn:Ee; [|discriminate E]. injection E as <- <-.
      destruct (IHe _ _ _ Ee) as (t' & -> & C). exists (w ++ t ++ w' ++ 44 :: t'). split; [|constructor; assumption].
      rewrite Ew, Ew'. rewrite <- !app_assoc. cbn [app]. repeat f_equal. lia.
  - intros s l rest E. cbn [p_members] in E. destruct (skip_split s) as (w & Ew & B).
    destruct (strip [34] (skip s)) as [s1|] eqn:E1; [|discriminate E]. rewrite (strip_sound _ _ _ E1) in Ew.
    destruct (p_str s1) as [[k s2]|] eqn:E2; [|discriminate E]. destruct (p_str_sound _ _ _ E2) as (t0 & -> & C0).
    destruct (skip_split s2) as (w1 & Ew1 & B1). destruct (strip [58] (skip s2)) as [s3|] eqn:E3; [|discriminate E].
    rewrite (strip_sound _ _ _ E3) in Ew1. destruct (skip_split s3) as (w2 & Ew2 & B2).
    destruct (p_val n (skip s3)) as [[v r]|] eqn:Ev; [|discriminate E]. destruct (IHv _ _ _ Ev) as (t & Et & V). rewrite Et in Ew2.
    destruct (skip_split r) as (w' & Ew' & B'). destruct (skip r) as [|x r'] eqn:Er; [discriminate E|]. destruct (x =? 125) eqn:E93.
    + injection E as <- <-. exists (w ++ (34 :: t0 ++ [34]) ++ w1 ++ 58 :: w2 ++ t ++ w'). split; [|constructor; assumption].
      rewrite Ew, Ew1, Ew2, Ew'. replace x with 125 by lia. repeat (rewrite <- ?app_assoc, <- ?app_comm_cons; cbn [app]). reflexivity.
    + destruct (x =? 44) eqn:E44; [|discriminate E]. destruct (p_members n r') as [[l' r'']|] eqn:Ee; [|discriminate E]. injection E as <- <-.
      destruct (IHm _ _ _ Ee) as (t' & -> & C). exists (w ++ (34 :: t0 ++ [34]) ++ w1 ++ 58 :: w2 ++ t ++ w' ++ 44 :: t'). split; [|constructor; assumption].
      rewrite Ew, Ew1, Ew2, Ew'. replace x with 44 by lia. repeat (rewrite <- ?app_assoc, <- ?app_comm_cons; cbn [app]). reflexivity.
Qed.

Lemma parse_iff : forall s r, parse s = Some r <-> json_text s r.
Proof.
  intros s r. unfold parse, json_text. split.
  - intros E. destruct (skip_split s) as (w & Ew & B). destruct (p_val (S (2 * length s)) (skip s)) as [[r' s']|] eqn:Ev; [|discriminate E].
    destruct (skip_split s') as (w' & Ew' & B'). destruct (skip s') as [|x q] eqn:Es; [|discriminate E]. injection E as <-.
    destruct (proj1 (sound _) _ _ _ Ev) as (v & Et & V). exists w, v, w'. rewrite Et, Ew', app_nil_r in Ew. auto.
  - intros (w & v & w' & Es & B & B' & V). destruct (value_first _ _ V) as (c & v' & Ev & S).
    assert (E : skip s = v ++ w') by (rewrite Es, Ev; cbn [app]; apply skip_starter; assumption). rewrite E.
    rewrite (proj1 complete _ _ V); [rewrite skip_nil by exact B'; reflexivity| |apply follows_blank_nil, B'].
    rewrite Es, !app_length. lia.
Qed.
