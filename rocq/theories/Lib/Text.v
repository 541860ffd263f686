(** Texts as lists of UTF-8 bytes, and the functions of Rust's standard
    library on them that the modelled code uses.  This file models no code of
    /repo; each function follows the documented behaviour of the standard
    library function named beside it. *)

From Coq Require Import ZArith List Lia Bool ZifyBool ZifyNat.
Require Import Verif.Lib.Decimal.
Import ListNotations.
Local Open Scope Z_scope.

(** [str::split(c)] for an ASCII character [c]: the pieces between the
    occurrences of [c]; always at least one piece. *)
Fixpoint split_on (c : Z) (l : list Z) : list (list Z) :=
  match l with
  | [] => [[]]
  | x :: l' =>
      if x =? c then [] :: split_on c l'
      else match split_on c l' with
           | [] => [[x]]
           | p :: ps => (x :: p) :: ps
           end
  end.

(** [str::trim_end_matches(c)] for an ASCII character [c]. *)
Fixpoint drop_while (c : Z) (l : list Z) : list Z :=
  match l with
  | [] => []
  | x :: l' => if x =? c then drop_while c l' else l
  end.
Definition trim_end (c : Z) (l : list Z) : list Z := rev (drop_while c (rev l)).

(** The number of characters of a UTF-8 text: its bytes other than
    continuation bytes. *)
Definition char_count (l : list Z) : nat :=
  length (filter (fun b => negb ((0x80 <=? b) && (b <? 0xc0))) l).

(** [{:0<w}]: zeros behind up to [w] characters. *)
Definition padr0 (w : nat) (l : list Z) : list Z := l ++ repeat 48 (w - char_count l).

Inductive perr : Set := PEmpty | PInvalidDigit | PPosOverflow.

(** The digits of an unsigned integer: every character a digit, and the value
    below [2 ^ bits]; the first offending character decides the error. *)
Fixpoint digits_loop (bits : Z) (l : list Z) (acc : Z) : perr + Z :=
  match l with
  | [] => inr acc
  | c :: l' =>
      if is_digit c then
        let a := 10 * acc + (c - 48) in
        if a <? 2 ^ bits then digits_loop bits l' a else inl PPosOverflow
      else inl PInvalidDigit
  end.

(** [<uN as FromStr>::from_str]: one leading [+] is allowed, a lone sign is an
    invalid digit. *)
Definition parse_uint (bits : Z) (l : list Z) : perr + Z :=
  match l with
  | [] => inl PEmpty
  | [43] => inl PInvalidDigit
  | 43 :: l' => digits_loop bits l' 0
  | _ => digits_loop bits l 0
  end.

(** ** Facts *)

Definition digits (l : list Z) : Prop := Forall (fun c => is_digit c = true) l.

Lemma digits_app : forall a b, digits (a ++ b) <-> digits a /\ digits b.
Proof. intros. apply Forall_app. Qed.

Lemma fold_left_step_mono : forall l a, digits l -> 0 <= a -> a <= fold_left dec_step l a.
Proof.
  induction l as [|c l IH]; intros a D H; cbn [fold_left]; [lia|].
  inversion D; subst. unfold is_digit in *.
  specialize (IH (dec_step a c) ltac:(assumption)). unfold dec_step in *. lia.
Qed.

Lemma digits_loop_ok : forall bits l a v, digits_loop bits l a = inr v <->
  digits l /\ fold_left dec_step l a = v /\ (l = [] \/ (0 <= a -> v < 2 ^ bits) /\ (a < 0 -> True)) /\
  (forall p s, l = p ++ s -> p <> [] -> fold_left dec_step p a < 2 ^ bits).
Proof.
  intros bits l. induction l as [|c l IH]; intros a v; cbn [digits_loop fold_left].
  - split.
    + intros [= <-]. split; [constructor|]. split; [reflexivity|]. split; [auto|].
      intros [|x p] s E N; [easy|discriminate].
    + intros (_ & E & _). now rewrite E.
  - destruct (is_digit c) eqn:D.
    + fold (dec_step a c). destruct (dec_step a c <? 2 ^ bits) eqn:B.
      * rewrite IH. split.
        -- intros (F & E & O & P). split; [constructor; assumption|]. split; [exact E|]. split.
           ++ right. split; [|auto]. intros Ha.
              destruct l as [|x l]; [cbn [fold_left] in E; subst v; lia|].
              specialize (P (x :: l) [] ltac:(now rewrite app_nil_r) ltac:(discriminate)). lia.
           ++ intros [|y p] s E' N; [easy|]. injection E' as <- E'. cbn [fold_left].
              destruct p as [|z p]; [cbn [fold_left]; lia|].
              apply (P (z :: p) s E'). discriminate.
        -- intros (F & E & O & P). inversion F; subst. split; [assumption|]. split; [reflexivity|]. split.
           ++ destruct l as [|x l]; [auto|]. right. split; [|auto]. intros _.
              apply (P (c :: x :: l) []); [now rewrite app_nil_r|discriminate].
           ++ intros p s E' N. apply (P (c :: p) s); [now rewrite E'|discriminate].
      * split; [discriminate|]. intros (F & E & O & P). exfalso.
        specialize (P [c] l eq_refl ltac:(discriminate)). cbn [fold_left] in P. lia.
    + split; [discriminate|]. intros (F & _). inversion F; subst. congruence.
Qed.

Lemma digits_loop_val : forall bits l v, 0 < bits -> digits_loop bits l 0 = inr v <->
  digits l /\ dec_val l = v /\ v < 2 ^ bits.
Proof.
  intros bits l v Hb. assert (0 < 2 ^ bits) by (apply Z.pow_pos_nonneg; lia).
  rewrite digits_loop_ok. unfold dec_val. split.
  - intros (D & E & O & _). split; [exact D|]. split; [exact E|].
    destruct O as [->|[O _]]; [cbn in E; lia|apply O; lia].
  - intros (D & E & V). split; [exact D|]. split; [exact E|]. split.
    + right. split; auto.
    + intros p s -> N. apply digits_app in D. destruct D as [Dp Ds].
      rewrite fold_left_app in E.
      pose proof (fold_left_step_mono p 0 Dp ltac:(lia)).
      pose proof (fold_left_step_mono s (fold_left dec_step p 0) Ds ltac:(lia)). lia.
Qed.

(** What the integer parser accepts: digits, at least one, possibly behind one
    plus sign. *)
Lemma parse_uint_ok : forall bits l v, 0 < bits -> parse_uint bits l = inr v <->
  exists d, (l = d \/ l = 43 :: d) /\ d <> [] /\ digits d /\ dec_val d = v /\ v < 2 ^ bits.
Proof.
  intros bits l v Hb. split.
  - unfold parse_uint. destruct l as [|c l]; [discriminate|].
    destruct (Z.eq_dec c 43) as [->|N].
    + destruct l as [|c' l]; [discriminate|]. intros H.
      apply digits_loop_val in H; [|exact Hb]. exists (c' :: l). split; [auto|]. split; [discriminate|exact H].
    + intros H. assert (H' : digits_loop bits (c :: l) 0 = inr v).
      { destruct c as [|p|p]; try exact H. do 6 (destruct p as [p|p|]; try exact H); now destruct N. }
      apply digits_loop_val in H'; [|exact Hb]. exists (c :: l). split; [auto|]. split; [discriminate|exact H'].
  - intros (d & L & N & D & E & V).
    assert (H : digits_loop bits d 0 = inr v) by (apply digits_loop_val; auto).
    destruct L as [->| ->].
    + unfold parse_uint. destruct d as [|c d]; [easy|].
      inversion D as [|? ? Dc Dd]; subst.
      assert (c <> 43) by (unfold is_digit in Dc; lia).
      destruct c as [|p|p]; try exact H. do 6 (destruct p as [p|p|]; try exact H); easy.
    + unfold parse_uint. destruct d as [|c d]; [easy|]. exact H.
Qed.

Lemma parse_uint_digits : forall bits d, 0 < bits -> d <> [] -> digits d -> dec_val d < 2 ^ bits ->
  parse_uint bits d = inr (dec_val d).
Proof. intros bits d Hb N D V. apply parse_uint_ok; [exact Hb|]. exists d. auto. Qed.

Lemma split_on_none : forall c l, Forall (fun x => x <> c) l -> split_on c l = [l].
Proof.
  intros c l F. induction F as [|x l N F IH]; [reflexivity|]. cbn [split_on].
  destruct (x =? c) eqn:E; [lia|]. now rewrite IH.
Qed.

Lemma split_on_app : forall c a b, Forall (fun x => x <> c) a -> split_on c (a ++ c :: b) = a :: split_on c b.
Proof.
  intros c a b F. induction F as [|x l N F IH]; cbn [app split_on].
  - now rewrite Z.eqb_refl.
  - destruct (x =? c) eqn:E; [lia|]. now rewrite IH.
Qed.

Lemma split_on_cases : forall c l, split_on c l = [l] /\ Forall (fun x => x <> c) l \/
  exists a b, l = a ++ c :: b /\ Forall (fun x => x <> c) a /\ split_on c l = a :: split_on c b.
Proof.
  intros c l. induction l as [|x l IH]; [left; split; [reflexivity|constructor]|].
  cbn [split_on]. destruct (x =? c) eqn:E.
  - right. exists [], l. assert (x = c) by lia. subst. split; [reflexivity|]. split; [constructor|reflexivity].
  - destruct IH as [[IH F]|(a & b & -> & F & IH)]; rewrite IH.
    + left. split; [reflexivity|]. constructor; [lia|exact F].
    + right. exists (x :: a), b. split; [reflexivity|]. split; [constructor; [lia|exact F]|reflexivity].
Qed.

Lemma split_on_nonempty : forall c l, split_on c l <> [].
Proof.
  intros c l. destruct (split_on_cases c l) as [[E _]|(a & b & _ & _ & E)]; rewrite E; discriminate.
Qed.

Lemma digits_no : forall c l, is_digit c = false -> digits l -> Forall (fun x => x <> c) l.
Proof. intros c l N D. eapply Forall_impl; [|exact D]. cbv beta. intros a H ->. congruence. Qed.

Lemma char_count_digits : forall l, digits l -> char_count l = length l.
Proof.
  intros l D. unfold char_count. f_equal. induction D as [|c l H D IH]; [reflexivity|].
  cbn [filter]. unfold is_digit in H. replace (negb _) with true by lia. now rewrite IH.
Qed.

Lemma drop_while_spec : forall c l, exists k, l = repeat c k ++ drop_while c l /\
  (drop_while c l = [] \/ exists x r, drop_while c l = x :: r /\ x <> c).
Proof.
  intros c l. induction l as [|x l (k & E & H)]; [exists 0%nat; auto|].
  cbn [drop_while]. destruct (x =? c) eqn:X.
  - assert (x = c) by lia. subst x. exists (S k). cbn [repeat app]. rewrite <- E. auto.
  - exists 0%nat. split; [reflexivity|]. right. exists x, l. split; [reflexivity|lia].
Qed.

Lemma rev_repeat : forall (c : Z) k, rev (repeat c k) = repeat c k.
Proof.
  intros c k. induction k as [|k IH]; [reflexivity|]. cbn [repeat rev]. rewrite IH.
  clear IH. induction k as [|k IH]; [reflexivity|]. cbn [repeat app]. now rewrite IH.
Qed.

(** Trimming removes a run of the character from the end, and all of it. *)
Lemma trim_end_spec : forall c l, exists k, l = trim_end c l ++ repeat c k /\
  (trim_end c l = [] \/ exists r x, trim_end c l = r ++ [x] /\ x <> c).
Proof.
  intros c l. destruct (drop_while_spec c (rev l)) as (k & E & H). exists k. unfold trim_end. split.
  - rewrite <- (rev_involutive l) at 1. rewrite E at 1. rewrite rev_app_distr, rev_repeat. reflexivity.
  - destruct H as [->|(x & r & -> & N)]; [auto|]. right. exists (rev r), x. auto.
Qed.

Lemma trim_end_last : forall c r x, x <> c -> trim_end c (r ++ [x]) = r ++ [x].
Proof.
  intros c r x N. unfold trim_end. rewrite rev_app_distr. cbn [rev app drop_while].
  destruct (x =? c) eqn:E; [lia|]. cbn [rev]. now rewrite rev_involutive.
Qed.

Lemma trim_end_repeat : forall c l k, trim_end c (l ++ repeat c k) = trim_end c l.
Proof.
  intros c l k. unfold trim_end. rewrite rev_app_distr, rev_repeat. f_equal.
  induction k as [|k IH]; [reflexivity|]. cbn [repeat app drop_while]. now rewrite Z.eqb_refl.
Qed.
