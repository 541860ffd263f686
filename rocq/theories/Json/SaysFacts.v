(** Texts and the documents they stand for.  Models no code. *)

From Coq Require Import String ZArith List Bool Lia ZifyBool ZifyNat Permutation.
From Verif Require Import Lib.Res Lib.Bytes Lib.Decimal Lib.Text BinProt.Prim BinProt.Codec Text.Base58 Proto.PbSpec Proto.Utf8Facts
  Json.Json Json.JsonSpec Json.JsonFacts Json.JsonReadFacts Json.JsonProps Convert.JsonViewSpec Convert.JsonViewFacts.
From Verif Require Import Json.Grammar Json.Parse Json.ParseFacts Json.JsonText Json.TextSpec Json.PrintFacts Json.TextFacts Json.TextReadFacts.
Import ListNotations.
Local Open Scope list_scope.
Local Open Scope Z_scope.
Notation length := List.length.

Section Says.
  Variable float_of : list Z -> option Z.
  Notation says := (says float_of).
  Notation value_of := (value_of float_of).

  Lemma num_says : forall t j, says (RNum t) j -> num_of float_of t = Some j.
  Proof using Type.
    intros t j H. unfold num_of. inversion H as [| |? z I R|? b N F| | | ]; subst.
    - inversion I as [t' N D|t' D N]; subst.
      + destruct t as [|c ds]; [congruence|]. pose proof D as D'. inversion D' as [|? ? C _]; subst. unfold is_digit in C.
        replace (c =? 45) with false by lia. rewrite (proj2 (all_digits_iff _) D). unfold int64 in R. replace (_ <? _) with true by lia. reflexivity.
      + change (45 =? 45) with true. cbv iota. rewrite (proj2 (all_digits_iff _) D). unfold int64 in R. pose proof (dec_val_range _ D) as P.
        replace (0 <? _) with true by lia. replace (_ <=? _) with true by lia. reflexivity.
    - rewrite F. cbn [option_map]. destruct t as [|c ds]; [reflexivity|]. destruct (c =? 45) eqn:E.
      + destruct (all_digits ds && (0 <? dec_val ds) && (dec_val ds <=? 2 ^ 63)) eqn:A; [|reflexivity]. exfalso.
        apply andb_true_iff in A. destruct A as (A & L). apply andb_true_iff in A. destruct A as (A & P). apply all_digits_iff in A.
        assert (c = 45) by lia. subst c. apply (N (- dec_val ds)); [constructor; [exact A|lia]|unfold int64; lia].
      + destruct (all_digits (c :: ds) && (dec_val (c :: ds) <? 2 ^ 64)) eqn:A; [|reflexivity]. exfalso.
        apply andb_true_iff in A. destruct A as (A & L). apply all_digits_iff in A. pose proof (dec_val_range _ A) as P.
        apply (N (dec_val (c :: ds))); [constructor; [discriminate|exact A]|unfold int64; lia].
  Qed.
  Lemma says_value : forall r j, says r j -> value_of r = Some (sorted j).
  Proof using Type.
    induction r as [|b|t|s|l IH|m IH] using raw_nest; intros j H.
    - inversion H; subst. reflexivity.
    - inversion H; subst. reflexivity.
    - pose proof (num_says t j H) as E. cbn [JsonText.value_of]. rewrite E. inversion H; subst; reflexivity.
    - inversion H; subst. reflexivity.
    - inversion H as [| | | | |? js F| ]; subst. cbn [JsonText.value_of sorted].
      assert (A : all_some (map value_of l) = Some (map sorted js)).
      { apply all_some_f2. clear H. induction F as [|r j l js S F IHf]; [constructor|]. inversion IH; subst. cbn [map]. constructor; auto. }
      rewrite A. reflexivity.
    - inversion H as [| | | | | |? ms F]; subst. cbn [JsonText.value_of sorted].
      assert (A : all_some (map (fun p : list Z * raw => let (k, r) := p in option_map (pair k) (value_of r)) m) =
        Some (map (fun p : list Z * json => let (k, j) := p in (k, sorted j)) ms)).
      { apply all_some_f2. clear H. induction F as [|[k r] [k' j] m ms [E S] F IHf]; [constructor|]. inversion IH; subst. cbn [map fst snd] in *. subst k'.
        constructor; [rewrite (H1 _ S); reflexivity|auto]. }
      rewrite A. reflexivity.
  Qed.
  Lemma says_distinct : forall r j, says r j -> once r -> distinct j.
  Proof using Type.
    induction r as [|b|t|s|l IH|m IH] using raw_nest; intros j H O; try (inversion H; subst; exact I).
    - inversion H as [| | | | |? js F| ]; subst. apply once_arr in O. clear H. cbn [distinct].
      induction F as [|r j l js S F IHf]; [exact I|]. inversion IH as [|? ? I1 I2]; inversion O as [|? ? O1 O2]; subst. split; [exact (I1 _ S O1)|exact (IHf I2 O2)].
    - inversion H as [| | | | | |? ms F]; subst. apply once_obj in O. destruct O as (N & O). clear H. cbn [distinct].
      assert (E : map fst m = map fst ms) by (clear - F; induction F as [|p q m ms [E _] F IHf]; [reflexivity|cbn [map]; rewrite E, IHf; reflexivity]).
      rewrite <- E. split; [exact N|]. clear N E.
      induction F as [|p [k j] m ms [E S] F IHf]; [exact I|]. inversion IH as [|? ? I1 I2]; inversion O as [|? ? O1 O2]; subst. cbn [snd] in S. split; [exact (I1 _ S O1)|exact (IHf I2 O2)].
  Qed.
  (** A document is sorted and back. *)
  Lemma sorted_same : forall j, distinct j -> same (sorted j) j.
  Proof using Type.
    induction j as [|b|z|b|s|l IH|m IH] using json_nest; intros D; cbn [sorted]; try apply S_refl.
    - apply S_arr. apply distinct_arr in D. induction l as [|j l IHl]; [constructor|]. inversion IH; inversion D; subst. cbn [map]. constructor; auto.
    - apply distinct_obj in D. destruct D as (N & D). set (ms := map (fun p : list Z * json => let (k, j) := p in (k, sorted j)) m).
      assert (E : map fst ms = map fst m) by (unfold ms; clear; induction m as [|[k j] m IHm]; [reflexivity|cbn [map fst]; rewrite IHm; reflexivity]).
      assert (N' : NoDup (map fst ms)) by (rewrite E; exact N). pose proof (map_of_perm ms N') as P.
      apply S_obj with (m1 := ms).
      + eapply Permutation_NoDup; [apply Permutation_map; exact P|exact N'].
      + symmetry. exact P.
      + clear P N' E N. unfold ms. clear ms. induction m as [|[k j] m IHm]; [constructor|]. inversion IH; inversion D; subst. cbn [map]. constructor; [split; [reflexivity|auto]|auto].
  Qed.
  Lemma same_distinct : forall j j', same j j' -> distinct j -> distinct j'.
  Proof using Type.
    induction j as [|b|z|b|s|l IH|m IH] using json_nest; intros j' S D; try (inversion S; subst; exact I).
    - inversion S as [|? l' F| ]; subst; [exact D|]. apply distinct_arr in D. cbn [distinct]. clear S. induction F as [|j j' l l' A F IHf]; [exact I|].
      inversion IH as [|? ? I1 I2]; inversion D as [|? ? D1 D2]; subst. split; [exact (I1 _ A D1)|exact (IHf I2 D2)].
    - inversion S as [| |? m1 m' N P F]; subst; [exact D|]. apply distinct_obj in D. destruct D as (_ & D). cbn [distinct]. clear S.
      assert (N1 : NoDup (map fst m1)) by (eapply Permutation_NoDup; [apply Permutation_map; exact P|exact N]).
      assert (E : map fst m1 = map fst m') by (clear - F; induction F as [|p q m ms [E _] F IHf]; [reflexivity|cbn [map]; rewrite E, IHf; reflexivity]).
      split; [rewrite <- E; exact N1|]. clear N1 E N.
      assert (X : Forall (fun p => forall j', same (snd p) j' -> distinct j') m1).
      { apply Forall_forall. intros p I j' A. apply Permutation_sym in P. pose proof (Permutation_in _ P I) as I'. rewrite Forall_forall in IH, D. exact (IH p I' j' A (D p I')). }
      clear - X F. induction F as [|p [k j] m ms [E S] F IHf]; [exact I|]. inversion X as [|? ? X1 X2]; subst. split; [exact (X1 _ S)|exact (IHf X2)].
  Qed.
  Variable float_text : Z -> list Z.
  Lemma raw_says : forall j, no_float j -> in_range j -> says (raw_of float_text j) j.
  Proof.
    induction j as [|b|z|b|s|l IH|m IH] using json_nest; intros N R; cbn [raw_of].
    - constructor.
    - constructor.
    - constructor; [|exact R]. unfold print_int. destruct (z <? 0) eqn:E.
      + replace z with (- (dec_val (dec (- z)))) at 2 by (rewrite dec_val_dec by lia; lia). constructor; [apply dec_digits; lia|rewrite dec_val_dec by lia; lia].
      + replace z with (dec_val (dec z)) at 2 by (apply dec_val_dec; lia). constructor; [apply dec_nonempty|apply dec_digits; lia].
    - destruct N.
    - constructor.
    - constructor. induction l as [|j l IHl]; [constructor|]. inversion IH; subst. destruct N as (N1 & N2), R as (R1 & R2). cbn [map]. constructor; [auto|apply IHl; assumption].
    - constructor. induction m as [|[k j] m IHm]; [constructor|]. inversion IH; subst. destruct N as (N1 & N2), R as (R1 & R2). cbn [map]. constructor; [split; [reflexivity|auto]|apply IHm; assumption].
  Qed.
  Lemma raw_once : forall j, distinct j -> once (raw_of float_text j).
  Proof using Type.
    induction j as [|b|z|b|s|l IH|m IH] using json_nest; intros D; try exact I; cbn [raw_of once].
    - induction l as [|j l IHl]; [exact I|]. inversion IH as [|? ? I1 I2]; subst. destruct D as (A & B). split; [exact (I1 A)|exact (IHl I2 B)].
    - destruct D as (N & D). split.
      + rewrite map_map. replace (map (fun x : list Z * json => fst (let (k, j) := x in (k, raw_of float_text j))) m) with (map fst m); [exact N|]. apply map_ext. intros [k j]. reflexivity.
      + clear N. induction m as [|[k j] m IHm]; [exact I|]. inversion IH as [|? ? I1 I2]; subst. destruct D as (A & B). cbn [map]. split; [exact (I1 A)|exact (IHm I2 B)].
  Qed.
End Says.

(** ** A text in UTF-8 has strings in UTF-8 *)
Definition good_text (s : list Z) : Prop := exists cs, Forall scalar cs /\ s = utf8 cs.
Lemma point_small : forall c, scalar c -> utf8_point c = [c] /\ c < 128 \/ 128 <= c /\ utf8_point c <> [] /\ Forall (fun b => 128 <= b < 256) (utf8_point c).
Proof.
  intros c S. unfold scalar in S. unfold utf8_point. destruct (c <? 128) eqn:A; [left; split; [reflexivity|lia]|right]. split; [lia|].
  assert (X : forall a, 0 <= a mod 64 < 64) by (intros a; apply Z.mod_pos_bound; lia).
  destruct (c <? 2048) eqn:B; [|destruct (c <? 65536) eqn:C]; split; try discriminate.
  - assert (0 <= c / 64 < 32) by (split; [apply Z.div_pos; lia|apply Z.div_lt_upper_bound; lia]). pose proof (X c). repeat (constructor; [lia|]). constructor.
  - assert (0 <= c / 4096 < 16) by (split; [apply Z.div_pos; lia|apply Z.div_lt_upper_bound; lia]). pose proof (X c). pose proof (X (c / 64)). repeat (constructor; [lia|]). constructor.
  - assert (0 <= c / 262144 < 8) by (split; [apply Z.div_pos; lia|apply Z.div_lt_upper_bound; lia]). pose proof (X c). pose proof (X (c / 64)). pose proof (X (c / 4096)). repeat (constructor; [lia|]). constructor.
Qed.
Lemma good_app : forall a b, good_text a -> good_text b -> good_text (a ++ b).
Proof. intros a b (x & X & ->) (y & Y & ->). exists (x ++ y). split; [apply Forall_app; auto|symmetry; apply utf8_app]. Qed.
Lemma good_point : forall c, scalar c -> good_text (utf8_point c).
Proof. intros c S. exists [c]. split; [constructor; [exact S|constructor]|]. unfold utf8. cbn [flat_map]. rewrite app_nil_r. reflexivity. Qed.
(** An ASCII byte is a boundary. *)
Lemma split_at : forall cs a c b, Forall scalar cs -> utf8 cs = a ++ c :: b -> c < 128 -> good_text a /\ good_text b.
Proof.
  induction cs as [|p cs IH]; intros a c b F E C; [destruct a; discriminate E|]. inversion F as [|? ? P F']; subst. rewrite utf8_cons in E.
  destruct (point_small p P) as [(Ep & Lp)|(Lp & Np & Bp)].
  - rewrite Ep in E. destruct a as [|x a]; cbn [app] in E; injection E as E1 E2.
    + split; [exists []; split; [constructor|reflexivity]|exists cs; auto].
    + subst x. destruct (IH a c b F' E2 C) as (A & B). split; [|exact B]. change (p :: a) with ([p] ++ a). rewrite <- Ep. apply good_app; [apply good_point, P|exact A].
  - assert (G : forall u a, Forall (fun b => 128 <= b < 256) u -> u ++ utf8 cs = a ++ c :: b -> exists a', a = u ++ a' /\ utf8 cs = a' ++ c :: b).
    { clear E. induction u as [|x u IHu]; intros a0 B E; [exists a0; auto|]. inversion B; subst. destruct a0 as [|y a0]; cbn [app] in E; injection E as E1 E2; [lia|].
      subst y. destruct (IHu a0 H2 E2) as (a' & -> & E'). exists a'. auto. }
    destruct (G _ a Bp E) as (a' & -> & E'). destruct (IH a' c b F' E' C) as (A & B). split; [apply good_app; [apply good_point, P|exact A]|exact B].
Qed.
Lemma cut : forall a c b, good_text (a ++ c :: b) -> c < 128 -> good_text a /\ good_text b.
Proof. intros a c b (cs & F & E) C. symmetry in E. exact (split_at cs a c b F E C). Qed.
Lemma cut_first : forall c b, good_text (c :: b) -> c < 128 -> good_text b.
Proof. intros c b G C. apply (cut [] c b G C). Qed.
Lemma cut_prefix : forall w s, good_text (w ++ s) -> Forall (fun c => c < 128) w -> good_text s.
Proof. induction w as [|c w IH]; intros s G F; [exact G|]. inversion F; subst. apply IH; [eapply cut_first; [exact G|assumption]|assumption]. Qed.
Lemma cut_suffix : forall w s, good_text (s ++ w) -> Forall (fun c => c < 128) w -> good_text s.
Proof. intros [|c w] s G F; [rewrite app_nil_r in G; exact G|]. inversion F; subst. apply (cut s c w G). assumption. Qed.
Lemma blank_low : forall w, blank w -> Forall (fun c => c < 128) w.
Proof. intros w H. eapply Forall_impl; [|exact H]. intros c C. unfold white in C. lia. Qed.
Lemma hex4_low : forall h n, hex4 h n -> Forall (fun c => c < 128) h /\ 0 <= n < 0x10000 /\ length h = 4%nat.
Proof.
  intros h n (a & b & c & d & w & x & y & z & -> & A & B & C & D & ->). unfold hex_value in *. split; [repeat (constructor; [lia|]); constructor|]. split; [lia|reflexivity].
Qed.
Lemma chars_good : forall n s l, (length s <= n)%nat -> chars s l -> good_text s -> good_text l.
Proof.
  induction n as [|n IH]; intros s l L C G.
  { destruct s; [|cbn in L; lia]. inversion C; subst. exact G. }
  inversion C as [|c s' l' R Q1 Q2 C'|c v s' l' Sh C'|h k s' l' H NS C'|h k h' m s' l' H HK H' HM C']; subst.
  - exact G.
  - cbn [length] in L. destruct (Z.lt_ge_cases c 128) as [Lc|Lc].
    + change (c :: l') with ([c] ++ l'). apply good_app; [|apply (IH s'); [lia|exact C'|eapply cut_first; [exact G|exact Lc]]].
      replace [c] with (utf8_point c); [apply good_point; unfold scalar; lia|]. unfold utf8_point. replace (c <? 128) with true by lia. reflexivity.
    + destruct G as ([|p cs] & F & E); [discriminate E|]. rewrite utf8_cons in E. inversion F as [|? ? P F']; subst.
      destruct (point_small p P) as [(Ep & Lp)|(Lp & Np & Bp)]; [rewrite Ep in E; injection E as E1 E2; lia|].
      assert (X : forall u s l, Forall (fun b => 128 <= b < 256) u -> chars (u ++ s) l -> exists l', l = u ++ l' /\ chars s l').
      { clear. induction u as [|x u IHu]; intros s l B C; [exists l; auto|]. inversion B as [|? ? B1 B2]; subst. cbn [app] in C.
        inversion C as [|c0 s0 l0 R0 Q10 Q20 C0| | | ]; subst; try lia. destruct (IHu _ _ B2 C0) as (l' & -> & C'). exists l'. auto. }
      rewrite E in C. destruct (X _ _ _ Bp C) as (l2 & El & C2). rewrite El. apply good_app; [apply good_point, P|]. apply (IH (utf8 cs)); [|exact C2|exists cs; auto].
      apply (f_equal (@List.length Z)) in E. cbn [length] in E. rewrite app_length in E. destruct (utf8_point p); [congruence|]. cbn [length] in E. lia.
  - cbn [length] in L. change (v :: l') with ([v] ++ l'). unfold short in Sh. apply good_app.
    + replace [v] with (utf8_point v); [apply good_point; unfold scalar; lia|]. unfold utf8_point. replace (v <? 128) with true by lia. reflexivity.
    + apply (IH s'); [lia|exact C'|]. eapply cut_first; [eapply cut_first; [exact G|lia]|lia].
  - destruct (hex4_low _ _ H) as (F & R & Lh). cbn [length] in L. rewrite app_length in L. apply good_app; [apply good_point; unfold scalar; lia|].
    apply (IH s'); [lia|exact C'|]. eapply cut_prefix; [|exact F]. eapply cut_first; [eapply cut_first; [exact G|lia]|lia].
  - destruct (hex4_low _ _ H) as (F & R & Lh). destruct (hex4_low _ _ H') as (F' & R' & Lh'). cbn [length] in L. rewrite app_length in L. cbn [length] in L. rewrite app_length in L.
    apply good_app; [apply good_point; unfold scalar; lia|].
    apply (IH s'); [lia|exact C'|]. eapply cut_prefix; [|exact F']. eapply cut_first; [|instantiate (1 := 117); lia]. eapply cut_first; [|instantiate (1 := 92); lia].
    eapply cut_prefix; [|exact F]. eapply cut_first; [eapply cut_first; [exact G|lia]|lia].
Qed.

Lemma chars_length : forall s l, chars s l -> (length l <= length s)%nat.
Proof.
  assert (P : forall c, (length (utf8_point c) <= 4)%nat).
  { intros c. unfold utf8_point. destruct (c <? 128); [cbn; lia|]. destruct (c <? 2048); [cbn; lia|]. destruct (c <? 65536); cbn; lia. }
  induction 1 as [|c s l R Q1 Q2 C IH|c v s l S C IH|h n s l H NS C IH|h n h' m s l H HN H' HM C IH]; cbn [length]; rewrite ?app_length; cbn [length]; rewrite ?app_length; try lia.
  - destruct (hex4_low _ _ H) as (_ & _ & L). pose proof (P n). lia.
  - destruct (hex4_low _ _ H) as (_ & _ & L). pose proof (P (65536 + (n - 55296) * 1024 + (m - 56320))). lia.
Qed.
Fixpoint raw_ok (n : nat) (r : raw) : Prop :=
  match r with
  | RStr s => good_text s /\ (length s <= n)%nat
  | RArr l => (length l <= n)%nat /\ (fix all (l : list raw) : Prop := match l with [] => True | r :: l => raw_ok n r /\ all l end) l
  | RObj m => (fix all (m : list (list Z * raw)) : Prop := match m with [] => True | (_, r) :: m => raw_ok n r /\ all m end) m
  | _ => True
  end.
Lemma raw_ok_arr : forall n l, raw_ok n (RArr l) <-> (length l <= n)%nat /\ Forall (raw_ok n) l.
Proof.
  intros n l. cbn [raw_ok]. split; intros (L & H); (split; [exact L|]); clear L.
  - induction l as [|r l IH]; [constructor|]. destruct H as (A & B). constructor; [exact A|exact (IH B)].
  - induction H as [|r l A B IH]; [exact I|]. split; assumption.
Qed.
Lemma raw_ok_obj : forall n m, raw_ok n (RObj m) <-> Forall (fun p => raw_ok n (snd p)) m.
Proof.
  intros n m. cbn [raw_ok]. split; intros H.
  - induction m as [|[k r] m IH]; [constructor|]. destruct H as (A & B). constructor; [exact A|exact (IH B)].
  - induction H as [|[k r] m A B IH]; [exact I|]. split; assumption.
Qed.
Lemma values_ok :
  (forall s r, value s r -> forall n, (length s <= n)%nat -> good_text s -> raw_ok n r) /\
  (forall s l, elements s l -> forall n, (length s <= n)%nat -> good_text s -> (length l <= S (length s))%nat /\ Forall (raw_ok n) l) /\
  (forall s m, members s m -> forall n, (length s <= n)%nat -> good_text s -> Forall (fun p => raw_ok n (snd p)) m).
Proof.
  assert (Q : forall s c, good_text (c :: s ++ [c]) -> c < 128 -> good_text s).
  { intros s c G C. apply (cut_suffix [c]); [eapply cut_first; [exact G|exact C]|repeat constructor; exact C]. }
  assert (Br : forall s a b, good_text (a :: s ++ [b]) -> a < 128 -> b < 128 -> good_text s).
  { intros s a b G A B. apply (cut_suffix [b]); [eapply cut_first; [exact G|exact A]|repeat constructor; exact B]. }
  apply grammar_ind.
  - intros; exact I.
  - intros; exact I.
  - intros; exact I.
  - intros; exact I.
  - intros s l C n L G. cbn [raw_ok]. apply (Br s) in G; [|lia|lia]. split; [exact (chars_good _ _ _ (Nat.le_refl _) C G)|].
    pose proof (chars_length _ _ C) as X. cbn [length] in L. rewrite app_length in L. lia.
  - intros w _ n L G. apply raw_ok_arr. split; [apply Nat.le_0_l|constructor].
  - intros s l _ IH n L G. apply (Br s) in G; [|lia|lia]. cbn [length] in L. rewrite app_length in L. cbn [length] in L.
    apply raw_ok_arr. destruct (IH n ltac:(lia) G) as (A & B). split; [lia|exact B].
  - intros w _ n L G. apply raw_ok_obj. constructor.
  - intros s m _ IH n L G. apply (Br s) in G; [|lia|lia]. cbn [length] in L. rewrite app_length in L. cbn [length] in L.
    apply raw_ok_obj. apply IH; [lia|exact G].
  - intros w v w' r W _ IH W' n L G. rewrite !app_length in L. apply cut_prefix in G; [|apply blank_low, W]. apply cut_suffix in G; [|apply blank_low, W'].
    split; [cbn [length]; lia|]. constructor; [apply IH; [lia|exact G]|constructor].
  - intros w v w' r s l W _ IH W' _ IHs n L G. repeat progress (rewrite ?app_length in L; cbn [length] in L). apply cut_prefix in G; [|apply blank_low, W].
    assert (X : good_text (v ++ w') /\ good_text s) by (apply (cut (v ++ w') 44 s); [rewrite <- app_assoc; exact G|lia]). destruct X as (X & Y).
    apply cut_suffix in X; [|apply blank_low, W']. destruct (IHs n ltac:(lia) Y) as (A & B). split; [rewrite !app_length; cbn [length]; lia|].
    constructor; [apply IH; [lia|exact X]|exact B].
  - intros w k nm w1 w2 v w' r W C W1 W2 _ IH W' n L G. repeat progress (rewrite ?app_length in L; cbn [length] in L). 
    apply cut_prefix in G; [|apply blank_low, W]. cbn [app] in G. rewrite <- app_assoc in G. cbn [app] in G. apply cut_first in G; [|lia].
    apply cut in G; [|lia]. destruct G as (_ & G). apply cut_prefix in G; [|apply blank_low, W1]. apply cut_first in G; [|lia].
    apply cut_prefix in G; [|apply blank_low, W2]. apply cut_suffix in G; [|apply blank_low, W']. constructor; [apply IH; [lia|exact G]|constructor].
  - intros w k nm w1 w2 v w' r s m W C W1 W2 _ IH W' _ IHs n L G. repeat progress (rewrite ?app_length in L; cbn [length] in L). 
    apply cut_prefix in G; [|apply blank_low, W]. cbn [app] in G. rewrite <- app_assoc in G. cbn [app] in G. apply cut_first in G; [|lia].
    apply cut in G; [|lia]. destruct G as (_ & G). apply cut_prefix in G; [|apply blank_low, W1]. apply cut_first in G; [|lia].
    apply cut_prefix in G; [|apply blank_low, W2].
    assert (X : good_text (v ++ w') /\ good_text s) by (apply (cut (v ++ w') 44 s); [rewrite <- app_assoc; exact G|lia]). destruct X as (X & Y).
    apply cut_suffix in X; [|apply blank_low, W']. constructor; [apply IH; [lia|exact X]|apply IHs; [lia|exact Y]].
Qed.
Lemma raw_json_ok : forall float_of n r j, Z.of_nat n < 2 ^ 63 -> raw_ok n r -> says float_of r j -> json_ok j.
Proof.
  intros float_of n r j N. revert j. induction r as [|b|t|s|l IH|m IH] using raw_nest; intros j R S.
  - inversion S; subst. exact I.
  - inversion S; subst. exact I.
  - inversion S; subst; [assumption|exact I].
  - inversion S; subst. destruct R as ((cs & F & ->) & L). cbn [json_ok]. split; [apply utf8_ok, F|]. split; [apply valid_utf8, F|lia].
  - inversion S as [| | | | |? js F| ]; subst. apply raw_ok_arr in R. destruct R as (L & R). cbn [json_ok]. assert (E : length js = length l) by (clear - F; induction F; cbn [length]; congruence).
    split; [lia|]. clear L E S. induction F as [|r j l js A F IHf]; [exact I|]. inversion IH as [|? ? I1 I2]; inversion R as [|? ? R1 R2]; subst. split; [exact (I1 _ R1 A)|exact (IHf I2 R2)].
  - inversion S as [| | | | | |? ms F]; subst. apply raw_ok_obj in R. cbn [json_ok]. clear S.
    induction F as [|p [k j] m ms [E A] F IHf]; [exact I|]. inversion IH as [|? ? I1 I2]; inversion R as [|? ? R1 R2]; subst. split; [exact (I1 _ R1 A)|exact (IHf I2 R2)].
Qed.
Lemma text_json_ok : forall float_of s r j, rust_text s -> json_text s r -> says float_of r j -> json_ok j.
Proof.
  intros float_of s r j (B & U & L) (w & v & w' & -> & W & W' & V) S. apply (utf8_valid_iff _ B) in U. apply cut_prefix in U; [|apply blank_low, W].
  apply cut_suffix in U; [|apply blank_low, W']. eapply (raw_json_ok float_of (length v)); [|exact (proj1 values_ok _ _ V _ (Nat.le_refl _) U)|exact S].
  rewrite !app_length in L. lia.
Qed.
