(** Facts about the lexical grammar of Client/GqlSpec.v. *)
From Coq Require Import ZArith List Bool Lia ZifyBool.
From Verif Require Import Lib.Bytes Client.GqlSpec.
Import ListNotations.
Local Open Scope Z_scope.

Definition plain (s : list Z) : Prop := Forall (fun c => plain_char c = true) s.

Lemma plain_body : forall s, plain s -> string_body s s.
Proof. induction 1; constructor; auto. Qed.

Lemma plain_app : forall a b, plain (a ++ b) <-> plain a /\ plain b.
Proof. intros. apply Forall_app. Qed.

Lemma body_app : forall a va b vb, string_body a va -> string_body b vb -> string_body (a ++ b) (va ++ vb).
Proof.
  induction 1; intros B; cbn [app]; auto.
  - now apply SB_plain; auto.
  - eapply SB_escape; eauto.
  - rewrite <- app_assoc. now apply SB_unicode; auto.
Qed.

Lemma escape_no_end : forall c x, escape c = Some x -> plain_char 34 = false.
Proof. reflexivity. Qed.

Lemma hex_plain : forall c x, hex_val c = Some x -> c <> 34 /\ c <> 92 /\ 0 <= x < 16.
Proof.
  unfold hex_val, digit. intros c x H.
  destruct ((48 <=? c) && (c <=? 57)) eqn:A; [injection H; lia|].
  destruct ((65 <=? c) && (c <=? 70)) eqn:B; [injection H; lia|].
  destruct ((97 <=? c) && (c <=? 102)) eqn:C; [injection H; lia|discriminate].
Qed.

Lemma utf8_length : forall u, (length (utf8 u) <= 3)%nat.
Proof. intros u. unfold utf8. destruct (u <? 128), (u <? 2048); cbn [length]; lia. Qed.

Lemma body_length : forall raw v, string_body raw v ->
  (length v <= length raw)%nat /\ (length v = length raw -> plain raw /\ v = raw).
Proof.
  induction 1 as [|c r v P B [L E]|c x r v P B [L E]|a b c d x y z w r v _ _ _ _ B [L E]]; cbn [length].
  - split; [lia|]. intros _. split; [constructor|reflexivity].
  - split; [lia|]. intros H. destruct E as [E1 E2]; [lia|]. split; [now constructor|congruence].
  - split; lia.
  - rewrite app_length. pose proof (utf8_length (4096 * x + 256 * y + 16 * z + w)). split; lia.
Qed.

(** The quote inside a string body is the second half of an escape. *)
Lemma body_quote : forall raw v, string_body raw v -> forall s m, raw = s ++ 34 :: m ->
  exists s' vs mv, s = s' ++ [92] /\ string_body s' vs /\ string_body m mv /\ v = vs ++ 34 :: mv.
Proof.
  assert (ONE : forall m mv, string_body m mv ->
    exists s' vs mv', [92] = s' ++ [92] /\ string_body s' vs /\ string_body m mv' /\ 34 :: mv = vs ++ 34 :: mv').
  { intros m mv B. exists [], [], mv. repeat split; auto. constructor. }
  induction 1 as [|c r v Q B IH|c x r v Q B IH|a b c d x y z w r v Ha Hb Hc Hd B IH]; intros s m H.
  - destruct s; discriminate.
  - destruct s as [|c0 s]; injection H as -> H; [discriminate Q|].
    destruct (IH _ _ H) as (s' & vs & mv & -> & B1 & B2 & ->).
    exists (c0 :: s'), (c0 :: vs), mv. repeat split; auto. now constructor.
  - destruct s as [|c0 s]; [discriminate|]. injection H as <- H.
    destruct s as [|c1 s]; injection H as -> H.
    + subst r. injection Q as <-. now apply ONE.
    + destruct (IH _ _ H) as (s' & vs & mv & -> & B1 & B2 & ->).
      exists (92 :: c1 :: s'), (x :: vs), mv. repeat split; auto. eapply SB_escape; eauto.
  - apply hex_plain in Ha as Ha'; apply hex_plain in Hb as Hb'; apply hex_plain in Hc as Hc'; apply hex_plain in Hd as Hd'.
    do 6 (destruct s as [|? s]; [exfalso; cbn [app] in H; injection H as; lia|]).
    injection H as <- <- <- <- <- <- H.
    destruct (IH _ _ H) as (s' & vs & mv & -> & B1 & B2 & ->).
    exists (92 :: 117 :: a :: b :: c :: d :: s'). eexists. exists mv. repeat split; auto; [|apply app_assoc].
    now apply SB_unicode.
Qed.

(** Where a string body ends is determined by the text. *)
Lemma body_end : forall raw v, string_body raw v -> forall raw' v' r r', string_body raw' v' ->
  raw ++ 34 :: r = raw' ++ 34 :: r' -> raw = raw' /\ v = v' /\ r = r'.
Proof.
  induction 1 as [|c q v Q B IH|c x q v Q B IH|a b c d x y z w q v Ha Hb Hc Hd B IH];
    intros raw' v' r r' B' H.
  - destruct B' as [|c q v Q B|c x q v Q B|a b c d x y z w q v Ha Hb Hc Hd B]; cbn [app] in H.
    + now injection H.
    + injection H as <- H. discriminate Q.
    + discriminate.
    + discriminate.
  - destruct B' as [|c' q' v' Q' B'|c' x' q' v' Q' B'|a' b' c' d' x' y' z' w' q' v' Ha' Hb' Hc' Hd' B']; cbn [app] in H.
    + injection H as -> H. discriminate Q.
    + injection H as -> H. destruct (IH _ _ _ _ B' H) as (-> & -> & ->). auto.
    + injection H as -> H. discriminate Q.
    + injection H as -> H. discriminate Q.
  - destruct B' as [|c' q' v' Q' B'|c' x' q' v' Q' B'|a' b' c' d' x' y' z' w' q' v' Ha' Hb' Hc' Hd' B']; cbn [app] in H.
    + discriminate.
    + injection H as <- H. discriminate Q'.
    + injection H as -> H. destruct (IH _ _ _ _ B' H) as (-> & -> & ->). rewrite Q in Q'. injection Q' as ->. auto.
    + injection H as -> H. discriminate Q.
  - destruct B' as [|c' q' v' Q' B'|c' x' q' v' Q' B'|a' b' c' d' x' y' z' w' q' v' Ha' Hb' Hc' Hd' B']; cbn [app] in H.
    + discriminate.
    + injection H as <- H. discriminate Q'.
    + injection H as <- H. discriminate Q'.
    + injection H as -> -> -> -> H. destruct (IH _ _ _ _ B' H) as (-> & -> & ->).
      rewrite Ha in Ha'; rewrite Hb in Hb'; rewrite Hc in Hc'; rewrite Hd in Hd'.
      injection Ha' as ->; injection Hb' as ->; injection Hc' as ->; injection Hd' as ->. auto.
Qed.

(** A text behind which a string that ran over its end could not end in a backslash. *)
Definition tail_ok (tail : list Z) : Prop :=
  forall m mv r x, string_body m mv -> m ++ 34 :: r = tail -> mv <> x ++ [92].

Lemma body_self : forall s tail raw r, tail_ok tail -> string_body raw s -> raw ++ 34 :: r = s ++ 34 :: tail ->
  plain s /\ raw = s /\ r = tail.
Proof.
  intros s tail raw r T B H. destruct (body_length _ _ B) as [L E].
  assert (C : length raw = length s \/ (length raw > length s)%nat) by lia.
  destruct C as [C|C].
  - destruct E as [P _]; [lia|].
    assert (raw = s /\ 34 :: r = 34 :: tail) as [-> Q].
    { clear - H C. revert s C H. induction raw as [|a raw IH]; intros [|b s] C H; try discriminate C; auto.
      injection H as -> H. injection C as C. destruct (IH _ C H) as [-> ?]. auto. }
    injection Q as ->. auto.
  - exfalso. assert (exists m, raw = s ++ 34 :: m /\ m ++ 34 :: r = tail) as (m & -> & M).
    { clear - H C. revert raw C H. induction s as [|b s IH]; intros [|a raw] C H; cbn [length] in C; try lia.
      - injection H as -> H. exists raw. auto.
      - injection H as -> H. destruct (IH raw ltac:(lia) H) as (m & -> & M). exists m. auto. }
    destruct (body_quote _ _ B _ _ eq_refl) as (s' & vs & mv & -> & _ & Bm & E2).
    destruct (exists_last (l := vs ++ 34 :: mv)) as (u & z & Z); [now destruct vs|].
    rewrite Z in E2. apply app_inj_tail in E2 as [E2 E3]. subst z u.
    assert (D : mv = [] \/ exists x z, mv = x ++ [z]).
    { destruct mv as [|m0 mv]; [now left|right]. destruct (exists_last (l := m0 :: mv)) as (x & z & ->); [discriminate|eauto]. }
    destruct D as [->|(x & z & ->)].
    + apply app_inj_tail in Z as [_ Z]. discriminate.
    + replace (vs ++ 34 :: x ++ [z]) with ((vs ++ 34 :: x) ++ [z]) in Z by (now rewrite <- app_assoc).
      apply app_inj_tail in Z as [_ ->]. exact (T _ _ _ x Bm M eq_refl).
Qed.

(** A tail without quotes, and one whose first quote closes a plain text that
    does not end in a backslash, are such texts. *)
Lemma tail_ok_none : forall tail, Forall (fun c => c <> 34) tail -> tail_ok tail.
Proof.
  intros tail F m mv r x _ <- _. rewrite Forall_app in F. destruct F as [_ F]. now inversion F.
Qed.

Lemma tail_ok_plain : forall m r, plain m -> tail_ok (m ++ 34 :: r).
Proof.
  intros m r Hm m' mv r' x B E. symmetry in E. destruct (body_end _ _ (plain_body _ Hm) _ _ _ _ B E) as (_ & <- & _).
  intros ->. apply plain_app in Hm as [_ F]. inversion F; discriminate.
Qed.

(** ** Tokens *)
Lemma lexes_string_inv : forall t all, lexes (34 :: t) all ->
  exists raw v r ts, t = raw ++ 34 :: r /\ all = TStr v :: ts /\ string_body raw v /\
    ~ (raw = [] /\ begins (Z.eqb 34) r) /\ lexes r ts.
Proof.
  intros t all H. inversion H; subst; try discriminate. eexists _, _, _, _. eauto.
Qed.

Lemma lex_string : forall s tail ts, tail_ok tail -> ~ begins (Z.eqb 34) tail ->
  lexes (34 :: s ++ 34 :: tail) (TStr s :: ts) <-> plain s /\ lexes tail ts.
Proof.
  intros s tail ts T N. split.
  - intros H. apply lexes_string_inv in H as (raw & v & r & ts' & E & Q & B & _ & L).
    injection Q as <- <-. symmetry in E. destruct (body_self _ _ _ _ T B E) as (Hp & -> & ->). auto.
  - intros [Hp L]. apply (L_string s s); auto using plain_body. tauto.
Qed.

Lemma lex_string_plain : forall s tail ts, plain s -> ~ begins (Z.eqb 34) tail ->
  (lexes (34 :: s ++ 34 :: tail) (TStr s :: ts) <-> lexes tail ts).
Proof.
  intros s tail ts Hs N. split.
  - intros H. apply lexes_string_inv in H as (raw & v & r & ts' & E & Q & B & _ & L).
    injection Q as <- <-. destruct (body_end _ _ (plain_body _ Hs) _ _ _ _ B E) as (_ & _ & ->). exact L.
  - intros L. apply (L_string s s); auto using plain_body. tauto.
Qed.

(** Two readings of a text agree. *)
Lemma prefix_unique : forall (p : Z -> bool) n n' r r', Forall (fun c => p c = true) n -> Forall (fun c => p c = true) n' ->
  ~ begins p r -> ~ begins p r' -> n ++ r = n' ++ r' -> n = n' /\ r = r'.
Proof.
  intros p. induction n as [|c n IH]; intros [|c' n'] r r' F F' N N' E; cbn [app] in E; auto.
  - subst r. inversion F'; subst. destruct N. assumption.
  - subst r'. inversion F; subst. destruct N'. assumption.
  - injection E as <- E. inversion F; inversion F'; subst. destruct (IH n' r r') as [-> ->]; auto.
Qed.

Lemma name_digit : forall c, name_start c = true -> digit c = false.
Proof. unfold name_start, digit. intros. lia. Qed.

Ltac clash := exfalso;
  unfold ignored, punct, name_start, digit in *; cbn [existsb] in *; lia.

Lemma lexes_det : forall t a, lexes t a -> forall b, lexes t b -> a = b.
Proof.
  induction 1 as [|c r ts I L IH|n r ts F E L IH|c r ts I L IH|c n r ts I F N L IH|c n r ts I F Z0 N L IH|raw v r ts B Q L IH];
    intros b H.
  - now inversion H.
  - inversion H; subst; try clash. auto.
  - inversion H; subst; try discriminate.
    destruct (prefix_unique (fun c => negb (line_end c)) n n0 r r0) as [-> ->]; auto.
    + eapply Forall_impl; [|exact F]. cbn beta. intros c ->. reflexivity.
    + eapply Forall_impl; [|exact H1]. cbn beta. intros c ->. reflexivity.
    + destruct E as [->|E]; [tauto|]. destruct r; [tauto|]. cbn in *. now rewrite E.
    + destruct H2 as [->|E3]; [tauto|]. destruct r0; [tauto|]. cbn in *. now rewrite E3.
  - inversion H; subst; try clash. f_equal. auto.
  - inversion H; subst; try clash.
    destruct (prefix_unique name_more n n0 r r0) as [-> ->]; auto. f_equal. auto.
  - inversion H; subst; try clash.
    destruct (prefix_unique digit n n0 r r0) as [-> ->]; auto.
    + intros G. apply N. destruct r; [destruct G|]. cbn in *. unfold name_more. rewrite G. now rewrite orb_true_r.
    + intros G. match goal with N : ~ begins _ r0 |- _ => apply N end. destruct r0; [destruct G|]. cbn in *. unfold name_more. rewrite G. now rewrite orb_true_r.
    + f_equal. auto.
  - apply lexes_string_inv in H as (raw' & v' & r' & ts' & E & -> & B' & _ & L').
    destruct (body_end _ _ B _ _ _ _ B' E) as (-> & -> & ->). f_equal. auto.
Qed.

(** ** Literal texts between strings *)
Definition word (n : list Z) (next : Z) : option token :=
  match n with
  | [] => None
  | c :: n' =>
    if name_start c then Some (TName n)
    else if forallb digit n && (negb (c =? 48) || match n' with [] => true | _ => false end) && negb (next =? 46)
    then Some (TInt n) else None
  end.

Fixpoint pre (cur l : list Z) : option (list token) :=
  match l with
  | [] => match cur with [] => Some [] | _ => None end
  | c :: r =>
    if name_more c then pre (cur ++ [c]) r
    else
      let rest := if ignored c then pre [] r
                  else if punct c then option_map (cons (TPunct c)) (pre [] r) else None in
      match cur with
      | [] => rest
      | _ => match word cur c, rest with Some t, Some ts => Some (t :: ts) | _, _ => None end
      end
  end.

Lemma word_lexes : forall n c t r ts, Forall (fun c => name_more c = true) n -> name_more c = false ->
  word n c = Some t -> lexes (c :: r) ts -> lexes (n ++ c :: r) (t :: ts).
Proof.
  intros [|a n] c t r ts F Nc W L; [discriminate|]. cbn [word] in W. inversion F as [|? ? Fa Fn]; subst.
  destruct (name_start a) eqn:S.
  - injection W as <-. cbn [app]. apply L_name; auto. cbn. now rewrite Nc.
  - match type of W with (if ?b then _ else _) = _ => destruct b eqn:D; [|discriminate] end.
    injection W as <-. cbn [app]. apply andb_prop in D as [D D3]. apply andb_prop in D as [D1 D2].
    cbn [forallb] in D1. apply andb_prop in D1 as [D0 D1].
    apply L_int; auto.
    + now apply Forall_forall, forallb_forall.
    + intros ->. destruct n; [reflexivity|discriminate].
    + cbn. rewrite Nc. destruct (c =? 46); [discriminate D3|discriminate].
Qed.

Lemma pre_lexes : forall l cur toks r ts, Forall (fun c => name_more c = true) cur ->
  pre cur l = Some toks -> lexes r ts -> lexes (cur ++ l ++ r) (toks ++ ts).
Proof.
  induction l as [|c l IH]; intros cur toks r ts F H L; cbn [pre] in H.
  - destruct cur; [|discriminate]. injection H as <-. exact L.
  - destruct (name_more c) eqn:Nc.
    + change ((c :: l) ++ r) with ([c] ++ (l ++ r)). rewrite app_assoc. apply IH; auto.
      apply Forall_app. split; auto.
    + cbv zeta in H.
      assert (R : forall tr, (if ignored c then pre [] l else if punct c then option_map (cons (TPunct c)) (pre [] l) else None) = Some tr ->
        lexes (c :: l ++ r) (tr ++ ts)).
      { intros tr E. destruct (ignored c) eqn:I.
        - apply L_ignored; auto. exact (IH [] tr r ts (Forall_nil _) E L).
        - destruct (punct c) eqn:Pc; [|discriminate]. destruct (pre [] l) as [tl|] eqn:E1; [|discriminate].
          injection E as <-. cbn [app]. apply L_punct; auto. exact (IH [] tl r ts (Forall_nil _) E1 L). }
      destruct cur as [|a cur].
      * exact (R _ H).
      * destruct (word (a :: cur) c) as [t|] eqn:W; [|discriminate].
        match type of H with match ?x with _ => _ end = _ => destruct x as [tr|] eqn:E; [|discriminate] end.
        injection H as <-. cbn [app]. apply (word_lexes (a :: cur) c t (l ++ r) (tr ++ ts)); auto.
Qed.

Lemma word_inv : forall n c t r all, Forall (fun c => name_more c = true) n -> name_more c = false ->
  word n c = Some t -> lexes (n ++ c :: r) all -> exists ts, all = t :: ts /\ lexes (c :: r) ts.
Proof.
  intros [|a n] c t r all F Nc W L; [discriminate|]. cbn [word] in W. inversion F as [|? ? Fa Fn]; subst.
  assert (Rb : ~ begins name_more (c :: r)) by (cbn; now rewrite Nc).
  destruct (name_start a) eqn:S.
  - injection W as <-. cbn [app] in L. inversion L; subst; try clash.
    destruct (prefix_unique name_more n n0 (c :: r) r0) as [E1 E2]; auto. subst. eauto.
  - match type of W with (if ?b then _ else _) = _ => destruct b eqn:D; [|discriminate] end.
    injection W as <-. apply andb_prop in D as [D D3]. apply andb_prop in D as [D1 D2].
    cbn [forallb] in D1. apply andb_prop in D1 as [D0 D1].
    cbn [app] in L. inversion L; subst; try clash.
    destruct (prefix_unique digit n n0 (c :: r) r0) as [E1 E2]; auto.
    + now apply Forall_forall, forallb_forall.
    + intros G. apply Rb. cbn in *. unfold name_more. rewrite G. now rewrite orb_true_r.
    + intros G. match goal with N : ~ begins _ r0 |- _ => apply N end.
      destruct r0; [destruct G|]. cbn in *. unfold name_more. rewrite G. now rewrite orb_true_r.
    + subst. eauto.
Qed.

Lemma pre_inv : forall l cur toks r all, Forall (fun c => name_more c = true) cur ->
  pre cur l = Some toks -> lexes (cur ++ l ++ r) all -> exists ts, all = toks ++ ts /\ lexes r ts.
Proof.
  induction l as [|c l IH]; intros cur toks r all F H L; cbn [pre] in H.
  - destruct cur; [|discriminate]. injection H as <-. exists all. split; [reflexivity|exact L].
  - destruct (name_more c) eqn:Nc.
    + change ((c :: l) ++ r) with ([c] ++ (l ++ r)) in L. rewrite app_assoc in L.
      apply (IH (cur ++ [c])); auto. apply Forall_app. split; auto.
    + cbv zeta in H.
      assert (R : forall tr all', (if ignored c then pre [] l else if punct c then option_map (cons (TPunct c)) (pre [] l) else None) = Some tr ->
        lexes (c :: l ++ r) all' -> exists ts, all' = tr ++ ts /\ lexes r ts).
      { intros tr all' E L'. destruct (ignored c) eqn:I.
        - inversion L'; subst; try clash. apply (IH [] tr r all'); auto.
        - destruct (punct c) eqn:Pc; [|discriminate]. destruct (pre [] l) as [tl|] eqn:E1; [|discriminate].
          injection E as <-. inversion L'; subst; try clash.
          destruct (IH [] tl r ts (Forall_nil _) E1 ltac:(assumption)) as (ts' & -> & ?). exists ts'. split; [reflexivity|assumption]. }
      destruct cur as [|a cur].
      * exact (R _ _ H L).
      * destruct (word (a :: cur) c) as [t|] eqn:W; [|discriminate].
        match type of H with match ?x with _ => _ end = _ => destruct x as [tr|] eqn:E; [|discriminate] end.
        injection H as <-.
        destruct (word_inv (a :: cur) c t (l ++ r) all F Nc W L) as (ts1 & -> & L1).
        destruct (R _ _ eq_refl L1) as (ts & -> & ?). exists ts. auto.
Qed.

Lemma pre_iff : forall l toks r ts, pre [] l = Some toks -> (lexes (l ++ r) (toks ++ ts) <-> lexes r ts).
Proof.
  intros l toks r ts H. split; intros L.
  - destruct (pre_inv l [] toks r _ (Forall_nil _) H L) as (ts' & E & L'). apply app_inv_head in E. now subst.
  - exact (pre_lexes l [] toks r ts (Forall_nil _) H L).
Qed.
