(** C113: the statuses of the nodes, from the stream to the table of the page. *)

From Coq Require Import String ZArith List Bool Lia ZifyBool ZifyNat.
From Verif Require Import Lib.Res Lib.Bytes BinProt.Prim Text.Base64 Text.Base64Props.
From Verif Require Import Proto.Pb Proto.PbSpec Proto.PbFacts Proto.PbProps.
From Verif Require Import Proto.Utf8Facts Proto.NodeStatus.
Import ListNotations.
Local Open Scope Z_scope.
Notation length := List.length.

(** ** White space, as the Unicode standard lists it *)
Definition white (c : Z) : Prop :=
  9 <= c <= 13 \/ c = 32 \/ c = 0x85 \/ c = 0xA0 \/ c = 0x1680 \/ 0x2000 <= c <= 0x200A \/
  c = 0x2028 \/ c = 0x2029 \/ c = 0x202F \/ c = 0x205F \/ c = 0x3000.

Lemma white_bytes : forall c, white c ->
  (exists a, utf8_point c = [a] /\ ws1 a = true) \/
  (exists a b, utf8_point c = [a; b] /\ ws1 a = false /\ ws1 b = false /\ ws2 a b = true) \/
  (exists a b d, utf8_point c = [a; b; d] /\ ws1 a = false /\ ws1 d = false /\ ws2 a b = false /\ ws2 b d = false /\ ws3 a b d = true).
Proof.
  intros c W. unfold white in W.
  repeat match type of W with _ \/ _ => destruct W as [W|W] end; try subst c;
    try (left; exists c; unfold utf8_point, ws1, btw; replace (c <? 128) with true by lia; split; [reflexivity|lia]);
    try (left; eexists; split; [reflexivity|reflexivity]);
    try (right; left; eexists _, _; repeat split; reflexivity);
    try (right; right; eexists _, _, _; repeat split; reflexivity).
  assert (D : exists k, (k < 11)%nat /\ c = 0x2000 + Z.of_nat k) by (exists (Z.to_nat (c - 0x2000)); lia).
  destruct D as (k & K & ->). right. right.
  do 11 (destruct k as [|k]; [eexists _, _, _; repeat split; reflexivity|]). lia.
Qed.
Lemma bytes_white1 : forall a, ws1 a = true -> exists c, white c /\ utf8_point c = [a].
Proof.
  intros a H. unfold ws1, btw in H. exists a. split; [unfold white; lia|]. unfold utf8_point. replace (a <? 128) with true by lia. reflexivity.
Qed.
Lemma bytes_white2 : forall a b, ws2 a b = true -> exists c, white c /\ utf8_point c = [a; b].
Proof.
  intros a b H. unfold ws2 in H. assert (a = 0xC2) by lia. assert (C : b = 0x85 \/ b = 0xA0) by lia. subst a.
  destruct C; subst b; [exists 0x85|exists 0xA0]; split; try reflexivity; unfold white; lia.
Qed.
Lemma bytes_white3 : forall a b d, ws3 a b d = true -> exists c, white c /\ utf8_point c = [a; b; d].
Proof.
  intros a b d H. unfold ws3 in H. rewrite !orb_true_iff in H. destruct H as [[[H|H]|H]|H].
  - assert (a = 0xE1 /\ b = 0x9A /\ d = 0x80) by lia. exists 0x1680. split; [unfold white; lia|]. destruct H0 as (-> & -> & ->). reflexivity.
  - unfold btw in H. assert (a = 0xE2 /\ b = 0x80) by lia. destruct H0 as (-> & ->).
    assert (D : 0x80 <= d <= 0x8A \/ d = 0xA8 \/ d = 0xA9 \/ d = 0xAF) by lia.
    exists (0x2000 + (d - 0x80)). split; [unfold white; lia|].
    destruct D as [D|[->|[->| ->]]]; [|reflexivity|reflexivity|reflexivity].
    assert (E : exists k, (k < 11)%nat /\ d = 0x80 + Z.of_nat k) by (exists (Z.to_nat (d - 0x80)); lia).
    destruct E as (k & K & ->). do 11 (destruct k as [|k]; [reflexivity|]). lia.
  - assert (a = 0xE2 /\ b = 0x81 /\ d = 0x9F) by lia. exists 0x205F. split; [unfold white; lia|]. destruct H0 as (-> & -> & ->). reflexivity.
  - assert (a = 0xE3 /\ b = 0x80 /\ d = 0x80) by lia. exists 0x3000. split; [unfold white; lia|]. destruct H0 as (-> & -> & ->). reflexivity.
Qed.

Lemma trim_start_white : forall pre l, Forall white pre -> trim_start (utf8 pre ++ l) = trim_start l.
Proof.
  induction pre as [|c pre IH]; intros l W; [reflexivity|]. inversion W; subst. rewrite utf8_cons, <- app_assoc.
  destruct (white_bytes c ltac:(assumption)) as [(a & -> & A)|[(a & b & -> & A & _ & B)|(a & b & d & -> & A & _ & B & _ & D)]]; cbn [app trim_start].
  - rewrite A. apply IH. assumption.
  - rewrite A, B. apply IH. assumption.
  - rewrite A, B, D. apply IH. assumption.
Qed.
Lemma trim_rev_white : forall pre l, Forall white pre -> trim_rev (rev (utf8 pre) ++ l) = trim_rev l.
Proof.
  intros pre. induction pre as [|c pre IH] using rev_ind; intros l W; [reflexivity|].
  apply Forall_app in W. destruct W as (W1 & W2). inversion W2; subst.
  rewrite utf8_app, rev_app_distr. unfold utf8 at 1. cbn [flat_map]. rewrite app_nil_r, <- app_assoc.
  destruct (white_bytes c ltac:(assumption)) as [(a & -> & A)|[(a & b & -> & _ & A & B)|(a & b & d & -> & _ & A & _ & B & D)]]; cbn [app rev trim_rev].
  - rewrite A. apply IH. exact W1.
  - rewrite A, B. apply IH. exact W1.
  - rewrite A, B, D. apply IH. exact W1.
Qed.
Definition graphic (c : Z) : Prop := 33 <= c < 127.
Lemma trim_start_graphic : forall c l, graphic c -> trim_start (c :: l) = c :: l.
Proof.
  intros c l G. unfold graphic in G. cbn [trim_start]. unfold ws1, ws2, ws3, btw.
  replace (_ || _) with false by lia. destruct l as [|b [|d l]]; [reflexivity| |];
    replace (c =? 0xC2) with false by lia; cbn [andb]; [reflexivity|].
  replace (c =? 0xE1) with false by lia. replace (c =? 0xE2) with false by lia. replace (c =? 0xE3) with false by lia. reflexivity.
Qed.
Lemma trim_rev_graphic : forall c l, graphic c -> trim_rev (c :: l) = c :: l.
Proof.
  intros c l G. unfold graphic in G. cbn [trim_rev]. unfold ws1, ws2, ws3, btw.
  replace (_ || _) with false by lia. destruct l as [|b [|d l]]; [reflexivity| |];
    replace (c =? 0x85) with false by lia; replace (c =? 0xA0) with false by lia; cbn [orb]; rewrite andb_false_r; [reflexivity|].
  replace (_ || _) with false by lia. reflexivity.
Qed.
Lemma trim_core : forall pre t post, Forall white pre -> Forall white post -> t <> [] -> Forall graphic t ->
  trim (utf8 pre ++ t ++ utf8 post) = t.
Proof.
  intros pre t post W1 W2 N G. unfold trim. rewrite trim_start_white by exact W1.
  destruct t as [|c t]; [congruence|]. inversion G; subst. cbn [app]. rewrite trim_start_graphic by assumption.
  change (c :: t ++ utf8 post) with ((c :: t) ++ utf8 post). rewrite rev_app_distr, trim_rev_white by exact W2.
  destruct (exists_last (l := c :: t) ltac:(discriminate)) as (t' & x & E). rewrite E in *.
  apply Forall_app in G. destruct G as (_ & G). inversion G; subst. rewrite rev_app_distr. cbn [rev app].
  rewrite trim_rev_graphic by assumption. cbn [rev]. rewrite rev_involutive. reflexivity.
Qed.
Lemma trim_blank : forall pre, Forall white pre -> trim (utf8 pre) = [].
Proof. intros pre W. unfold trim. rewrite <- (app_nil_r (utf8 pre)), trim_start_white by exact W. reflexivity. Qed.
Lemma trim_start_split : forall n l, (length l <= n)%nat -> exists pre, Forall white pre /\ l = utf8 pre ++ trim_start l.
Proof.
  induction n; intros l L. { destruct l; [|cbn in L; lia]. exists []. split; [constructor|reflexivity]. }
  assert (STEP : forall p r c, white c -> utf8_point c = p -> l = p ++ r -> p <> [] -> trim_start l = trim_start r ->
    exists pre, Forall white pre /\ l = utf8 pre ++ trim_start l).
  { intros p r c W P E NE T. destruct (IHn r) as (pre & F & R).
    - rewrite E, app_length in L. destruct p; [congruence|]. cbn [length] in L. lia.
    - exists (c :: pre). split; [constructor; assumption|]. rewrite T, utf8_cons, P, <- app_assoc, <- R. exact E. }
  assert (STOP : trim_start l = l -> exists pre, Forall white pre /\ l = utf8 pre ++ trim_start l).
  { intros T. exists []. split; [constructor|]. rewrite T. reflexivity. }
  destruct l as [|a l1]; [apply STOP; reflexivity|]. cbn [trim_start] in STOP, STEP |- *.
  destruct (ws1 a) eqn:E1.
  { destruct (bytes_white1 a E1) as (c & W & P). apply (STEP [a] l1 c W P); [reflexivity|discriminate|reflexivity]. }
  destruct l1 as [|b l2]; [apply STOP; reflexivity|]. destruct (ws2 a b) eqn:E2.
  { destruct (bytes_white2 a b E2) as (c & W & P). apply (STEP [a; b] l2 c W P); [reflexivity|discriminate|reflexivity]. }
  destruct l2 as [|d l3]; [apply STOP; reflexivity|]. destruct (ws3 a b d) eqn:E3; [|apply STOP; reflexivity].
  destruct (bytes_white3 a b d E3) as (c & W & P). apply (STEP [a; b; d] l3 c W P); [reflexivity|discriminate|reflexivity].
Qed.
Lemma trim_rev_split : forall n l, (length l <= n)%nat -> exists post, Forall white post /\ l = rev (utf8 post) ++ trim_rev l.
Proof.
  induction n; intros l L. { destruct l; [|cbn in L; lia]. exists []. split; [constructor|reflexivity]. }
  assert (STEP : forall p r c, white c -> rev (utf8_point c) = p -> l = p ++ r -> p <> [] -> trim_rev l = trim_rev r ->
    exists post, Forall white post /\ l = rev (utf8 post) ++ trim_rev l).
  { intros p r c W P E NE T. destruct (IHn r) as (post & F & R).
    - rewrite E, app_length in L. destruct p; [congruence|]. cbn [length] in L. lia.
    - exists (post ++ [c]). split; [apply Forall_app; split; [assumption|constructor; [assumption|constructor]]|].
      rewrite T, utf8_app, rev_app_distr. unfold utf8 at 1. cbn [flat_map]. rewrite app_nil_r, P, <- app_assoc, <- R. exact E. }
  assert (STOP : trim_rev l = l -> exists post, Forall white post /\ l = rev (utf8 post) ++ trim_rev l).
  { intros T. exists []. split; [constructor|]. rewrite T. reflexivity. }
  destruct l as [|a l1]; [apply STOP; reflexivity|]. cbn [trim_rev] in STOP, STEP |- *.
  destruct (ws1 a) eqn:E1.
  { destruct (bytes_white1 a E1) as (c & W & P). apply (STEP [a] l1 c W); [rewrite P; reflexivity|reflexivity|discriminate|reflexivity]. }
  destruct l1 as [|b l2]; [apply STOP; reflexivity|]. destruct (ws2 b a) eqn:E2.
  { destruct (bytes_white2 b a E2) as (c & W & P). apply (STEP [a; b] l2 c W); [rewrite P; reflexivity|reflexivity|discriminate|reflexivity]. }
  destruct l2 as [|d l3]; [apply STOP; reflexivity|]. destruct (ws3 d b a) eqn:E3; [|apply STOP; reflexivity].
  destruct (bytes_white3 d b a E3) as (c & W & P). apply (STEP [a; b; d] l3 c W); [rewrite P; reflexivity|reflexivity|discriminate|reflexivity].
Qed.
Lemma trim_split : forall l, exists pre post, Forall white pre /\ Forall white post /\ l = utf8 pre ++ trim l ++ utf8 post.
Proof.
  intros l. destruct (trim_start_split (length l) l ltac:(lia)) as (pre & W1 & E1).
  destruct (trim_rev_split (length (rev (trim_start l))) (rev (trim_start l)) ltac:(lia)) as (post & W2 & E2).
  exists pre, post. split; [exact W1|]. split; [exact W2|]. rewrite E1 at 1. f_equal.
  apply (f_equal (@rev Z)) in E2. rewrite rev_app_distr, !rev_involutive in E2. exact E2.
Qed.

(** ** Standard base64 *)
Lemma alphabet_graphic : forall c d, b64_index c b64_alphabet 0 = Some d -> graphic c.
Proof.
  intros c d H. destruct (char_index c d H) as (D & <-). unfold graphic.
  assert (A : forallb (fun n => (33 <=? b64_char (Z.of_nat n)) && (b64_char (Z.of_nat n) <? 127)) (seq 0 64) = true) by (vm_compute; reflexivity).
  rewrite forallb_forall in A. specialize (A (Z.to_nat d)). rewrite Z2Nat.id in A by lia.
  specialize (A ltac:(apply in_seq; lia)). lia.
Qed.
Lemma digits_graphic : forall s ds, b64_digits s = Some ds -> Forall graphic s.
Proof.
  induction s as [|c s IH]; intros ds H; [constructor|]. cbn [b64_digits] in H.
  destruct (b64_index c b64_alphabet 0) eqn:E; [|discriminate]. destruct (b64_digits s) eqn:F; [|discriminate].
  constructor; [eapply alphabet_graphic; exact E|eapply IH; reflexivity].
Qed.
Lemma b64_graphic : forall s bs, b64_decode s = Some bs -> Forall graphic s.
Proof.
  intros s bs H. unfold b64_decode in H. destruct (b64_split s) as (a, p) eqn:E.
  destruct (forallb (fun c => c =? 61) p) eqn:P; cbn [andb] in H; [|discriminate]. destruct (Nat.leb _ _); [|discriminate].
  destruct (b64_digits a) eqn:D; [|discriminate].
  assert (S : s = a ++ p) by (destruct (split_spec s a p E) as (S & _); exact S). subst s.
  apply Forall_app. split; [eapply digits_graphic; exact D|]. rewrite Forall_forall. intros x X.
  rewrite forallb_forall in P. specialize (P x X). unfold graphic. lia.
Qed.
Lemma std_graphic : forall s bs, std_decode s = Some bs -> Forall graphic s.
Proof.
  intros s bs H. unfold std_decode in H. destruct (existsb _ s); [discriminate|]. apply b64_graphic in H.
  rewrite Forall_forall in *. intros x X. specialize (H (to_url x) ltac:(apply in_map; exact X)).
  unfold graphic, to_url in *. destruct (x =? 43) eqn:A; [lia|]. destruct (x =? 47) eqn:B; lia.
Qed.
Lemma b64_no_plus : forall d, 0 <= d < 64 -> b64_char d <> 43 /\ b64_char d <> 47.
Proof.
  intros d D. assert (A : forallb (fun n => negb (b64_char (Z.of_nat n) =? 43) && negb (b64_char (Z.of_nat n) =? 47)) (seq 0 64) = true) by (vm_compute; reflexivity).
  rewrite forallb_forall in A. specialize (A (Z.to_nat d)). rewrite Z2Nat.id in A by lia.
  specialize (A ltac:(apply in_seq; lia)). lia.
Qed.
(** Encoding with [+] and [/] can be read again. *)
Lemma std_round_trip : forall bs, bytes_ok bs -> std_decode (std_encode bs) = Some bs.
Proof.
  intros bs B. unfold std_decode, std_encode. destruct (encode_syms bs B) as (E & F & _).
  assert (N : Forall (fun c => c <> 43 /\ c <> 47) (b64_encode bs)).
  { rewrite E. apply Forall_app. split.
    - rewrite Forall_map. rewrite Forall_forall in *. intros x X. apply b64_no_plus. apply F. exact X.
    - rewrite Forall_forall. intros x X. apply repeat_spec in X. subst. lia. }
  replace (existsb _ _) with false.
  - rewrite map_map. rewrite (map_ext_in _ (fun c => c)); [rewrite map_id; apply C83_round_trip; exact B|].
    intros c C. rewrite Forall_forall in N. specialize (N c C). unfold to_url, of_url.
    destruct (c =? 45) eqn:A1; [cbn; lia|]. destruct (c =? 95) eqn:A2; [cbn; lia|].
    replace (c =? 43) with false by lia. replace (c =? 47) with false by lia. reflexivity.
  - symmetry. apply not_true_iff_false. intros X. apply existsb_exists in X. destruct X as (x & X & Y).
    apply in_map_iff in X. destruct X as (c & <- & C). rewrite Forall_forall in N. specialize (N c C).
    unfold of_url in Y. destruct (c =? 45) eqn:A1; [discriminate|]. destruct (c =? 95) eqn:A2; [discriminate|]. lia.
Qed.

(** ** Lines *)
Definition no_newline (l : list Z) : Prop := Forall (fun b => b <> 10) l.
Lemma until_line : forall l r, no_newline l -> until_newline (l ++ 10 :: r) = Some (l ++ [10], r).
Proof.
  induction l as [|b l IH]; intros r N; [reflexivity|]. inversion N; subst. cbn [app until_newline].
  replace (b =? 10) with false by lia. rewrite IH by assumption. reflexivity.
Qed.
Lemma until_last : forall l, no_newline l -> until_newline l = None.
Proof.
  induction l as [|b l IH]; intros N; [reflexivity|]. inversion N; subst. cbn [until_newline].
  replace (b =? 10) with false by lia. rewrite IH by assumption. reflexivity.
Qed.
(** Every text is lines and a last line. *)
Lemma in_lines : forall bs, exists ls last, bs = flat_map (fun l => l ++ [10]) ls ++ last /\ Forall no_newline ls /\ no_newline last.
Proof.
  induction bs as [|b bs IH]; [exists [], []; repeat split; constructor|]. destruct IH as (ls & last & E & F & N).
  destruct (Z.eq_dec b 10) as [->|B].
  - exists ([] :: ls), last. rewrite E. repeat split; [constructor; [constructor|exact F]|exact N].
  - destruct ls as [|l ls].
    + exists [], (b :: last). rewrite E. repeat split; [constructor|constructor; [exact B|exact N]].
    + exists ((b :: l) :: ls), last. rewrite E. repeat split; [|exact N]. inversion F; subst. constructor; [constructor; [exact B|assumption]|assumption].
Qed.
Definition lines (ls : list (list Z)) (rest : list Z) : list Z := flat_map (fun l => l ++ [10]) ls ++ rest.
Definition valid (l : list Z) : Prop := utf8_valid l = true.
Lemma valid_lines_n : forall y n l, (length l <= n)%nat -> utf8_valid ((l ++ [10]) ++ y) = utf8_valid l && utf8_valid y.
Proof.
  intros y. induction n; intros l L; [destruct l; [reflexivity|cbn in L; lia]|].
              destruct l as [|a l1]; [reflexivity|]. cbn [app utf8_valid length] in *. destruct (a <? 128); [apply IHn; lia|].
              destruct l1 as [|b l2]; cbn [app length] in *.
              { unfold btw, cont. replace ((128 <=? 10) && (10 <=? 191)) with false by reflexivity.
                replace ((160 <=? 10) && (10 <=? 191)) with false by reflexivity. replace ((128 <=? 10) && (10 <=? 159)) with false by reflexivity.
                replace ((144 <=? 10) && (10 <=? 191)) with false by reflexivity. replace ((128 <=? 10) && (10 <=? 143)) with false by reflexivity.
                cbn [andb]. destruct (_ && _); [reflexivity|]. destruct y as [|y1 y]; [reflexivity|].
                destruct (a =? 224); [reflexivity|]. destruct (_ || _); [reflexivity|]. destruct (a =? 237); [reflexivity|].
                destruct y as [|y2 y]; [reflexivity|]. destruct (a =? 240); [reflexivity|]. destruct (_ && _); [reflexivity|]. destruct (a =? 244); reflexivity. }
              destruct (btw 194 a 223); [rewrite IHn by lia; apply andb_assoc|].
              destruct l2 as [|c l3]; cbn [app length] in *.
              { unfold cont at 1 2 3 5 7 9. replace ((128 <=? 10) && (10 <=? 191)) with false by reflexivity. rewrite !andb_false_r. cbn [andb].
                destruct (a =? 224); [reflexivity|]. destruct (_ || _); [reflexivity|]. destruct (a =? 237); [reflexivity|].
                destruct y as [|y1 y]; [reflexivity|]. destruct (a =? 240); [reflexivity|]. destruct (btw 241 a 243); [reflexivity|]. destruct (a =? 244); reflexivity. }
              destruct (a =? 224); [rewrite IHn by lia; rewrite !andb_assoc; reflexivity|].
              destruct (btw 225 a 236 || btw 238 a 239); [rewrite IHn by lia; rewrite !andb_assoc; reflexivity|].
              destruct (a =? 237); [rewrite IHn by lia; rewrite !andb_assoc; reflexivity|].
              destruct l3 as [|d l4]; cbn [app length] in *.
              { unfold cont at 2 4 6. replace ((128 <=? 10) && (10 <=? 191)) with false by reflexivity. rewrite !andb_false_r. cbn [andb].
                destruct (a =? 240); [reflexivity|]. destruct (btw 241 a 243); [reflexivity|]. destruct (a =? 244); reflexivity. }
              destruct (a =? 240); [rewrite IHn by lia; rewrite !andb_assoc; reflexivity|].
              destruct (btw 241 a 243); [rewrite IHn by lia; rewrite !andb_assoc; reflexivity|].
              destruct (a =? 244); [rewrite IHn by lia; rewrite !andb_assoc; reflexivity|reflexivity]. 
Qed.
Lemma valid_lines : forall l y, utf8_valid ((l ++ [10]) ++ y) = utf8_valid l && utf8_valid y.
Proof. intros l y. apply (valid_lines_n y (length l)). lia. Qed.
Lemma valid_newline : forall l, utf8_valid (l ++ [10]) = utf8_valid l.
Proof. intros l. rewrite <- (app_nil_r (l ++ [10])), valid_lines. apply andb_true_r. Qed.

Section Stream.
  Variable parse_status : list Z -> option status.
  Variable emitter : bool.
  Notation read_response := (read_response parse_status emitter).
  Notation on_line := (on_line parse_status emitter).

  (** A line carries a status if, apart from white space around it, it is the
      base64 text of a JSON text of the status. *)
  Definition carries (line : list Z) (s : status) : Prop :=
    exists pre t post bytes, Forall white pre /\ Forall white post /\ line = utf8 pre ++ t ++ utf8 post /\
      t <> [] /\ std_decode t = Some bytes /\ parse_status bytes = Some s.

  Lemma line_emits : forall line s, emitter = true -> carries line s -> on_line line = [pb_status s].
  Proof.
    intros line s E (pre & t & post & bytes & W1 & W2 & -> & N & D & P).
    unfold NodeStatus.on_line. rewrite trim_core by (assumption || (eapply std_graphic; exact D)).
    destruct t; [congruence|]. rewrite D, P, E. reflexivity.
  Qed.
  (** What is emitted for a line: the status that it carries, if an emitter has
      been set, and nothing otherwise. *)
  Theorem C113_line_iff : forall line m, on_line line = [m] <-> emitter = true /\ exists s, carries line s /\ m = pb_status s.
  Proof.
    intros line m. split.
    - intros H. unfold NodeStatus.on_line in H. destruct (trim_split line) as (pre & post & W1 & W2 & E).
      destruct (trim line) as [|c t] eqn:T; [discriminate|]. destruct (std_decode (c :: t)) as [bytes|] eqn:D; [|discriminate].
      destruct (parse_status bytes) as [s|] eqn:P; [|discriminate]. destruct emitter; [|discriminate]. injection H as <-.
      split; [reflexivity|]. exists s. split; [|reflexivity]. exists pre, (c :: t), post, bytes.
      repeat split; try assumption. discriminate.
    - intros (E & s & C & ->). apply line_emits; assumption.
  Qed.
  Theorem C113_line_none : forall line, emitter = true -> (forall s, ~ carries line s) -> on_line line = [].
  Proof.
    intros line E H. destruct (on_line line) as [|m l] eqn:O; [reflexivity|]. exfalso.
    assert (L : l = []).
    { unfold NodeStatus.on_line in O. destruct (trim line); [discriminate|]. destruct (std_decode _); [|discriminate].
      destruct (parse_status _); [|discriminate]. destruct emitter; [|discriminate]. injection O as _ <-. reflexivity. }
    subst l. apply C113_line_iff in O. destruct O as (_ & s & C & _). exact (H s C).
  Qed.

  Definition out (ls : list (list Z)) : list (list Z) := flat_map (fun l => on_line (l ++ [10])) ls.
  Lemma run_lines : forall ls rest e fuel, Forall no_newline ls -> Forall valid ls ->
    read_response (length ls + fuel) (lines ls rest) e = (out ls ++ fst (read_response fuel rest e), snd (read_response fuel rest e)).
  Proof.
    induction ls as [|l ls IH]; intros rest e fuel N V.
    - cbn [length Nat.add lines flat_map app out]. destruct (read_response fuel rest e); reflexivity.
    - inversion N; subst. inversion V; subst. cbn [length Nat.add]. cbn [NodeStatus.read_response].
      unfold read_line. unfold lines. cbn [flat_map]. rewrite <- !app_assoc. cbn [app]. rewrite until_line by assumption.
      rewrite valid_newline. unfold valid in *. match goal with H : utf8_valid l = true |- _ => rewrite H end.
      fold (lines ls rest). rewrite IH by assumption. unfold out. cbn [flat_map]. rewrite <- app_assoc. reflexivity.
  Qed.
  Lemma eof_rounds : forall fuel, read_response fuel [] Closed = ([], None).
  Proof. induction fuel; [reflexivity|]. cbn [NodeStatus.read_response read_line until_newline utf8_valid]. rewrite IHfuel. reflexivity. Qed.

  (** What has been emitted, and how it ends, when all lines are texts. *)
  Theorem C113_open : forall ls rest k, Forall no_newline ls -> Forall valid ls -> no_newline rest ->
    read_response (length ls + S k) (lines ls rest) Silent = (out ls, Some Waiting).
  Proof.
    intros ls rest k N V R. rewrite run_lines by assumption. cbn [NodeStatus.read_response]. unfold read_line. rewrite until_last by exact R.
    cbn [fst snd]. rewrite app_nil_r. reflexivity.
  Qed.
  Theorem C113_failed : forall ls rest k, Forall no_newline ls -> Forall valid ls -> no_newline rest ->
    read_response (length ls + S k) (lines ls rest) Failed = (out ls, Some Returned).
  Proof.
    intros ls rest k N V R. rewrite run_lines by assumption. cbn [NodeStatus.read_response]. unfold read_line. rewrite until_last by exact R.
    cbn [fst snd]. rewrite app_nil_r. reflexivity.
  Qed.
  (** After a line that is no text nothing more is read, whatever follows. *)
  Theorem C113_broken : forall ls bad rest e k, Forall no_newline ls -> Forall valid ls -> no_newline bad -> ~ valid bad ->
    read_response (length ls + S k) (lines ls (bad ++ 10 :: rest)) e = (out ls, Some Returned).
  Proof.
    intros ls bad rest e k N V R B. rewrite run_lines by assumption. cbn [NodeStatus.read_response]. unfold read_line.
    rewrite until_line by exact R. rewrite valid_newline. unfold valid in B. destruct (utf8_valid bad); [congruence|].
    cbn [fst snd]. rewrite app_nil_r. reflexivity.
  Qed.
  (** At the end of the stream the reading goes on for ever. *)
  Theorem C113_closed : forall ls rest k, Forall no_newline ls -> Forall valid ls -> no_newline rest -> valid rest ->
    read_response (length ls + S k) (lines ls rest) Closed = (out ls ++ on_line rest, None).
  Proof.
    intros ls rest k N V R B. rewrite run_lines by assumption. cbn [NodeStatus.read_response]. unfold read_line.
    rewrite until_last by exact R. unfold valid in B. rewrite B, eof_rounds. cbn [fst snd]. rewrite app_nil_r. reflexivity.
  Qed.
  Lemma more_rounds : forall fuel bs e o r, read_response fuel bs e = (o, Some r) -> read_response (S fuel) bs e = (o, Some r).
  Proof.
    induction fuel; intros bs e o r H; [discriminate|]. remember (S fuel) as f eqn:F. cbn [NodeStatus.read_response].
    rewrite F in H. cbn [NodeStatus.read_response] in H. destruct (read_line bs e) as [l rest| |]; try exact H.
    destruct (read_response fuel rest e) as (o', r') eqn:E. injection H as <- ->.
    rewrite (IHfuel _ _ _ _ E). reflexivity.
  Qed.
  (** Reading ever returns if and only if the stream fails or is not a text. *)
  Theorem C113_returns_iff : forall bs,
    (exists fuel o, read_response fuel bs Closed = (o, Some Returned)) <-> utf8_valid bs = false.
  Proof.
    intros bs.
    assert (STEP : forall n bs, (length bs <= n)%nat ->
      (exists fuel o, read_response fuel bs Closed = (o, Some Returned)) <-> utf8_valid bs = false).
    { clear. induction n; intros bs L.
      - destruct bs; [|cbn in L; lia]. split; [|discriminate]. intros (fuel & o & H). rewrite eof_rounds in H. discriminate.
      - destruct (until_newline bs) as [(l, r)|] eqn:U.
        + assert (S : bs = l ++ r /\ exists l', l = l' ++ [10]).
          { clear -U. revert l r U. induction bs as [|b bs IH]; intros l r U; [discriminate|]. cbn [until_newline] in U.
            destruct (b =? 10) eqn:E; [injection U as <- <-; split; [reflexivity|exists []; cbn [app]; f_equal; lia]|].
            destruct (until_newline bs) as [(l', r')|]; [|discriminate]. injection U as <- <-.
            destruct (IH l' r' eq_refl) as (-> & l2 & ->). split; [reflexivity|]. exists (b :: l2). reflexivity. }
          destruct S as (-> & l' & ->).
          rewrite valid_lines. rewrite app_length in L. rewrite app_length in L. cbn [length] in L.
          assert (R : read_line ((l' ++ [10]) ++ r) Closed = if utf8_valid l' then Line (l' ++ [10]) r else LineErr).
          { unfold read_line. rewrite U, valid_newline. reflexivity. }
          destruct (utf8_valid l') eqn:V; cbn [andb].
          * specialize (IHn r ltac:(lia)). rewrite <- IHn. split.
            -- intros (fuel & o & H). destruct fuel; [discriminate|]. cbn [NodeStatus.read_response] in H. rewrite R in H.
               destruct (read_response fuel r Closed) as (o', r') eqn:E. injection H as <- ->. eauto.
            -- intros (fuel & o & H). exists (S fuel). cbn [NodeStatus.read_response]. rewrite R, H. eauto.
          * split; [reflexivity|]. intros _. exists 1%nat. cbn [NodeStatus.read_response]. rewrite R. eauto.
        + split.
          * intros (fuel & o & H). destruct fuel; [discriminate|]. cbn [NodeStatus.read_response] in H. unfold read_line in H. rewrite U in H.
            destruct (utf8_valid bs); [|reflexivity]. rewrite eof_rounds in H. discriminate.
          * intros V. exists 1%nat. cbn [NodeStatus.read_response]. unfold read_line. rewrite U, V. eauto. }
    apply (STEP (length bs)). lia.
  Qed.
End Stream.

(** a blank line, a line with white space around and one that is no base64;
    "e30=" is "{}" *)
Example C113_stream_example : forall s, status_ok s ->
  let parse bytes := if list_eq_dec Z.eq_dec bytes (str_bytes "{}") then Some s else None in
  read_response parse true 9 (lines [[]; [32; 101; 51; 48; 61; 13]; [33]] [101]) Silent = ([pb_status s], Some Waiting) /\
  read_response parse true 9 (lines [[101; 51; 48; 61]; [255]; [101; 51; 48; 61]] []) Closed = ([pb_status s], Some Returned) /\
  read_response parse true 9 (lines [[33]] [101; 51; 48]) Closed = ([pb_status s], None).
Proof. intros s _. repeat split. Qed.

(** Expected: reading ends when the stream ends. *)
Theorem C113_end_refuted : forall parse emitter, ~ (forall bs, exists fuel o r, read_response parse emitter fuel bs Closed = (o, Some r)).
Proof. intros parse emitter H. destruct (H []) as (fuel & o & r & E). rewrite eof_rounds in E. discriminate. Qed.

(** ** From the server to the page *)
Lemma graphic_valid : forall l, Forall graphic l -> utf8_valid l = true.
Proof. induction 1 as [|c l G _ IH]; [reflexivity|]. cbn [utf8_valid]. unfold graphic in G. replace (c <? 128) with true by lia. exact IH. Qed.
Lemma graphic_line : forall l, Forall graphic l -> no_newline l.
Proof. intros l G. unfold no_newline. rewrite Forall_forall in *. intros x X. specialize (G x X). unfold graphic in G. lia. Qed.
Definition page_reads (bytes : list Z) (p : peer_status) : Prop :=
  exists m, (forall fuel, (6 < fuel)%nat -> decode PeerStatus bytes fuel = Some (Ok m)) /\ p = peer_status_of m.

(** Statuses that a server writes one on a line, in base64 of JSON, are read by
    the page, all and in order. *)
Theorem C113_arrive : forall (parse : list Z -> option status) (print : status -> list Z) ss k,
  (forall s, In s ss -> parse (print s) = Some s /\ bytes_ok (print s) /\ print s <> []) ->
  Forall status_ok ss ->
  exists ps, Forall2 page_reads (fst (read_response parse true (length ss + S k) (lines (map (fun s => std_encode (print s)) ss) []) Silent)) ps /\
    Forall2 shows ss ps.
Proof.
  intros parse print ss k P O.
  assert (G : forall s, In s ss -> Forall graphic (std_encode (print s)) /\ std_encode (print s) <> [] /\
    std_decode (std_encode (print s)) = Some (print s)).
  { intros s I. destruct (P s I) as (_ & B & N). pose proof (std_round_trip _ B) as R. split; [eapply std_graphic; exact R|].
    split; [|exact R]. intros E. rewrite E in R. cbn in R. congruence. }
  replace (length ss) with (length (map (fun s => std_encode (print s)) ss)) by apply map_length.
  rewrite C113_open; [|rewrite Forall_map, Forall_forall; intros s I; apply graphic_line, (G s I)
    |rewrite Forall_map, Forall_forall; intros s I; apply graphic_valid, (G s I)|constructor].
  cbn [fst]. clear k. induction ss as [|s ss IH]; [exists []; split; constructor|].
  inversion O; subst. destruct IH as (ps & A & B).
  - intros s' I. apply P. right. exact I.
  - assumption.
  - intros s' I. apply G. right. exact I.
  - destruct (G s ltac:(left; reflexivity)) as (Gs & Ns & Ds). destruct (P s ltac:(left; reflexivity)) as (Ps & _ & _).
    destruct (C112_status s ltac:(assumption)) as (m & D & S). exists (peer_status_of m :: ps). split.
    + unfold out. cbn [map flat_map]. rewrite (line_emits parse true _ s); [|reflexivity|].
      * cbn [app]. constructor; [exists m; split; [exact D|reflexivity]|exact A].
      * exists [], (std_encode (print s)), [10], (print s). repeat split; try assumption; [constructor|].
        constructor; [unfold white; lia|constructor].
    + constructor; assumption.
Qed.
Example C113_arrive_example : exists (parse : list Z -> option status) (print : status -> list Z) ss,
  (forall s, In s ss -> parse (print s) = Some s /\ bytes_ok (print s) /\ print s <> []) /\ Forall status_ok ss /\ length ss = 2%nat.
Proof.
  set (a := {| st_connected := true; st_peer := [97]; st_sync := [98]; st_hash := []; st_commit := []; st_uptime := 5 |}).
  set (b := {| st_connected := false; st_peer := []; st_sync := []; st_hash := []; st_commit := []; st_uptime := 0 |}).
  exists (fun l => match l with [1] => Some a | [2] => Some b | _ => None end),
    (fun s => if st_connected s then [1] else [2]), [a; b].
  assert (T : forall l, (forall c, In c l -> 0 <= c < 128) -> (length l <= 1)%nat -> text_ok l).
  { intros l L N. split; [rewrite Forall_forall; intros c C; specialize (L c C); unfold scalar; lia|].
    destruct l as [|c [|? ?]]; [reflexivity| |cbn in N; lia]. specialize (L c ltac:(left; reflexivity)).
    unfold utf8. cbn [flat_map]. unfold utf8_point. replace (c <? 128) with true by lia. reflexivity. }
  split; [|split; [|reflexivity]].
  - intros s [<-|[<-|[]]]; (split; [reflexivity|]); (split; [repeat constructor; unfold byte_ok; lia|discriminate]).
  - repeat (apply Forall_cons || apply Forall_nil); unfold status_ok, a, b; cbn [st_peer st_sync st_hash st_commit st_uptime];
      (split; [apply T; [cbn [In]; intros; lia|cbn; lia]|]); (split; [apply T; [cbn [In]; intros; lia|cbn; lia]|]);
      (split; [apply T; [cbn [In]; intros; lia|cbn; lia]|]); (split; [apply T; [cbn [In]; intros; lia|cbn; lia]|]); lia.
Qed.

(** ** The table *)
Lemma put_undefined : forall p p', put_peer (str_bytes "undefined") p [(str_bytes "undefined", p')] = [(str_bytes "undefined", p)].
Proof. intros. unfold put_peer, same_key. destruct (list_eq_dec _ _ _); [reflexivity|congruence]. Qed.
Lemma last_cons : forall A (l : list A) q p, last (q :: l) p = last l q.
Proof.
  intros A l. induction l as [|a l IH]; intros q p; [reflexivity|]. change (last (q :: a :: l) p) with (last (a :: l) p).
  rewrite !IH. reflexivity.
Qed.
Lemma fold_updates : forall ps p, fold_left on_update ps [(str_bytes "undefined", p)] = [(str_bytes "undefined", last ps p)].
Proof.
  induction ps as [|q ps IH]; intros p; [reflexivity|]. cbn [fold_left]. unfold on_update at 2.
  change (key_of (prop q "peerId")) with (str_bytes "undefined"). rewrite put_undefined, IH. f_equal. f_equal.
  symmetry. apply last_cons.
Qed.
(** Whatever has been received, the table has one row, for the peer
    "undefined", with the flag of the last status and no other cell. *)
Theorem C113_rows : forall ps p, map row (show_peers (p :: ps)) =
  [(str_bytes "undefined", [prop (last ps p) "connected"; JSUndefined; JSUndefined; JSUndefined; JSUndefined])].
Proof.
  intros ps p. unfold show_peers. cbn [fold_left]. unfold on_update at 2. change (key_of (prop p "peerId")) with (str_bytes "undefined").
  cbn [put_peer]. rewrite fold_updates. reflexivity.
Qed.
Theorem C113_count : forall ps p, connected_count (show_peers (p :: ps)) =
  (if match connected (last ps p) with Some b => b | None => false end then 1 else 0)%nat.
Proof.
  intros ps p. unfold show_peers. cbn [fold_left]. unfold on_update at 2. change (key_of (prop p "peerId")) with (str_bytes "undefined").
  cbn [put_peer]. rewrite fold_updates. unfold connected_count. cbn [filter snd].
  change (prop (last ps p) "connected") with (js_opt JSBool (connected (last ps p))).
  destruct (connected (last ps p)) as [[|]|]; reflexivity.
Qed.
Definition peer_a : peer_status := {| connected := Some true; peer_id := Some [97]; sync_status := Some [98];
  protocol_state_hash := None; git_commit := None; uptime_minutes := None |}.
Definition peer_b : peer_status := {| connected := Some true; peer_id := Some [98]; sync_status := Some [98];
  protocol_state_hash := None; git_commit := None; uptime_minutes := None |}.
(** Expected: a row for each peer, and its values in the row. *)
Theorem C113_peers_refuted : ~ (forall ps p, In p ps -> NoDup (map peer_id ps) -> exists r, In r (show_peers ps) /\ snd r = p).
Proof.
  intros H. destruct (H [peer_a; peer_b] peer_a) as (r & I & E); [left; reflexivity| |].
  - repeat constructor; cbn [map In peer_id peer_a peer_b]; intuition congruence.
  - change (show_peers [peer_a; peer_b]) with [(str_bytes "undefined", peer_b)] in I. destruct I as [<-|[]]. discriminate E.
Qed.
Theorem C113_cells_refuted : ~ (forall p r, map row (show_peers [p]) = [r] -> In (js_opt JSText (sync_status p)) (snd r)).
Proof.
  intros H. specialize (H peer_a _ eq_refl). cbn in H. intuition discriminate.
Qed.

(** ** Connecting *)
(** The promise is kept if and only if dialling fails, and says then success. *)
Theorem C113_connect_iff : forall parse build addr dial req bs,
  connect parse build addr dial req = Resolved bs <->
  build = true /\ bs = pb_response true [] /\ exists a, parse req = Some a /\ addr a = true /\ dial a = false.
Proof.
  intros parse build addr dial req bs. unfold connect. split.
  - destruct (parse req) as [a|]; [|discriminate]. destruct build; [|discriminate]. destruct (addr a) eqn:A; [|discriminate].
    destruct (dial a) eqn:D; [discriminate|]. intros H. injection H as <-. repeat split. exists a. auto.
  - intros (-> & -> & a & -> & -> & ->). reflexivity.
Qed.
Theorem C113_connect_says : exists m, (forall fuel, (2 < fuel)%nat -> decode CommonResponse (pb_response true []) fuel = Some (Ok m)) /\
  find 1 m = Some (FBool true) /\ find 2 m = None.
Proof. destruct (C112_response true []) as (m & D & A & B); [split; [constructor|reflexivity]|]. exists m. auto. Qed.
Theorem C113_connect_panics_iff : forall parse build addr dial req,
  connect parse build addr dial req = Panicked <-> build = true /\ exists a, parse req = Some a /\ addr a = false.
Proof.
  intros parse build addr dial req. unfold connect. split.
  - destruct (parse req) as [a|]; [|discriminate]. destruct build; [|discriminate]. destruct (addr a) eqn:A; [destruct (dial a); discriminate|]. eauto.
  - intros (-> & a & -> & ->). reflexivity.
Qed.
(** Expected: success is a connection. *)
Theorem C113_success_refuted : ~ (forall parse build addr dial req bs, connect parse build addr dial req = Resolved bs ->
  exists a, parse req = Some a /\ dial a = true).
Proof.
  intros H. destruct (H (fun r => Some r) true (fun _ => true) (fun _ => false) [] _ eq_refl) as (a & _ & D). discriminate D.
Qed.
(** Expected: dialling succeeds, so the page hears about it. *)
Theorem C113_connected_refuted : ~ (forall parse build addr dial req a, parse req = Some a -> build = true -> addr a = true -> dial a = true ->
  exists bs, connect parse build addr dial req = Resolved bs).
Proof.
  intros H. destruct (H (fun r => Some r) true (fun _ => true) (fun _ => true) [] [] eq_refl eq_refl eq_refl eq_refl) as (bs & E). discriminate E.
Qed.
(** The address that the page sends is the one that is dialled. *)
Theorem C113_address : forall parse build addr dial cs, text_ok cs -> cs <> [] ->
  (forall cs, text_ok cs -> parse (pb_request cs) = Some cs) ->
  build = true -> addr cs = true -> connect parse build addr dial (encodeConnectRequest (Some (utf16 cs))) =
    if dial cs then Never else Resolved (pb_response true []).
Proof.
  intros parse build addr dial cs T N P -> A. destruct (C112_request cs T N) as (-> & _). unfold connect. rewrite P, A by exact T. reflexivity.
Qed.

Print Assumptions C113_line_iff.
Print Assumptions C113_line_none.
Print Assumptions C113_open.
Print Assumptions C113_failed.
Print Assumptions C113_broken.
Print Assumptions C113_closed.
Print Assumptions C113_returns_iff.
Print Assumptions C113_end_refuted.
Print Assumptions C113_arrive.
Print Assumptions C113_rows.
Print Assumptions C113_count.
Print Assumptions C113_peers_refuted.
Print Assumptions C113_cells_refuted.
Print Assumptions C113_connect_iff.
Print Assumptions C113_connect_says.
Print Assumptions C113_connect_panics_iff.
Print Assumptions C113_success_refuted.
Print Assumptions C113_connected_refuted.
Print Assumptions C113_address.
