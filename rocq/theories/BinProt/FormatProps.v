(** Property C63: the bytes written are those of the bin_prot format. *)
From Coq Require Import ZArith List Bool String Lia ZifyBool ZifyNat.
From Verif Require Import Lib.Res Lib.Bytes BinProt.Prim BinProt.PrimProofs BinProt.PrimSpec
  BinProt.PrimSpecProofs BinProt.Codec BinProt.CodecSpec BinProt.CodecProofs BinProt.FormatSpec.
Import ListNotations.
Open Scope string_scope.
Open Scope list_scope.
Open Scope Z_scope.
Ltac Zify.zify_post_hook ::= Z.div_mod_to_equations.

Lemma le2_inj : forall a b a' b', is_byte a -> is_byte b -> is_byte a' -> is_byte b' ->
  le2 a b = le2 a' b' -> a = a' /\ b = b'.
Proof. unfold is_byte, le2. intros. change (2 ^ 8) with 256 in *. lia. Qed.
Lemma le4_inj : forall a b c d a' b' c' d', is_byte a -> is_byte b -> is_byte c -> is_byte d ->
  is_byte a' -> is_byte b' -> is_byte c' -> is_byte d' ->
  le4 a b c d = le4 a' b' c' d' -> a = a' /\ b = b' /\ c = c' /\ d = d'.
Proof.
  unfold is_byte, le4. intros.
  change (2 ^ 8) with 256 in *. change (2 ^ 16) with 65536 in *. change (2 ^ 24) with 16777216 in *. lia.
Qed.
Lemma le8_inj : forall a b c d e f g h a' b' c' d' e' f' g' h',
  is_byte a -> is_byte b -> is_byte c -> is_byte d ->
  is_byte e -> is_byte f -> is_byte g -> is_byte h ->
  is_byte a' -> is_byte b' -> is_byte c' -> is_byte d' ->
  is_byte e' -> is_byte f' -> is_byte g' -> is_byte h' ->
  le8 a b c d e f g h = le8 a' b' c' d' e' f' g' h' ->
  [a; b; c; d; e; f; g; h] = [a'; b'; c'; d'; e'; f'; g'; h'].
Proof.
  intros. unfold le8 in *.
  pose proof (le4_range a b c d). pose proof (le4_range a' b' c' d').
  assert (E1 : le4 a b c d = le4 a' b' c' d') by lia.
  assert (E2 : le4 e f g h = le4 e' f' g' h') by lia.
  apply le4_inj in E1; auto. apply le4_inj in E2; auto.
  destruct E1 as (-> & -> & -> & ->). destruct E2 as (-> & -> & -> & ->). reflexivity.
Qed.
Lemma twos_inj : forall bits u v, 0 < bits -> 0 <= u < 2 ^ bits -> 0 <= v < 2 ^ bits ->
  twos bits u = twos bits v -> u = v.
Proof.
  intros bits u v Hb Hu Hv. unfold twos.
  assert (E : 2 ^ bits = 2 * 2 ^ (bits - 1)) by (rewrite <- Z.pow_succ_r by lia; f_equal; lia).
  destruct (Z.ltb_spec u (2 ^ (bits - 1))), (Z.ltb_spec v (2 ^ (bits - 1))); lia.
Qed.
Lemma int_form_inv : forall p n, int_form p n ->
  match p with
  | [a] => 0 <= a <= 128 /\ n = a
  | [h; a] => h = 255 /\ is_byte a /\ n = twos 8 a
  | [h; a; b] => h = 254 /\ is_byte a /\ is_byte b /\ n = twos 16 (le2 a b)
  | [h; a; b; c; d] => h = 253 /\ is_byte a /\ is_byte b /\ is_byte c /\ is_byte d /\ n = twos 32 (le4 a b c d)
  | [h; a; b; c; d; e; f; g; i] => h = 252 /\ (is_byte a /\ is_byte b /\ is_byte c /\ is_byte d /\
      is_byte e /\ is_byte f /\ is_byte g /\ is_byte i) /\ n = twos 64 (le8 a b c d e f g i)
  | _ => False
  end.
Proof. intros p n []; unfold is_byte in *; intuition lia. Qed.
Lemma nat_form_inv : forall p n, nat_form p n ->
  match p with
  | [a] => 0 <= a <= 128 /\ n = a
  | [h; a; b] => h = 254 /\ is_byte a /\ is_byte b /\ n = le2 a b
  | [h; a; b; c; d] => h = 253 /\ is_byte a /\ is_byte b /\ is_byte c /\ is_byte d /\ n = le4 a b c d
  | [h; a; b; c; d; e; f; g; i] => h = 252 /\ (is_byte a /\ is_byte b /\ is_byte c /\ is_byte d /\
      is_byte e /\ is_byte f /\ is_byte g /\ is_byte i) /\ n = le8 a b c d e f g i
  | _ => False
  end.
Proof. intros p n []; unfold is_byte in *; intuition lia. Qed.
Lemma canon_int_fun : forall a b n, canon_int a n -> canon_int b n -> a = b.
Proof.
  intros a b n (Fa & La) (Fb & Lb). rewrite <- La in Lb. clear La.
  apply int_form_inv in Fa, Fb.
  destruct a as [|a0 [|a1 [|a2 [|a3 [|a4 [|a5 [|a6 [|a7 [|a8 [|]]]]]]]]]]; try contradiction;
  destruct b as [|b0 [|b1 [|b2 [|b3 [|b4 [|b5 [|b6 [|b7 [|b8 [|]]]]]]]]]]; try contradiction; try discriminate.
  - destruct Fa as (_ & ->), Fb as (_ & ->). reflexivity.
  - destruct Fa as (-> & A & ->), Fb as (-> & B & E). apply twos_inj in E; unfold is_byte in *; try lia. congruence.
  - destruct Fa as (-> & A1 & A2 & ->), Fb as (-> & B1 & B2 & E).
    apply twos_inj in E; try lia; try (apply le2_range; auto). apply le2_inj in E; auto. destruct E; congruence.
  - destruct Fa as (-> & A1 & A2 & A3 & A4 & ->), Fb as (-> & B1 & B2 & B3 & B4 & E).
    apply twos_inj in E; try lia; try (apply le4_range; auto). apply le4_inj in E; auto. destruct E as (? & ? & ? & ?); congruence.
  - destruct Fa as (-> & A & ->), Fb as (-> & B & E).
    apply twos_inj in E; try lia; try (apply le8_range; tauto). apply le8_inj in E; try tauto. congruence.
Qed.
Lemma canon_nat_fun : forall a b n, canon_nat a n -> canon_nat b n -> a = b.
Proof.
  intros a b n (Fa & La) (Fb & Lb). rewrite <- La in Lb. clear La.
  apply nat_form_inv in Fa, Fb.
  destruct a as [|a0 [|a1 [|a2 [|a3 [|a4 [|a5 [|a6 [|a7 [|a8 [|]]]]]]]]]]; try contradiction;
  destruct b as [|b0 [|b1 [|b2 [|b3 [|b4 [|b5 [|b6 [|b7 [|b8 [|]]]]]]]]]]; try contradiction; try discriminate.
  - destruct Fa as (_ & ->), Fb as (_ & ->). reflexivity.
  - destruct Fa as (-> & A1 & A2 & ->), Fb as (-> & B1 & B2 & E). apply le2_inj in E; auto. destruct E; congruence.
  - destruct Fa as (-> & A1 & A2 & A3 & A4 & ->), Fb as (-> & B1 & B2 & B3 & B4 & E).
    apply le4_inj in E; auto. destruct E as (? & ? & ? & ?); congruence.
  - destruct Fa as (-> & A & ->), Fb as (-> & B & E). apply le8_inj in E; try tauto. congruence.
Qed.

Scheme fmt_mut := Induction for fmt Sort Prop
  with fmts_mut := Induction for fmts Sort Prop.
(** the format assigns at most one byte string to a value *)
Lemma fmt_fun : forall t v a, fmt t v a -> forall b, fmt t v b -> a = b.
Proof.
  apply (fmt_mut (fun t v a _ => forall b, fmt t v b -> a = b)
                 (fun ts vs a _ => forall b, fmts ts vs b -> a = b));
  try (intros; match goal with H : fmt _ _ _ |- _ => inversion H; subst; reflexivity end).
  - intros k z bs C b H. inversion H; subst. eapply canon_int_fun; eauto.
  - intros z bs L C b H. inversion H; subst; [eapply canon_int_fun; eauto|lia].
  - intros z bs L C b H. inversion H; subst; [lia|eapply canon_int_fun; eauto].
  - intros a b c d A B C D l H. inversion H; subst.
    match goal with E : le4 _ _ _ _ = _ |- _ => apply le4_inj in E; auto; destruct E as (-> & -> & -> & ->); reflexivity end.
  - intros a b c d e f g h A B C D E F G I l H. inversion H; subst.
    match goal with E : le8 _ _ _ _ _ _ _ _ = _ |- _ => apply le8_inj in E; auto end.
  - intros p l C b H. inversion H; subst. f_equal. eapply canon_nat_fun; eauto.
  - intros t v bs H IH b K. inversion K; subst. f_equal. auto.
  - intros t vs p bs C H IH b K. inversion K; subst. f_equal; [eapply canon_nat_fun; eauto|auto].
  - intros ts vs bs H IH b K. inversion K; subst. auto.
  - intros vars i ts vs bs N L H IH b K. inversion K; subst. f_equal.
    match goal with E : nth_error vars i = Some ?x |- _ => assert (x = ts) by congruence; subst x end. auto.
  - intros vars i nm ts vs bs a b c d N A B C D E H IH l K. inversion K; subst.
    match goal with E : nth_error vars i = Some (?y, ?x) |- _ => assert (x = ts) by congruence; assert (y = nm) by congruence; subst x y end.
    match goal with E' : le4 ?x _ _ _ = ocaml_tag nm |- _ => rewrite <- E in E'; apply le4_inj in E'; auto; destruct E' as (-> & -> & -> & ->) end.
    do 4 f_equal. auto.
  - intros b H. inversion H; subst. reflexivity.
  - intros t ts v vs a b H IH H' IH' l K. inversion K; subst. f_equal; auto.
Qed.

Lemma canon_write_int : forall n, i64 n -> canon_int (bin_write_integer n) n.
Proof. intros. split; [apply write_integer_form|apply write_integer_length]; auto. Qed.
Lemma canon_write_nat : forall n, u64 n -> canon_nat (bin_write_nat0 n) n.
Proof. intros. split; [apply write_nat0_form|apply write_nat0_length]; auto. Qed.

Lemma le4_bytes : forall z, 0 <= z < 2 ^ 32 -> exists a b c d, le_bytes 4 z = [a; b; c; d] /\
  is_byte a /\ is_byte b /\ is_byte c /\ is_byte d /\ le4 a b c d = z.
Proof.
  intros z Hz. cbn [le_bytes]. do 4 eexists. split; [reflexivity|].
  unfold is_byte, le4. change (2 ^ 8) with 256. change (2 ^ 16) with 65536. change (2 ^ 24) with 16777216.
  change (2 ^ 32) with 4294967296 in Hz. lia.
Qed.
Lemma le8_bytes : forall z, 0 <= z < 2 ^ 64 -> exists a b c d e f g h, le_bytes 8 z = [a; b; c; d; e; f; g; h] /\
  is_byte a /\ is_byte b /\ is_byte c /\ is_byte d /\ is_byte e /\ is_byte f /\ is_byte g /\ is_byte h /\
  le8 a b c d e f g h = z.
Proof.
  intros z Hz.
  destruct (le4_bytes (z mod 2 ^ 32) ltac:(lia)) as (a & b & c & d & E1 & A & B & C & D & L1).
  destruct (le4_bytes (z / 2 ^ 32) ltac:(lia)) as (e & f & g & h & E2 & P & Q & R & T & L2).
  exists a, b, c, d, e, f, g, h. split.
  - change (le_bytes 8 z) with (le_bytes 4 z ++ le_bytes 4 (z / 256 / 256 / 256 / 256)).
    replace (z / 256 / 256 / 256 / 256) with (z / 2 ^ 32) by (rewrite !Z.div_div by lia; reflexivity). rewrite E2.
    replace (le_bytes 4 z) with (le_bytes 4 (z mod 2 ^ 32)); [rewrite E1; reflexivity|].
    cbn [le_bytes]. change (2 ^ 32) with 4294967296. repeat (apply f_equal2; [lia|]). reflexivity.
  - repeat split; auto. all: try (unfold is_byte in *; lia). unfold le8. rewrite L1, L2. lia.
Qed.

Section Write.
  Notation P := (fun t v => rust_ok t v /\ fmt_ok t v).
  Definition wr (t : ty) : Prop := forall v, representable t v -> exists bs, ser false t v = Ok bs /\ fmt t v bs.

  Lemma wr_list : forall ts, Forall wr ts -> forall vs, typed_list P ts vs ->
    exists bs, ser_list false ts vs = Ok bs /\ fmts ts vs bs.
  Proof.
    induction ts as [|t ts IH]; intros HF vs HT; destruct vs as [|v vs]; try contradiction.
    - exists []. split; [reflexivity|constructor].
    - inversion HF; subst. destruct HT as (Hv & Hvs).
      destruct (H1 v Hv) as (a & Sa & Fa). destruct (IH H2 vs Hvs) as (b & Sb & Fb).
      exists (a ++ b). cbn [ser_list]. rewrite Sa. cbn [bind]. rewrite Sb. split; [reflexivity|constructor; auto].
  Qed.

  Lemma ocaml_word : forall nm, Z.lor (wrapu 32 (2 * name_hash32 nm)) 1 = ocaml_tag nm.
  Proof.
    intros nm. assert (E : Z.lor (wrapu 32 (2 * name_hash32 nm)) 1 = wrapu 32 (2 * name_hash32 nm) + 1).
    { unfold wrapu. set (h := name_hash32 nm).
      replace ((2 * h) mod 2 ^ 32) with (2 * (h mod 2 ^ 31)).
      2:{ change (2 ^ 32) with (2 * 2 ^ 31). rewrite Zmult_mod_distr_l. reflexivity. }
      generalize (h mod 2 ^ 31). intros x. destruct x; try reflexivity. destruct p; reflexivity. }
    rewrite E. unfold wrapu, ocaml_tag, ocaml_hash, name_hash32.
    generalize (name_value nm). intros x. cbv zeta.
    destruct (Z.ltb_spec (x mod 2 ^ 31) (2 ^ 30)); lia.
  Qed.

  Lemma writes_format : forall t, wr t.
  Proof.
    induction t using ty_ind'; intros v Hv.
    - destruct Hv as ((Hr & Hw) & K), v; try contradiction. eexists. split; [reflexivity|constructor].
    - destruct Hv as ((Hr & Hw) & K), v; try contradiction. eexists. split; [reflexivity|destruct b; constructor].
    - destruct Hv as ((Hr & Hw) & K), v; try contradiction. cbn in Hr, Hw. eexists. split; [reflexivity|].
      unfold bin_write_char, wrapu. rewrite Z.mod_small by lia. constructor. unfold is_byte. lia.
    - destruct Hv as ((Hr & Hw) & K), v; try contradiction. cbn in Hr. eexists. split; [reflexivity|].
      constructor. unfold is_byte. lia.
    - destruct Hv as ((Hr & Hw) & K), v; try contradiction. eexists. split; [reflexivity|].
      constructor. apply canon_write_int. unfold i64. destruct k; cbn in Hr; lia.
    - destruct Hv as ((Hr & Hw) & K), v; try contradiction. cbn in Hr. eexists. split; [reflexivity|].
      destruct (Z.lt_ge_cases z (2 ^ 63)).
      + rewrite wraps_id by (change (64 - 1) with 63; lia). apply F_u64_low; auto.
        apply canon_write_int. unfold i64. lia.
      + apply F_u64_high; auto.
        replace (wraps 64 z) with (z - 2 ^ 64).
        2:{ unfold wraps, signed. rewrite Z.mod_small by lia. change (64 - 1) with 63.
            destruct (Z.ltb_spec z (2 ^ 63)); lia. }
        apply canon_write_int. unfold i64. lia.
    - destruct Hv as ((Hr & Hw) & K), v; try contradiction. cbn in Hr. eexists. split; [reflexivity|].
      unfold bin_write_float32. destruct (le4_bytes bits Hr) as (a & b & c & d & -> & A & B & C & D & <-).
      constructor; auto.
    - destruct Hv as ((Hr & Hw) & K), v; try contradiction. cbn in Hr. eexists. split; [reflexivity|].
      unfold bin_write_float64.
      destruct (le8_bytes bits Hr) as (a & b & c & d & e & f & g & h & -> & A & B & C & D & E & F & G & I & <-).
      constructor; auto.
    - destruct Hv as ((Hr & Hw) & K), v; try contradiction. cbn in Hr. eexists. split; [reflexivity|].
      constructor. apply canon_write_nat. unfold u64. lia.
    - destruct Hv as ((Hr & Hw) & K), v; try contradiction.
      + eexists. split; [reflexivity|constructor].
      + destruct (IHt v K) as (a & Sa & Fa). exists (1 :: a). cbn [ser]. rewrite Sa.
        split; [reflexivity|constructor; auto].
    - apply typed_seq in Hv. destruct Hv as ((Hr & Hw) & vs & -> & K). cbn in Hr.
      assert (G : exists bs, ser_all false t vs = Ok bs /\ fmts (List.repeat t (List.length vs)) vs bs).
      { clear Hr Hw. induction vs as [|v vs IH].
        - exists []. split; [reflexivity|constructor].
        - destruct K as (Hv & Hvs). destruct (IHt v Hv) as (a & Sa & Fa). destruct (IH Hvs) as (b & Sb & Fb).
          exists (a ++ b). rewrite ser_all_cons, Sa. cbn [bind]. rewrite Sb. split; [reflexivity|].
          cbn [List.length List.repeat]. constructor; auto. }
      destruct G as (bs & Sb & Fb). eexists. rewrite ser_seq, Sb. split; [reflexivity|].
      constructor; auto. apply canon_write_nat. unfold u64. lia.
    - apply typed_tup in Hv. destruct Hv as ((Hr & Hw) & vs & -> & K).
      destruct (wr_list ts H vs K) as (b & Sb & Fb). exists b. rewrite ser_tup. split; [auto|constructor; auto].
    - apply typed_enum in Hv. destruct Hv as ((Hr & Hw) & i & ws & ts & -> & N & K). cbn in Hw.
      assert (HF : Forall wr ts) by (rewrite Forall_forall in H; apply H; eapply nth_error_In; eauto).
      destruct (wr_list ts HF ws K) as (b & Sb & Fb).
      exists (Z.of_nat i :: b). rewrite ser_enum. unfold write_variant_index_or_tag.
      destruct (Z.ltb_spec (Z.of_nat i) 256); [|lia]. cbn [bind]. rewrite N, Sb.
      split; [reflexivity|]. econstructor; eauto.
    - apply typed_poly in Hv. destruct Hv as ((Hr & Hw) & i & ws & nm & ts & -> & N & K).
      assert (HF : Forall wr ts).
      { rewrite Forall_forall in H. apply nth_error_In in N. apply (H _ N). }
      destruct (wr_list ts HF ws K) as (b & Sb & Fb).
      exists (bin_write_polyvar_tag (name_hash32 nm) ++ b).
      rewrite ser_poly, N. unfold write_variant_index_or_tag. rewrite caml_hash_spec. cbn [andb bind].
      rewrite Sb. split; [reflexivity|]. unfold bin_write_polyvar_tag. rewrite ocaml_word.
      assert (R : 0 <= ocaml_tag nm < 2 ^ 32) by (unfold ocaml_tag; lia).
      destruct (le4_bytes _ R) as (w & x & y & z & -> & A & B & C & D & E).
      eapply F_poly; eauto.
  Qed.
End Write.

(** A release build writes exactly the bytes of the format. *)
Theorem C63_wire_format : forall t v bs, representable t v ->
  (to_bytes false t v = Ok bs <-> fmt t v bs).
Proof.
  intros t v bs H. destruct (writes_format t v H) as (b & S & F). unfold to_bytes. rewrite S. split.
  - congruence.
  - intros G. rewrite (fmt_fun _ _ _ F _ G). reflexivity.
Qed.
(** The format is a function on representable values, so the theorem fixes
    every byte. *)
Theorem C63_format_total : forall t v, representable t v -> exists! bs, fmt t v bs.
Proof.
  intros t v H. destruct (writes_format t v H) as (b & S & F). exists b. split; auto.
  intros b' G. exact (fmt_fun _ _ _ F _ G).
Qed.
Example C63_ex :
  representable (TTup [TU64; TOpt TBool; TPoly [("Payment", [TInt I16])]])
                (VTup [VInt (2 ^ 64 - 1); VSome (VBool true); VEnum 0 [VInt 300]]) /\
  fmt (TTup [TU64; TOpt TBool; TPoly [("Payment", [TInt I16])]])
      (VTup [VInt (2 ^ 64 - 1); VSome (VBool true); VEnum 0 [VInt 300]])
      [255; 255; 1; 1; 205; 37; 81; 118; 254; 44; 1].
Proof.
  split; [cbn -[Z.pow]; intuition lia|].
  apply C63_wire_format; [cbn -[Z.pow]; intuition lia|]. vm_compute. reflexivity.
Qed.

Print Assumptions C63_wire_format.
Print Assumptions C63_format_total.
