(** Facts about the wire format of layouts: what is written for a value, and
    that every accepted byte string has a canonical counterpart. *)
From Coq Require Import ZArith List Bool String Lia ZifyBool ZifyNat.
From Verif Require Import Lib.Res Lib.Bytes BinProt.Prim BinProt.PrimProofs BinProt.PrimSpec
  BinProt.PrimSpecProofs BinProt.FormatSpec BinProt.FormatProps
  Loose.Loose Loose.LooseSpec Loose.LooseProofs.
Import ListNotations.
Open Scope string_scope.
Open Scope list_scope.
Open Scope Z_scope.
Ltac Zify.zify_post_hook ::= Z.div_mod_to_equations.

Scheme wire_mut := Minimality for wire Sort Prop
  with wires_mut := Minimality for wires Sort Prop.
Combined Scheme wire_both from wire_mut, wires_mut.

Lemma vser_chars : forall l, bytes_ok l -> flat_map vser (map LChar l) = l.
Proof.
  induction l as [|c l IH]; intros H; cbn [map flat_map]; auto.
  apply bytes_ok_cons in H. destruct H as (Hc & H). unfold is_byte in Hc.
  cbn [vser]. unfold bin_write_char, wrapu. rewrite Z.mod_small by lia. cbn [app]. f_equal. auto.
Qed.

Lemma numbered_sum : forall ss i nm ix args, numbered (RSum ss) = true ->
  nth_error ss i = Some (nm, ix, args) -> ix = Z.of_nat i /\ forallb numbered args = true.
Proof.
  intros ss i nm ix args H E. cbn [numbered] in H. apply andb_true_iff in H. destruct H as (H1 & H2).
  split.
  - rewrite forallb_forall in H2.
    assert (I : In (i, ix) (combine (seq 0 (List.length ss)) (map (fun x => snd (fst x)) ss))).
    { assert (G : forall k, In ((k + i)%nat, ix) (combine (seq k (List.length ss)) (map (fun x => snd (fst x)) ss))).
      { clear H1 H2. revert i E. induction ss as [|x ss IH]; intros i E k; destruct i as [|i]; cbn [nth_error] in E; try discriminate.
        - injection E as ->. cbn. left. f_equal. lia.
        - cbn [List.length seq map combine]. right.
          replace (k + Datatypes.S i)%nat with (Datatypes.S k + i)%nat by lia. apply IH. auto. }
      apply (G O). }
    apply H2 in I. cbn [fst snd] in I. lia.
  - rewrite forallb_forall in H1. apply nth_error_In in E. apply H1 in E. exact E.
Qed.
Lemma numbered_poly : forall ps nm tag args, numbered (RPolyvar ps) = true ->
  In (inl (nm, tag, args)) ps -> 256 <= tag /\ forallb numbered args = true.
Proof.
  intros ps nm tag args H I. cbn [numbered] in H. rewrite forallb_forall in H. apply H in I. cbn [fst snd] in I.
  apply andb_true_iff in I. split; [lia|tauto].
Qed.
Lemma numbered_repeat : forall r n, numbered r = true -> forallb numbered (repeat r n) = true.
Proof. intros r n H. induction n; cbn [repeat forallb]; auto. rewrite H, IHn. auto. Qed.

Lemma flat_snd : forall (names : list string) vs, List.length names = List.length vs ->
  flat_map (fun f : string * value => vser (snd f)) (combine names vs) = flat_map vser vs.
Proof.
  induction names as [|k names IH]; intros vs L; destruct vs as [|v vs]; cbn [List.length] in L; try lia;
    cbn [combine flat_map snd]; auto. f_equal. apply IH. lia.
Qed.
Lemma wires_length : forall sz NF IF TF p rs vs bs q, wires sz NF IF TF p rs vs bs q ->
  List.length vs = List.length rs.
Proof.
  intros sz NF IF TF p rs vs bs q H. induction H; cbn [List.length]; auto.
Qed.

Lemma word_tag : forall a b c d tag, is_byte a -> is_byte b -> is_byte c -> is_byte d ->
  le4 a b c d = 2 * tag + 1 -> bin_write_polyvar_tag tag = [a; b; c; d].
Proof.
  intros a b c d tag Ha Hb Hc Hd E. pose proof (le4_range a b c d Ha Hb Hc Hd) as R.
  unfold bin_write_polyvar_tag, wrapu. rewrite Z.mod_small by lia.
  assert (L : Z.lor (2 * tag) 1 = 2 * tag + 1).
  { destruct tag as [|t|t]; [reflexivity|reflexivity|lia]. }
  rewrite L, <- E, <- le_val_4. apply (le_bytes_le_val [a; b; c; d]).
  repeat (apply bytes_ok_cons; split; auto). constructor.
Qed.

Section W.
  Variable sz : Z.
  Local Notation canonicals := (wires sz canon_nat canon_int (fun w tag => w = 2 * tag + 1)).
  Local Notation lenients := (wires sz nat_form int_form (fun w tag => w / 2 = tag)).

  Lemma canon_nat_write : forall bs n, canon_nat bs n -> bs = bin_write_nat0 n.
  Proof using Type.
    intros bs n C. eapply canon_nat_fun; [exact C|]. apply canon_write_nat. eapply nat_form_range, C.
  Qed.
  Lemma int_form_i64 : forall bs n, int_form bs n -> i64 n.
  Proof using Type.
    clear. intros bs n F. unfold i64. inversion F; subst.
    - lia.
    - pose proof (twos_range 8 a). unfold is_byte in *. lia.
    - pose proof (twos_range 16 (le2 a b)). pose proof (le2_range a b). lia.
    - pose proof (twos_range 32 (le4 a b c d)). pose proof (le4_range a b c d). lia.
    - pose proof (twos_range 64 (le8 a b c d e f g h)). pose proof (le8_range a b c d e f g h). lia.
  Qed.
  Lemma canon_int_write : forall bs n, canon_int bs n -> bs = bin_write_integer n.
  Proof using Type.
    intros bs n C. eapply canon_int_fun; [exact C|]. apply canon_write_int. eapply int_form_i64, C.
  Qed.

  Lemma canonical_written :
    (forall p r v bs q, canonical sz p r v bs q -> numbered r = true -> vser v = bs) /\
    (forall p rs vs bs q, canonicals p rs vs bs q -> forallb numbered rs = true -> flat_map vser vs = bs).
  Proof using Type.
    unfold canonical. apply wire_both; intros; cbn [vser]; try reflexivity.
    - unfold bin_write_char, wrapu. unfold is_byte in *. rewrite Z.mod_small by lia. reflexivity.
    - symmetry. apply canon_int_write. auto.
    - unfold bin_write_float64. rewrite <- le_val_8. apply (le_bytes_le_val [a; b; c; d; e; f; g; h]).
      repeat (apply bytes_ok_cons; split; auto). constructor.
    - rewrite map_length, vser_chars by auto. f_equal. symmetry. apply canon_nat_write. auto.
    - f_equal. auto.
    - pose proof (wires_length _ _ _ _ _ _ _ _ _ H) as L. rewrite map_length in L.
      rewrite flat_snd by (rewrite map_length; lia). apply H0. cbn [numbered] in H1.
      rewrite forallb_forall in *. intros x I. apply in_map_iff in I. destruct I as (f & <- & I). apply H1 in I. auto.
    - apply H0. auto.
    - destruct (numbered_sum _ _ _ _ _ H4 H) as (-> & N).
      unfold write_index_or_tag. replace (Z.of_nat i <? 256) with true by lia. cbn [app]. unfold bin_write_variant_index.
      cbn [app]. f_equal. auto.
    - subst ps. destruct (numbered_poly _ name tag args H8) as (T & N); [apply in_elt|].
      unfold write_index_or_tag. replace (tag <? 256) with false by lia.
      rewrite (word_tag a b c d tag) by auto. cbn [app]. rewrite H7; auto.
    - rewrite H2 by (apply numbered_repeat; auto). f_equal. symmetry. apply canon_nat_write. auto.
    - auto.
    - rewrite flat_map_app. cbn [flat_map vser app]. rewrite H2; auto.
      cbn [numbered forallb] in H3. apply numbered_repeat. apply andb_true_iff in H3. tauto.
    - apply vser_chars. auto.
    - cbn [forallb] in H3. apply andb_true_iff in H3. cbn [flat_map]. f_equal; [apply H0|apply H2]; tauto.
  Qed.

  Lemma canonical_lenient :
    (forall p r v bs q, canonical sz p r v bs q -> lenient sz p r v bs q) /\
    (forall p rs vs bs q, canonicals p rs vs bs q -> lenients p rs vs bs q).
  Proof using Type.
    unfold canonical, lenient. apply wire_both; intros; try (econstructor; eauto; fail).
    - constructor; auto. apply H0.
    - constructor; auto. apply H.
    - econstructor; eauto. lia.
    - constructor; auto. apply H.
  Qed.

  Lemma lenient_canonical :
    (forall p r v bs q, lenient sz p r v bs q -> exists bs', canonical sz p r v bs' q) /\
    (forall p rs vs bs q, lenients p rs vs bs q -> exists bs', canonicals p rs vs bs' q).
  Proof using Type.
    unfold canonical, lenient. apply wire_both; intros;
      repeat match goal with H : exists _, _ |- _ => destruct H as (? & ?) end;
      try (eexists; econstructor; eauto; fail).
    - exists (bin_write_integer z). constructor; auto. apply canon_write_int. eapply int_form_i64; eauto.
    - exists (bin_write_nat0 (Z.of_nat (List.length l)) ++ l). constructor; auto.
      apply canon_write_nat. eapply nat_form_range; eauto.
    - pose proof (le4_range a b c d H1 H2 H3 H4) as R.
      destruct (le4_bytes (2 * tag + 1)) as (a' & b' & c' & d' & _ & B1 & B2 & B3 & B4 & E); [lia|].
      eexists. eapply W_polyvar with (a := a') (b := b') (c := c') (d := d'); eauto.
    - eexists. constructor; eauto. apply canon_write_nat. eapply nat_form_range; eauto.
  Qed.

  Lemma nat_form_ok : forall bs n, nat_form bs n -> bytes_ok bs.
  Proof using Type.
    clear. intros bs n F. destruct F; repeat (apply bytes_ok_cons; split; [unfold is_byte in *; lia|]); constructor.
  Qed.
  Lemma int_form_ok : forall bs n, int_form bs n -> bytes_ok bs.
  Proof using Type.
    clear. intros bs n F. destruct F; repeat (apply bytes_ok_cons; split; [unfold is_byte in *; lia|]); constructor.
  Qed.
  Lemma lenient_ok :
    (forall p r v bs q, lenient sz p r v bs q -> bytes_ok bs) /\
    (forall p rs vs bs q, lenients p rs vs bs q -> bytes_ok bs).
  Proof using Type.
    assert (B0 : is_byte 0) by (unfold is_byte; lia). assert (B1 : is_byte 1) by (unfold is_byte; lia).
    assert (BN : bytes_ok []) by constructor.
    unfold lenient. apply wire_both; intros;
      repeat first [ apply bytes_ok_app; split | apply bytes_ok_cons; split ]; auto;
      try (eapply int_form_ok; eauto; fail); try (eapply nat_form_ok; eauto; fail).
    unfold is_byte. lia.
  Qed.
End W.
