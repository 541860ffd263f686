(** What reading a JSON document gives: the values read are values of the
    type, with the declared version numbers and defaults. *)

From Coq Require Import String ZArith List Bool Lia ZifyBool ZifyNat.
From Verif Require Import Lib.Res Lib.Bytes Lib.Text BinProt.Prim BinProt.Codec BinProt.CodecSpec BinProt.CodecProofs
  BinProt.BufRead BinProt.CodecProps Wire.Types Wire.WireProps
  Text.Numbers Text.NumbersProps Text.Base58 Text.Base58Props Text.Base64 Text.Base64Props
  Text.Hex Text.HexSpec Text.HexProps Text.FieldText Json.Json Json.JsonSpec Json.JsonFacts.
Import ListNotations.
Local Open Scope Z_scope.
Notation length := List.length.

Lemma conv_ok : forall E A (r : res E A) a, conv r = Ok a -> r = Ok a.
Proof. intros E A [x|e|] a H; cbn in H; congruence. Qed.
Lemma conv_panic : forall E A (r : res E A), conv r = Panic -> r = Panic.
Proof. intros E A [x|e|] H; cbn in H; congruence. Qed.
Lemma conv_opt_ok : forall A (r : option A) a, conv_opt r = Ok a -> r = Some a.
Proof. intros A [x|] a H; cbn in H; congruence. Qed.
Lemma rmap_ok : forall E A B (f : A -> B) (r : res E A) b, rmap f r = Ok b -> exists a, r = Ok a /\ b = f a.
Proof. intros E A B f [x|e|] b H; cbn in H; try discriminate. injection H as <-. eauto. Qed.
Lemma rmap_panic : forall E A B (f : A -> B) (r : res E A), rmap f r = Panic -> r = Panic.
Proof. intros E A B f [x|e|] H; cbn in H; try discriminate. reflexivity. Qed.

Lemma b64_shorter : forall s bs, b64_decode s = Some bs -> (length bs <= length s)%nat.
Proof.
  intros s bs H. unfold b64_decode in H. destruct (b64_split s) as (body, p) eqn:S. destruct (_ && _); [|discriminate].
  destruct (b64_digits body) as [ds|] eqn:D; [|discriminate]. apply split_spec in S. destruct S as (-> & _).
  rewrite app_length. apply chars_digits in D. destruct D as (_ & <-). rewrite map_length.
  enough (length bs <= length ds)%nat by lia. clear p.
  revert bs H. induction ds as [|a|a b|a b c|a b c d r IH] using list4_ind; intros bs H; cbn [b64_groups] in H.
  - injection H as <-. cbn; lia.
  - discriminate.
  - destruct (b mod 16 =? 0); [|discriminate]. injection H as <-. cbn; lia.
  - destruct (c mod 4 =? 0); [|discriminate]. injection H as <-. cbn; lia.
  - destruct (b64_groups r) as [bs'|]; [|discriminate]. injection H as <-. specialize (IH bs' eq_refl). cbn [length]. lia.
Qed.
Lemma b58c_shorter : forall checksum ver s bytes, b58c_decode checksum ver s = Ok bytes ->
  bytes_ok bytes /\ (length bytes <= length s)%nat.
Proof.
  intros checksum ver s bytes H. unfold b58c_decode in H. apply bind_ok in H. destruct H as (out & O & H).
  pose proof (decode_fits _ _ O) as L. apply encode_decode in O. destruct O as (B & _).
  destruct (Nat.ltb _ _); [discriminate|]. destruct (list_eqb _ _); [|discriminate]. destruct (_ =? _); [|discriminate].
  injection H as <-. split; [|rewrite firstn_length; lia].
  rewrite <- (firstn_skipn (length out - CHECKSUM_LEN) out) in B. apply bytes_ok_app in B. tauto.
Qed.

Lemma decimal_range : forall c s a, decimal_json_de c s = Ok a -> 0 <= a < 2 ^ 64.
Proof.
  intros c s a H. unfold decimal_json_de in H. destruct (split_on 46 s) as [|q rest]; [discriminate|].
  apply bind_ok in H. destruct H as (x & _ & H). apply bind_ok in H. destruct H as (y & _ & H).
  destruct (tl rest); [|discriminate]. apply bind_ok in H. destruct H as (m & _ & H).
  unfold add64 in H. destruct (_ && _); [discriminate|]. injection H as <-. unfold wrapu. apply Z.mod_pos_bound. lia.
Qed.

(** The defaults of skipped fields are values of their types. *)
Fixpoint defaults_ok (d : dty) : Prop :=
  match d with
  | DV d | DOpt d | DVec d => defaults_ok d
  | DTup fs | DStruct fs => defaults_flds fs
  | DEnum _ _ ws => defaults_vars ws
  | _ => True
  end
with defaults_flds (fs : flds) : Prop :=
  match fs with
  | FNil => True
  | FCons _ None d fs => defaults_ok d /\ defaults_flds fs
  | FCons _ (Some x) d fs => rust_val (wire_ty d) x /\ defaults_flds fs
  end
with defaults_vars (ws : vars) : Prop :=
  match ws with WNil => True | WCons _ _ fs ws => defaults_flds fs /\ defaults_vars ws end.

(** What reading guarantees at the string wrappers. *)
Definition read_ok (l : leaf) (v : val) : Prop :=
  key_ok l v /\ match l with LBytes => text_ok l v | _ => True end.

Lemma arr_ok : forall l, json_ok (JArr l) -> Z.of_nat (length l) < 2 ^ 63 /\ Forall json_ok l.
Proof.
  intros l (L & A). split; [exact L|]. clear L. induction l as [|j l IH]; [constructor|]. destruct A as (A & As). constructor; auto.
Qed.
Lemma obj_ok : forall m, json_ok (JObj m) -> Forall (fun p => json_ok (snd p)) m.
Proof. induction m as [|(k, j) m IH]; intros H; [constructor|]. destruct H as (A & As). constructor; auto. Qed.

Lemma missing_sound : forall P d v, missing d = Some v -> rust_val (wire_ty d) v /\ declared d v /\ leaves P d v.
Proof.
  intros P. induction d; intros v H; try discriminate; cbn [missing] in H.
  - destruct (missing d) as [w|]; [|discriminate]. injection H as <-. destruct (IHd w eq_refl) as (A & B & C).
    cbn [wire_ty declared leaves]. split; [|auto]. apply typed_tup. split; [exact I|]. eexists. split; [reflexivity|].
    cbn [typed_list]. split; [split; [cbn; lia|exact I]|]. split; [exact A|exact I].
  - injection H as <-. cbn. auto.
Qed.

Lemma obj_loop_inv : forall f m r, obj_loop f m = Ok r -> forall k v, assoc k r = Some v ->
  exists j, In (k, j) m /\ f k j = Some (Ok v).
Proof.
  intros f. induction m as [|(k0, j0) m IH]; intros r H k v A; cbn [obj_loop] in H.
  - injection H as <-. discriminate.
  - destruct (f k0 j0) as [x|] eqn:F.
    + apply bind_ok in H. destruct H as (w & -> & H). apply bind_ok in H. destruct H as (r' & H & E). injection E as <-.
      cbn [assoc] in A. destruct (key_eqb k0 k) eqn:K.
      * apply key_eqb_iff in K. subst k0. injection A as <-. exists j0. split; [left; reflexivity|exact F].
      * destruct (IH r' H k v A) as (j & I & E). exists j. split; [right; exact I|exact E].
    + destruct (IH r H k v A) as (j & I & E). exists j. split; [right; exact I|exact E].
Qed.

Section Read.
  Variable checked : bool.
  Variable checksum : list Z -> list Z.
  Variable unaddr : list Z -> option (list Z * bool).
  Hypothesis unaddr_ok : forall s x b, unaddr s = Some (x, b) -> bytes_ok x /\ length x = 32%nat /\ le_val x < FP_MODULUS.

  Notation leaf_de := (leaf_de checked checksum unaddr).
  Notation jde := (jde checked checksum unaddr).
  Notation jde_seq := (jde_seq checked checksum unaddr).
  Notation fld_de := (fld_de checked checksum unaddr).
  Notation jde_vars := (jde_vars checked checksum unaddr).

  Lemma versioned_sound : forall ver t s v, from_base58_versioned checksum checked ver t s = Ok v -> rust_val t v.
  Proof.
    intros ver t s v H. unfold from_base58_versioned in H. apply bind_ok in H. destruct H as (bytes & D & H).
    apply b58c_shorter in D. destruct D as (B & _). destruct bytes as [|x bytes]; [discriminate|].
    inversion B; subst. apply (strict_sound checked t bytes); [assumption|].
    destruct (from_reader_strict _ _ _ _); cbn in H; congruence.
  Qed.

  Lemma leaf_sound : forall l s v, bytes_ok s -> utf8_valid s = true -> Z.of_nat (length s) < 2 ^ 63 ->
    leaf_de l s = Ok v -> rust_val (leaf_ty l) v /\ read_ok l v.
  Proof.
    assert (SM : (2 : Z) ^ 63 < 2 ^ 64) by reflexivity.
    intros l s v B U L H. destruct l; cbn [Json.leaf_de leaf_ty] in *; unfold read_ok.
    - apply rmap_ok in H. destruct H as (z & H & ->). apply conv_ok, C43_json_exact in H. split; [split; [cbn; tauto|exact I]|split; exact I].
    - apply rmap_ok in H. destruct H as (z & H & ->). pose proof (to_ext_range z). split; [split; [cbn; lia|exact I]|split; exact I].
    - apply rmap_ok in H. destruct H as (z & H & ->). apply conv_ok, C43_json_exact in H. split; [split; [cbn; tauto|exact I]|split; exact I].
    - apply rmap_ok in H. destruct H as (z & H & ->). apply conv_ok, decimal_range in H. split; [split; [cbn; tauto|exact I]|split; exact I].
    - apply rmap_ok in H. destruct H as (z & H & ->). apply conv_ok in H. destruct s as [|c s]; [discriminate|].
      cbn in H. injection H as <-. inversion B; subst. unfold byte_ok in *. split; [split; [cbn; lia|exact I]|split; exact I].
    - injection H as <-. unfold bytevec_json_de. split; [apply seq_bytes; [exact B|lia]|]. split; [exact I|].
      cbn [text_ok]. rewrite ints_map. exact U.
    - apply conv_ok, versioned_sound in H. split; [exact H|split; exact I].
    - apply rmap_ok in H. destruct H as (z & H & ->). apply conv_ok in H. split; [|split; exact I].
      unfold from_base58 in H. apply bind_ok in H. destruct H as (bytes & D & H). apply b58c_shorter in D. destruct D as (Bb & Lb).
      destruct bytes; [discriminate|]. injection H as <-. inversion Bb; subst. cbn [length] in Lb. apply seq_bytes; [assumption|lia].
    - apply rmap_ok in H. destruct H as (z & H & ->). apply conv_ok in H. split; [|split; exact I].
      unfold memo_json_de in H. apply bind_ok in H. destruct H as (bytes & D & H). apply b58c_shorter in D. destruct D as (Bb & Lb).
      injection H as <-. destruct bytes as [|x bytes]; cbn [skipn].
      + apply seq_bytes; [constructor|cbn; lia].
      + inversion Bb; subst. cbn [length] in Lb. apply seq_bytes; [assumption|lia].
    - apply rmap_ok in H. destruct H as (z & H & ->). apply conv_opt_ok in H. split; [|split; exact I].
      pose proof (b64_shorter _ _ H). apply C83_accepts_iff in H. apply seq_bytes; [tauto|lia].
    - apply rmap_ok in H. destruct H as ((x, b) & H & ->). apply conv_opt_ok in H. destruct (unaddr_ok s x b H) as (Bx & Lx & Mx).
      cbn [fst snd]. split; [|split; [|exact I]].
      + apply typed_tup. split; [exact I|]. eexists. split; [reflexivity|]. cbn [typed_list]. split; [|split; [split; exact I|exact I]].
        apply (u8s_tup 32). exists x. auto.
      + cbn [key_ok]. rewrite ints_map. exact Mx.
    - apply conv_ok, versioned_sound in H. split; [exact H|split; exact I].
    - apply rmap_ok in H. destruct H as (z & H & ->). apply conv_ok in H. unfold field_json_de in H. apply C52_accepts_iff in H.
      destruct H as (p & s' & _ & _ & X & Lz). split; [|split; exact I].
      apply (u8s_tup 32). exists z. split; [reflexivity|]. split; [exact (hexes_bytes _ _ X)|exact Lz].
    - apply bind_ok in H. destruct H as (bs & D & H). apply conv_opt_ok, C83_accepts_iff in D. apply conv_ok, strict_sound in H; [|tauto].
      split; [exact H|split; exact I].
  Qed.

  Definition snd_d (d : dty) : Prop := jwf d = true -> defaults_ok d -> forall j v, json_ok j -> jde d j = Ok v ->
    rust_val (wire_ty d) v /\ declared d v /\ leaves read_ok d v.
  Definition good_vs (fs : flds) (vs : list val) : Prop :=
    typed_list rust_ok (wire_flds fs) vs /\ declared_flds fs vs /\ leaves_flds read_ok fs vs.
  Definition snd_fs (fs : flds) : Prop := jwf_flds fs = true -> defaults_flds fs ->
    (forall l vs, Forall json_ok l -> jde_seq fs l = Ok vs -> good_vs fs vs) /\
    (forall r vs, NoDup (keys fs) ->
       (forall k v, In k (keys fs) -> assoc k r = Some v -> exists j, json_ok j /\ fld_de fs k j = Some (Ok v)) ->
       assemble fs r = Ok vs -> good_vs fs vs).
  Definition snd_ws (ws : vars) : Prop := forall tg, jwf_vars tg ws = true -> defaults_vars ws ->
    forall n k arg p, match arg with Some j => json_ok j | None => True end -> jde_vars ws n k arg = Ok p ->
    exists i vs ts, p = ((n + i)%nat, vs) /\ nth_error (wire_vars ws) i = Some ts /\ typed_list rust_ok ts vs /\
      declared_vars ws i vs /\ leaves_vars read_ok ws i vs.

  Lemma snd_all : (forall d, snd_d d) /\ (forall fs, snd_fs fs) /\ (forall ws, snd_ws ws).
  Proof.
    pose proof (jde_eqs checked checksum unaddr) as EQ.
    destruct EQ as (E1 & E2 & E3 & E4 & E5 & E6 & E7 & E8 & E9 & E10 & E11 & E12 & E13).
    apply json_ind; unfold snd_d, snd_fs, snd_ws.
    - intros l W _ j v J H. destruct j; try discriminate. rewrite E1 in H. destruct J as (B & U & L).
      destruct (leaf_sound l s v B U L H) as (R & K). cbn [wire_ty declared leaves]. auto.
    - intros W _ j v J H. destruct j; try discriminate. cbn in H. injection H as <-. cbn. auto.
    - intros W _ j v J H. destruct j; try discriminate. cbn [Json.jde] in H. destruct (z <? 2 ^ 63) eqn:Z; [|discriminate].
      injection H as <-. cbn in J. split; [split; [cbn; lia|exact I]|split; exact I].
    - intros W _ j v J H. destruct j; try discriminate. cbn in H. injection H as <-. cbn. auto.
    - intros d IH W DF j v J H. rewrite E2 in H. apply bind_ok in H. destruct H as (w & H & E). injection E as <-.
      destruct (IH W DF j w J H) as (R & D & K). cbn [wire_ty declared leaves]. split; [|auto].
      apply typed_tup. split; [exact I|]. eexists. split; [reflexivity|].
      cbn [typed_list]. split; [split; [cbn; lia|exact I]|]. split; [exact R|exact I].
    - intros d IH W DF j v J H. rewrite E3 in H. cbn [jwf] in W. apply andb_true_iff in W. destruct W as (_ & W).
      assert (H' : (j = JNull /\ v = VNone) \/ exists w, jde d j = Ok w /\ v = VSome w).
      { destruct j; try (apply rmap_ok in H; right; exact H). injection H as <-. auto. }
      destruct H' as [(-> & ->)|(w & H' & ->)].
      + cbn. auto.
      + destruct (IH W DF j w J H') as (R & D & K). cbn [wire_ty declared leaves]. split; [|auto]. split; [exact I|exact R].
    - intros d IH W DF j v J H. destruct j as [| | | | |l|]; try discriminate. rewrite E4 in H. apply rmap_ok in H. destruct H as (vs & H & ->).
      apply arr_ok in J. destruct J as (JL & JA). cbn [jwf defaults_ok wire_ty declared leaves] in *.
      assert (X : length vs = length l /\ typed_all rust_ok (wire_ty d) vs /\ Forall (declared d) vs /\ Forall (leaves read_ok d) vs).
      { clear JL. revert vs H. induction JA as [|j l Jj JA IHl]; intros vs H; cbn [mapM] in H.
        - injection H as <-. cbn. auto.
        - apply bind_ok in H. destruct H as (w & Hw & H). apply bind_ok in H. destruct H as (ws & Hs & H). injection H as <-.
          destruct (IHl ws Hs) as (A1 & A2 & A3 & A4). destruct (IH W DF j w Jj Hw) as (R & D & K).
          cbn [length]. split; [lia|]. split; [split; assumption|]. split; constructor; assumption. }
      destruct X as (A1 & A2 & A3 & A4). split; [|auto]. apply typed_seq. split; [cbn; lia|]. exists vs. auto.
    - intros fs IH W DF j v J H. destruct j as [| | | | |l|]; try discriminate. rewrite E5 in H. apply rmap_ok in H. destruct H as (vs & H & ->).
      apply arr_ok in J. destruct J as (_ & JA). destruct (IH W DF) as (IH1 & _). destruct (IH1 l vs JA H) as (A1 & A2 & A3).
      cbn [wire_ty declared leaves]. split; [|auto]. apply typed_tup. split; [exact I|]. exists vs. auto.
    - intros fs IH W DF j v J H. cbn [jwf] in W. apply andb_true_iff in W. destruct W as (ND & W). apply nodupb_iff in ND.
      destruct (IH W DF) as (IH1 & IH2).
      assert (X : exists vs, v = VTup vs /\ good_vs fs vs).
      { destruct j as [| | | | |l|m]; try discriminate.
        - rewrite E7 in H. apply rmap_ok in H. destruct H as (vs & H & ->). apply arr_ok in J. destruct J as (_ & JA).
          exists vs. eauto.
        - rewrite E6 in H. apply bind_ok in H. destruct H as (r & O & H). apply rmap_ok in H. destruct H as (vs & H & ->).
          exists vs. split; [reflexivity|]. apply (IH2 r vs ND); [|exact H]. intros k v _ A.
          destruct (obj_loop_inv _ _ _ O k v A) as (j & Ij & F). exists j. split; [|exact F].
          apply obj_ok in J. rewrite Forall_forall in J. exact (J _ Ij). }
      destruct X as (vs & -> & A1 & A2 & A3). cbn [wire_ty declared leaves]. split; [|auto]. apply typed_tup. split; [exact I|]. exists vs. auto.
    - intros tg poly ws IH W DF j v J H. rewrite E8 in H. cbn [jwf] in W. apply andb_true_iff in W. destruct W as (_ & W).
      apply bind_ok in H. destruct H as (e & Te & H). apply bind_ok in H. destruct H as ((i0, vs0) & He & H). injection H as <-.
      assert (Je : json_ok e).
      { destruct tg; cbn [tag_de] in Te; [injection Te as <-; exact J|].
        destruct j as [| | | | |l|m]; try discriminate. apply arr_ok in J. destruct J as (JL & JA).
        destruct l as [|a l]; [discriminate|]. inversion JA; subst. destruct l as [|b l]; [destruct a; injection Te as <-; assumption|].
        destruct a; try (destruct l; discriminate).
        destruct l as [|c l]; injection Te as <-.
        - inversion H2; subst. cbn. auto.
        - inversion H2; subst. inversion H4; subst. cbn [length] in JL.
          enough (X : forall l, Z.of_nat (length l) < 2 ^ 63 -> Forall json_ok l -> json_ok (JArr l)).
          { split; [|exact I]. apply X; [cbn [length]; lia|assumption]. }
          clear. intros l L F. split; [exact L|]. clear L. induction F; [exact I|]. split; assumption. }
      assert (Hv : exists k arg, match arg with Some j => json_ok j | None => True end /\ jde_vars ws 0 k arg = Ok (i0, vs0)).
      { destruct e as [| | | |k| |m]; try discriminate; cbn [ext_de] in He.
        - exists k, None. auto.
        - destruct m as [|(k, x) [|]]; try discriminate. destruct Je as (Jx & _). exists k, (Some x). auto. }
      destruct Hv as (k & arg & Ja & Hv). destruct (IH tg W DF 0%nat k arg _ Ja Hv) as (i & vs & ts & E & N & T & D & K).
      injection E as -> ->. cbn [Nat.add declared leaves]. split; [|auto].
      apply (enum_typed poly ws). exists i, vs, ts. auto.
    - intros _ _. split; intros l vs F H.
      + destruct l; [|discriminate]. injection H as <-. repeat split.
      + intros E. cbn in E. injection E as <-. repeat split.
    - intros nm sk d IHd fs IH W DF. cbn [jwf_flds] in W. apply andb_true_iff in W. destruct W as (Wd & W).
      destruct sk as [x|]; cbn [defaults_flds] in DF; destruct DF as (Dd & Df); destruct (IH W Df) as (IH1 & IH2); split.
      + intros l vs F H. rewrite E9 in H. apply bind_ok in H. destruct H as (vs' & H & E). injection E as <-.
        destruct (IH1 l vs' F H) as (A1 & A2 & A3). repeat split; assumption.
      + intros r vs ND A H. cbn [assemble] in H. apply bind_ok in H. destruct H as (vs' & H & E). injection E as <-.
        cbn [keys] in *. assert (G : good_vs fs vs').
        { apply (IH2 r vs' ND); [|exact H]. intros k v Ik Ak. destruct (A k v Ik Ak) as (j & Jj & F). rewrite E11 in F. eauto. }
        destruct G as (A1 & A2 & A3). repeat split; assumption.
      + intros l vs F H. rewrite E10 in H. destruct l as [|j l]; [discriminate|]. inversion F; subst.
        apply bind_ok in H. destruct H as (w & Hw & H). apply bind_ok in H. destruct H as (vs' & H & E). injection E as <-.
        destruct (IH1 l vs' H3 H) as (A1 & A2 & A3). destruct (IHd Wd Dd j w H2 Hw) as (B1 & B2 & B3). repeat split; assumption.
      + intros r vs ND A H. cbn [assemble keys] in *. inversion ND; subst.
        apply bind_ok in H. destruct H as (w & Hw & H). apply bind_ok in H. destruct H as (vs' & H & E). injection E as <-.
        assert (G : good_vs fs vs').
        { apply (IH2 r vs' H3); [|exact H]. intros k v Ik Ak. destruct (A k v (or_intror Ik) Ak) as (j & Jj & F).
          rewrite E12 in F. rewrite key_neqb in F; [eauto|]. intros E; rewrite <- E in Ik; contradiction. }
        assert (Gw : rust_val (wire_ty d) w /\ declared d w /\ leaves read_ok d w).
        { destruct (assoc (str_bytes nm) r) as [u|] eqn:As.
          - injection Hw as ->. destruct (A _ _ (or_introl eq_refl) As) as (j & Jj & F). rewrite E12, key_eqb_refl in F.
            injection F as F. apply (IHd Wd Dd j w Jj F).
          - apply conv_opt_ok in Hw. apply missing_sound; exact Hw. }
        destruct G as (A1 & A2 & A3), Gw as (B1 & B2 & B3). repeat split; assumption.
    - intros tg _ _ n k arg p _ H. discriminate.
    - intros nm sh fs IHf ws IH tg W DF n k arg p Ja H. cbn [jwf_vars] in W. apply andb_true_iff in W. destruct W as (W & Ww).
      apply andb_true_iff in W. destruct W as (Wsh & Wf). cbn [defaults_vars] in DF. destruct DF as (Df & Dw).
      rewrite E13 in H. destruct (key_eqb (str_bytes nm) k).
      + apply bind_ok in H. destruct H as (vs & H & E). injection E as <-. exists 0%nat, vs, (wire_flds fs).
        rewrite Nat.add_0_r. split; [reflexivity|]. split; [reflexivity|]. cbn [declared_vars leaves_vars].
        destruct (IHf Wf Df) as (IH1 & IH2).
        enough (G : good_vs fs vs) by (destruct G as (A1 & A2 & A3); auto).
        destruct sh; cbn [shape_wf] in Wsh.
        * destruct arg as [[]|]; try discriminate; apply (IH1 [] vs (Forall_nil _) H).
        * destruct arg as [j|]; [|discriminate]. apply (IH1 [j] vs); [constructor; [exact Ja|constructor]|exact H].
        * destruct arg as [[| | | | |l|]|]; try discriminate. destruct l as [|a l]; [discriminate|].
          apply arr_ok in Ja. destruct Ja as (_ & JA). apply (IH1 _ vs JA H).
        * destruct arg as [[| | | | | |m]|]; try discriminate. apply bind_ok in H. destruct H as (r & O & H).
          apply nodupb_iff in Wsh. apply (IH2 r vs Wsh); [|exact H]. intros k' v _ A.
          destruct (obj_loop_inv _ _ _ O k' v A) as (j & Ij & F). exists j. split; [|exact F].
          apply obj_ok in Ja. rewrite Forall_forall in Ja. exact (Ja _ Ij).
      + destruct (IH tg Ww Dw (S n) k arg p Ja H) as (i & vs & ts & -> & N & T & D & K). exists (S i), vs, ts.
        rewrite Nat.add_succ_r. cbn [wire_vars nth_error declared_vars leaves_vars]. auto.
  Qed.
End Read.
