(** Crashes while reading JSON documents. *)

From Coq Require Import String ZArith List Bool Lia ZifyBool ZifyNat.
From Verif Require Import Lib.Res Lib.Bytes Lib.Text BinProt.Prim BinProt.Codec BinProt.CodecSpec BinProt.CodecProofs
  BinProt.CodecFacts BinProt.BufRead BinProt.BufReadProofs BinProt.CodecProps Wire.Types Wire.WireProps
  Text.Numbers Text.NumbersProps Text.Base58 Text.Base58Props Text.Base64 Text.Base64Props
  Text.Hex Text.HexSpec Text.HexProps Text.FieldText Json.Json Json.JsonSpec Json.JsonFacts Json.JsonReadFacts.
Import ListNotations.
Local Open Scope Z_scope.
Notation length := List.length.

Lemma strict_no_panic : forall c t bs, plain t = true -> from_reader_strict BUF_CAP c t (chunks_of bs) <> Panic.
Proof.
  intros c t bs P H.
  assert (Hi : Forall (fun ch => ch <> []) (chunks_of bs)).
  { destruct bs; cbn [chunks_of]; constructor; [discriminate|constructor]. }
  pose proof (buf_de BUF_CAP ltac:(unfold BUF_CAP; lia) c t (chunks_of bs) Hi) as B.
  pose proof (C12_no_panic c t (List.concat (chunks_of bs)) (plain_no_panic c t P)) as N.
  unfold from_reader_strict in H. destruct (from_slice c t (List.concat (chunks_of bs))) as [(v, r)|e|].
  - destruct B as ((buf, i') & E & _). rewrite E in H. cbn [bind fst] in H. destruct buf; discriminate.
  - rewrite B in H. discriminate.
  - apply N. reflexivity.
Qed.

(** The types whose reader has no crash in it. *)
Definition calm_leaf (checked : bool) (l : leaf) : bool :=
  match l with LChar | LField => false | LDec => negb checked | _ => true end.
Fixpoint calm (c : bool) (d : dty) : bool :=
  match d with
  | DLeaf l => calm_leaf c l
  | DV d | DOpt d | DVec d => calm c d
  | DTup fs | DStruct fs => calm_flds c fs
  | DEnum External _ ws => calm_vars c ws
  | DEnum (Listed _) _ _ => false
  | _ => true
  end
with calm_flds (c : bool) (fs : flds) : bool :=
  match fs with
  | FNil => true
  | FCons _ None d fs => calm c d && calm_flds c fs
  | FCons _ (Some _) _ fs => calm_flds c fs
  end
with calm_vars (c : bool) (ws : vars) : bool :=
  match ws with WNil => true | WCons _ _ fs ws => calm_flds c fs && calm_vars c ws end.

Section Crash.
  Variable checked : bool.
  Variable checksum : list Z -> list Z.
  Variable unaddr : list Z -> option (list Z * bool).
  Hypothesis checksum_len : forall l, length (checksum l) = 4%nat.
  Hypothesis checksum_bytes : forall l, bytes_ok (checksum l).
  (** the first byte of SHA-256 applied twice to nothing is 0x5d, the version
      byte of no kind of text *)
  Hypothesis checksum_empty : nth 0 (checksum []) 0 = 0x5d.

  Notation leaf_de := (leaf_de checked checksum unaddr).
  Notation jde := (jde checked checksum unaddr).
  Notation jde_seq := (jde_seq checked checksum unaddr).
  Notation fld_de := (fld_de checked checksum unaddr).
  Notation jde_vars := (jde_vars checked checksum unaddr).

  Definition leaf_real (l : leaf) : bool := match l with LHash v | LAux v => negb (v =? 0x5d) | _ => true end.
  Fixpoint real (d : dty) : bool :=
    match d with
    | DLeaf l => leaf_real l
    | DV d | DOpt d | DVec d => real d
    | DTup fs | DStruct fs => real_flds fs
    | DEnum _ _ ws => real_vars ws
    | _ => true
    end
  with real_flds (fs : flds) : bool :=
    match fs with FNil => true | FCons _ _ d fs => real d && real_flds fs end
  with real_vars (ws : vars) : bool :=
    match ws with WNil => true | WCons _ _ fs ws => real_flds fs && real_vars ws end.

  Lemma check_no_panic : forall ver s, b58c_decode checksum ver s <> Panic.
  Proof using Type.
    intros ver s H. unfold b58c_decode in H. apply bind_panic in H. destruct H as [H|(out & _ & H)].
    - unfold b58_decode in H. apply bind_panic in H. destruct H as [H|(ds & _ & H)]; [|discriminate].
      exact (digits_of_no_panic _ H).
    - destruct (Nat.ltb _ _); [discriminate|]. destruct (list_eqb _ _); [|discriminate]. destruct (_ =? _); discriminate.
  Qed.
  Lemma check_nonempty : forall ver s, ver <> 0x5d -> b58c_decode checksum ver s <> Ok [].
  Proof.
    intros ver s V H. apply (check_decode checksum checksum_len checksum_bytes) in H. destruct H as [(d & E & _)|(_ & _ & E)]; [discriminate|]. congruence.
  Qed.
  Lemma versioned_no_panic : forall ver t s, ver <> 0x5d -> plain t = true -> from_base58_versioned checksum checked ver t s <> Panic.
  Proof.
    intros ver t s V P H. unfold from_base58_versioned in H. apply bind_panic in H.
    destruct H as [H|(bytes & D & H)]; [exact (check_no_panic _ _ H)|].
    destruct bytes as [|x b]; [exact (check_nonempty _ _ V D)|].
    pose proof (strict_no_panic checked t b P) as N. destruct (from_reader_strict _ _ _ _); try discriminate. auto.
  Qed.
  Lemma decimal_no_panic : forall s, decimal_json_de false s <> Panic.
  Proof using Type.
    assert (O : forall b s, of_parse (parse_uint b s) <> Panic) by (intros b s; unfold of_parse; destruct (parse_uint b s); discriminate).
    intros s H. unfold decimal_json_de in H. destruct (split_on 46 s) as [|q rest]; [discriminate|].
    apply bind_panic in H. destruct H as [H|(x & _ & H)]; [exact (O _ _ H)|].
    apply bind_panic in H. destruct H as [H|(y & _ & H)]; [exact (O _ _ H)|].
    destruct (tl rest); [|discriminate]. unfold mul64, add64 in H. cbn in H. discriminate.
  Qed.

  Lemma leaf_no_panic : forall l s, calm_leaf checked l = true -> leaf_real l = true -> leaf_de l s <> Panic.
  Proof.
    intros l s C R H. destruct l; cbn [Json.leaf_de calm_leaf leaf_real] in *; try discriminate.
    - apply rmap_panic, conv_panic in H. apply C43_json_exact in H. exact H.
    - apply rmap_panic, conv_panic in H. apply C43_json_exact in H. exact H.
    - apply rmap_panic, conv_panic in H. apply (proj2 (proj2 (proj2 (C43_json_exact s)))) in H. exact H.
    - apply rmap_panic, conv_panic in H. apply negb_true_iff in C. rewrite C in H. exact (decimal_no_panic _ H).
    - apply conv_panic in H. apply versioned_no_panic in H; [exact H|lia|reflexivity].
    - apply rmap_panic, conv_panic in H. unfold from_base58 in H. apply bind_panic in H.
      destruct H as [H|(bytes & D & H)]; [exact (check_no_panic _ _ H)|].
      destruct bytes; [|discriminate]. apply check_nonempty in D; [exact D|lia].
    - apply rmap_panic, conv_panic in H. unfold memo_json_de in H. apply bind_panic in H.
      destruct H as [H|(bytes & D & H)]; [exact (check_no_panic _ _ H)|discriminate].
    - apply rmap_panic in H. destruct (b64_decode s); discriminate.
    - apply rmap_panic in H. destruct (unaddr s); discriminate.
    - apply conv_panic in H. apply versioned_no_panic in H; [exact H|unfold SIGNATURE; lia|reflexivity].
    - apply bind_panic in H. destruct H as [H|(bs & _ & H)]; [destruct (b64_decode s); discriminate|].
      apply conv_panic in H. apply strict_no_panic in H; [exact H|vm_compute; reflexivity].
  Qed.

  Definition still_d (d : dty) : Prop := calm checked d = true -> real d = true -> forall j, jde d j <> Panic.
  Definition still_fs (fs : flds) : Prop := calm_flds checked fs = true -> real_flds fs = true ->
    (forall l, jde_seq fs l <> Panic) /\ (forall k j, fld_de fs k j <> Some Panic).
  Definition still_ws (ws : vars) : Prop := calm_vars checked ws = true -> real_vars ws = true ->
    forall n k arg, jde_vars ws n k arg <> Panic.

  Lemma obj_no_panic : forall f m, (forall k j, f k j <> Some Panic) -> obj_loop f m <> Panic.
  Proof using Type.
    intros f m N. induction m as [|(k, j) m IH]; [discriminate|]. cbn [obj_loop]. intros H. specialize (N k j).
    destruct (f k j) as [x|]; [|auto]. apply bind_panic in H. destruct H as [->|(v & _ & H)]; [auto|].
    apply bind_panic in H. destruct H as [H|(r & _ & H)]; [auto|discriminate].
  Qed.
  Lemma assemble_no_panic : forall fs r, assemble fs r <> Panic.
  Proof using Type.
    induction fs as [|nm sk d fs IH]; intros r H; [discriminate|]. destruct sk; cbn [assemble] in H; apply bind_panic in H.
    - destruct H as [H|(vs & _ & H)]; [exact (IH r H)|discriminate].
    - destruct H as [H|(v & _ & H)].
      + destruct (assoc _ r); [discriminate|]. destruct (missing d); discriminate.
      + apply bind_panic in H. destruct H as [H|(vs & _ & H)]; [exact (IH r H)|discriminate].
  Qed.

  Lemma still_all : (forall d, still_d d) /\ (forall fs, still_fs fs) /\ (forall ws, still_ws ws).
  Proof.
    pose proof (jde_eqs checked checksum unaddr) as EQ.
    destruct EQ as (E1 & E2 & E3 & E4 & E5 & E6 & E7 & E8 & E9 & E10 & E11 & E12 & E13).
    apply json_ind; unfold still_d, still_fs, still_ws; cbn [calm calm_flds calm_vars real real_flds real_vars].
    - intros l C R j H. destruct j; try discriminate. rewrite E1 in H. exact (leaf_no_panic l s C R H).
    - intros _ _ j H. destruct j; discriminate.
    - intros _ _ j H. destruct j; try discriminate. cbn [Json.jde] in H. destruct (_ <? _); discriminate.
    - intros _ _ j H. destruct j; discriminate.
    - intros d IH C R j H. rewrite E2 in H. apply bind_panic in H. destruct H as [H|(v & _ & H)]; [exact (IH C R j H)|discriminate].
    - intros d IH C R j H. rewrite E3 in H. destruct j; try discriminate; apply rmap_panic in H; exact (IH C R _ H).
    - intros d IH C R j H. destruct j as [| | | | |l|]; try discriminate. rewrite E4 in H. apply rmap_panic in H.
      induction l as [|j l IHl]; [discriminate|]. cbn [mapM] in H. apply bind_panic in H.
      destruct H as [H|(v & _ & H)]; [exact (IH C R j H)|]. apply bind_panic in H. destruct H as [H|(vs & _ & H)]; [exact (IHl H)|discriminate].
    - intros fs IH C R j H. destruct j as [| | | | |l|]; try discriminate. rewrite E5 in H. apply rmap_panic in H.
      exact (proj1 (IH C R) l H).
    - intros fs IH C R j H. destruct j as [| | | | |l|m]; try discriminate.
      + rewrite E7 in H. apply rmap_panic in H. exact (proj1 (IH C R) l H).
      + rewrite E6 in H. apply bind_panic in H. destruct H as [H|(r & _ & H)].
        * exact (obj_no_panic _ _ (proj2 (IH C R)) H).
        * apply rmap_panic in H. exact (assemble_no_panic _ _ H).
    - intros tg p ws IH C R j H. destruct tg; [|discriminate]. rewrite E8 in H. cbn [tag_de bind] in H.
      apply bind_panic in H. destruct H as [H|((i, vs) & _ & H)]; [|discriminate].
      destruct j as [| | | |k| |m]; try discriminate; cbn [ext_de] in H; [exact (IH C R _ _ _ H)|].
      destruct m as [|(k, x) [|]]; try discriminate. exact (IH C R _ _ _ H).
    - intros _ _. split; [intros [|]; discriminate|discriminate].
    - intros nm sk d IHd fs IH C R. apply andb_true_iff in R. destruct R as (Rd & Rf).
      destruct sk as [x|].
      + destruct (IH C Rf) as (IH1 & IH2). split.
        * intros l H. rewrite E9 in H. apply bind_panic in H. destruct H as [H|(vs & _ & H)]; [exact (IH1 l H)|discriminate].
        * intros k j. rewrite E11. apply IH2.
      + apply andb_true_iff in C. destruct C as (Cd & Cf). destruct (IH Cf Rf) as (IH1 & IH2). split.
        * intros l H. rewrite E10 in H. destruct l as [|j l]; [discriminate|]. apply bind_panic in H.
          destruct H as [H|(v & _ & H)]; [exact (IHd Cd Rd j H)|].
          apply bind_panic in H. destruct H as [H|(vs & _ & H)]; [exact (IH1 l H)|discriminate].
        * intros k j H. rewrite E12 in H. destruct (key_eqb _ k); [|exact (IH2 k j H)]. injection H as H. exact (IHd Cd Rd j H).
    - intros _ _ n k arg H. discriminate.
    - intros nm sh fs IHf ws IH C R n k arg H. apply andb_true_iff in C, R. destruct C as (Cf & Cw), R as (Rf & Rw).
      destruct (IHf Cf Rf) as (IH1 & IH2). rewrite E13 in H. destruct (key_eqb _ k); [|exact (IH Cw Rw _ _ _ H)].
      apply bind_panic in H. destruct H as [H|(vs & _ & H)]; [|discriminate].
      destruct sh, arg as [j|]; try discriminate; try (exact (IH1 _ H)).
      + destruct j; try discriminate; exact (IH1 _ H).
      + destruct j as [| | | | |[|a l]|]; try discriminate; exact (IH1 _ H).
      + destruct j as [| | | | | |m]; try discriminate. apply bind_panic in H. destruct H as [H|(r & _ & H)].
        * exact (obj_no_panic _ _ IH2 H).
        * exact (assemble_no_panic _ _ H).
  Qed.
End Crash.

(** ** Documents that crash *)

Fixpoint crash (c : bool) (d : dty) : option json :=
  match d with
  | DLeaf LChar | DLeaf LField => Some (JStr [])
  | DLeaf LDec => if c then Some (JStr (str_bytes "18446744073709551615")) else None
  | DEnum (Listed _) _ _ => Some (JBool true)
  | DV d | DOpt d => crash c d
  | DVec d => match crash c d with Some j => Some (JArr [j]) | None => None end
  | DTup fs => match crash_fst c fs with Some j => Some (JArr [j]) | None => None end
  | DStruct fs => match crash_fld c fs with Some p => Some (JObj [p]) | None => None end
  | _ => None
  end
with crash_fst (c : bool) (fs : flds) : option json :=
  match fs with
  | FNil => None
  | FCons _ None d _ => crash c d
  | FCons _ (Some _) _ fs => crash_fst c fs
  end
with crash_fld (c : bool) (fs : flds) : option (list Z * json) :=
  match fs with
  | FNil => None
  | FCons nm None d fs => match crash c d with Some j => Some (str_bytes nm, j) | None => crash_fld c fs end
  | FCons _ (Some _) _ fs => crash_fld c fs
  end.

Section Crashes.
  Variable checked : bool.
  Variable checksum : list Z -> list Z.
  Variable unaddr : list Z -> option (list Z * bool).
  Notation jde := (jde checked checksum unaddr).
  Notation jde_seq := (jde_seq checked checksum unaddr).
  Notation fld_de := (fld_de checked checksum unaddr).

  Lemma crash_all : (forall d, jwf d = true -> forall j, crash checked d = Some j -> jde d j = Panic /\ j <> JNull) /\
    (forall fs, jwf_flds fs = true ->
       (forall j, crash_fst checked fs = Some j -> jde_seq fs [j] = Panic) /\
       (forall k j, NoDup (keys fs) -> crash_fld checked fs = Some (k, j) -> In k (keys fs) /\ fld_de fs k j = Some Panic)) /\
    (forall ws : vars, True).
  Proof.
    pose proof (jde_eqs checked checksum unaddr) as EQ.
    destruct EQ as (E1 & E2 & E3 & E4 & E5 & E6 & E7 & E8 & E9 & E10 & E11 & E12 & E13).
    apply json_ind; try (intros; discriminate).
    - intros l _ j H. destruct l; try discriminate; cbn [crash] in H.
      + destruct checked; [|discriminate]. injection H as <-. split; [reflexivity|discriminate].
      + injection H as <-. split; [reflexivity|discriminate].
      + injection H as <-. split; [reflexivity|discriminate].
    - intros d IH W j H. destruct (IH W j H) as (P & N). rewrite E2, P. auto.
    - intros d IH W j H. cbn [jwf] in W. apply andb_true_iff in W. destruct (IH (proj2 W) j H) as (P & N).
      split; [|exact N]. rewrite E3. destruct j; try (rewrite P; reflexivity). destruct (N eq_refl).
    - intros d IH W j H. cbn [crash] in H. destruct (crash checked d) as [x|]; [|discriminate]. injection H as <-.
      destruct (IH W x eq_refl) as (P & N). rewrite E4. cbn [mapM]. rewrite P. split; [reflexivity|discriminate].
    - intros fs IH W j H. cbn [crash] in H. destruct (crash_fst checked fs) as [x|]; [|discriminate]. injection H as <-.
      rewrite E5. rewrite (proj1 (IH W) x eq_refl). split; [reflexivity|discriminate].
    - intros fs IH W j H. cbn [crash] in H. destruct (crash_fld checked fs) as [(k, x)|]; [|discriminate]. injection H as <-.
      cbn [jwf] in W. apply andb_true_iff in W. destruct W as (ND & W). apply nodupb_iff in ND.
      destruct (proj2 (IH W) k x ND eq_refl) as (_ & F). rewrite E6. cbn [obj_loop]. rewrite F. split; [reflexivity|discriminate].
    - intros tg p ws _ W j H. destruct tg; [discriminate|]. injection H as <-. rewrite E8. split; [reflexivity|discriminate].
    - intros _. split; discriminate.
    - intros nm sk d IHd fs IH W. cbn [jwf_flds] in W. apply andb_true_iff in W. destruct W as (Wd & W).
      destruct (IH W) as (IH1 & IH2). destruct sk as [x|]; cbn [crash_fst crash_fld keys]; split.
      + intros j H. rewrite E9, (IH1 j H). reflexivity.
      + intros k j ND H. rewrite E11. apply IH2; assumption.
      + intros j H. rewrite E10. rewrite (proj1 (IHd Wd j H)). reflexivity.
      + intros k j ND H. inversion ND; subst. rewrite E12. destruct (crash checked d) as [y|].
        * injection H as <- <-. rewrite key_eqb_refl, (proj1 (IHd Wd y eq_refl)). split; [left; reflexivity|reflexivity].
        * destruct (IH2 k j H3 H) as (I & F). split; [right; exact I|].
          rewrite key_neqb; [exact F|]. intros E. rewrite E in H2. contradiction.
    - intros; exact I.
    - intros; exact I.
  Qed.
End Crashes.
