(** C122: the field elements and points of a proof as numbers and points of
    arkworks. *)

From Coq Require Import String ZArith List Bool Lia ZifyBool ZifyNat.
From Verif Require Import Lib.Res Lib.Bytes Text.FieldText Text.Hex BinProt.Codec Wire.Types Convert.BlockConv Convert.Conv Convert.Block Convert.View Hashing.Command Ledger.AccountWire Consensus.Genesis.
From Verif Require Import Convert.Curve Consensus.GenesisProof.
Import ListNotations.
Local Open Scope list_scope.
Local Open Scope Z_scope.

(** ** Specification *)
(** What the type [[u8; 32]] holds, and the number that it stands for: byte
    [i] counts 256^i. *)
Definition bytes32 (b : list Z) : Prop := List.length b = 32%nat /\ bytes_ok b.
Definition weight (b : list Z) (i : nat) : Z := nth i b 0 * 256 ^ Z.of_nat i.
Definition number (b : list Z) : Z := fold_right Z.add 0 (map (weight b) (seq 0 32)).
(** [y^2 = x^3 + 5], the equation of both curves *)
Definition on_curve (p : Z) (a : affine) : Prop := infinity a = true \/ (ay a * ay a) mod p = (ax a * ax a * ax a + 5) mod p.

(** ** Facts *)
Lemma number_le : forall b, List.length b = 32%nat -> number b = le_val b.
Proof.
  assert (G : forall b k, fold_right Z.add 0 (map (fun i => nth (i - k) b 0 * 256 ^ Z.of_nat i) (seq k (List.length b))) = 256 ^ Z.of_nat k * le_val b).
  { induction b as [|x b IH]; intros k; [cbn; ring|]. cbn [List.length seq map fold_right le_val].
    replace (k - k)%nat with 0%nat by lia. cbn [nth].
    replace (map _ (seq (S k) (List.length b))) with (map (fun i => nth (i - S k) b 0 * 256 ^ Z.of_nat i) (seq (S k) (List.length b))).
    - rewrite IH. rewrite Nat2Z.inj_succ, Z.pow_succ_r by lia. ring.
    - apply map_ext_in. intros i Hi. apply in_seq in Hi. replace (i - k)%nat with (S (i - S k)) by lia. reflexivity. }
  intros b L. unfold number. specialize (G b 0%nat). rewrite L in G. rewrite Z.pow_0_r, Z.mul_1_l in G. rewrite <- G. reflexivity.
Qed.
Lemma le_val_app : forall a b, le_val (a ++ b) = le_val a + 256 ^ Z.of_nat (List.length a) * le_val b.
Proof.
  induction a as [|x a IH]; intros b; [cbn; destruct (le_val b); reflexivity|].
  cbn [app le_val List.length]. rewrite IH, Nat2Z.inj_succ, Z.pow_succ_r by lia. ring.
Qed.
Lemma limbs_eq : forall n b l, List.length b = (8 * n)%nat -> read_limbs n b = Some l -> limbs_val l = le_val b.
Proof.
  induction n as [|n IH]; intros b l L R; cbn [read_limbs] in R.
  - injection R as <-. destruct b; [reflexivity|discriminate].
  - destruct (Nat.ltb_spec (List.length b) 8) as [S|S]; [discriminate|].
    destruct (read_limbs n (skipn 8 b)) as [l'|] eqn:E; [|discriminate]. injection R as <-. cbn [limbs_val].
    assert (K : List.length (skipn 8 b) = (8 * n)%nat) by (rewrite skipn_length; lia). rewrite (IH _ _ K E). rewrite <- (firstn_skipn 8 b) at 3. rewrite le_val_app, firstn_length, Nat.min_l by lia.
    reflexivity.
Qed.
Lemma limbs_some : forall n b, (8 * n <= List.length b)%nat -> exists l, read_limbs n b = Some l.
Proof.
  induction n as [|n IH]; intros b L; cbn [read_limbs]; [eauto|].
  destruct (Nat.ltb_spec (List.length b) 8) as [S|S]; [lia|].
  destruct (IH (skipn 8 b)) as (l & ->); [rewrite skipn_length; lia|]. eauto.
Qed.
Lemma number_range : forall b, bytes32 b -> 0 <= number b < 2 ^ 256.
Proof.
  intros b (L & B). rewrite number_le by exact L. pose proof (le_val_range b B) as R. rewrite L in R. exact R.
Qed.
Lemma field_is : forall p b, 1 < p -> bytes32 b -> field_of p b = if number b <? p then Ok (number b) else Panic.
Proof.
  intros p b P H. pose proof (number_range b H) as N. destruct H as (L & B). unfold field_of, to_repr.
  destruct (limbs_some 4 b) as (l & E); [rewrite L; cbn; lia|]. rewrite E. cbn [bind]. unfold from_repr.
  rewrite (limbs_eq 4 b l) by (try exact E; rewrite L; reflexivity). rewrite <- number_le by exact L.
  destruct (Z.eqb_spec (number b) 0) as [Z0|Z0]; destruct (Z.ltb_spec (number b) p); try reflexivity. lia.
Qed.
Lemma map_res_is : forall A B (f : A -> res Empty_set B) (ok : A -> Prop) (g : A -> B) l,
  (forall x, In x l -> (ok x /\ f x = Ok (g x)) \/ (~ ok x /\ f x = Panic)) ->
  (Forall ok l /\ map_res f l = Ok (map g l)) \/ (~ Forall ok l /\ map_res f l = Panic).
Proof.
  intros A B f ok g. induction l as [|x l IH]; intros H; cbn [map_res map]; [left; split; [constructor|reflexivity]|].
  destruct (H x (or_introl eq_refl)) as [(O & E)|(O & E)]; rewrite E; cbn [bind].
  - destruct IH as [(F & G)|(F & G)]; [intros y Y; apply H; right; exact Y| |]; rewrite G; cbn [bind].
    + left. split; [constructor; assumption|reflexivity].
    + right. split; [|reflexivity]. intros X. inversion X; subst. contradiction.
  - right. split; [|reflexivity]. intros X. inversion X; subst. contradiction.
Qed.

(** ** C122 *)
(** An element becomes the number that its bytes stand for, if that number is
    below the modulus; otherwise the conversion panics.  It never returns an
    error. *)
Theorem C122_field : forall p b, 1 < p -> bytes32 b ->
  (number b < p /\ field_of p b = Ok (number b)) \/ (p <= number b /\ field_of p b = Panic).
Proof. intros p b P H. rewrite field_is by assumption. destruct (Z.ltb_spec (number b) p); [left|right]; split; auto. Qed.
(** Different elements become different numbers, and the number gives the
    bytes back. *)
Theorem C122_back : forall p b v, 1 < p -> bytes32 b -> field_of p b = Ok v -> 0 <= v < p /\ le_bytes 32 v = b.
Proof.
  intros p b v P H E. rewrite field_is in E by assumption. destruct (Z.ltb_spec (number b) p); [|discriminate]. injection E as <-.
  pose proof (number_range b H). split; [lia|]. destruct H as (L & B). rewrite number_le by exact L. rewrite <- L. apply le_bytes_le_val, B.
Qed.
Theorem C122_injective : forall p b c v, 1 < p -> bytes32 b -> bytes32 c -> field_of p b = Ok v -> field_of p c = Ok v -> b = c.
Proof. intros p b c v P B C E F. apply C122_back in E, F; try assumption. destruct E as (_ & <-), F as (_ & <-). reflexivity. Qed.
(** Every number of the field is reached. *)
Theorem C122_onto : forall p v, 1 < p <= 2 ^ 256 -> 0 <= v < p -> exists b, bytes32 b /\ field_of p b = Ok v.
Proof.
  intros p v P V. exists (le_bytes 32 v). assert (H : bytes32 (le_bytes 32 v)) by (split; [apply le_bytes_length|apply le_bytes_ok]).
  assert (N : number (le_bytes 32 v) = v).
  { rewrite number_le by apply le_bytes_length. rewrite le_val_le_bytes. apply Z.mod_small. change (256 ^ Z.of_nat 32) with (2 ^ 256). lia. }
  split; [exact H|]. rewrite field_is by (try exact H; lia). rewrite N. destruct (Z.ltb_spec v p); [reflexivity|lia].
Qed.
(** A vector is converted element by element, in order. *)
Theorem C122_vector : forall p v, 1 < p -> Forall bytes32 v ->
  (Forall (fun b => number b < p) v /\ fields_of p v = Ok (map number v)) \/ (~ Forall (fun b => number b < p) v /\ fields_of p v = Panic).
Proof.
  intros p v P H. apply map_res_is. intros b I. rewrite Forall_forall in H. rewrite field_is by auto.
  destruct (Z.ltb_spec (number b) p); [left|right]; split; auto. lia.
Qed.

Definition point32 (pt : fpoint) : Prop := bytes32 (fst pt) /\ bytes32 (snd pt).
Definition inside (p : Z) (pt : fpoint) : Prop := number (fst pt) < p /\ number (snd pt) < p.
Definition affine_of (pt : fpoint) : affine := {| ax := number (fst pt); ay := number (snd pt); infinity := false |}.
(** A point keeps its two coordinates. *)
Theorem C122_point : forall p pt, 1 < p -> point32 pt ->
  (inside p pt /\ point_of p pt = Ok (affine_of pt)) \/ (~ inside p pt /\ point_of p pt = Panic).
Proof.
  intros p [x y] P (X & Y). unfold point_of, inside, affine_of. cbn [fst snd] in *. rewrite !field_is by assumption.
  destruct (Z.ltb_spec (number x) p); cbn [bind]; [|right; split; [lia|reflexivity]].
  destruct (Z.ltb_spec (number y) p); cbn [bind]; [left|right]; split; (reflexivity || lia || auto).
Qed.
Theorem C122_points : forall p v, 1 < p -> Forall point32 v ->
  (Forall (inside p) v /\ points_of p v = Ok (map affine_of v)) \/ (~ Forall (inside p) v /\ points_of p v = Panic).
Proof. intros p v P H. apply map_res_is. intros pt I. rewrite Forall_forall in H. apply C122_point; auto. Qed.
Theorem C122_pairs : forall p v, 1 < p -> Forall (fun xy => point32 (fst xy) /\ point32 (snd xy)) v ->
  (Forall (fun xy => inside p (fst xy) /\ inside p (snd xy)) v /\ pairs_of p v = Ok (map (fun xy => (affine_of (fst xy), affine_of (snd xy))) v)) \/
  (~ Forall (fun xy => inside p (fst xy) /\ inside p (snd xy)) v /\ pairs_of p v = Panic).
Proof.
  intros p v P H. apply (map_res_is _ _ _ (fun xy => inside p (fst xy) /\ inside p (snd xy)) (fun xy => (affine_of (fst xy), affine_of (snd xy)))).
  intros [x y] I. rewrite Forall_forall in H. destruct (H _ I) as (X & Y). cbn [fst snd] in *.
  destruct (C122_point p x P X) as [(A & E)|(A & E)]; rewrite E; cbn [bind]; [|right; split; [intros (Q & _); contradiction|reflexivity]].
  destruct (C122_point p y P Y) as [(B & F)|(B & F)]; rewrite F; cbn [bind]; [left|right]; split; auto. intros (_ & Q). contradiction.
Qed.
(** A point that may be infinite becomes infinite exactly if it was. *)
Theorem C122_infinite : forall p e, 1 < p -> match e with Finite pt => point32 pt | Infinite => True end ->
  (exists a, ecpoint_of p e = Ok a /\ (infinity a = true <-> e = Infinite) /\ (forall pt, e = Finite pt -> inside p pt /\ a = affine_of pt)) \/
  (ecpoint_of p e = Panic /\ exists pt, e = Finite pt /\ ~ inside p pt).
Proof.
  intros p [|pt] P H.
  - left. eexists. split; [reflexivity|]. split; [cbn; split; auto|]. discriminate.
  - assert (E : ecpoint_of p (Finite pt) = point_of p pt) by (destruct pt; reflexivity). rewrite E.
    destruct (C122_point p pt P H) as [(I & F)|(I & F)]; rewrite F; [left|right].
    + eexists. split; [reflexivity|]. split; [cbn; split; discriminate|]. intros q Q. injection Q as <-. auto.
    + split; [reflexivity|]. exists pt. auto.
Qed.
(** A vector of such points panics exactly if one of them is outside. *)
Theorem C122_infinites : forall p v, 1 < p -> Forall (fun e => match e with Finite pt => point32 pt | Infinite => True end) v ->
  (forall l, ecpoints_of p v = Ok l -> List.length l = List.length v /\
     forall i e a, nth_error v i = Some e -> nth_error l i = Some a -> ecpoint_of p e = Ok a) /\
  (ecpoints_of p v = Panic <-> exists pt, In (Finite pt) v /\ ~ inside p pt).
Proof.
  intros p v P. unfold ecpoints_of. induction v as [|e v IH]; intros H; cbn [map_res].
  - split; [intros l E; injection E as <-; split; [reflexivity|]; intros [|i] ? ? X; discriminate X|]. split; [discriminate|]. intros (pt & [] & _).
  - inversion H as [|? ? He Hv]; subst. destruct (IH Hv) as (A & B). clear IH H.
    destruct (C122_infinite p e P He) as [(a & E & _ & I)|(E & pt & -> & I)]; rewrite E; cbn [bind].
    + destruct (map_res (ecpoint_of p) v) as [l'|[]|] eqn:M; cbn [bind].
      * destruct (A l' eq_refl) as (L & N). split.
        { intros l X. injection X as <-. split; [cbn [List.length]; congruence|]. intros [|i] x y X Y; cbn in X, Y; [congruence|eauto]. }
        { split; [discriminate|]. intros (pt & [->|Hin] & O); [destruct (I pt eq_refl); contradiction|]. destruct B as (_ & B). exfalso.
          assert (X : @Ok Empty_set _ l' = Panic) by (apply B; eauto). discriminate X. }
      * split; [discriminate|]. split; [|reflexivity]. intros _. destruct (proj1 B eq_refl) as (pt & Hin & O). exists pt. split; [right|]; assumption.
    + split; [discriminate|]. split; [|reflexivity]. intros _. exists pt. split; [left; reflexivity|exact I].
Qed.

(** ** Refuted expectations *)
Lemma p_big : 1 < FP_MODULUS. Proof. reflexivity. Qed.
Lemma q_big : 1 < FQ_MODULUS. Proof. reflexivity. Qed.
(** The bytes of a point arrive without a check, and their conversion panics. *)
Definition big : list Z := List.repeat 255 32.
Theorem C122_never_panics_refuted : forall p, 1 < p < 2 ^ 255 -> exists bs, bytes32 bs /\
  try_from_binprot 1 true C_FiniteECPoint FiniteECPoint [bs ++ bs] = Ok (VTup [arrayv bs; arrayv bs]) /\
  point_of p (bs, bs) = Panic /\ ecpoint_of p (Finite (bs, bs)) = Panic /\ fields_of p [bs] = Panic.
Proof.
  intros p P. exists big. assert (B : bytes32 big) by (split; [reflexivity|apply Forall_forall; intros x X; apply repeat_spec in X; subst; unfold byte_ok; lia]).
  assert (N : number big = 2 ^ 256 - 1) by (vm_compute; reflexivity).
  assert (F : field_of p big = Panic) by (rewrite field_is by (try exact B; lia); rewrite N; destruct (Z.ltb_spec (2 ^ 256 - 1) p); [lia|reflexivity]).
  split; [exact B|]. split; [vm_compute; reflexivity|]. unfold point_of, ecpoint_of, fields_of. cbn [fst snd map_res]. rewrite F. auto.
Qed.
(** Bytes that one field takes, the other one refuses. *)
Theorem C122_same_field_refuted : exists b, bytes32 b /\ field_of FP_MODULUS b = Panic /\ field_of FQ_MODULUS b = Ok FP_MODULUS.
Proof.
  exists (le_bytes 32 FP_MODULUS). split; [split; [apply le_bytes_length|apply le_bytes_ok]|]. split; vm_compute; reflexivity.
Qed.
(** The points are not checked: a part of the first block of mainnet becomes a
    finite point that is on neither curve. *)
Definition x_hat_x : list Z := match field_from_hex (str_bytes "0xc0c84dfea15306bb962715b921c0117fde9f3f9dffa9734fca977cae86549037") with Ok b => b | _ => [] end.
Definition x_hat_y : list Z := match field_from_hex (str_bytes "0xad6cf259ffead18d3afd382f410e771a3d5d0f261454fa699693d81c45cc803c") with Ok b => b | _ => [] end.
Theorem C122_on_curve_refuted : exists px py a,
  (exists pr, mainnet_proof = Ok pr /\ field C_ProtocolStateProof "prev_x_hat" pr = VTup [arrayv px; arrayv py]) /\
  point_of FP_MODULUS (px, py) = Ok a /\ point_of FQ_MODULUS (px, py) = Ok a /\ ~ on_curve FP_MODULUS a /\ ~ on_curve FQ_MODULUS a.
Proof.
  exists x_hat_x, x_hat_y, {| ax := le_val x_hat_x; ay := le_val x_hat_y; infinity := false |}.
  split; [exists (match mainnet_proof with Ok p => p | _ => VUnit end); split; vm_compute; reflexivity|].
  split; [vm_compute; reflexivity|]. split; [vm_compute; reflexivity|].
  split; (intros [I|E]; [discriminate I|vm_compute in E; discriminate E]).
Qed.
(** The infinite point is not the zero of arkworks, which compares coordinates. *)
Theorem C122_zero_refuted : forall p, ecpoint_of p Infinite <> Ok affine_zero.
Proof. intros p E. discriminate E. Qed.

(** Examples: the other points of that block. *)
Definition text_point (x y : string) : fpoint :=
  (match field_from_hex (str_bytes x) with Ok b => b | _ => [] end, match field_from_hex (str_bytes y) with Ok b => b | _ => [] end).
Definition a_point : fpoint := text_point
  "0x9c84b80df8bb7db9a77648695dc02c08996d3b6ce15a9bca579dd4d1ef2ca831"
  "0x46fa45bdaa020b13e81365a2df2685c07d355deb88e2adf6a98769ab64177335".
Definition other_point : fpoint := text_point
  "0xc60a524476af46c04d571246d5dfd73b82d34a5cc50d3e279dd4e96239879c1b"
  "0xb9840fae14d5456882791e827d1b21be94a173c96e149e0a226af7d47431d604".
Definition generator : fpoint := text_point
  "0x0100000000000000000000000000000000000000000000000000000000000000"
  "0xbb2aedca237acf1971473d33d45b658f54ee7863f0a9df537c93120aa3b5741b".
Example C122_ex : point32 a_point /\ point32 other_point /\ point32 generator /\
  points_of FP_MODULUS [a_point; generator] = Ok [affine_of a_point; affine_of generator] /\
  Forall (on_curve FP_MODULUS) [affine_of a_point; affine_of generator] /\
  point_of FQ_MODULUS other_point = Ok (affine_of other_point) /\ on_curve FQ_MODULUS (affine_of other_point) /\
  ecpoints_of FP_MODULUS [Infinite; Finite generator] = Ok [{| ax := 0; ay := 0; infinity := true |}; affine_of generator] /\
  pairs_of FP_MODULUS [(a_point, generator); (generator, a_point)] =
    Ok [(affine_of a_point, affine_of generator); (affine_of generator, affine_of a_point)].
Proof.
  assert (B : forall pt, forallb (fun z => (0 <=? z) && (z <=? 255)) (fst pt ++ snd pt) = true -> List.length (fst pt) = 32%nat -> List.length (snd pt) = 32%nat -> point32 pt).
  { intros pt F L M. rewrite forallb_forall in F. split; split; try assumption; apply Forall_forall; intros z Z; unfold byte_ok;
      specialize (F z); rewrite in_app_iff in F; [specialize (F (or_introl Z))|specialize (F (or_intror Z))]; lia. }
  do 3 (split; [apply B; vm_compute; reflexivity|]).
  split; [vm_compute; reflexivity|]. split; [repeat apply Forall_cons; try apply Forall_nil; right; vm_compute; reflexivity|].
  split; [vm_compute; reflexivity|]. split; [right; vm_compute; reflexivity|]. split; vm_compute; reflexivity.
Qed.

Print Assumptions C122_field.
Print Assumptions C122_back.
Print Assumptions C122_injective.
Print Assumptions C122_onto.
Print Assumptions C122_vector.
Print Assumptions C122_point.
Print Assumptions C122_points.
Print Assumptions C122_pairs.
Print Assumptions C122_infinite.
Print Assumptions C122_infinites.
Print Assumptions C122_never_panics_refuted.
Print Assumptions C122_same_field_refuted.
Print Assumptions C122_on_curve_refuted.
Print Assumptions C122_zero_refuted.
