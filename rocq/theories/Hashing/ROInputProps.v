(** Random oracle inputs: theorems. *)

From Coq Require Import ZArith List Bool Lia ZifyBool ZifyNat.
From Verif Require Import Lib.Res Lib.Bytes Text.FieldText Hashing.ROInput.
Import ListNotations.
Local Open Scope Z_scope.

Lemma pow254_lt : 2 ^ 254 < FP_MODULUS.
Proof. reflexivity. Qed.
Lemma modulus_lt : FP_MODULUS < 2 ^ 255.
Proof. reflexivity. Qed.

(** ** Bits *)

Lemma pow2_S : forall n, 2 ^ Z.of_nat (S n) = 2 * 2 ^ Z.of_nat n.
Proof. intros. rewrite Nat2Z.inj_succ, Z.pow_succ_r by lia. reflexivity. Qed.
Lemma b2z_range : forall b, 0 <= Z.b2z b <= 1.
Proof. destruct b; cbn; lia. Qed.
Lemma bits_of_length : forall n x, length (bits_of n x) = n.
Proof. induction n; intros; cbn [bits_of length]; auto. Qed.
Lemma bits_val_range : forall l, 0 <= bits_val l < 2 ^ Z.of_nat (length l).
Proof.
  induction l as [|b l IH]; [cbn; lia|]. cbn [bits_val length]. rewrite pow2_S. pose proof (b2z_range b). lia.
Qed.
Lemma bits_val_of : forall n x, bits_val (bits_of n x) = x mod 2 ^ Z.of_nat n.
Proof.
  induction n as [|n IH]; intros x; [cbn [bits_of bits_val]; rewrite Z.mod_1_r; reflexivity|].
  cbn [bits_of bits_val]. rewrite IH, pow2_S. rewrite Z.rem_mul_r by lia. rewrite Zmod_odd.
  destruct (Z.odd x); cbn; lia.
Qed.
Lemma bits_val_inj : forall a b, length a = length b -> bits_val a = bits_val b -> a = b.
Proof.
  induction a as [|x a IH]; intros [|y b] L E; cbn [length] in L; try lia; [reflexivity|].
  cbn [bits_val] in E. assert (x = y) by (destruct x, y; cbn [Z.b2z] in E; try reflexivity; lia). subst y.
  f_equal. apply IH; lia.
Qed.
Lemma bits_val_app : forall a b, bits_val (a ++ b) = bits_val a + 2 ^ Z.of_nat (length a) * bits_val b.
Proof.
  induction a as [|x a IH]; intros b; [cbn [app bits_val length]; lia|].
  cbn [app bits_val length]. rewrite IH, pow2_S. lia.
Qed.
Lemma byte_bits_length : forall bs, length (byte_bits bs) = (8 * length bs)%nat.
Proof.
  unfold byte_bits. induction bs as [|b bs IH]; [reflexivity|]. cbn [flat_map length].
  rewrite app_length, IH, bits_of_length. lia.
Qed.
Lemma byte_bits_val : forall bs, bytes_ok bs -> bits_val (byte_bits bs) = le_val bs.
Proof.
  intros bs B. unfold byte_bits. induction B as [|b bs H B IH]; [reflexivity|]. cbn [flat_map le_val].
  rewrite bits_val_app, IH, bits_val_of, bits_of_length. change (2 ^ Z.of_nat 8) with 256.
  unfold byte_ok in H. rewrite Z.mod_small by lia. reflexivity.
Qed.
Lemma byte_bits_app : forall a b, byte_bits (a ++ b) = byte_bits a ++ byte_bits b.
Proof. intros. unfold byte_bits. apply flat_map_app. Qed.
Lemma byte_bits_inj : forall a b, bytes_ok a -> bytes_ok b -> byte_bits a = byte_bits b -> a = b.
Proof.
  intros a b A. revert b. induction A as [|x a X A IH]; intros b B E.
  - destruct b as [|y b]; [reflexivity|discriminate].
  - destruct b as [|y b]; [discriminate|]. inversion B as [|? ? Y B']; subst. cbn [byte_bits flat_map] in E.
    assert (E1 : bits_of 8 x = bits_of 8 y) by (apply (f_equal (firstn 8)) in E; cbn in E; exact E).
    assert (E2 : byte_bits a = byte_bits b) by (apply (f_equal (skipn 8)) in E; cbn in E; exact E).
    f_equal; [|apply IH; assumption]. apply (f_equal bits_val) in E1. rewrite !bits_val_of in E1.
    unfold byte_ok in X, Y. change (2 ^ Z.of_nat 8) with 256 in E1. rewrite !Z.mod_small in E1 by lia. exact E1.
Qed.
Lemma le_bits_val : forall n x, 0 <= x < 256 ^ Z.of_nat n -> bits_val (byte_bits (le_bytes n x)) = x.
Proof. intros. rewrite byte_bits_val by apply le_bytes_ok. rewrite le_val_le_bytes. apply Z.mod_small. lia. Qed.
Lemma le_bits_inj : forall n x y, 0 <= x < 256 ^ Z.of_nat n -> 0 <= y < 256 ^ Z.of_nat n ->
  byte_bits (le_bytes n x) = byte_bits (le_bytes n y) -> x = y.
Proof. intros n x y X Y E. apply (f_equal bits_val) in E. rewrite !le_bits_val in E by assumption. exact E. Qed.

Lemma bits_to_fp_small : forall bits, (length bits <= 254)%nat -> bits_to_fp_unsafe bits = Ok (bits_val bits).
Proof.
  intros bits L. unfold bits_to_fp_unsafe, bits_to_fp, FP_BITS. replace (_ <=? 255) with true by lia.
  pose proof (bits_val_range bits). assert (2 ^ Z.of_nat (length bits) <= 2 ^ 254) by (apply Z.pow_le_mono_r; lia).
  pose proof pow254_lt. replace (bits_val bits <? FP_MODULUS) with true by lia. reflexivity.
Qed.
Lemma append_bool_eq : forall a b, c_append_bool a b = Ok (c_append_packed a (Z.b2z b) 1).
Proof. intros a b. unfold c_append_bool. rewrite bits_to_fp_small by (cbn; lia). cbn. repeat f_equal. lia. Qed.
Lemma append_bools_eq : forall bits a, c_append_bools a bits =
  Ok (mk_croi (c_fields a) (c_packed a ++ map (fun b => (Z.b2z b, 1)) bits)).
Proof.
  induction bits as [|b bits IH]; intros a; cbn [c_append_bools map].
  - rewrite app_nil_r. now destruct a.
  - rewrite append_bool_eq. cbn [bind]. rewrite IH. cbn [c_append_packed c_fields c_packed]. rewrite <- app_assoc. reflexivity.
Qed.
Lemma append_bytes_eq : forall bs a, c_append_bytes a bs =
  Ok (mk_croi (c_fields a) (c_packed a ++ map (fun b => (Z.b2z b, 1)) (byte_bits bs))).
Proof. intros. apply append_bools_eq. Qed.
Lemma append_u32_eq : forall a x, 0 <= x < 2 ^ 32 -> c_append_u32 a x = Ok (c_append_packed a x 32).
Proof.
  intros a x X. unfold c_append_u32. rewrite bits_to_fp_small by (rewrite byte_bits_length, le_bytes_length; lia).
  rewrite le_bits_val by (change (256 ^ Z.of_nat 4) with (2 ^ 32); lia). reflexivity.
Qed.
Lemma append_u64_eq : forall a x, 0 <= x < 2 ^ 64 -> c_append_u64 a x = Ok (c_append_packed a x 64).
Proof.
  intros a x X. unfold c_append_u64. rewrite bits_to_fp_small by (rewrite byte_bits_length, le_bytes_length; lia).
  rewrite le_bits_val by (change (256 ^ Z.of_nat 8) with (2 ^ 64); lia). reflexivity.
Qed.

(** ** C49: what packing does *)

(** An input whose chunks fit in their declared widths. *)
Definition chunk_ok (x : Z * Z) : Prop := 1 <= snd x <= 254 /\ 0 <= fst x < 2 ^ snd x.
Definition bounded (c : croi) : Prop := Forall chunk_ok (c_packed c).
(** The shape of an input: how many fields, and the widths of the chunks. *)
Definition shape (c : croi) : nat * list Z := (length (c_fields c), map snd (c_packed c)).

(** One number holding several chunks, the first most significant. *)
Definition joined (l : list (Z * Z)) : Z := fold_left (fun v x => v * 2 ^ snd x + fst x) l 0.
Definition width (l : list (Z * Z)) : Z := fold_right (fun x w => snd x + w) 0 l.

Lemma add32_small : forall checked a b, 0 <= a <= 254 -> 0 <= b <= 254 -> add32 checked a b = Ok (a + b).
Proof.
  intros. unfold add32, wrapu. replace (2 ^ 32 <=? a + b) with false by lia. rewrite andb_false_r.
  rewrite Z.mod_small by lia. reflexivity.
Qed.
Lemma shl_small : forall s n acc, 0 <= acc -> 1 <= n -> acc + n <= 254 -> 0 <= s < 2 ^ acc -> shl s n = Ok (s * 2 ^ n).
Proof.
  intros s n acc A N L S. unfold shl, fp_of_repr. replace (n =? 0) with false by lia.
  assert (0 < 2 ^ n) by (apply Z.pow_pos_nonneg; lia).
  assert (s * 2 ^ n < 2 ^ 254).
  { apply Z.lt_le_trans with (2 ^ acc * 2 ^ n); [nia|]. rewrite <- Z.pow_add_r by lia. apply Z.pow_le_mono_r; lia. }
  assert (2 ^ 254 < 2 ^ 256) by reflexivity. pose proof pow254_lt.
  rewrite Z.mod_small by nia. replace (_ <? FP_MODULUS) with true by lia. reflexivity.
Qed.
Lemma sum_range : forall acc n s f, 0 <= acc -> 1 <= n -> 0 <= s < 2 ^ acc -> 0 <= f < 2 ^ n -> 0 <= s * 2 ^ n + f < 2 ^ (acc + n).
Proof. intros. rewrite Z.pow_add_r by lia. nia. Qed.

(** One step of the loop. *)
Lemma pack_step : forall checked acc s f n l, 0 <= acc <= 254 -> 0 <= s < 2 ^ acc -> chunk_ok (f, n) ->
  pack checked acc s ((f, n) :: l) =
  if acc + n <=? 254 then pack checked (acc + n) (s * 2 ^ n + f) l
  else let* r := pack checked n f l in Ok (s :: r).
Proof.
  intros checked acc s f n l A S [N F]. cbn [fst snd] in *. cbn [pack]. rewrite !add32_small by lia. cbn [bind]. unfold FP_BITS.
  destruct (acc + n <=? 254) eqn:E.
  - replace (acc + n <? 255) with true by lia. rewrite (shl_small s n acc) by lia. cbn [bind].
    unfold fp_add. rewrite Z.mod_small; [reflexivity|]. pose proof (sum_range acc n s f).
    assert (2 ^ (acc + n) <= 2 ^ 254) by (apply Z.pow_le_mono_r; lia). pose proof pow254_lt. lia.
  - replace (acc + n <? 255) with false by lia. reflexivity.
Qed.

Lemma pack_total : forall checked l acc s, Forall chunk_ok l -> 0 <= acc <= 254 -> 0 <= s < 2 ^ acc -> exists r, pack checked acc s l = Ok r.
Proof.
  intros checked l. induction l as [|[f n] l IH]; intros acc s F A S; [eexists; reflexivity|].
  inversion F as [|? ? C F']; subst. rewrite pack_step by assumption. destruct C as [N C]. cbn [fst snd] in *.
  destruct (acc + n <=? 254) eqn:E.
  - apply IH; [exact F'|lia|]. apply sum_range; lia.
  - destruct (IH n f F' ltac:(lia) C) as [r ->]. eexists; reflexivity.
Qed.
Theorem C49_total : forall checked c, bounded c -> exists r, into_fields checked c = Ok r.
Proof.
  intros checked c B. unfold into_fields. destruct (pack_total checked (c_packed c) 0 0 B) as [r ->]; cbn; [lia|lia|eauto].
Qed.

Lemma joined_snoc : forall l x, joined (l ++ [x]) = joined l * 2 ^ snd x + fst x.
Proof. intros. unfold joined. rewrite fold_left_app. reflexivity. Qed.
Lemma width_snoc : forall l x, width (l ++ [x]) = width l + snd x.
Proof. induction l as [|y l IH]; intros x; cbn; [lia|]. specialize (IH x). cbn in IH. unfold width in *. lia. Qed.
Lemma joined_range : forall l, Forall chunk_ok l -> 0 <= width l /\ 0 <= joined l < 2 ^ width l.
Proof.
  intros l. induction l as [|x l IH] using rev_ind; intros F; [cbn; lia|].
  apply Forall_app in F. destruct F as [F X]. inversion X as [|? ? [N V] _]; subst. destruct (IH F) as [W J].
  rewrite joined_snoc, width_snoc. split; [lia|]. apply sum_range; lia.
Qed.

(** No group is empty or too wide, and none could have taken in the first
    chunk of the next one. *)
Definition group_ok (g : list (Z * Z)) : Prop := g <> [] /\ width g <= 254.
Fixpoint maximal (gs : list (list (Z * Z))) : Prop :=
  match gs with
  | [] => True
  | g :: r => match r with (x :: _) :: _ => 254 < width g + snd x | _ => True end /\ maximal r
  end.

Lemma pack_groups : forall checked l g, Forall chunk_ok (g ++ l) -> group_ok g ->
  exists gs, pack checked (width g) (joined g) l = Ok (map joined gs) /\
    (exists h gs', gs = (g ++ h) :: gs') /\ concat gs = g ++ l /\ Forall group_ok gs /\ maximal gs.
Proof.
  intros checked l. induction l as [|[f n] l IH]; intros g F G.
  - rewrite app_nil_r in F. destruct (joined_range g F) as [W J]. destruct G as [G1 G2]. exists [g].
    cbn [pack map concat]. replace (0 <? width g) with true.
    + rewrite !app_nil_r. split; [reflexivity|]. split; [exists [], []; rewrite app_nil_r; reflexivity|]. split; [reflexivity|].
      split; [constructor; [split; assumption|constructor]|split; exact I].
    + destruct g as [|[a m] g]; [congruence|]. cbn [app] in F. inversion F as [|? ? [M _] F']; subst. cbn [snd] in M.
      destruct (joined_range g F') as [W' _]. cbn. cbn in W'. unfold width in W'. lia.
  - assert (Fg : Forall chunk_ok g) by (apply Forall_app in F; tauto). destruct (joined_range g Fg) as [W J].
    assert (C : chunk_ok (f, n)) by (apply Forall_app in F; destruct F as [_ F]; inversion F; assumption).
    destruct G as [G1 G2]. rewrite pack_step by (try assumption; lia). destruct (width g + n <=? 254) eqn:E.
    + replace (g ++ (f, n) :: l) with ((g ++ [(f, n)]) ++ l) in F by (rewrite <- app_assoc; reflexivity).
      assert (G' : group_ok (g ++ [(f, n)])).
      { split; [destruct g; discriminate|]. rewrite width_snoc. cbn [snd]. lia. }
      destruct (IH _ F G') as (gs & P & (h & gs' & ->) & K & GG & M).
      rewrite width_snoc, joined_snoc in P. cbn [fst snd] in P. exists (((g ++ [(f, n)]) ++ h) :: gs').
      split; [exact P|]. split; [exists ((f, n) :: h), gs'; rewrite <- app_assoc; reflexivity|].
      split; [rewrite K, <- app_assoc; reflexivity|]. split; assumption.
    + assert (F2 : Forall chunk_ok ([(f, n)] ++ l)) by (apply Forall_app in F; destruct F as [_ F]; exact F).
      assert (G' : group_ok [(f, n)]) by (split; [discriminate|]; destruct C as [C _]; cbn in C |- *; lia).
      destruct (IH _ F2 G') as (gs & P & (h & gs' & ->) & K & GG & M).
      assert (E1 : width [(f, n)] = n) by (cbn; lia). assert (E2 : joined [(f, n)] = f) by (cbn; lia).
      rewrite E1, E2 in P. rewrite P. cbn [bind]. exists (g :: ([(f, n)] ++ h) :: gs').
      split; [reflexivity|]. split; [exists [], (([(f, n)] ++ h) :: gs'); rewrite app_nil_r; reflexivity|].
      split; [change (concat (g :: ([(f, n)] ++ h) :: gs')) with (g ++ concat (([(f, n)] ++ h) :: gs')); rewrite K; reflexivity|].
      split; [constructor; [split; assumption|exact GG]|]. cbn [maximal app]. split; [cbn [snd]; lia|exact M].
Qed.

(** The output is the fields followed by one number per group of chunks, the
    groups taken greedily from the left. *)
Theorem C49_groups : forall checked c, bounded c -> exists gs,
  into_fields checked c = Ok (c_fields c ++ map joined gs) /\
  concat gs = c_packed c /\ Forall group_ok gs /\ maximal gs.
Proof.
  intros checked [fs l] B. unfold bounded in B. cbn [c_packed c_fields] in *. unfold into_fields. cbn [c_packed c_fields].
  destruct l as [|[f n] l].
  - exists []. cbn. repeat split; constructor.
  - inversion B as [|? ? C B']; subst. rewrite pack_step by (try assumption; cbn; lia).
    assert (N : 1 <= n <= 254) by (destruct C as [C _]; exact C). replace (0 + n <=? 254) with true by lia.
    assert (G' : group_ok [(f, n)]) by (split; [discriminate|]; cbn; lia).
    destruct (pack_groups checked l [(f, n)] B G') as (gs & P & _ & K & GG & M).
    assert (E1 : width [(f, n)] = 0 + n) by (cbn; lia). assert (E2 : joined [(f, n)] = 0 * 2 ^ n + f) by (cbn; lia).
    rewrite E1, E2 in P. rewrite P. exists gs. cbn [bind]. auto.
Qed.

Lemma pack_inj : forall checked l1 l2 acc s1 s2 r, map snd l1 = map snd l2 -> Forall chunk_ok l1 -> Forall chunk_ok l2 ->
  0 <= acc <= 254 -> 0 <= s1 < 2 ^ acc -> 0 <= s2 < 2 ^ acc ->
  pack checked acc s1 l1 = Ok r -> pack checked acc s2 l2 = Ok r -> s1 = s2 /\ l1 = l2.
Proof.
  intros checked l1. induction l1 as [|[f1 n] l1 IH]; intros [|[f2 n2] l2] acc s1 s2 r M F1 F2 A S1 S2 P1 P2; try discriminate.
  - cbn [pack] in *. split; [|reflexivity]. destruct (0 <? acc) eqn:E; [congruence|]. assert (acc = 0) by lia. subst acc.
    change (2 ^ 0) with 1 in *. lia.
  - injection M as <- M. inversion F1 as [|? ? C1 F1']; subst. inversion F2 as [|? ? C2 F2']; subst.
    rewrite pack_step in P1, P2 by assumption. destruct C1 as [N C1], C2 as [_ C2]. cbn [fst snd] in *.
    destruct (acc + n <=? 254) eqn:E.
    + destruct (IH l2 (acc + n) (s1 * 2 ^ n + f1) (s2 * 2 ^ n + f2) r M F1' F2') as [X ->]; try assumption; try lia; try (apply sum_range; lia).
      assert (0 < 2 ^ n) by (apply Z.pow_pos_nonneg; lia). assert (S : s1 = s2).
      { apply (f_equal (fun v => v / 2 ^ n)) in X. rewrite !Z.div_add_l, !Z.div_small in X by lia. lia. }
      subst s2. split; [reflexivity|]. f_equal. f_equal. lia.
    + apply bind_ok in P1, P2. destruct P1 as (r1 & P1 & Q1), P2 as (r2 & P2 & Q2). injection Q1 as Q1. injection Q2 as Q2. subst r.
      injection Q2 as -> ->. split; [reflexivity|].
      destruct (IH l2 n f1 f2 r1 M F1' F2') as [-> ->]; try assumption; try lia. reflexivity.
Qed.

Lemma app_split : forall (A : Type) (a b c d : list A), length a = length c -> a ++ b = c ++ d -> a = c /\ b = d.
Proof.
  intros A a. induction a as [|x a IH]; intros b [|y c] d L E; cbn [length app] in *; try lia; [auto|].
  injection E as -> E. destruct (IH b c d) as [-> ->]; auto.
Qed.

(** Equal packings of inputs of the same shape come from equal inputs. *)
Theorem C49_injective : forall checked c1 c2 r, bounded c1 -> bounded c2 -> shape c1 = shape c2 ->
  into_fields checked c1 = Ok r -> into_fields checked c2 = Ok r -> c1 = c2.
Proof.
  intros checked [f1 p1] [f2 p2] r B1 B2 S E1 E2. unfold shape in S. cbn [c_fields c_packed] in *. injection S as L M.
  unfold into_fields in E1, E2. cbn [c_fields c_packed] in *. apply bind_ok in E1, E2.
  destruct E1 as (r1 & P1 & Q1), E2 as (r2 & P2 & Q2). injection Q1 as Q1. injection Q2 as Q2. subst r.
  assert (X : f1 = f2 /\ r1 = r2) by (apply app_split; [exact L|congruence]).
  destruct X as [-> ->]. destruct (pack_inj checked p1 p2 0 0 0 r2) as [_ ->]; try assumption; try (cbn; lia). reflexivity.
Qed.
(** The outputs are field elements. *)
Theorem C49_range : forall checked c r, bounded c -> Forall (fun f => 0 <= f < FP_MODULUS) (c_fields c) ->
  into_fields checked c = Ok r -> Forall (fun f => 0 <= f < FP_MODULUS) r.
Proof.
  intros checked c r B F E. destruct (C49_groups checked c B) as (gs & E' & K & G & _). rewrite E in E'. injection E' as ->.
  apply Forall_app. split; [exact F|]. apply Forall_forall. intros v I. apply in_map_iff in I. destruct I as (g & <- & I).
  assert (J : Forall chunk_ok g).
  { unfold bounded in B. rewrite <- K in B. clear -B I. induction gs as [|h gs IH]; [destruct I|]. cbn [concat] in B.
    apply Forall_app in B. destruct I as [<-|I]; [tauto|]. apply IH; tauto. }
  rewrite Forall_forall in G. destruct (G g I) as [_ W]. destruct (joined_range g J) as [W0 V].
  assert (2 ^ width g <= 2 ^ 254) by (apply Z.pow_le_mono_r; lia). pose proof pow254_lt. lia.
Qed.

(** Without equal shapes, or with a value wider than declared, different
    inputs have the same packing. *)
Theorem C49_shape_refuted : forall checked, exists c1 c2 r, bounded c1 /\ bounded c2 /\ c1 <> c2 /\
  into_fields checked c1 = Ok r /\ into_fields checked c2 = Ok r.
Proof.
  intros checked. exists (mk_croi [] [(1, 1); (0, 1)]), (mk_croi [] [(0, 1); (2, 2)]), [2].
  split; [repeat constructor; cbn; lia|]. split; [repeat constructor; cbn; lia|]. split; [discriminate|].
  destruct checked; vm_compute; auto.
Qed.
Theorem C49_width_refuted : forall checked, exists c1 c2 r, shape c1 = shape c2 /\ c1 <> c2 /\
  into_fields checked c1 = Ok r /\ into_fields checked c2 = Ok r.
Proof.
  intros checked. exists (mk_croi [] [(1, 1); (0, 1)]), (mk_croi [] [(0, 1); (2, 1)]), [2].
  split; [reflexivity|]. split; [discriminate|]. destruct checked; vm_compute; auto.
Qed.
(** A value as wide as the field makes the packing panic. *)
Theorem C49_wide_panics : forall checked, into_fields checked (mk_croi [] [(FP_MODULUS - 1, 1); (0, 1)]) = Panic.
Proof. destruct checked; vm_compute; reflexivity. Qed.

(** ** C49 for the legacy input *)

Lemma bit_chunks_inj : forall k a b, (length a <= k)%nat -> length a = length b ->
  map bits_val (bit_chunks k a) = map bits_val (bit_chunks k b) -> a = b.
Proof.
  induction k as [|k IH]; intros a b L E M.
  - destruct a, b; cbn in L, E; try lia. reflexivity.
  - destruct a as [|x a], b as [|y b]; cbn [length] in E; try lia; [reflexivity|].
    cbn [bit_chunks map] in M. injection M as M1 M2.
    rewrite <- (firstn_skipn 254 (x :: a)), <- (firstn_skipn 254 (y :: b)).
    f_equal.
    + apply bits_val_inj; [rewrite !firstn_length; cbn [length]; lia|exact M1].
    + apply IH; [rewrite skipn_length; cbn [length] in *; lia|rewrite !skipn_length; cbn [length]; lia|exact M2].
Qed.
Theorem C49_legacy_injective : forall a b, length (l_fields a) = length (l_fields b) -> length (l_bits a) = length (l_bits b) ->
  l_to_fields a = l_to_fields b -> a = b.
Proof.
  intros [fa ba] [fb bb]. cbn [l_fields l_bits]. intros LF LB E. unfold l_to_fields in E. cbn [l_fields l_bits] in E.
  rewrite <- LB in E.
  destruct (app_split _ _ _ _ _ LF E) as [-> X].
  f_equal. apply (bit_chunks_inj (length ba)); [lia|exact LB|exact X].
Qed.
(** Trailing zero bits are lost. *)
Theorem C49_legacy_refuted : exists a b, a <> b /\ l_to_fields a = l_to_fields b.
Proof. exists (mk_lroi [5] [true]), (mk_lroi [5] [true; false]). split; [discriminate|reflexivity]. Qed.

Example C49_ex : let c := mk_croi [7] [(1, 1); (5, 64); (9, 64); (3, 64); (2, 32); (77, 32)] in
  bounded c /\ into_fields true c = Ok [7; (((1 * 2 ^ 64 + 5) * 2 ^ 64 + 9) * 2 ^ 64 + 3) * 2 ^ 32 + 2; 77].
Proof. split; [repeat constructor; cbn; lia|vm_compute; reflexivity]. Qed.

Print Assumptions C49_total.
Print Assumptions C49_groups.
Print Assumptions C49_injective.
Print Assumptions C49_range.
Print Assumptions C49_shape_refuted.
Print Assumptions C49_width_refuted.
Print Assumptions C49_wide_panics.
Print Assumptions C49_legacy_injective.
Print Assumptions C49_legacy_refuted.
