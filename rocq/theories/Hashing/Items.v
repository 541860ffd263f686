(** Hash inputs as lists of items: what both kinds of input are made of.
    Specification and lemmas only. *)

From Coq Require Import ZArith List Bool Lia ZifyBool ZifyNat.
From Verif Require Import Lib.Res Lib.Bytes Text.FieldText Hashing.ROInput Hashing.ROInputProps.
Import ListNotations.
Local Open Scope Z_scope.

(** A field, integers, a bit, bytes; [P v n] is the number [v] in [n] bits. *)
Inductive item : Set := F (z : Z) | W32 (x : Z) | W64 (x : Z) | B (b : bool) | Bs (l : list Z) | P (v n : Z).
Inductive kind : Set := KF | K32 | K64 | KB | KBs (n : nat) | KP (n : Z).
Definition kind_of (i : item) : kind :=
  match i with F _ => KF | W32 _ => K32 | W64 _ => K64 | B _ => KB | Bs l => KBs (length l) | P _ n => KP n end.
Definition item_ok (i : item) : Prop :=
  match i with
  | F _ | B _ => True
  | W32 x => 0 <= x < 2 ^ 32 | W64 x => 0 <= x < 2 ^ 64
  | Bs l => bytes_ok l
  | P v n => 1 <= n <= 254 /\ 0 <= v < 2 ^ n
  end.

(** The chunked input. *)
Definition item_fields (i : item) : list Z := match i with F z => [z] | _ => [] end.
Definition item_packed (i : item) : list (Z * Z) :=
  match i with
  | F _ => [] | W32 x => [(x, 32)] | W64 x => [(x, 64)] | B b => [(Z.b2z b, 1)]
  | Bs l => map (fun b => (Z.b2z b, 1)) (byte_bits l)
  | P v n => [(v, n)]
  end.
Definition citems (l : list item) : croi := mk_croi (flat_map item_fields l) (flat_map item_packed l).
(** The legacy input; [P] does not occur there. *)
Definition item_bits (i : item) : list bool :=
  match i with
  | F _ => [] | W32 x => byte_bits (le_bytes 4 x) | W64 x => byte_bits (le_bytes 8 x) | B b => [b] | Bs l => byte_bits l
  | P v n => bits_of (Z.to_nat n) v
  end.
Definition litems (l : list item) : lroi := mk_lroi (flat_map item_fields l) (flat_map item_bits l).

Lemma citems_app : forall a b, c_append (citems a) (citems b) = citems (a ++ b).
Proof. intros. unfold c_append, citems. cbn [c_fields c_packed]. rewrite !flat_map_app. reflexivity. Qed.
Lemma litems_app : forall a b, l_append (litems a) (litems b) = litems (a ++ b).
Proof. intros. unfold l_append, litems. cbn [l_fields l_bits]. rewrite !flat_map_app. reflexivity. Qed.
Lemma c_new_items : c_new = citems [].
Proof. reflexivity. Qed.
Lemma l_new_items : l_new = litems [].
Proof. reflexivity. Qed.
Lemma c_field_items : forall l f, c_append_field (citems l) f = citems (l ++ [F f]).
Proof. intros. rewrite <- citems_app. unfold c_append, c_append_field, citems. cbn. rewrite app_nil_r. reflexivity. Qed.
Lemma c_packed_items : forall l v n, c_append_packed (citems l) v n = citems (l ++ [P v n]).
Proof. intros. rewrite <- citems_app. unfold c_append, c_append_packed, citems. cbn. rewrite app_nil_r. reflexivity. Qed.
Lemma c_bool_items : forall l b, c_append_bool (citems l) b = Ok (citems (l ++ [B b])).
Proof. intros. rewrite append_bool_eq. rewrite <- citems_app. unfold c_append, c_append_packed, citems. cbn. rewrite app_nil_r. reflexivity. Qed.
Lemma c_bytes_items : forall l b, c_append_bytes (citems l) b = Ok (citems (l ++ [Bs b])).
Proof. intros. rewrite append_bytes_eq. rewrite <- citems_app. unfold c_append, citems. cbn. rewrite !app_nil_r. reflexivity. Qed.
Lemma c_u32_items : forall l x, 0 <= x < 2 ^ 32 -> c_append_u32 (citems l) x = Ok (citems (l ++ [W32 x])).
Proof. intros. rewrite append_u32_eq by assumption. rewrite <- citems_app. unfold c_append, c_append_packed, citems. cbn. rewrite !app_nil_r. reflexivity. Qed.
Lemma c_u64_items : forall l x, 0 <= x < 2 ^ 64 -> c_append_u64 (citems l) x = Ok (citems (l ++ [W64 x])).
Proof. intros. rewrite append_u64_eq by assumption. rewrite <- citems_app. unfold c_append, c_append_packed, citems. cbn. rewrite !app_nil_r. reflexivity. Qed.
Lemma c_chunked_items : forall l m, c_append_chunked (citems l) (Ok (citems m)) = Ok (citems (l ++ m)).
Proof. intros. unfold c_append_chunked. cbn [bind]. rewrite citems_app. reflexivity. Qed.
Lemma l_field_items : forall l f, l_append_field (litems l) f = litems (l ++ [F f]).
Proof. intros. rewrite <- litems_app. unfold l_append, l_append_field, litems. cbn. rewrite app_nil_r. reflexivity. Qed.
Lemma l_bool_items : forall l b, l_append_bool (litems l) b = litems (l ++ [B b]).
Proof. intros. rewrite <- litems_app. unfold l_append, l_append_bool, litems. cbn. rewrite app_nil_r. reflexivity. Qed.
Lemma l_bytes_items : forall l b, l_append_bytes (litems l) b = litems (l ++ [Bs b]).
Proof. intros. rewrite <- litems_app. unfold l_append, l_append_bytes, litems. cbn. rewrite !app_nil_r. reflexivity. Qed.
Lemma l_u32_items : forall l x, l_append_u32 (litems l) x = litems (l ++ [W32 x]).
Proof.
  intros. rewrite <- litems_app. unfold l_append, l_append_u32, l_append_bytes, litems. cbn [l_fields l_bits flat_map item_fields item_bits].
  rewrite !app_nil_r. reflexivity.
Qed.
Lemma l_u64_items : forall l x, l_append_u64 (litems l) x = litems (l ++ [W64 x]).
Proof.
  intros. rewrite <- litems_app. unfold l_append, l_append_u64, l_append_bytes, litems. cbn [l_fields l_bits flat_map item_fields item_bits].
  rewrite !app_nil_r. reflexivity.
Qed.
Lemma l_hashable_items : forall l m, l_append_hashable (litems l) (Ok (litems m)) = Ok (litems (l ++ m)).
Proof. intros. unfold l_append_hashable. cbn [bind]. rewrite litems_app. reflexivity. Qed.

(** ** Items of the same kinds are determined *)

Lemma item_packed_ok : forall i, item_ok i -> Forall chunk_ok (item_packed i).
Proof.
  intros [z|x|x|b|l|v n] K; cbn [item_packed item_ok] in *.
  - constructor.
  - constructor; [unfold chunk_ok; cbn [fst snd]; lia|constructor].
  - constructor; [unfold chunk_ok; cbn [fst snd]; lia|constructor].
  - constructor; [unfold chunk_ok; cbn [fst snd]; destruct b; cbn; lia|constructor].
  - apply Forall_forall. intros c I. apply in_map_iff in I. destruct I as (b & <- & _). unfold chunk_ok. destruct b; cbn; lia.
  - constructor; [unfold chunk_ok; cbn [fst snd]; lia|constructor].
Qed.
Lemma citems_bounded : forall l, Forall item_ok l -> bounded (citems l).
Proof.
  intros l K. unfold bounded, citems. cbn [c_packed]. induction K as [|i l I K IH]; [constructor|]. cbn [flat_map].
  apply Forall_app. split; [apply item_packed_ok, I|exact IH].
Qed.
Lemma kind_fields : forall i j, kind_of i = kind_of j -> length (item_fields i) = length (item_fields j).
Proof. intros [] [] E; try discriminate; reflexivity. Qed.
Lemma kind_widths : forall i j, kind_of i = kind_of j -> map snd (item_packed i) = map snd (item_packed j).
Proof.
  intros [] [] E; try discriminate; cbn [item_packed kind_of map snd] in *; try reflexivity.
  - injection E as E. rewrite !map_map. cbn [snd]. assert (L : length (byte_bits l) = length (byte_bits l0)) by (rewrite !byte_bits_length; lia).
    revert L. generalize (byte_bits l), (byte_bits l0). induction l1 as [|x xs IH]; intros [|y ys] L; cbn in *; try discriminate; [reflexivity|].
    f_equal. apply IH. lia.
  - injection E as ->. reflexivity.
Qed.
Lemma kind_bits : forall i j, kind_of i = kind_of j -> length (item_bits i) = length (item_bits j).
Proof.
  intros [] [] E; try discriminate; cbn [item_bits kind_of] in *; try reflexivity.
  - injection E as E. rewrite !byte_bits_length. lia.
  - injection E as ->. rewrite !bits_of_length. reflexivity.
Qed.
Lemma citems_shape : forall a b, map kind_of a = map kind_of b -> shape (citems a) = shape (citems b).
Proof.
  unfold shape, citems. cbn [c_fields c_packed]. induction a as [|i a IH]; intros [|j b] E; try discriminate; [reflexivity|].
  cbn [map] in E. injection E as E1 E2. specialize (IH b E2). injection IH as I1 I2. cbn [flat_map].
  rewrite !app_length, !map_app, I1, I2, (kind_fields i j E1), (kind_widths i j E1). reflexivity.
Qed.
Lemma packed_inj : forall i j, item_ok i -> item_ok j -> kind_of i = kind_of j ->
  item_fields i = item_fields j -> item_packed i = item_packed j -> i = j.
Proof.
  intros [] [] I J K Ef Ep; try discriminate; cbn [item_fields item_packed kind_of item_ok] in *.
  - congruence.
  - congruence.
  - congruence.
  - injection Ep as Ep. destruct b, b0; try reflexivity; discriminate.
  - f_equal. apply byte_bits_inj; [assumption|assumption|].
    revert Ep. generalize (byte_bits l), (byte_bits l0). induction l1 as [|x xs IH]; intros [|y ys] E; cbn [map] in *; try discriminate; [reflexivity|].
    injection E as E1 E2. rewrite (IH ys E2). f_equal. destruct x, y; try reflexivity; discriminate.
  - congruence.
Qed.
Lemma bits_inj : forall i j, item_ok i -> item_ok j -> kind_of i = kind_of j ->
  item_fields i = item_fields j -> item_bits i = item_bits j -> i = j.
Proof.
  intros [] [] I J K Ef Ep; try discriminate; cbn [item_fields item_bits kind_of item_ok] in *.
  - congruence.
  - f_equal. apply (le_bits_inj 4); [exact I|exact J|exact Ep].
  - f_equal. apply (le_bits_inj 8); [exact I|exact J|exact Ep].
  - congruence.
  - f_equal. apply byte_bits_inj; assumption.
  - injection K as ->. f_equal. apply (f_equal bits_val) in Ep. rewrite !bits_val_of in Ep. rewrite !Z2Nat.id in Ep by lia.
    rewrite !Z.mod_small in Ep by lia. exact Ep.
Qed.
Lemma citems_inj : forall a b, Forall item_ok a -> Forall item_ok b -> map kind_of a = map kind_of b -> citems a = citems b -> a = b.
Proof.
  intros a b A. revert b. induction A as [|i a I A IH]; intros [|j b] Bk K E; try discriminate; [reflexivity|].
  inversion Bk as [|? ? J Bk']; subst. cbn [map] in K. injection K as K1 K2.
  pose proof (f_equal c_fields E) as Ef. pose proof (f_equal c_packed E) as Ep. unfold citems in Ef, Ep. cbn [c_fields c_packed flat_map] in Ef, Ep.
  apply app_split in Ef; [|apply kind_fields, K1]. apply app_split in Ep.
  2: { rewrite <- (map_length snd (item_packed i)), (kind_widths i j K1), map_length. reflexivity. }
  destruct Ef as [F1 F2], Ep as [P1 P2]. f_equal; [apply packed_inj; assumption|].
  apply IH; [assumption|assumption|]. unfold citems. congruence.
Qed.
Lemma litems_inj : forall a b, Forall item_ok a -> Forall item_ok b -> map kind_of a = map kind_of b -> litems a = litems b -> a = b.
Proof.
  intros a b A. revert b. induction A as [|i a I A IH]; intros [|j b] Bk K E; try discriminate; [reflexivity|].
  inversion Bk as [|? ? J Bk']; subst. cbn [map] in K. injection K as K1 K2.
  pose proof (f_equal l_fields E) as Ef. pose proof (f_equal l_bits E) as Ep. unfold litems in Ef, Ep. cbn [l_fields l_bits flat_map] in Ef, Ep.
  apply app_split in Ef; [|apply kind_fields, K1]. apply app_split in Ep; [|apply kind_bits, K1].
  destruct Ef as [F1 F2], Ep as [P1 P2]. f_equal; [apply bits_inj; assumption|].
  apply IH; [assumption|assumption|]. unfold litems. congruence.
Qed.
Lemma litems_lengths : forall a b, map kind_of a = map kind_of b ->
  length (l_fields (litems a)) = length (l_fields (litems b)) /\ length (l_bits (litems a)) = length (l_bits (litems b)).
Proof.
  unfold litems. cbn [l_fields l_bits]. induction a as [|i a IH]; intros [|j b] E; try discriminate; [split; reflexivity|].
  cbn [map] in E. injection E as E1 E2. destruct (IH b E2) as [I1 I2]. cbn [flat_map]. rewrite !app_length, I1, I2, (kind_fields i j E1), (kind_bits i j E1).
  split; reflexivity.
Qed.

(** What is fed to the hash. *)
Lemma chunked_fields_inj : forall checked a b r s, Forall item_ok a -> Forall item_ok b -> map kind_of a = map kind_of b ->
  roinput_of_chunked checked (citems a) = Ok r -> roinput_of_chunked checked (citems b) = Ok s ->
  l_to_fields r = l_to_fields s -> a = b.
Proof.
  intros checked a b r s A Bk K R S E. unfold roinput_of_chunked in R, S. apply bind_ok in R, S.
  destruct R as (fa & Ra & R), S as (fb & Sb & S). injection R as <-. injection S as <-.
  unfold l_to_fields in E. cbn in E. rewrite !app_nil_r in E. subst fb.
  apply citems_inj; [assumption|assumption|assumption|].
  eapply C49_injective; [apply citems_bounded, A|apply citems_bounded, Bk|apply citems_shape, K|exact Ra|exact Sb].
Qed.
Lemma legacy_fields_inj : forall a b, Forall item_ok a -> Forall item_ok b -> map kind_of a = map kind_of b ->
  l_to_fields (litems a) = l_to_fields (litems b) -> a = b.
Proof.
  intros a b A Bk K E. destruct (litems_lengths a b K) as [L1 L2]. apply litems_inj; [assumption|assumption|assumption|].
  apply C49_legacy_injective; assumption.
Qed.
Lemma roinput_total : forall checked a, Forall item_ok a -> exists r, roinput_of_chunked checked (citems a) = Ok r.
Proof.
  intros checked a A. unfold roinput_of_chunked. destruct (C49_total checked (citems a) (citems_bounded a A)) as [r ->]. cbn [bind]. eauto.
Qed.
