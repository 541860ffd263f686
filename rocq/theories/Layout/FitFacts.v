(** What a typed decoder accepts is what the layout-driven decoder accepts, if
    the layout fits the type; and both write the same bytes. *)
From Coq Require Import ZArith List Bool String Lia ZifyBool ZifyNat.
From Verif Require Import Lib.Res Lib.Bytes BinProt.Prim BinProt.Codec BinProt.CodecSpec
  BinProt.CodecProofs BinProt.CodecFacts BinProt.PrimSpec BinProt.PrimProofs BinProt.PrimSpecProofs
  BinProt.FormatSpec BinProt.AcceptProps Loose.Loose Loose.LooseSpec Loose.LooseProofs Loose.LooseWire Layout.FitSpec.
Import ListNotations.
Open Scope string_scope.
Open Scope list_scope.
Open Scope Z_scope.

Scheme acc_ind2 := Minimality for acc Sort Prop with accs_ind2 := Minimality for accs Sort Prop.
Combined Scheme acc_accs from acc_ind2, accs_ind2.

(** * Lists of accepted values *)
Lemma accs_app : forall ts us vs ws a b, accs ts vs a -> accs us ws b -> accs (ts ++ us) (vs ++ ws) (a ++ b).
Proof.
  intros ts us vs ws a b H. induction H; intros K; cbn [app]; auto.
  rewrite <- app_assoc. constructor; auto.
Qed.
Lemma accs_tup : forall us ts vs bs, accs (TTup us :: ts) vs bs ->
  exists us' vs', vs = VTup us' :: vs' /\ accs (us ++ ts) (us' ++ vs') bs.
Proof.
  intros us ts vs bs H. inversion H as [|t ts' v vs' a b H1 H2]; subst. inversion H1; subst.
  eexists; eexists; split; [reflexivity|]. apply accs_app; auto.
Qed.
Lemma accs_repeat_len : forall t n vs bs, accs (repeat t n) vs bs -> List.length vs = n.
Proof.
  induction n; intros vs bs H; inversion H; subst; auto. cbn. f_equal. eauto.
Qed.
Lemma accs_u8 : forall n vs bs, accs (repeat TU8 n) vs bs -> vs = map VInt bs /\ bytes_ok bs.
Proof.
  induction n; intros vs bs H; cbn [repeat] in H; inversion H as [|t ts' v vs' a b H1 H2]; subst.
  - split; auto. constructor.
  - inversion H1; subst. apply IHn in H2. destruct H2 as (-> & K). split; auto.
    apply bytes_ok_cons. split; auto.
Qed.

Lemma nat_form_len : forall bs n, nat_form bs n -> (1 <= List.length bs)%nat.
Proof. intros bs n H. destruct H; cbn; lia. Qed.
Lemma int_form_len : forall bs n, int_form bs n -> (1 <= List.length bs)%nat.
Proof. intros bs n H. destruct H; cbn; lia. Qed.
Lemma acc_min :
  (forall t v bs, acc t v bs -> (min_size t <= List.length bs)%nat) /\
  (forall ts vs bs, accs ts vs bs -> (min_sum ts <= List.length bs)%nat).
Proof.
  apply acc_accs; intros; cbn [min_size List.length]; rewrite ?app_length; try lia;
    repeat match goal with
    | H : int_form _ _ |- _ => apply int_form_len in H
    | H : nat_form _ _ |- _ => apply nat_form_len in H
    end; try lia; auto; cbn; lia.
Qed.
Lemma accs_repeat_min : forall t n vs bs, accs (repeat t n) vs bs -> (1 <= min_size t)%nat ->
  (n <= List.length bs)%nat.
Proof.
  induction n; intros vs bs H M; cbn [repeat] in H; [lia|].
  inversion H as [|t' ts' v vs' a b H1 H2]; subst. apply IHn in H2; auto.
  apply (proj1 acc_min) in H1. rewrite app_length. lia.
Qed.

(** * Lists of values of a layout *)
Section Wires.
  Variable sz : Z.
  Variable NF IF : list Z -> Z -> Prop.
  Variable TF : Z -> Z -> Prop.
  Local Notation wires := (wires sz NF IF TF).
  Lemma wires_split : forall rs ss p ws bs q, wires p (rs ++ ss) ws bs q ->
    exists w1 w2 a b m, ws = w1 ++ w2 /\ bs = a ++ b /\ wires p rs w1 a m /\ wires m ss w2 b q.
  Proof.
    induction rs as [|r rs IH]; intros ss p ws bs q H; cbn [app] in H.
    - exists [], ws, [], bs, p. repeat split; auto. constructor.
    - inversion H as [|p' r' rs' v vs a b m m' H1 H2]; subst. apply IH in H2.
      destruct H2 as (w1 & w2 & a' & b' & m2 & -> & -> & K1 & K2).
      exists (v :: w1), w2, (a ++ a'), b', m2. repeat split; auto; [apply app_assoc|].
      econstructor; eauto.
  Qed.
  Lemma wires_chars : forall n p ws bs q, wires p (repeat RChar n) ws bs q ->
    ws = map LChar bs /\ bytes_ok bs /\ List.length bs = n /\ q = p.
  Proof.
    induction n; intros p ws bs q H; cbn [repeat] in H;
      inversion H as [|p' r' rs' v vs a b m m' H1 H2]; subst.
    - repeat split; auto. constructor.
    - inversion H1; subst; try (destruct H0 as [|[|[|]]]; discriminate).
      apply IHn in H2. destruct H2 as (-> & K & L & ->). cbn [app map List.length].
      repeat split; auto. apply bytes_ok_cons. auto.
  Qed.
End Wires.

(** * Values that avoid some variants *)
Definition avoids_list (skip : list ty -> bool) : list ty -> list val -> Prop := typed_list (avoid skip).

Lemma typed_list_app : forall P ts us vs ws, List.length ts = List.length vs ->
  typed_list P (ts ++ us) (vs ++ ws) <-> typed_list P ts vs /\ typed_list P us ws.
Proof.
  intros P. induction ts as [|t ts IH]; intros us vs ws L; destruct vs as [|v vs]; cbn [List.length] in L; try lia;
    cbn [app typed_list]; [tauto|]. rewrite IH by lia. tauto.
Qed.
Lemma accs_len : forall ts vs bs, accs ts vs bs -> List.length ts = List.length vs.
Proof. intros ts vs bs H. induction H; cbn; auto. Qed.
Lemma typed_all_repeat : forall P t vs, typed_all P t vs <-> typed_list P (repeat t (List.length vs)) vs.
Proof.
  intros P t. induction vs as [|v vs IH]; cbn [List.length repeat typed_list]; [cbn; tauto|].
  change (typed_all P t (v :: vs)) with (typed P t v /\ typed_all P t vs). rewrite IH. tauto.
Qed.
Lemma ser_list_app : forall c ts us vs ws, List.length ts = List.length vs ->
  ser_list c (ts ++ us) (vs ++ ws) =
    let* a := ser_list c ts vs in let* b := ser_list c us ws in Ok (a ++ b).
Proof.
  intros c. induction ts as [|t ts IH]; intros us vs ws L; destruct vs as [|v vs]; cbn [List.length] in L; try lia;
    cbn [app ser_list].
  - cbn [bind]. destruct (ser_list c us ws); reflexivity.
  - rewrite IH by lia. destruct (ser c t v); cbn [bind]; auto.
    destruct (ser_list c ts vs); cbn [bind]; auto. destruct (ser_list c us ws); cbn [bind]; auto.
    rewrite app_assoc. reflexivity.
Qed.
Lemma ser_all_repeat : forall c t vs, ser_all c t vs = ser_list c (repeat t (List.length vs)) vs.
Proof.
  intros c t. induction vs as [|v vs IH]; [reflexivity|]. rewrite ser_all_cons, IH. reflexivity.
Qed.
Lemma vector_len_nonneg : forall m n, vector_len m = Some n -> 0 <= n <= 18.
Proof.
  intros m n. unfold vector_len.
  repeat match goal with |- context [if ?b then _ else _] => destruct b end; intros E; inversion E; lia.
Qed.

(** * Positions in fitting sums and polymorphic variants *)
Section Positions.
  Variable skip : list ty -> bool.
  Variable bad : string -> bool.
  Variable f : list rule -> list ty -> bool.
  Lemma fit_variants_nth : forall vars k ss i ts, fit_variants skip bad f k ss vars = true ->
    nth_error vars i = Some ts -> skip ts = false ->
    exists nm args, nth_error ss i = Some (nm, k + Z.of_nat i, args) /\ k + Z.of_nat i < 256 /\ f args ts = true /\ bad nm = false.
  Proof.
    induction vars as [|us vars IH]; intros k ss i ts H E K; destruct i as [|i]; cbn [nth_error] in E; try discriminate.
    - inversion E; subst. cbn [fit_variants] in H. destruct ss as [|((nm & ix) & args) ss].
      + rewrite K in H. discriminate.
      + rewrite K in H. repeat (rewrite andb_true_iff in H). destruct H as ((((H0 & H1) & H2) & H3) & _).
        exists nm, args. cbn [nth_error]. replace (k + Z.of_nat 0) with k by lia. apply negb_true_iff in H0.
        repeat split; auto; [|lia]. do 3 f_equal. lia.
    - cbn [fit_variants] in H. destruct ss as [|((nm & ix) & args) ss]; apply andb_true_iff in H; destruct H as (_ & H).
      + destruct (IH _ _ _ _ H E K) as (nm & args & N & _). destruct i; discriminate.
      + destruct (IH _ _ _ _ H E K) as (nm' & args' & N & B & F & C). exists nm', args'. cbn [nth_error].
        replace (k + Z.of_nat (S i)) with (k + 1 + Z.of_nat i) by lia. auto.
  Qed.
  Lemma fit_polyvars_split : forall vars ps i nm ts, fit_polyvars f ps vars = true ->
    nth_error vars i = Some (nm, ts) ->
    exists qs args rest, ps = qs ++ inl (nm, name_hash32 nm, args) :: rest /\ 256 <= name_hash32 nm /\
      f args ts = true /\
      forall x, In x qs -> exists j nm' ts' args', (j < i)%nat /\ nth_error vars j = Some (nm', ts') /\
        x = inl (nm', name_hash32 nm', args').
  Proof using f. clear skip bad.
    induction vars as [|(nm0 & us) vars IH]; intros ps i nm ts H E; destruct i as [|i]; cbn [nth_error] in E; try discriminate;
      cbn [fit_polyvars] in H; destruct ps as [|[((nm1 & tag) & args)|r] ps]; try discriminate;
      repeat (rewrite andb_true_iff in H); destruct H as (((((H1 & H2) & H3) & H4) & H5) & H6);
      apply String.eqb_eq in H1; apply Z.eqb_eq in H2; subst nm1 tag.
    - inversion E; subst. exists [], args, ps. repeat split; auto; [lia|]. intros x [].
    - destruct (IH _ _ _ _ H6 E) as (qs & args' & rest & -> & B & F & K).
      exists (inl (nm0, name_hash32 nm0, args) :: qs), args', rest. repeat split; auto.
      intros x [<-|I].
      + exists O, nm0, us, args. repeat split; auto. lia.
      + destruct (K x I) as (j & nm' & ts' & args2 & L & N & ->). exists (S j), nm', ts', args2.
        repeat split; auto. lia.
  Qed.
  Lemma fit_polyvars_ascii : forall vars ps, fit_polyvars f ps vars = true ->
    forallb ascii_name (map fst vars) = true.
  Proof.
    induction vars as [|(nm0 & us) vars IH]; intros ps H; [reflexivity|].
    cbn [fit_polyvars] in H; destruct ps as [|[((nm1 & tag) & args)|r] ps]; try discriminate.
    repeat (rewrite andb_true_iff in H). destruct H as (((((H1 & H2) & H3) & H4) & H5) & H6).
    cbn [map fst forallb]. rewrite H4. eapply IH; eauto.
  Qed.
End Positions.
Lemma rank_ascii : forall names i, forallb ascii_name names = true -> (i < List.length names)%nat -> rank names i = i.
Proof.
  unfold rank. induction names as [|nm names IH]; intros i H L; cbn [List.length] in L; [lia|].
  cbn [forallb] in H. apply andb_true_iff in H. destruct H as (H1 & H2).
  destruct i as [|i]; [reflexivity|]. cbn [firstn filter]. rewrite H1. cbn [List.length]. f_equal. apply IH; auto. lia.
Qed.

Lemma forallb_clean_snd : forall bad (names : list string) vs, List.length names = List.length vs ->
  forallb (fun f : string * value => clean bad (snd f)) (combine names vs) = forallb (clean bad) vs.
Proof.
  intros bad. induction names as [|k names IH]; intros vs L; destruct vs as [|v vs]; cbn [List.length] in L; try lia;
    cbn [combine forallb snd]; auto. f_equal. apply IH. lia.
Qed.

(** * From the typed decoder to the layout *)
Section Forward.
  Variable sz : Z.
  Variable skip : list ty -> bool.
  Variable bad : string -> bool.
  Hypothesis sz_pos : 0 < sz.
  Hypothesis sz_small : 32 * sz < 2 ^ 63.
  Local Notation lenients := (wires sz nat_form int_form (fun w tag => w / 2 = tag)).
  Local Notation avoids := (avoids skip).
  Local Notation avoids_list := (avoids_list skip).
  Definition short (bs : list Z) : Prop := Z.of_nat (List.length bs) * sz < 2 ^ 63.
  Lemma short_app : forall a b, short (a ++ b) -> short a /\ short b.
  Proof. intros a b. unfold short. rewrite app_length. nia. Qed.
  Lemma short_cons : forall x b, short (x :: b) -> short b.
  Proof. intros x b. unfold short. cbn [List.length]. nia. Qed.

  Definition one (r : rule) (t : ty) : Prop := forall p v bs, acc t v bs -> avoids t v -> short bs ->
    exists w q, lenient sz p r w bs q /\ ser false t v = Ok (vser w) /\ clean bad w = true.
  Definition many (rs : list rule) (ts : list ty) : Prop := forall p vs bs, accs ts vs bs -> avoids_list ts vs ->
    short bs ->
    exists ws q, lenients p rs ws bs q /\ ser_list false ts vs = Ok (flat_map vser ws) /\ forallb (clean bad) ws = true.

  Lemma many_one : forall r t, many [r] [t] -> one r t.
  Proof.
    intros r t M p v bs A N S. rewrite <- (app_nil_r bs) in A.
    assert (A' : accs [t] [v] bs).
    { rewrite app_nil_r in A. rewrite <- (app_nil_r bs). constructor; auto. constructor. }
    destruct (M p [v] bs A' (conj N I) S) as (ws & q & W & E & C).
    inversion W as [|p' r' rs' w ws' a b m m' H1 H2]; subst. inversion H2; subst.
    rewrite app_nil_r in *. exists w, q. split; auto. cbn [forallb] in C. rewrite andb_true_r in C. split; auto.
    cbn [ser_list flat_map] in E. destruct (ser false t v); cbn [bind] in E; try discriminate.
    rewrite !app_nil_r in E. exact E.
  Qed.
  Lemma one_cons : forall r t rs ts, one r t -> many rs ts -> many (r :: rs) (t :: ts).
  Proof.
    intros r t rs ts O M p vs bs A N S. inversion A as [|t' ts' v vs' a b H1 H2]; subst.
    destruct N as (N1 & N2). apply short_app in S. destruct S as (S1 & S2).
    destruct (O p v a H1 N1 S1) as (w & q & W & E & C).
    destruct (M q vs' b H2 N2 S2) as (ws & q' & W' & E' & C').
    exists (w :: ws), q'. split; [econstructor; eauto|].
    cbn [ser_list flat_map forallb]. rewrite E, E', C. auto.
  Qed.
  Lemma one_repeat : forall r t n, one r t -> many (repeat r n) (repeat t n).
  Proof.
    intros r t n O. induction n; cbn [repeat]; [|apply one_cons; auto].
    intros p vs bs A _ _. inversion A; subst. exists [], p. split; [constructor|split; reflexivity].
  Qed.
  Lemma many_tup : forall rs us ts, many rs (us ++ ts) -> many rs (TTup us :: ts).
  Proof.
    intros rs us ts M p vs bs A N S. pose proof (accs_tup _ _ _ _ A) as (us' & vs' & -> & A').
    inversion A as [|t' ts' v vs2 a b H1 H2]; subst. inversion H1 as [| | | | | | | | | | | | |? ? ? H3| |]; subst.
    pose proof (accs_len _ _ _ H3) as L. destruct N as (N1 & N2). apply typed_tup in N1.
    destruct N1 as (_ & us2 & E & N1). inversion E; subst us2.
    destruct (M p _ _ A') as (ws & q & W & K & C); auto.
    - apply typed_list_app; auto.
    - exists ws, q. split; auto. split; auto. rewrite ser_list_app in K by auto. cbn [ser_list]. rewrite ser_tup. exact K.
  Qed.

  Lemma seq_fits : forall r t, (1 <= min_size t)%nat -> one r t -> one (RList r) (TSeq t).
  Proof.
    intros r t M O p v bs A N S. inversion A as [| | | | | | | | | | | |? vs n b H1 H2| | |]; subst.
    apply short_app in S. destruct S as (_ & S).
    apply typed_seq in N. destruct N as (_ & vs' & E & N). inversion E; subst vs'.
    apply typed_all_repeat in N. pose proof (accs_repeat_min _ _ _ _ H2 M) as L.
    destruct (one_repeat r t (List.length vs) O p vs b H2 N S) as (ws & q & W & K & C).
    pose proof (wires_length _ _ _ _ _ _ _ _ _ W) as LW. rewrite repeat_length in LW.
    exists (LList ws), q. split.
    - apply W_list; rewrite LW; auto. unfold short in S. nia.
    - rewrite ser_seq, ser_all_repeat, K. cbn [bind vser]. rewrite LW. split; auto.
  Qed.
  Lemma string_fits : one RString (TSeq TU8).
  Proof.
    intros p v bs A N S. inversion A as [| | | | | | | | | | | |? vs n b H1 H2| | |]; subst.
    apply short_app in S. destruct S as (_ & S).
    apply accs_u8 in H2. destruct H2 as (-> & B). rewrite map_length in H1.
    exists (LList (map LChar b)), p. split.
    - apply W_string; auto. unfold short in S. nia.
    - rewrite ser_seq, map_length. cbn [vser]. rewrite map_length, vser_chars by auto.
      assert (E : ser_all false TU8 (map VInt b) = Ok b).
      { clear. induction b as [|x b IH]; [reflexivity|]. cbn [map]. rewrite ser_all_cons, IH. reflexivity. }
      rewrite E. split; auto. cbn [clean]. clear. induction b; auto.
  Qed.
  Lemma int_fits : forall r t, r = RInt \/ r = RInt32 \/ r = RInt64 \/ r = RNativeInt ->
    (exists k, t = TInt k) \/ t = TU64 -> one r t.
  Proof.
    intros r t R T p v bs A N S. destruct T as [(k & ->)| ->]; inversion A; subst.
    - exists (LInt z), p. split; [constructor; auto|split; reflexivity].
    - exists (LInt z), p. split; [constructor; auto|]. split; [|reflexivity]. cbn [ser vser]. do 2 f_equal.
      match goal with H : int_form _ _ |- _ => apply int_form_i64 in H; unfold i64 in H end.
      apply wraps_id; [lia|]. change (64 - 1) with 63. lia.
  Qed.
  Lemma opt_fits : forall r t, one r t -> one (ROption r) (TOpt t).
  Proof.
    intros r t O p v bs A N S. inversion A as [| | | | | | | | | | |? v0 b H1| | | |]; subst.
    - exists (LOption None), p. split; [constructor|split; reflexivity].
    - destruct N as (_ & N). apply short_cons in S. destruct (O p v0 b H1 N S) as (w & q & W & E & C).
      exists (LOption (Some w)), q. split; [constructor; auto|]. cbn [ser]. rewrite E. auto.
  Qed.
  Lemma enum_fits : forall g ss vars, (forall rs ts, g rs ts = true -> many rs ts) ->
    fit_variants skip bad g 0 ss vars = true -> one (RSum ss) (TEnum vars).
  Proof.
    intros g ss vars G F p v bs A N S. inversion A as [| | | | | | | | | | | | | |? i ts vs b E L H2|]; subst.
    apply short_cons in S. apply typed_enum in N. destruct N as (N0 & i' & vs' & ts' & Q & E' & N).
    inversion Q; subst i' vs'. rewrite E in E'. inversion E'; subst ts'.
    cbn [avoid] in N0. rewrite E in N0.
    destruct (fit_variants_nth skip bad g vars 0 ss i ts F E N0) as (nm & args & E2 & B & F2 & NB).
    rewrite Z.add_0_l in *. destruct (G _ _ F2 p vs b H2 N S) as (ws & q & W & K & C).
    exists (LSum nm (Z.of_nat i) (LTuple ws)), q. split.
    - eapply W_sum; eauto. unfold is_byte. lia.
    - rewrite ser_enum, E, K. unfold write_variant_index_or_tag. cbn [vser]. unfold write_index_or_tag.
      cbn [clean]. rewrite NB. destruct (Z.of_nat i <? 256) eqn:Q2; [split; [reflexivity|exact C]|lia].
  Qed.
  Lemma poly_fits : forall g ps vars, (forall rs ts, g rs ts = true -> many rs ts) ->
    (List.length vars <= 256)%nat ->
    fit_polyvars g ps vars = true -> one (RPolyvar ps) (TPoly vars).
  Proof.
    intros g ps vars G LV F p v bs A N S.
    inversion A as [| | | | | | | | | | | | | | |? i nm ts vs rest a b c d Ha Hb Hc Hd SR E H2]; subst.
    pose proof (fit_polyvars_ascii g vars ps F) as AN. destruct SR as (nm' & Enm & _ & Hh & First).
    assert (LI : (i < List.length (map fst vars))%nat) by (apply nth_error_Some; rewrite Enm; discriminate).
    rewrite (rank_ascii _ _ AN LI) in *. rewrite map_length in LI.
    rewrite (Nat.mod_small i 256) in * by lia.
    assert (nm' = nm). { rewrite nth_error_map, E in Enm. inversion Enm. reflexivity. } subst nm'.
    do 4 apply short_cons in S. apply typed_poly in N. destruct N as (_ & i' & vs' & nm2 & ts' & Q & E' & N).
    inversion Q; subst i' vs'. rewrite E in E'. inversion E'; subst nm2 ts'.
    destruct (fit_polyvars_split g vars ps i nm ts F E) as (qs & args & rest' & -> & B & F2 & K).
    destruct (G _ _ F2 p vs rest H2 N S) as (ws & q & W & KW & CW).
    exists (LPolyvar nm (name_hash32 nm) (LTuple ws)), q. split.
    - eapply W_polyvar; eauto.
      intros x I. destruct (K x I) as (j & nm' & ts' & args' & L & EJ & ->). eexists. split; [reflexivity|].
      cbn [fst snd]. rewrite Hh. apply (First j nm' L).
      + rewrite nth_error_map, EJ. reflexivity.
      + rewrite forallb_forall in AN. apply AN. apply in_map_iff. exists (nm', ts'). split; auto.
        eapply nth_error_In; eauto.
    - rewrite ser_poly, E, KW. unfold write_variant_index_or_tag. rewrite caml_hash_spec. cbn [andb bind vser].
      unfold write_index_or_tag. destruct (name_hash32 nm <? 256) eqn:Q2; [lia|split; [reflexivity|exact CW]].
  Qed.

  Lemma group_tuple : forall l rs ts, many (l ++ rs) ts -> many (RTuple l :: rs) ts.
  Proof.
    intros l rs ts M p vs bs A N S. destruct (M p vs bs A N S) as (ws & q & W & K & C).
    apply wires_split in W. destruct W as (w1 & w2 & a & b & m & -> & -> & W1 & W2).
    exists (LTuple w1 :: w2), q. split.
    - econstructor; [apply W_tuple; eauto|auto].
    - rewrite forallb_app in C. rewrite K, flat_map_app. split; [reflexivity|exact C].
  Qed.
  Lemma group_record : forall fs rs ts, many (map snd fs ++ rs) ts -> many (RRecord fs :: rs) ts.
  Proof.
    intros fs rs ts M p vs bs A N S. destruct (M p vs bs A N S) as (ws & q & W & K & C).
    apply wires_split in W. destruct W as (w1 & w2 & a & b & m & -> & -> & W1 & W2).
    exists (LRecord (combine (map fst fs) w1) :: w2), q. split.
    - econstructor; [apply W_record; eauto|auto].
    - rewrite forallb_app in C. rewrite K, flat_map_app. cbn [flat_map vser forallb clean].
      apply wires_length in W1. rewrite flat_snd, forallb_clean_snd; auto; rewrite W1, !map_length; reflexivity.
  Qed.
  Lemma group_ref : forall m r rs ts, many (r :: rs) ts -> many (RResolved m r :: rs) ts.
  Proof.
    intros m r rs ts M p vs bs A N S. destruct (M (Some m) vs bs A N S) as (ws & q & W & K & C).
    inversion W as [|p' r' rs' w ws' a b m1 m2 H1 H2]; subst.
    exists (w :: ws'), q. split; auto. econstructor; [apply W_ref; eauto|auto].
  Qed.
  Lemma group_vector : forall m n r l rs ts, vector_len m = Some n ->
    many ((repeat r (Z.to_nat n) ++ [RUnit]) ++ rs) ts -> many (RResolved m (RCustom (r :: l)) :: rs) ts.
  Proof.
    intros m n r l rs ts V M p vs bs A N S. rewrite <- app_assoc in M. cbn [app] in M. destruct (M (Some m) vs bs A N S) as (ws & q & W & K & C).
    apply wires_split in W. destruct W as (w1 & w2 & a & b & m' & -> & -> & W1 & W2).
    inversion W2 as [|p' r' rs' w ws' a' b' m1 m2 H1 H2]; subst.
    inversion H1; subst; try (destruct H as [|[|[|]]]; discriminate).
    pose proof (vector_len_nonneg _ _ V) as R.
    exists (LTuple (w1 ++ [LUnit]) :: ws'), q. split.
    - rewrite app_assoc. econstructor; [|eauto]. apply W_ref. apply W_vector with (n := Z.to_nat n); [| |exact W1].
      + rewrite Z2Nat.id by lia. auto.
      + nia.
    - rewrite K, !flat_map_app. cbn [flat_map vser]. rewrite flat_map_app. cbn [flat_map vser].
      rewrite <- app_assoc. split; [reflexivity|]. rewrite forallb_app in C. cbn [forallb clean andb] in C |- *.
      rewrite forallb_app. cbn [forallb clean andb]. rewrite andb_true_r. exact C.
  Qed.
  Lemma group_big_int : forall m l rs ts, vector_len m = None -> is_big_int m = true ->
    many (repeat RChar 32 ++ rs) ts -> many (RResolved m (RCustom l) :: rs) ts.
  Proof.
    intros m l rs ts V B M p vs bs A N S. destruct (M (Some m) vs bs A N S) as (ws & q & W & K & C).
    apply wires_split in W. destruct W as (w1 & w2 & a & b & m' & -> & -> & W1 & W2).
    apply wires_chars in W1. destruct W1 as (-> & Ba & La & ->).
    exists (LTuple (map LChar a) :: w2), q. split.
    - econstructor; [|eauto]. apply W_ref. apply W_big_int; auto.
    - rewrite forallb_app in C. rewrite K, flat_map_app. split; [reflexivity|exact C].
  Qed.

  Lemma group_parts : forall r l rs ts, parts r = Some l -> many (l ++ rs) ts -> many (r :: rs) ts.
  Proof.
    intros r l rs ts E M. destruct r; try discriminate; cbn [parts] in E.
    - inversion E; subst. apply group_record; auto.
    - inversion E; subst. apply group_tuple; auto.
    - destruct r; try (inversion E; subst; apply group_ref; exact M).
      destruct (vector_len path) as [n|] eqn:V.
      + destruct rs0 as [|r l0]; [discriminate|]. inversion E; subst. apply (group_vector _ _ _ _ _ _ V). exact M.
      + destruct (is_big_int path) eqn:B; [|discriminate]. inversion E; subst. apply group_big_int; auto.
  Qed.
  Lemma leaf_fits : forall g r t, (forall rs ts, g rs ts = true -> many rs ts) ->
    fit_leaf skip bad g r t = true -> one r t.
  Proof.
    intros g r t G H. destruct r; try discriminate; cbn [fit_leaf] in H; destruct t; try discriminate;
      try (apply int_fits; eauto; tauto);
      try solve [intros p v bs A N S; inversion A; subst; eexists; exists p; split; [constructor; auto|split; reflexivity]].
    - intros p v bs A N S. inversion A; subst; eexists; exists p; (split; [constructor|split; reflexivity]).
    - destruct t; try discriminate. apply string_fits.
    - intros p v bs A N S. inversion A; subst. exists (LChar z), p. split; [constructor; auto|]. split; [|reflexivity].
      cbn [ser vser]. unfold bin_write_char, wrapu. unfold is_byte in *. rewrite Z.mod_small by lia. reflexivity.
    - apply opt_fits, many_one, G. exact H.
    - eapply enum_fits; eauto.
    - apply andb_true_iff in H. destruct H as (H1 & H2). apply Nat.leb_le in H1. eapply poly_fits; eauto.
    - apply andb_true_iff in H. destruct H as (H1 & H2). apply Nat.leb_le in H1. apply seq_fits; auto.
      apply many_one, G. exact H2.
  Qed.
  Theorem fit_forward : forall f rs ts, fit skip bad f rs ts = true -> many rs ts.
  Proof.
    induction f as [|f IH]; intros rs ts H; [discriminate|]. cbn [fit] in H.
    destruct rs as [|r rs].
    - destruct ts as [|t ts].
      + intros p vs bs A _ _. inversion A; subst. exists [], p. split; [constructor|split; reflexivity].
      + destruct t; try discriminate. cbn [tuple_parts] in H. apply many_tup. apply IH. auto.
    - destruct (parts r) as [l|] eqn:P; [eapply group_parts; eauto|].
      destruct ts as [|t ts]; [discriminate|].
      destruct (tuple_parts t) as [us|] eqn:T.
      + destruct t; try discriminate. inversion T; subst. apply many_tup. auto.
      + apply andb_true_iff in H. destruct H as (H1 & H2). apply one_cons; [eapply leaf_fits; eauto|auto].
  Qed.
End Forward.

(** * From the layout to the typed decoder *)

(** Errors of a decoder that knows less than the layout: a number does not fit
    the Rust type, or a variant is not known. *)
Definition narrow (e : err) : bool :=
  match e with EDestinationIntegerOverflow | EUnknownPolyvarTag _ | ECustom => true | _ => false end.

Section Backward.
  Variable sz : Z.
  Variable skip : list ty -> bool.
  Variable bad : string -> bool.
  Local Notation lenients := (wires sz nat_form int_form (fun w tag => w / 2 = tag)).
  Local Notation clean := (clean bad).
  Local Notation de := (de false (list Z) sread).
  Local Notation de_list := (de_list false (list Z) sread).
  Local Notation de_rep := (de_rep false (list Z) sread).

  Definition bone (r : rule) (t : ty) : Prop := forall p w bs q rest, lenient sz p r w bs q -> clean w = true ->
    bytes_ok (bs ++ rest) ->
    match de t (bs ++ rest) with
    | Ok (v, s) => s = rest /\ ser false t v = Ok (vser w) /\ avoids skip t v
    | Err e => narrow e = true
    | Panic => False
    end.
  Definition bmany (rs : list rule) (ts : list ty) : Prop := forall p ws bs q rest, lenients p rs ws bs q ->
    forallb clean ws = true -> bytes_ok (bs ++ rest) ->
    match de_list ts (bs ++ rest) with
    | Ok (vs, s) => s = rest /\ ser_list false ts vs = Ok (flat_map vser ws) /\ avoids_list skip ts vs
    | Err e => narrow e = true
    | Panic => False
    end.

  Lemma bmany_one : forall r t, bmany [r] [t] -> bone r t.
  Proof.
    intros r t M p w bs q rest W C B.
    assert (W' : lenients p [r] [w] bs q).
    { rewrite <- (app_nil_r bs). econstructor; eauto. constructor. }
    specialize (M p [w] bs q rest W'). cbn [forallb] in M. rewrite C in M. specialize (M eq_refl B).
    cbn [Codec.de_list] in M. destruct (de t (bs ++ rest)) as [(v & s)|e|]; cbn [bind] in M; auto.
    destruct M as (M1 & M2 & M3). split; auto. split; [|apply M3]. cbn [ser_list flat_map] in M2.
    destruct (ser false t v); cbn [bind] in M2; try discriminate. rewrite !app_nil_r in M2. exact M2.
  Qed.
  Lemma bone_cons : forall r t rs ts, bone r t -> bmany rs ts -> bmany (r :: rs) (t :: ts).
  Proof.
    intros r t rs ts O M p ws bs q rest W C B.
    inversion W as [|p' r' rs' w ws' a b m m' H1 H2]; subst. cbn [forallb] in C. apply andb_true_iff in C.
    destruct C as (C1 & C2). rewrite <- app_assoc in *. cbn [Codec.de_list].
    specialize (O p w a m (b ++ rest) H1 C1 B). destruct (de t (a ++ b ++ rest)) as [(v & s)|e|]; cbn [bind]; auto.
    destruct O as (-> & E & A). apply bytes_ok_app in B. specialize (M m ws' b q rest H2 C2 (proj2 B)).
    destruct (de_list ts (b ++ rest)) as [(vs & s)|e|]; cbn [bind]; auto.
    destruct M as (-> & E2 & A2). split; auto. cbn [ser_list flat_map]. rewrite E, E2. split; [reflexivity|].
    split; auto.
  Qed.
  Lemma bone_repeat : forall r t n, bone r t -> bmany (repeat r n) (repeat t n).
  Proof.
    intros r t n O. induction n; cbn [repeat]; [|apply bone_cons; auto].
    intros p ws bs q rest W C B. inversion W; subst. cbn. auto.
  Qed.
  Lemma de_rep_list : forall t n s, de_rep t n s = de_list (repeat t n) s.
  Proof.
    intros t. induction n; intros s; [reflexivity|]. rewrite de_rep_S. cbn [repeat Codec.de_list].
    destruct (de t s) as [(v & s')|e|]; cbn [bind]; auto. rewrite IHn. reflexivity.
  Qed.
  Lemma de_list_app : forall us ts s, de_list (us ++ ts) s =
    let* (a, s) := de_list us s in let* (b, s) := de_list ts s in Ok (a ++ b, s).
  Proof.
    induction us as [|u us IH]; intros ts s; cbn [app Codec.de_list].
    - cbn [bind]. destruct (de_list ts s) as [(b & s')|e|]; reflexivity.
    - destruct (de u s) as [(v & s')|e|]; cbn [bind]; auto. rewrite IH.
      destruct (de_list us s') as [(a & s2)|e|]; cbn [bind]; auto.
      destruct (de_list ts s2) as [(b & s3)|e|]; reflexivity.
  Qed.
  Lemma de_list_length : forall ts s vs s', de_list ts s = Ok (vs, s') -> List.length vs = List.length ts.
  Proof.
    induction ts as [|t ts IH]; intros s vs s' H; cbn [Codec.de_list] in H.
    - inversion H; reflexivity.
    - destruct (de t s) as [(v & s1)|e|]; cbn [bind] in H; try discriminate.
      destruct (de_list ts s1) as [(vs1 & s2)|e|] eqn:E; cbn [bind] in H; try discriminate.
      inversion H; subst. cbn. f_equal. eauto.
  Qed.
  Lemma bmany_tup : forall rs us ts, bmany rs (us ++ ts) -> bmany rs (TTup us :: ts).
  Proof.
    intros rs us ts M p ws bs q rest W C B. specialize (M p ws bs q rest W C B).
    rewrite de_list_app in M. cbn [Codec.de_list]. rewrite (de_tup false (list Z) sread).
    destruct (de_list us (bs ++ rest)) as [(a & s)|e|] eqn:E; cbn [bind] in *; auto.
    destruct (de_list ts s) as [(b & s')|e|]; cbn [bind] in *; auto.
    destruct M as (-> & K & A). split; auto. apply de_list_length in E.
    rewrite ser_list_app in K by auto. cbn [ser_list]. rewrite ser_tup. split; [exact K|].
    apply typed_list_app in A; [|auto]. split; [|apply A]. apply typed_tup. split; [exact I|]. eexists. split; [reflexivity|apply A].
  Qed.

  Lemma seq_back : forall r t, bone r t -> bone (RList r) (TSeq t).
  Proof.
    intros r t O p w bs q rest W C B. inversion W; subst; try (intuition discriminate).
    cbn [FitSpec.clean] in C. rewrite <- app_assoc in *. rewrite (de_seq false (list Z) sread).
    rewrite (proj2 (read_nat0_iff _ (Z.of_nat (List.length vs)) (bs0 ++ rest) B)); [|eauto]. cbn [bind].
    rewrite Nat2Z.id, de_rep_list. apply bytes_ok_app in B.
    match goal with H : wires _ _ _ _ _ (repeat r _) _ _ _ |- _ =>
      pose proof (bone_repeat r t (List.length vs) O p vs bs0 q rest H C (proj2 B)) as M end.
    destruct (de_list (repeat t (List.length vs)) (bs0 ++ rest)) as [(us & s)|e|] eqn:E; cbn [bind]; auto.
    destruct M as (-> & K & A). split; auto. apply de_list_length in E. rewrite repeat_length in E.
    rewrite ser_seq, ser_all_repeat, E, K. split; [reflexivity|].
    apply typed_seq. split; [exact I|]. eexists. split; [reflexivity|]. apply typed_all_repeat. rewrite E. exact A.
  Qed.
  Lemma string_back : bone RString (TSeq TU8).
  Proof.
    intros p w bs q rest W C B. inversion W; subst; try (intuition discriminate).
    rewrite <- app_assoc in *. rewrite (de_seq false (list Z) sread).
    rewrite (proj2 (read_nat0_iff _ (Z.of_nat (List.length l)) (l ++ rest) B)); [|eauto]. cbn [bind].
    rewrite Nat2Z.id.
    assert (E : forall l, de_rep TU8 (List.length l) (l ++ rest) = Ok (map VInt l, rest)).
    { clear. induction l as [|x l IH]; [reflexivity|]. cbn [List.length app]. rewrite de_rep_S.
      cbn [Codec.de]. rewrite read_u8_cons. cbn [bind]. rewrite IH. reflexivity. }
    rewrite E. cbn [bind]. split; auto. rewrite ser_seq, map_length. cbn [vser]. rewrite map_length, vser_chars by auto.
    assert (E2 : ser_all false TU8 (map VInt l) = Ok l).
    { clear. induction l as [|x l IH]; [reflexivity|]. cbn [map]. rewrite ser_all_cons, IH. reflexivity. }
    rewrite E2. split; [reflexivity|]. apply typed_seq. split; [exact I|]. eexists. split; [reflexivity|].
    clear. induction l as [|x l IH]; [exact I|]. cbn [map]. split; [split; exact I|exact IH].
  Qed.
  Lemma int_back : forall r t, r = RInt \/ r = RInt32 \/ r = RInt64 \/ r = RNativeInt ->
    (exists k, t = TInt k) \/ t = TU64 -> bone r t.
  Proof.
    intros r t R T p w bs q rest W C B.
    assert (X : exists z, w = LInt z /\ int_form bs z).
    { destruct R as [ -> |[ -> |[ -> | -> ]]]; inversion W; subst; eauto. }
    destruct X as (z & -> & F).
    assert (E : forall rg, bin_read_integer _ sread rg (bs ++ rest) = from_prim _ rg z rest).
    { intros rg. rewrite read_integer_range by auto.
      rewrite (proj2 (read_integer_iff (bs ++ rest) z rest B)) by eauto. reflexivity. }
    destruct T as [(k & ->)| ->]; cbn [Codec.de]; rewrite E; unfold from_prim.
    - destruct (in_range _ z); cbn [bind]; [repeat (split; auto)|reflexivity].
    - destruct (in_range R_u64 z) eqn:Q; cbn [bind]; [|reflexivity]. split; auto. split; [|repeat (split; auto)]. cbn [ser vser]. do 2 f_equal.
      apply LooseWire.int_form_i64 in F. unfold i64 in F. unfold in_range, R_u64 in Q. cbn [lo hi] in Q.
      apply wraps_id; [lia|]. change (64 - 1) with 63. lia.
  Qed.
  Lemma opt_back : forall r t, bone r t -> bone (ROption r) (TOpt t).
  Proof.
    intros r t O p w bs q rest W C B. inversion W; subst; try (intuition discriminate); cbn [app Codec.de];
      unfold bin_read_bool; rewrite read_u8_cons; cbn [bind Z.eqb Pos.eqb].
    - repeat (split; auto).
    - cbn [app] in B. apply bytes_ok_cons in B.
      match goal with H : wire _ _ _ _ _ r _ _ _ |- _ => specialize (O _ _ _ _ rest H C (proj2 B)) end.
      cbv beta iota. destruct (de t (bs0 ++ rest)) as [(u & s)|e|]; cbn [bind]; auto.
      destruct O as (-> & E & A). split; auto. cbn [ser]. rewrite E. split; [reflexivity|]. split; [exact I|exact A].
  Qed.
  Lemma fit_variants_back : forall g vars k ss i ts nm ix args, fit_variants skip bad g k ss vars = true ->
    nth_error vars i = Some ts -> nth_error ss i = Some (nm, ix, args) -> bad nm = false ->
    ix = k + Z.of_nat i /\ g args ts = true /\ skip ts = false.
  Proof.
    intros g. induction vars as [|us vars IH]; intros k ss i ts nm ix args H E K N; destruct i as [|i]; cbn [nth_error] in E; try discriminate;
      destruct ss as [|((nm' & ix') & args') ss]; cbn [nth_error] in K; try discriminate; cbn [fit_variants] in H.
    - inversion E; subst. inversion K; subst. rewrite N in H. destruct (skip ts); [discriminate|].
      repeat (rewrite andb_true_iff in H). destruct H as ((((_ & H1) & H2) & H3) & _). split; [lia|auto].
    - apply andb_true_iff in H. destruct H as (_ & H). destruct (IH _ _ _ _ _ _ _ H E K N) as (-> & G & S). split; auto. lia.
  Qed.
  Lemma enum_back : forall g ss vars, (forall rs ts, g rs ts = true -> bmany rs ts) ->
    fit_variants skip bad g 0 ss vars = true -> bone (RSum ss) (TEnum vars).
  Proof.
    intros g ss vars G F p w bs q rest W C B. inversion W; subst; try (intuition discriminate).
    match goal with H : nth_error ss i = _ |- _ => rename H into EN end.
    cbn [FitSpec.clean] in C. apply andb_true_iff in C. destruct C as (C1 & C2). apply negb_true_iff in C1.
    cbn [app] in *. apply bytes_ok_cons in B.
    rewrite (de_enum false (list Z) sread). unfold bin_read_variant_index. rewrite read_u8_cons. cbn [bind].
    rewrite Nat2Z.id. destruct (nth_error vars i) as [ts|] eqn:EV; [|reflexivity].
    destruct (fit_variants_back g vars 0 ss i ts _ _ _ F EV EN C1) as (-> & FA & NS).
    match goal with H : wires _ _ _ _ _ args _ _ _ |- _ => pose proof (G _ _ FA _ _ _ _ rest H C2 (proj2 B)) as M end.
    destruct (de_list ts (bs0 ++ rest)) as [(us & s)|e|]; cbn [bind]; auto.
    destruct M as (-> & K & A). split; auto. split; [|apply typed_enum; split; [cbn [avoid]; rewrite EV; exact NS|eauto 6]]. rewrite ser_enum, EV, K. unfold write_variant_index_or_tag.
    cbn [vser]. unfold write_index_or_tag. rewrite Z.add_0_l.
    destruct (Z.of_nat i <? 256) eqn:Q2; [reflexivity|lia].
  Qed.
  Lemma find_missing : forall names k h, (forall nm, In nm names -> name_hash32 nm <> h) ->
    find_variant false names k h = Err (EUnknownPolyvarTag h).
  Proof.
    induction names as [|nm names IH]; intros k h H; cbn [find_variant]; [reflexivity|].
    rewrite !IH by (intros; apply H; right; auto).
    destruct (is_ascii nm); [|reflexivity]. rewrite caml_hash_spec. cbn [andb bind].
    destruct (Z.eqb_spec (name_hash32 nm) h) as [Q|Q]; [|reflexivity].
    exfalso. apply (H nm); auto. left. auto.
  Qed.
  Lemma fit_polyvars_nth : forall g vars ps i nm tag args rest, fit_polyvars g ps vars = true ->
    skipn i ps = inl (nm, tag, args) :: rest ->
    match nth_error vars i with
    | Some (nm', ts) => nm' = nm /\ tag = name_hash32 nm /\ 256 <= tag /\ g args ts = true
    | None => True
    end.
  Proof.
    intros g. induction vars as [|(nm0 & us) vars IH]; intros ps i nm tag args rest H E; destruct i as [|i]; cbn [nth_error]; auto;
      cbn [fit_polyvars] in H; destruct ps as [|[((nm1 & tag1) & args1)|r] ps]; try discriminate;
      repeat (rewrite andb_true_iff in H); destruct H as (((((H1 & H2) & H3) & H4) & H5) & H6);
      apply String.eqb_eq in H1; apply Z.eqb_eq in H2; subst nm1 tag1; cbn [skipn] in E.
    - inversion E; subst. repeat split; auto. lia.
    - eapply IH; eauto.
  Qed.
  Lemma fit_polyvars_before : forall g vars ps qs rest j nm ts, fit_polyvars g ps vars = true -> ps = qs ++ rest ->
    nth_error vars j = Some (nm, ts) -> (j < List.length qs)%nat -> exists args, In (inl (nm, name_hash32 nm, args)) qs.
  Proof.
    intros g. induction vars as [|(nm0 & us) vars IH]; intros ps qs rest j nm ts H E N L; destruct j as [|j]; cbn [nth_error] in N; try discriminate;
      destruct qs as [|x qs]; cbn [List.length] in L; try lia; subst ps; cbn [app fit_polyvars] in H;
      destruct x as [((nm1 & tag1) & args1)|r]; try discriminate;
      repeat (rewrite andb_true_iff in H); destruct H as (((((H1 & H2) & H3) & H4) & H5) & H6);
      apply String.eqb_eq in H1; apply Z.eqb_eq in H2; subst nm1 tag1.
    - inversion N; subst. exists args1. left. auto.
    - destruct (IH (qs ++ rest) qs rest j nm ts H6 eq_refl N ltac:(lia)) as (args & I). exists args. right. auto.
  Qed.
  Lemma poly_back : forall g ps vars, (forall rs ts, g rs ts = true -> bmany rs ts) ->
    (List.length vars <= 256)%nat ->
    fit_polyvars g ps vars = true -> bone (RPolyvar ps) (TPoly vars).
  Proof.
    intros g ps vars G LV F p w bs q rest W C B.
    inversion W as [| | | | | | | | | | | |p0 ps0 qs name tag args rest' a b c d vs bs0 q0 EP First Ha Hb Hc Hd TG WS| | | |];
      subst; try (intuition discriminate).
    cbn [FitSpec.clean] in C. cbn [app] in *.
    do 4 (apply bytes_ok_cons in B; destruct B as (_ & B)).
    rewrite (de_poly false (list Z) sread). unfold bin_read_polyvar_tag. rewrite read_ule_app4. cbn [bind].
    rewrite Z.shiftr_div_pow2 by lia. change (2 ^ 1) with 2. set (h := le4 a b c d / 2) in *.
    pose proof (fit_polyvars_ascii g vars _ F) as AN.
    assert (NB : forall j nm ts, (j < List.length qs)%nat -> nth_error vars j = Some (nm, ts) -> name_hash32 nm <> h).
    { intros j nm ts L N. destruct (fit_polyvars_before g vars _ qs _ j nm ts F eq_refl N L) as (args' & I).
      destruct (First _ I) as (y & E & D). inversion E; subst y. exact D. }
    assert (SK : skipn (List.length qs) (qs ++ inl (name, h, args) :: rest') = inl (name, h, args) :: rest').
    { rewrite skipn_app, skipn_all, Nat.sub_diag. reflexivity. }
    pose proof (fit_polyvars_nth g vars _ _ _ _ _ _ F SK) as FN.
    destruct (nth_error vars (List.length qs)) as [(nm' & ts)|] eqn:EV.
    - destruct FN as (-> & TH & T256 & FA).
      assert (LI : (List.length qs < List.length vars)%nat) by (apply nth_error_Some; rewrite EV; discriminate).
      assert (EF : find_variant false (map fst vars) 0 h = Ok (Z.of_nat (List.length qs))).
      { apply find_variant_iff. exists (List.length qs). split.
        - exists name. rewrite nth_error_map, EV. repeat split; auto.
          + rewrite forallb_forall in AN. apply AN. apply in_map_iff. exists (name, ts). split; auto. eapply nth_error_In; eauto.
          + intros j nm' L N _. rewrite nth_error_map in N.
            destruct (nth_error vars j) as [(nm2 & ts2)|] eqn:EJ; inversion N; subst. eapply NB; eauto.
        - rewrite rank_ascii by (auto; rewrite map_length; auto). unfold wrapu. rewrite Z.mod_small; lia. }
      rewrite EF. cbn [bind]. rewrite Nat2Z.id, EV.
      pose proof (G _ _ FA _ _ _ _ rest WS C B) as M.
      destruct (de_list ts (bs0 ++ rest)) as [(us & s)|e|]; cbn [bind]; auto.
      destruct M as (-> & K & A). split; auto. split; [|apply typed_poly; split; [exact I|eauto 8]]. rewrite ser_poly, EV, K. unfold write_variant_index_or_tag.
      rewrite caml_hash_spec. cbn [andb bind vser]. rewrite TH. unfold write_index_or_tag.
      destruct (name_hash32 name <? 256) eqn:Q2; [lia|reflexivity].
    - rewrite find_missing; [reflexivity|]. intros nm I. apply in_map_iff in I. destruct I as ((nm2 & ts2) & <- & I).
      apply In_nth_error in I. destruct I as (j & EJ). apply (NB j nm2 ts2); auto.
      apply nth_error_None in EV. assert (j < List.length vars)%nat by (apply nth_error_Some; rewrite EJ; discriminate). lia.
  Qed.

  Lemma wires_app : forall rs ss p w1 w2 a b m q, lenients p rs w1 a m -> lenients m ss w2 b q ->
    lenients p (rs ++ ss) (w1 ++ w2) (a ++ b) q.
  Proof.
    intros rs ss p w1 w2 a b m q H. induction H; intros K; cbn [app]; auto. rewrite <- app_assoc. econstructor; eauto.
  Qed.
  Lemma back_tuple : forall l rs ts, bmany (l ++ rs) ts -> bmany (RTuple l :: rs) ts.
  Proof.
    intros l rs ts M p ws bs q rest W C B. inversion W as [|p' r' rs' w ws' a b m m' H1 H2]; subst.
    inversion H1; subst; try (intuition discriminate). cbn [forallb FitSpec.clean] in C.
    match goal with H : wires _ _ _ _ _ l _ _ _ |- _ => pose proof (wires_app _ _ _ _ _ _ _ _ _ H H2) as W' end.
    specialize (M _ _ _ _ rest W'). rewrite forallb_app, C in M. specialize (M eq_refl B).
    destruct (de_list ts ((a ++ b) ++ rest)) as [(us & s)|e|]; auto. destruct M as (-> & K & A). split; auto. split; auto.
    rewrite K, flat_map_app. reflexivity.
  Qed.
  Lemma back_record : forall fs rs ts, bmany (map snd fs ++ rs) ts -> bmany (RRecord fs :: rs) ts.
  Proof.
    intros fs rs ts M p ws bs q rest W C B. inversion W as [|p' r' rs' w ws' a b m m' H1 H2]; subst.
    inversion H1; subst; try (intuition discriminate).
    match goal with H : wires _ _ _ _ _ (map snd fs) _ _ _ |- _ =>
      pose proof (wires_app _ _ _ _ _ _ _ _ _ H H2) as W'; pose proof (wires_length _ _ _ _ _ _ _ _ _ H) as L end.
    rewrite map_length in L. cbn [forallb FitSpec.clean] in C. rewrite forallb_clean_snd in C by (rewrite map_length; auto).
    specialize (M _ _ _ _ rest W'). rewrite forallb_app, C in M. specialize (M eq_refl B).
    destruct (de_list ts ((a ++ b) ++ rest)) as [(us & s)|e|]; auto. destruct M as (-> & K & A). split; auto. split; auto.
    rewrite K, flat_map_app. cbn [flat_map vser]. rewrite flat_snd; auto. rewrite map_length; auto.
  Qed.
  Lemma back_ref : forall m r rs ts, bmany (r :: rs) ts -> bmany (RResolved m r :: rs) ts.
  Proof.
    intros m r rs ts M p ws bs q rest W C B. inversion W as [|p' r' rs' w ws' a b m1 m2 H1 H2]; subst.
    inversion H1; subst; try (intuition discriminate). eapply M; eauto. econstructor; eauto.
  Qed.
  Lemma vector_not_big : forall m n, vector_len m = Some n -> is_big_int m = false.
  Proof.
    intros m n EV. unfold vector_len in EV.
    repeat match type of EV with (if ?c then _ else _) = _ => destruct c eqn:? end;
      try discriminate;
      repeat match goal with H : (_ || _) = true |- _ => apply orb_true_iff in H; destruct H end;
      match goal with H : String.eqb m _ = true |- _ => apply String.eqb_eq in H; subst m end; reflexivity.
  Qed.
  Lemma back_vector : forall m n r l rs ts, vector_len m = Some n ->
    bmany (repeat r (Z.to_nat n) ++ RUnit :: rs) ts -> bmany (RResolved m (RCustom (r :: l)) :: rs) ts.
  Proof.
    intros m n r l rs ts V M p ws bs q rest W C B. inversion W as [|p' r' rs' w ws' a b m1 m2 H1 H2]; subst.
    inversion H1 as [| | | | | | | | | | | | | |p3 m3 r3 v3 b3 q3 H3| |]; subst; try (intuition discriminate).
    inversion H3 as [| | | | | | | | | | | | | | |m4 n4 r4 rs4 vs4 bs4 q4 V4 S4 W4|m4 rs4 l4 B4]; subst; try (intuition discriminate).
    2:{ rewrite (vector_not_big _ _ V) in B4. discriminate. }
    rewrite V in V4. inversion V4; subst n. rewrite Nat2Z.id in M.
    assert (W' : lenients (Some m) (repeat r n4 ++ RUnit :: rs) (vs4 ++ LUnit :: ws') (bs4 ++ [0] ++ b) q).
    { eapply wires_app; eauto. econstructor; eauto. constructor. }
    cbn [forallb FitSpec.clean] in C. rewrite forallb_app in C. cbn [forallb FitSpec.clean andb] in C.
    rewrite andb_true_r in C.
    specialize (M _ _ _ _ rest W'). rewrite forallb_app in M. cbn [forallb FitSpec.clean andb] in M. rewrite C in M.
    rewrite <- app_assoc in B. cbn [app] in M, B. rewrite <- !app_assoc. cbn [app].
    rewrite <- app_assoc in M. cbn [app] in M.
    assert (B' : bytes_ok (bs4 ++ 0 :: b ++ rest)).
    { rewrite <- app_assoc in B. exact B. }
    specialize (M eq_refl B').
    destruct (de_list ts (bs4 ++ 0 :: b ++ rest)) as [(us & s)|e|]; auto. destruct M as (-> & K & A). split; auto. split; auto.
    rewrite K, !flat_map_app. cbn [flat_map vser]. rewrite flat_map_app. cbn [flat_map vser].
    rewrite <- app_assoc. reflexivity.
  Qed.
  Lemma chars_wires : forall l p, bytes_ok l -> lenients p (repeat RChar (List.length l)) (map LChar l) l p.
  Proof.
    induction l as [|x l IH]; intros p B; cbn [List.length repeat map]; [constructor|].
    apply bytes_ok_cons in B. change (x :: l) with ([x] ++ l). econstructor; [constructor; apply B|]. apply IH. apply B.
  Qed.
  Lemma back_big_int : forall m l rs ts, vector_len m = None -> is_big_int m = true ->
    bmany (repeat RChar 32 ++ rs) ts -> bmany (RResolved m (RCustom l) :: rs) ts.
  Proof.
    intros m l rs ts V I M p ws bs q rest W C B. inversion W as [|p' r' rs' w ws' a b m1 m2 H1 H2]; subst.
    inversion H1 as [| | | | | | | | | | | | | |p3 m3 r3 v3 b3 q3 H3| |]; subst; try (intuition discriminate).
    inversion H3 as [| | | | | | | | | | | | | | |m4 n4 r4 rs4 vs4 bs4 q4 V4 S4 W4|m4 rs4 l4 B4 S4 L4 K4]; subst; try (intuition discriminate).
    { rewrite V in V4. discriminate. }
    assert (W' : lenients (Some m) (repeat RChar 32 ++ rs) (map LChar a ++ ws') (a ++ b) q).
    { eapply wires_app; eauto. rewrite <- L4. apply chars_wires. auto. }
    cbn [forallb FitSpec.clean] in C.
    specialize (M _ _ _ _ rest W'). rewrite forallb_app, C in M. specialize (M eq_refl B).
    destruct (de_list ts ((a ++ b) ++ rest)) as [(us & s)|e|]; auto. destruct M as (-> & K & A). split; auto. split; auto.
    rewrite K, flat_map_app. reflexivity.
  Qed.

  Lemma back_parts : forall r l rs ts, parts r = Some l -> bmany (l ++ rs) ts -> bmany (r :: rs) ts.
  Proof.
    intros r l rs ts E M. destruct r; try discriminate; cbn [parts] in E.
    - inversion E; subst. apply back_record; auto.
    - inversion E; subst. apply back_tuple; auto.
    - destruct r; try (inversion E; subst; apply back_ref; exact M).
      destruct (vector_len path) as [n|] eqn:V.
      + destruct rs0 as [|r l0]; [discriminate|]. inversion E; subst. rewrite <- app_assoc in M.
        apply (back_vector _ _ _ _ _ _ V). exact M.
      + destruct (is_big_int path) eqn:B; [|discriminate]. inversion E; subst. apply back_big_int; auto.
  Qed.
  Lemma leaf_back : forall g r t, (forall rs ts, g rs ts = true -> bmany rs ts) ->
    fit_leaf skip bad g r t = true -> bone r t.
  Proof.
    intros g r t G H. destruct r; try discriminate; cbn [fit_leaf] in H; destruct t; try discriminate;
      try (apply int_back; eauto; tauto).
    - intros p w bs q rest W C B. inversion W; subst; try (intuition discriminate).
      cbn [app Codec.de]. unfold bin_read_unit. rewrite read_u8_cons. cbn. repeat (split; auto).
    - intros p w bs q rest W C B. inversion W; subst; try (intuition discriminate);
      cbn [app Codec.de]; unfold bin_read_bool; rewrite read_u8_cons; cbn; repeat (split; auto).
    - destruct t; try discriminate. apply string_back.
    - intros p w bs q rest W C B. inversion W; subst; try (intuition discriminate).
      cbn [app Codec.de]. rewrite read_u8_cons. cbn [bind ser vser]. split; auto. split; [|repeat (split; auto)].
      unfold bin_write_char, wrapu. unfold is_byte in *. rewrite Z.mod_small by lia. reflexivity.
    - intros p w bs q rest W C B. inversion W; subst; try (intuition discriminate).
      cbn [app Codec.de]. rewrite read_ule_app8. cbn [bind]. repeat (split; auto).
    - apply opt_back, bmany_one, G. exact H.
    - eapply enum_back; eauto.
    - apply andb_true_iff in H. destruct H as (H1 & H2). apply Nat.leb_le in H1. eapply poly_back; eauto.
    - apply andb_true_iff in H. destruct H as (_ & H2). apply seq_back. apply bmany_one, G. exact H2.
  Qed.
  Theorem fit_backward : forall f rs ts, fit skip bad f rs ts = true -> bmany rs ts.
  Proof.
    induction f as [|f IH]; intros rs ts H; [discriminate|]. cbn [fit] in H.
    destruct rs as [|r rs].
    - destruct ts as [|t ts].
      + intros p ws bs q rest W C B. inversion W; subst. cbn. auto.
      + destruct t; try discriminate. cbn [tuple_parts] in H. apply bmany_tup. apply IH. auto.
    - destruct (parts r) as [l|] eqn:P; [eapply back_parts; eauto|].
      destruct ts as [|t ts]; [discriminate|].
      destruct (tuple_parts t) as [us|] eqn:T.
      + destruct t; try discriminate. inversion T; subst. apply bmany_tup. auto.
      + apply andb_true_iff in H. destruct H as (H1 & H2). apply bone_cons; [eapply leaf_back; eauto|auto].
  Qed.
End Backward.
