(** Further facts about the typed codec: truncation, unique parsing, freedom
    from panics, and that decoding yields values of the type. *)
From Coq Require Import ZArith List Bool String Lia ZifyBool ZifyNat.
From Verif Require Import Lib.Res Lib.Bytes BinProt.Prim BinProt.PrimProofs BinProt.PrimSpec BinProt.PrimSpecProofs
  BinProt.Codec BinProt.CodecSpec BinProt.CodecProofs.
Import ListNotations.
Open Scope Z_scope.
Ltac Zify.zify_post_hook ::= Z.div_mod_to_equations.

Lemma truncated : forall c t v bs n,
  fits c t v -> ser c t v = Ok bs -> (n < List.length bs)%nat ->
  is_err (from_slice c t (firstn n bs)).
Proof.
  intros c t v bs n Hf Hs Hn.
  destruct (round_trip c t v Hf) as (bs' & S' & _ & D).
  rewrite Hs in S'. injection S' as <-. specialize (D []). rewrite app_nil_r in D.
  pose proof (from_slice_mono c t (firstn n bs) (skipn n bs)) as M.
  rewrite firstn_skipn in M.
  destruct (from_slice c t (firstn n bs)) as [(w, r)|e|].
  - unfold from_slice in M. rewrite D in M. injection M as _ E.
    exfalso. apply (f_equal (@List.length Z)) in E. rewrite app_length, skipn_length in E. cbn in E. lia.
  - exists e; auto.
  - unfold from_slice in M. rewrite D in M. discriminate.
Qed.

Lemma prefix_unique : forall c t v w a b x,
  fits c t v -> fits c t w -> ser c t v = Ok a -> ser c t w = Ok b -> b = a ++ x ->
  v = w /\ x = [].
Proof.
  intros c t v w a b x Hv Hw Sv Sw E.
  destruct (round_trip c t v Hv) as (a' & Sa & _ & Da). rewrite Sv in Sa. injection Sa as <-.
  destruct (round_trip c t w Hw) as (b' & Sb & _ & Db). rewrite Sw in Sb. injection Sb as <-.
  specialize (Da x). specialize (Db []). rewrite app_nil_r in Db. rewrite E in Db.
  rewrite Db in Da. injection Da as -> <-. auto.
Qed.

Lemma stream_unique : forall c t vs ws a b,
  Forall (fits c t) vs -> Forall (fits c t) ws ->
  (forall v, fits c t v -> ser c t v <> Ok []) ->
  ser_all c t vs = Ok a -> ser_all c t ws = Ok b -> a = b -> vs = ws.
Proof.
  intros c t vs. induction vs as [|v vs IH]; intros ws a b Hv Hw Hne Sa Sb E.
  - cbn in Sa. injection Sa as <-. destruct ws as [|w ws]; auto. exfalso.
    rewrite ser_all_cons in Sb. apply bind_ok in Sb. destruct Sb as (x & S1 & S2).
    apply bind_ok in S2. destruct S2 as (y & S2 & S3). injection S3 as <-.
    inversion Hw; subst. destruct x; [|discriminate]. eapply Hne; eauto.
  - inversion Hv; subst.
    rewrite ser_all_cons in Sa. apply bind_ok in Sa. destruct Sa as (x & S1 & S2).
    apply bind_ok in S2. destruct S2 as (y & S2 & S3). injection S3 as <-.
    destruct ws as [|w ws].
    { exfalso. cbn in Sb. injection Sb as E. symmetry in E. apply app_eq_nil in E.
      destruct E as (-> & _). eapply Hne; eauto. }
    inversion Hw; subst.
    rewrite ser_all_cons in Sb. apply bind_ok in Sb. destruct Sb as (x' & S1' & S2').
    apply bind_ok in S2'. destruct S2' as (y' & S2' & S3'). injection S3' as E.
    destruct (round_trip c t v H1) as (a' & Sa & _ & Da). rewrite S1 in Sa. injection Sa as <-.
    destruct (round_trip c t w H3) as (b' & Sb & _ & Db). rewrite S1' in Sb. injection Sb as <-.
    specialize (Da y). specialize (Db y'). rewrite E, Da in Db. injection Db as <- <-.
    f_equal. eapply IH; eauto.
Qed.

(** * No panic *)
Fixpoint no_panic_ty (c : bool) (t : ty) : Prop :=
  let all := fix all (ts : list ty) : Prop :=
    match ts with [] => True | t :: ts' => no_panic_ty c t /\ all ts' end in
  match t with
  | TStr => False
  | TOpt t | TSeq t => no_panic_ty c t
  | TTup ts => all ts
  | TEnum vs => (fix go (vs : list (list ty)) : Prop :=
      match vs with [] => True | ts :: vs' => all ts /\ go vs' end) vs
  | TPoly vs => (fix go (vs : list (string * list ty)) : Prop :=
      match vs with
      | [] => True
      | (nm, ts) :: vs' => (c = true -> name_value nm < 2 ^ 32) /\ all ts /\ go vs'
      end) vs
  | _ => True
  end.
Definition no_panic_list (c : bool) : list ty -> Prop :=
  fix all (ts : list ty) : Prop :=
    match ts with [] => True | t :: ts' => no_panic_ty c t /\ all ts' end.

Lemma bind_np : forall A B (r : res err A) (f : A -> res err B),
  r <> Panic -> (forall a, r = Ok a -> f a <> Panic) -> bind r f <> Panic.
Proof. intros A B [a|e|] f H K; cbn; auto; congruence. Qed.

Section NoPanic.
  Variable c : bool.
  Variable S : Type.
  Variable rd : Z -> S -> res err (list Z * S).
  Hypothesis Hrd : forall n s, rd n s <> Panic.
  Lemma np_u8 : forall s, read_u8 S rd s <> Panic.
  Proof. intros. apply bind_np; auto. intros (l, s'); discriminate. Qed.
  Lemma np_ule : forall n s, read_ule S rd n s <> Panic.
  Proof. intros. apply bind_np; auto. intros (l, s'); discriminate. Qed.
  Lemma np_sle : forall n s, read_sle S rd n s <> Panic.
  Proof. intros. apply bind_np; auto. intros (l, s'); discriminate. Qed.
  Lemma np_from : forall r x s, from_prim S r x s <> Panic.
  Proof. intros. unfold from_prim. destruct (in_range r x); discriminate. Qed.
  Lemma np_bool : forall s, bin_read_bool S rd s <> Panic.
  Proof.
    intros. apply bind_np; [apply np_u8|]. intros (b, s') _.
    destruct (b =? 0); [discriminate|]. destruct (b =? 1); discriminate.
  Qed.
  Lemma np_unit : forall s, bin_read_unit S rd s <> Panic.
  Proof.
    intros. apply bind_np; [apply np_u8|]. intros (b, s') _. destruct (b =? 0); discriminate.
  Qed.
  Lemma np_integer : forall r s, bin_read_integer S rd r s <> Panic.
  Proof.
    intros. apply bind_np; [apply np_u8|]. intros (b, s') _.
    repeat match goal with |- context [if ?b then _ else _] => destruct b end;
      first [ discriminate | apply np_from | apply bind_np; [apply np_sle|intros (?, ?) _; apply np_from] ].
  Qed.
  Lemma np_nat0 : forall r s, bin_read_nat0 S rd r s <> Panic.
  Proof.
    intros. apply bind_np; [apply np_u8|]. intros (b, s') _.
    repeat match goal with |- context [if ?b then _ else _] => destruct b end;
      first [ discriminate | apply np_from | apply bind_np; [apply np_ule|intros (?, ?) _; apply np_from] ].
  Qed.
  Lemma np_list : forall ts,
    Forall (fun t => no_panic_ty c t -> forall s, de c S rd t s <> Panic) ts ->
    no_panic_list c ts -> forall s, de_list c S rd ts s <> Panic.
  Proof.
    induction ts as [|t ts IH]; intros HF HN s; cbn [de_list]; [discriminate|].
    inversion HF; subst. destruct HN as (N1 & N2).
    apply bind_np; auto. intros (v, s1) _. apply bind_np; auto. intros (vs, s2) _. discriminate.
  Qed.
  Lemma np_find : forall names k h,
    (c = true -> Forall (fun nm => name_value nm < 2 ^ 32) names) ->
    find_variant c names k h <> Panic.
  Proof.
    induction names as [|nm names IH]; intros k h H; cbn [find_variant]; [discriminate|].
    assert (H' : c = true -> Forall (fun nm => name_value nm < 2 ^ 32) names).
    { intros E. specialize (H E). inversion H; auto. }
    destruct (is_ascii nm); [|apply IH; auto].
    rewrite caml_hash_spec.
    assert (Q : c && (2 ^ 32 <=? name_value nm) = false).
    { destruct c; auto. specialize (H eq_refl). inversion H; subst. cbn. lia. }
    rewrite Q. cbn [bind]. destruct (_ =? h); [discriminate|]. apply IH; auto.
  Qed.
  Theorem no_panic : forall t, no_panic_ty c t -> forall s, de c S rd t s <> Panic.
  Proof.
    induction t using ty_ind'; intros HN s.
    9: contradiction.
    1-8: cbn [de]; apply bind_np; [|intros (?, ?) _; discriminate];
      first [apply np_unit|apply np_bool|apply np_integer|apply np_ule|apply np_u8].
    - cbn [de]. apply bind_np; [apply np_bool|]. intros (b, s1) _. destruct b; [|discriminate].
      apply bind_np; [apply IHt; auto|]. intros (v, s2) _. discriminate.
    - rewrite de_seq. apply bind_np; [apply np_nat0|]. intros (n, s1) _.
      apply bind_np; [|intros (vs, s2) _; discriminate].
      generalize (Z.to_nat n). intros k. revert s1. induction k as [|k IHk]; intros s1.
      + rewrite de_rep_0. discriminate.
      + rewrite de_rep_S. apply bind_np; [apply IHt; auto|]. intros (v, s2) _.
        apply bind_np; [apply IHk|]. intros (vs, s3) _. discriminate.
    - rewrite de_tup. apply bind_np; [apply np_list; auto|]. intros (vs, s1) _. discriminate.
    - rewrite de_enum. apply bind_np; [apply np_u8|]. intros (i, s1) _.
      apply bind_np; [|intros (ws, s2) _; discriminate].
      destruct (nth_error vs (Z.to_nat i)) as [ts|] eqn:E; [|discriminate].
      apply nth_error_In in E. rewrite Forall_forall in H. apply np_list; [apply H; auto|].
      clear -HN E. cbn [no_panic_ty] in HN. change (fix all (ts : list ty) : Prop :=
        match ts with [] => True | t :: ts' => no_panic_ty c t /\ all ts' end) with (no_panic_list c) in HN.
      induction vs as [|a vs IH]; [contradiction|]. destruct HN as (H1 & H2), E as [->|E]; auto.
    - rewrite de_poly. apply bind_np; [apply bind_np; [apply np_ule|intros (x, s1) _; discriminate]|].
      intros (h, s1) _.
      cbn [no_panic_ty] in HN. change (fix all (ts : list ty) : Prop :=
        match ts with [] => True | t :: ts' => no_panic_ty c t /\ all ts' end) with (no_panic_list c) in HN.
      apply bind_np.
      { apply np_find. intros Ec. clear -HN Ec. induction vs as [|(nm, ts) vs IH]; cbn [map fst]; constructor.
        - apply HN; auto.
        - apply IH. apply HN. }
      intros i _. apply bind_np; [|intros (ws, s2) _; discriminate].
      destruct (nth_error vs (Z.to_nat i)) as [(nm, ts)|] eqn:E; [|discriminate].
      apply nth_error_In in E. rewrite Forall_forall in H. apply np_list; [apply (H _ E)|].
      clear -HN E. induction vs as [|(nm', a) vs IH]; [contradiction|].
      destruct HN as (_ & H1 & H2), E as [E|E]; [injection E as <- <-; auto|auto].
  Qed.
End NoPanic.

(** * Decoded values belong to the type *)
Section Sound.
  Variable c : bool.
  Notation P := rust_ok.
  Definition good {A} (bs : list Z) (Q : A -> Prop) (r : res err (A * list Z)) : Prop :=
    match r with
    | Ok (a, rest) => Q a /\ exists pre, bs = pre ++ rest
    | _ => True
    end.
  Lemma good_bind : forall A B bs (Q : A -> Prop) (Q' : B -> Prop) r (f : A * list Z -> res err (B * list Z)),
    good bs Q r ->
    (forall a s, r = Ok (a, s) -> Q a -> (exists pre, bs = pre ++ s) -> good s Q' (f (a, s))) ->
    good bs Q' (bind r f).
  Proof.
    intros A B bs Q Q' r f H K. destruct r as [(a, s)|e|]; cbn; auto.
    destruct H as (HQ & pre & ->). specialize (K a s eq_refl HQ (ex_intro _ pre eq_refl)).
    unfold good in *. destruct (f (a, s)) as [(b, s')|e|]; auto.
    destruct K as (K1 & pre' & ->). split; auto. exists (pre ++ pre'). apply app_assoc.
  Qed.
  Lemma good_ok : forall A bs (Q : A -> Prop) a, Q a -> good bs Q (Ok (a, bs)).
  Proof. intros. cbn. split; auto. exists []. auto. Qed.
  Lemma good_imp : forall A bs (Q Q' : A -> Prop) r, (forall a, Q a -> Q' a) -> good bs Q r -> good bs Q' r.
  Proof. intros A bs Q Q' [(a, s)|e|] H K; cbn in *; auto. destruct K; split; auto. Qed.

  Lemma good_read : forall n bs, 0 <= n -> bytes_ok bs ->
    good bs (fun l => bytes_ok l /\ Z.of_nat (List.length l) = n) (sread n bs).
  Proof.
    intros n bs Hn Hb. destruct (sread n bs) as [(l, s)|e|] eqn:E; cbn; auto.
    apply sread_ok in E; auto. destruct E as (-> & E). apply bytes_ok_app in Hb. destruct Hb. split; eauto.
  Qed.
  Lemma good_u8 : forall bs, bytes_ok bs -> good bs (fun b => 0 <= b < 256) (read_u8 _ sread bs).
  Proof.
    intros bs Hb. destruct bs as [|b bs]; [exact I|]. rewrite read_u8_cons. cbn.
    inversion Hb; subst. split; auto. exists [b]. auto.
  Qed.
  Lemma good_ule : forall n bs, 0 <= n -> bytes_ok bs ->
    good bs (fun z => 0 <= z < 256 ^ n) (read_ule _ sread n bs).
  Proof.
    intros n bs Hn Hb. destruct (read_ule _ sread n bs) as [(z, s)|e|] eqn:E; cbn; auto.
    apply read_ule_ok in E; auto. destruct E as (l & -> & L & O & ->). rewrite <- L.
    split; [apply le_val_range; auto|eauto].
  Qed.
  Lemma good_from : forall r x bs, good bs (fun z => in_range r z = true) (from_prim _ r x bs).
  Proof.
    intros. unfold from_prim. destruct (in_range r x) eqn:E; cbn; auto. split; auto. exists []. auto.
  Qed.
  Lemma good_sle : forall n bs, 0 <= n -> bytes_ok bs -> good bs (fun _ => True) (read_sle _ sread n bs).
  Proof.
    intros n bs Hn Hb. destruct (read_sle _ sread n bs) as [(z, s)|e|] eqn:E; cbn; auto.
    apply read_sle_ok in E; auto. destruct E as (l & -> & _). split; eauto.
  Qed.
  Lemma sub_ok : forall bs s, bytes_ok bs -> (exists pre, bs = pre ++ s) -> bytes_ok s.
  Proof. intros bs s H (pre & ->). apply bytes_ok_app in H. tauto. Qed.
  Lemma good_integer : forall r bs, bytes_ok bs ->
    good bs (fun z => in_range r z = true) (bin_read_integer _ sread r bs).
  Proof.
    intros r bs Hb. eapply good_bind; [apply good_u8; auto|]. intros b s _ Hr Hs.
    apply sub_ok in Hs; auto.
    repeat match goal with |- context [if ?b then _ else _] => destruct b end;
      first [ exact I | apply good_from
            | eapply good_bind; [apply good_sle; auto; lia|intros; apply good_from] ].
  Qed.
  Lemma good_nat0 : forall r bs, bytes_ok bs ->
    good bs (fun z => in_range r z = true) (bin_read_nat0 _ sread r bs).
  Proof.
    intros r bs Hb. eapply good_bind; [apply good_u8; auto|]. intros b s _ Hr Hs.
    apply sub_ok in Hs; auto.
    repeat match goal with |- context [if ?b then _ else _] => destruct b end;
      first [ exact I | apply good_from
            | eapply good_bind; [apply good_ule; auto; lia|intros; apply good_from] ].
  Qed.
  Lemma good_bool : forall bs, bytes_ok bs -> good bs (fun _ => True) (bin_read_bool _ sread bs).
  Proof.
    intros bs Hb. eapply good_bind; [apply good_u8; auto|]. intros b s _ Hr Hs.
    destruct (b =? 0); [apply good_ok; auto|]. destruct (b =? 1); [apply good_ok; auto|exact I].
  Qed.
  Definition sound (t : ty) : Prop := forall bs, bytes_ok bs -> good bs (rust_val t) (de c _ sread t bs).

  Lemma sound_list : forall ts, Forall sound ts -> forall bs, bytes_ok bs ->
    good bs (typed_list rust_ok ts) (de_list c _ sread ts bs).
  Proof.
    induction ts as [|t ts IH]; intros HF bs Hb; cbn [de_list].
    - apply good_ok. exact I.
    - inversion HF; subst. eapply good_bind; [apply H1; auto|]. intros v s _ Hv Hs.
      apply sub_ok in Hs; auto. eapply good_bind; [apply IH; auto|]. intros vs s' _ Hvs _.
      apply good_ok. split; auto.
  Qed.

  Lemma find_variant_range : forall names k h i, find_variant c names k h = Ok i -> 0 <= i < 256.
  Proof.
    induction names as [|nm names IH]; intros k h i H; cbn [find_variant] in H; [discriminate|].
    destruct (is_ascii nm); [|eauto].
    apply bind_ok in H. destruct H as (x & _ & H). destruct (x =? h); [|eauto].
    injection H as <-. unfold wrapu. lia.
  Qed.

  Theorem decode_sound : forall t, sound t.
  Proof.
    induction t using ty_ind'; intros bs Hb.
    - cbn [de]. unfold bin_read_unit. rewrite bind_assoc. eapply good_bind; [apply good_u8; auto|].
      intros b s _ Hr Hs. destruct (b =? 0); cbn [bind]; [|exact I]. apply good_ok. repeat split.
    - cbn [de]. eapply good_bind; [apply good_bool; auto|]. intros b s _ Hr Hs. apply good_ok. repeat split.
    - cbn [de]. eapply good_bind; [apply good_u8; auto|]. intros b s _ Hr Hs. apply good_ok.
      split; [cbv beta in Hr; cbn [rust_ok]; lia|exact I].
    - cbn [de]. eapply good_bind; [apply good_u8; auto|]. intros b s _ Hr Hs. apply good_ok.
      split; [cbv beta in Hr; cbn [rust_ok]; lia|exact I].
    - cbn [de]. eapply good_bind; [apply good_integer; auto|]. intros z s _ Hr Hs. apply good_ok.
      split; [|exact I]. cbv beta in Hr. unfold in_range in Hr.
      destruct k; cbn [irange R_i8 R_i16 R_i32 R_i64 R_u16 R_u32 lo hi rust_ok] in *; lia.
    - cbn [de]. eapply good_bind; [apply good_integer; auto|]. intros z s _ Hr Hs. apply good_ok.
      split; [|exact I]. cbv beta in Hr. unfold in_range in Hr. cbn [R_u64 lo hi rust_ok] in *; lia.
    - cbn [de]. eapply good_bind; [apply good_ule; auto; lia|]. intros z s _ Hr Hs. apply good_ok.
      split; [exact Hr|exact I].
    - cbn [de]. eapply good_bind; [apply good_ule; auto; lia|]. intros z s _ Hr Hs. apply good_ok.
      split; [exact Hr|exact I].
    - cbn [de]. unfold bin_read_string. rewrite bind_assoc.
      eapply good_bind; [apply good_nat0; auto|]. intros n s _ Hr Hs. apply sub_ok in Hs; auto.
      unfold alloc. destruct (Z.ltb_spec n (2 ^ 63)); cbn [bind]; [|exact I].
      unfold in_range in Hr. cbn [R_u64 lo hi] in Hr.
      rewrite bind_assoc. eapply good_bind; [apply good_read; auto; lia|].
      intros l s' _ (Hl & Ln) Hs'. destruct (utf8_valid l) eqn:U; cbn [bind]; [|exact I].
      apply good_ok. split; [|exact I]. cbn. repeat split; auto. lia.
    - cbn [de]. eapply good_bind; [apply good_bool; auto|]. intros b s _ Hr Hs. apply sub_ok in Hs; auto.
      destruct b; [|apply good_ok; repeat split].
      eapply good_bind; [apply IHt; auto|]. intros v s' _ Hv _. apply good_ok. split; [exact I|auto].
    - rewrite de_seq. eapply good_bind; [apply good_nat0; auto|]. intros n s _ Hr Hs.
      apply sub_ok in Hs; auto. unfold in_range in Hr. cbn [R_u64 lo hi] in Hr.
      eapply (good_bind _ _ _ (fun vs => typed_all rust_ok t vs /\ List.length vs = Z.to_nat n)).
      2:{ intros vs s' _ (Hvs & L) _. apply good_ok. apply typed_seq. split; [cbn; lia|eauto]. }
      clear Hr. generalize (Z.to_nat n). intros k. revert s Hs. induction k as [|k IHk]; intros s Hs.
      + rewrite de_rep_0. apply good_ok. repeat split.
      + rewrite de_rep_S. eapply good_bind; [apply IHt; auto|]. intros v s' _ Hv Hs'.
        apply sub_ok in Hs'; auto. eapply good_bind; [apply IHk; auto|]. intros vs s'' _ (Hvs & L) _.
        apply good_ok. split; [split; auto|cbn; lia].
    - rewrite de_tup. eapply good_bind; [apply sound_list; auto|]. intros vs s _ Hv _.
      apply good_ok. apply typed_tup. split; [exact I|eauto].
    - rewrite de_enum. eapply good_bind; [apply good_u8; auto|]. intros i s _ Hi Hs.
      apply sub_ok in Hs; auto.
      destruct (nth_error vs (Z.to_nat i)) as [ts|] eqn:E; cbn [bind]; [|exact I].
      eapply good_bind.
      { apply sound_list; auto. apply nth_error_In in E. rewrite Forall_forall in H. apply H; auto. }
      intros ws s' _ Hw _. apply good_ok. apply typed_enum. split; [exact I|].
      exists (Z.to_nat i), ws, ts. auto.
    - rewrite de_poly. unfold bin_read_polyvar_tag. rewrite bind_assoc.
      eapply good_bind; [apply good_ule; auto; lia|]. intros x s _ Hx Hs.
      apply sub_ok in Hs; auto. cbn [bind].
      destruct (find_variant c (map fst vs) 0 (Z.shiftr x 1)) as [i|e|] eqn:Fi; cbn [bind]; try exact I.
      destruct (nth_error vs (Z.to_nat i)) as [(nm, ts)|] eqn:E; cbn [bind]; [|exact I].
      eapply good_bind.
      { apply sound_list; auto. apply nth_error_In in E. rewrite Forall_forall in H. apply (H _ E). }
      intros ws s' _ Hw _. apply good_ok. apply typed_poly. split; [exact I|].
      exists (Z.to_nat i), ws, nm, ts. auto.
  Qed.
End Sound.

(** * Bounded growth: no sequence is longer than the input *)
Fixpoint min_size (t : ty) : nat :=
  match t with
  | TUnit | TBool | TChar | TU8 | TInt _ | TU64 | TStr | TOpt _ | TSeq _ | TEnum _ => 1
  | TF32 | TPoly _ => 4
  | TF64 => 8
  | TTup ts => (fix sum (ts : list ty) : nat :=
      match ts with [] => 0 | t :: ts' => min_size t + sum ts' end) ts
  end%nat.
Definition min_sum : list ty -> nat :=
  fix sum (ts : list ty) : nat :=
    match ts with [] => 0%nat | t :: ts' => (min_size t + sum ts')%nat end.

(** every element type of a sequence takes at least one byte *)
Fixpoint seq_elems_nonempty (t : ty) : Prop :=
  let all := fix all (ts : list ty) : Prop :=
    match ts with [] => True | t :: ts' => seq_elems_nonempty t /\ all ts' end in
  match t with
  | TOpt t => seq_elems_nonempty t
  | TSeq t => (1 <= min_size t)%nat /\ seq_elems_nonempty t
  | TTup ts => all ts
  | TEnum vs => (fix go (vs : list (list ty)) : Prop :=
      match vs with [] => True | ts :: vs' => all ts /\ go vs' end) vs
  | TPoly vs => (fix go (vs : list (string * list ty)) : Prop :=
      match vs with [] => True | (_, ts) :: vs' => all ts /\ go vs' end) vs
  | _ => True
  end.
Definition seqs_nonempty_list : list ty -> Prop :=
  fix all (ts : list ty) : Prop :=
    match ts with [] => True | t :: ts' => seq_elems_nonempty t /\ all ts' end.

(** the longest sequence or string inside a value *)
Fixpoint longest (v : val) : nat :=
  let maxl := fix maxl (vs : list val) : nat :=
    match vs with [] => 0%nat | v :: vs' => Nat.max (longest v) (maxl vs') end in
  match v with
  | VStr l => List.length l
  | VSome v => longest v
  | VSeq vs => Nat.max (List.length vs) (maxl vs)
  | VTup vs | VEnum _ vs => maxl vs
  | _ => 0
  end%nat.
Definition longest_list : list val -> nat :=
  fix maxl (vs : list val) : nat :=
    match vs with [] => 0%nat | v :: vs' => Nat.max (longest v) (maxl vs') end.

(** [eats k bs m r]: a successful run on [bs] consumes at least [k] bytes and
    its result's measure is at most the length of [bs] *)
Definition eats {A} (k : nat) (bs : list Z) (m : A -> nat) (r : res err (A * list Z)) : Prop :=
  match r with
  | Ok (a, rest) => (k + List.length rest <= List.length bs)%nat /\ (m a <= List.length bs)%nat
  | _ => True
  end.
Lemma eats_bind : forall A B k1 k2 bs (m1 : A -> nat) (m2 : B -> nat) r (f : A * list Z -> res err (B * list Z)),
  eats k1 bs m1 r ->
  (forall a s, r = Ok (a, s) -> (k1 + List.length s <= List.length bs)%nat -> (m1 a <= List.length bs)%nat ->
     match f (a, s) with
     | Ok (b, rest) => (k2 + List.length rest <= List.length s)%nat /\ (m2 b <= List.length bs)%nat
     | _ => True
     end) ->
  eats (k1 + k2) bs m2 (bind r f).
Proof.
  intros A B k1 k2 bs m1 m2 r f H K. destruct r as [(a, s)|e|]; cbn; auto.
  destruct H as (H1 & H2). specialize (K a s eq_refl H1 H2). unfold eats.
  destruct (f (a, s)) as [(b, s')|e|]; auto. lia.
Qed.
Lemma eats_weaken : forall A k k' bs (m : A -> nat) r, (k' <= k)%nat -> eats k bs m r -> eats k' bs m r.
Proof. intros A k k' bs m [(a, s)|e|] H K; cbn in *; auto. lia. Qed.

Lemma eats_read : forall n bs, 0 <= n -> eats (Z.to_nat n) bs (fun l => List.length l) (sread n bs).
Proof.
  intros n bs Hn. destruct (sread n bs) as [(l, s)|e|] eqn:E; cbn; auto.
  apply sread_ok in E; auto. destruct E as (-> & L). rewrite app_length. lia.
Qed.
Lemma eats_u8 : forall bs, eats 1 bs (fun _ => O) (read_u8 _ sread bs).
Proof. intros [|b bs]; [exact I|]. rewrite read_u8_cons. cbn. lia. Qed.
Lemma eats_ule : forall n bs, 0 <= n -> eats (Z.to_nat n) bs (fun _ => O) (read_ule _ sread n bs).
Proof.
  intros. unfold read_ule. pose proof (eats_read n bs H) as E.
  destruct (sread n bs) as [(l, s)|e|]; cbn in *; auto. lia.
Qed.
Lemma eats_sle : forall n bs, 0 <= n -> eats (Z.to_nat n) bs (fun _ => O) (read_sle _ sread n bs).
Proof.
  intros. unfold read_sle. pose proof (eats_read n bs H) as E.
  destruct (sread n bs) as [(l, s)|e|]; cbn in *; auto. lia.
Qed.
Lemma eats_from : forall r x bs, eats 0 bs (fun _ => O) (from_prim _ r x bs).
Proof. intros. unfold from_prim. destruct (in_range r x); cbn; auto. lia. Qed.
Lemma eats_then : forall A B k bs m (r : res err (A * list Z)) (f : A * list Z -> res err (B * list Z)),
  eats k bs m r -> (forall a s, eats 0 s (fun _ => O) (f (a, s))) -> eats k bs (fun _ => O) (bind r f).
Proof.
  intros A B k bs m r f H K. replace k with (k + 0)%nat by lia.
  eapply eats_bind; eauto. intros a s _ _ _. specialize (K a s). unfold eats in K.
  destruct (f (a, s)) as [(b, s')|e|]; auto. lia.
Qed.
Lemma eats_integer : forall r bs, eats 1 bs (fun _ => O) (bin_read_integer _ sread r bs).
Proof.
  intros. eapply eats_then; [apply eats_u8|]. intros b s.
  repeat match goal with |- context [if ?b then _ else _] => destruct b end;
    first [ exact I | apply eats_from
          | eapply eats_weaken; [|eapply eats_then; [apply eats_sle; lia|intros; apply eats_from]]; lia ].
Qed.
Lemma eats_nat0 : forall r bs, eats 1 bs (fun _ => O) (bin_read_nat0 _ sread r bs).
Proof.
  intros. eapply eats_then; [apply eats_u8|]. intros b s.
  repeat match goal with |- context [if ?b then _ else _] => destruct b end;
    first [ exact I | apply eats_from
          | eapply eats_weaken; [|eapply eats_then; [apply eats_ule; lia|intros; apply eats_from]]; lia ].
Qed.
Lemma eats_bool : forall bs, eats 1 bs (fun _ => O) (bin_read_bool _ sread bs).
Proof.
  intros. eapply eats_then; [apply eats_u8|]. intros b s.
  destruct (b =? 0); [cbn; lia|]. destruct (b =? 1); cbn; auto. lia.
Qed.

Section Growth.
  Variable c : bool.
  Definition grows (t : ty) : Prop := seq_elems_nonempty t ->
    forall bs, eats (min_size t) bs longest (de c _ sread t bs).

  Lemma grows_list : forall ts, Forall grows ts -> seqs_nonempty_list ts -> forall bs,
    eats (min_sum ts) bs longest_list (de_list c _ sread ts bs).
  Proof.
    induction ts as [|t ts IH]; intros HF HN bs; cbn [de_list].
    - cbn. lia.
    - inversion HF; subst. destruct HN as (N1 & N2).
      change (min_sum (t :: ts)) with (min_size t + min_sum ts)%nat.
      eapply eats_bind; [apply H1; auto|]. intros v s _ L1 L2.
      specialize (IH H2 N2 s). unfold eats in IH.
      destruct (de_list c _ sread ts s) as [(vs, s')|e|]; cbn [bind]; auto.
      change (longest_list (v :: vs)) with (Nat.max (longest v) (longest_list vs)). lia.
  Qed.

  Theorem growth : forall t, grows t.
  Proof.
    induction t using ty_ind'; intros HN bs; cbn [min_size].
    1-8: cbn [de]; match goal with |- eats ?k _ _ _ => replace k with (k + 0)%nat by lia end;
      eapply eats_bind;
      [ first [ apply eats_bool | apply eats_integer | apply (eats_ule 4); lia
              | apply (eats_ule 8); lia | apply eats_u8
              | unfold bin_read_unit; eapply eats_then; [apply eats_u8|intros b s; destruct (b =? 0); cbn; auto; lia] ]
      | intros; cbn; lia ].
    - cbn [de]. unfold bin_read_string. rewrite bind_assoc.
      replace 1%nat with (1 + 0)%nat by lia. eapply eats_bind; [apply eats_nat0|].
      intros n s E L1 _. apply nat0_nonneg in E. unfold alloc. destruct (n <? 2 ^ 63); cbn [bind]; auto.
      pose proof (eats_read n s E) as H. destruct (sread n s) as [(l, s')|e|]; cbn [bind] in *; auto.
      destruct (utf8_valid l); cbn [bind]; auto. cbn in *. lia.
    - cbn [de]. replace 1%nat with (1 + 0)%nat by lia. eapply eats_bind; [apply eats_bool|].
      intros b s _ L1 _. destruct b; [|cbn; lia].
      specialize (IHt HN s). destruct (de c _ sread t s) as [(v, s')|e|]; cbn in *; auto. lia.
    - rewrite de_seq. destruct HN as (N1 & N2). replace 1%nat with (1 + 0)%nat by lia.
      eapply eats_bind; [apply eats_nat0|]. intros n s _ L1 _.
      assert (G : forall k s, eats k s (fun vs => Nat.max (List.length vs) (longest_list vs)) (de_rep c _ sread t k s)).
      { clear -IHt N1 N2. induction k as [|k IHk]; intros s; [cbn; lia|].
        rewrite de_rep_S. replace (Datatypes.S k) with (1 + k)%nat by lia.
        eapply eats_bind; [eapply eats_weaken; [|apply IHt; auto]; lia|].
        intros v s' _ L1 L2. specialize (IHk s'). unfold eats in IHk.
        destruct (de_rep c _ sread t k s') as [(vs, s2)|e|]; cbn [bind]; auto.
        change (longest_list (v :: vs)) with (Nat.max (longest v) (longest_list vs)).
        cbn [List.length]. lia. }
      specialize (G (Z.to_nat n) s). unfold eats in G.
      destruct (de_rep c _ sread t (Z.to_nat n) s) as [(vs, s')|e|]; cbn [bind]; auto.
      change (longest (VSeq vs)) with (Nat.max (List.length vs) (longest_list vs)). lia.
    - rewrite de_tup. pose proof (grows_list ts H HN bs) as G. unfold eats in *.
      destruct (de_list c _ sread ts bs) as [(vs, s')|e|]; cbn [bind]; auto.
    - rewrite de_enum. replace 1%nat with (1 + 0)%nat by lia. eapply eats_bind; [apply eats_u8|].
      intros i s _ L1 _. destruct (nth_error vs (Z.to_nat i)) as [ts|] eqn:E; cbn [bind]; auto.
      assert (G : eats (min_sum ts) s longest_list (de_list c _ sread ts s)).
      { apply nth_error_In in E. apply grows_list.
        - rewrite Forall_forall in H. apply H; auto.
        - clear -HN E. cbn [seq_elems_nonempty] in HN.
          induction vs as [|a vs IH]; [contradiction|]. destruct HN as (H1 & H2), E as [->|E]; auto. }
      unfold eats in G. destruct (de_list c _ sread ts s) as [(ws, s')|e|]; cbn [bind]; auto.
      change (longest (VEnum (Z.to_nat i) ws)) with (longest_list ws). lia.
    - rewrite de_poly. replace 4%nat with (4 + 0)%nat by lia.
      eapply (eats_bind _ _ _ _ _ (fun _ => O)).
      { unfold bin_read_polyvar_tag. eapply eats_then; [apply (eats_ule 4); lia|]. intros; cbn; lia. }
      intros h s _ L1 _. destruct (find_variant c (map fst vs) 0 h) as [i|e|]; cbn [bind]; auto.
      destruct (nth_error vs (Z.to_nat i)) as [(nm, ts)|] eqn:E; cbn [bind]; auto.
      assert (G : eats (min_sum ts) s longest_list (de_list c _ sread ts s)).
      { apply nth_error_In in E. apply grows_list.
        - rewrite Forall_forall in H. apply (H _ E).
        - clear -HN E. cbn [seq_elems_nonempty] in HN.
          induction vs as [|(nm', a) vs IH]; [contradiction|]. destruct HN as (H1 & H2), E as [E|E]; auto.
          injection E as <- <-. auto. }
      unfold eats in G. destruct (de_list c _ sread ts s) as [(ws, s')|e|]; cbn [bind]; auto.
      change (longest (VEnum (Z.to_nat i) ws)) with (longest_list ws). lia.
  Qed.
End Growth.

(** * A value takes at least [min_size] bytes *)
Section Consumes.
  Variable c : bool.
  Definition zero {A} (_ : A) : nat := O.
  Definition takes (t : ty) : Prop := forall bs, eats (min_size t) bs zero (de c _ sread t bs).
  Lemma takes_list : forall ts, Forall takes ts -> forall bs,
    eats (min_sum ts) bs zero (de_list c _ sread ts bs).
  Proof.
    induction ts as [|t ts IH]; intros HF bs; cbn [de_list].
    - cbn. unfold zero. lia.
    - inversion HF; subst.
      change (min_sum (t :: ts)) with (min_size t + min_sum ts)%nat.
      eapply eats_bind; [apply H1; auto|]. intros v s _ L1 L2.
      specialize (IH H2 s). unfold eats in IH.
      destruct (de_list c _ sread ts s) as [(vs, s')|e|]; cbn [bind]; auto. unfold zero in *. lia.
  Qed.
  Theorem consumes : forall t, takes t.
  Proof.
    induction t using ty_ind'; intros bs; cbn [min_size].
    1-8: cbn [de]; match goal with |- eats ?k _ _ _ => replace k with (k + 0)%nat by lia end;
      eapply eats_bind;
      [ first [ apply eats_bool | apply eats_integer | apply (eats_ule 4); lia
              | apply (eats_ule 8); lia | apply eats_u8
              | unfold bin_read_unit; eapply eats_then; [apply eats_u8|intros b s; destruct (b =? 0); cbn; auto; lia] ]
      | intros; cbn; unfold zero; lia ].
    - cbn [de]. unfold bin_read_string. rewrite bind_assoc.
      replace 1%nat with (1 + 0)%nat by lia. eapply eats_bind; [apply eats_nat0|].
      intros n s E L1 _. apply nat0_nonneg in E. unfold alloc. destruct (n <? 2 ^ 63); cbn [bind]; auto.
      pose proof (eats_read n s E) as H. destruct (sread n s) as [(l, s')|e|]; cbn [bind] in *; auto.
      destruct (utf8_valid l); cbn [bind]; auto. cbn in *. unfold zero. lia.
    - cbn [de]. replace 1%nat with (1 + 0)%nat by lia. eapply eats_bind; [apply eats_bool|].
      intros b s _ L1 _. destruct b; [|cbn; unfold zero; lia].
      specialize (IHt s). destruct (de c _ sread t s) as [(v, s')|e|]; cbn in *; auto. unfold zero in *. lia.
    - rewrite de_seq. replace 1%nat with (1 + 0)%nat by lia.
      eapply eats_bind; [apply eats_nat0|]. intros n s _ L1 _.
      assert (G : forall k s, eats 0 s zero (de_rep c _ sread t k s)).
      { clear -IHt. induction k as [|k IHk]; intros s; [cbn; unfold zero; lia|].
        rewrite de_rep_S. replace 0%nat with (0 + 0)%nat by lia.
        eapply eats_bind; [eapply eats_weaken; [|apply IHt; auto]; lia|].
        intros v s' _ L1 L2. specialize (IHk s'). unfold eats in IHk.
        destruct (de_rep c _ sread t k s') as [(vs, s2)|e|]; cbn [bind]; auto. unfold zero in *. lia. }
      specialize (G (Z.to_nat n) s). unfold eats in G.
      destruct (de_rep c _ sread t (Z.to_nat n) s) as [(vs, s')|e|]; cbn [bind]; auto. unfold zero in *. lia.
    - rewrite de_tup. pose proof (takes_list ts H bs) as G. unfold eats in *.
      destruct (de_list c _ sread ts bs) as [(vs, s')|e|]; cbn [bind]; auto.
    - rewrite de_enum. replace 1%nat with (1 + 0)%nat by lia. eapply eats_bind; [apply eats_u8|].
      intros i s _ L1 _. destruct (nth_error vs (Z.to_nat i)) as [ts|] eqn:E; cbn [bind]; auto.
      assert (G : eats (min_sum ts) s zero (de_list c _ sread ts s)).
      { apply nth_error_In in E. apply takes_list. rewrite Forall_forall in H. apply H; auto. }
      unfold eats in G. destruct (de_list c _ sread ts s) as [(ws, s')|e|]; cbn [bind]; auto.
      unfold zero in *. lia.
    - rewrite de_poly. replace 4%nat with (4 + 0)%nat by lia.
      eapply (eats_bind _ _ _ _ _ zero).
      { unfold bin_read_polyvar_tag. eapply eats_then; [apply (eats_ule 4); lia|]. intros; cbn; lia. }
      intros h s _ L1 _. destruct (find_variant c (map fst vs) 0 h) as [i|e|]; cbn [bind]; auto.
      destruct (nth_error vs (Z.to_nat i)) as [(nm, ts)|] eqn:E; cbn [bind]; auto.
      assert (G : eats (min_sum ts) s zero (de_list c _ sread ts s)).
      { apply nth_error_In in E. apply takes_list. rewrite Forall_forall in H. apply (H _ E). }
      unfold eats in G. destruct (de_list c _ sread ts s) as [(ws, s')|e|]; cbn [bind]; auto.
      unfold zero in *. lia.
  Qed.
End Consumes.
