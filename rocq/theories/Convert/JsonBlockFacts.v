(** Facts about JSON forms and conversions. *)

From Coq Require Import String ZArith List Bool Lia ZifyBool ZifyNat.
From Verif Require Import Lib.Res Lib.Bytes BinProt.Prim BinProt.Codec BinProt.CodecSpec BinProt.CodecProofs Wire.Types Text.FieldText
  Ledger.AccountWireSpec Json.Json Json.JsonTypes Json.JsonSpec Json.JsonFacts Convert.Conv Convert.ConvSpec.
Import ListNotations.
Local Open Scope list_scope.
Local Open Scope Z_scope.
Notation length := List.length.

(** ** From what is inside a value to its leaves *)

(** no skipped field but units *)
Fixpoint no_skip (d : dty) : bool :=
  match d with
  | DV d | DOpt d | DVec d => no_skip d
  | DTup fs | DStruct fs => no_skip_flds fs
  | DEnum _ _ ws => no_skip_vars ws
  | _ => true
  end
with no_skip_flds (fs : flds) : bool :=
  match fs with
  | FNil => true
  | FCons _ None d fs => no_skip d && no_skip_flds fs
  | FCons _ (Some VUnit) DUnit fs => no_skip_flds fs
  | _ => false
  end
with no_skip_vars (ws : vars) : bool :=
  match ws with WNil => true | WCons _ _ fs ws => no_skip_flds fs && no_skip_vars ws end.

Section Inside.
  Variable G : ty -> val -> Prop.
  Definition every (t : ty) (v : val) : Prop := forall u w, inside u w t v -> G u w.
  Definition everys (ts : list ty) (vs : list val) : Prop :=
    forall i t v, nth_error ts i = Some t -> nth_error vs i = Some v -> every t v.
  Lemma every_here : forall t v, every t v -> G t v.
  Proof using Type. intros t v H. apply H. constructor. Qed.
  Lemma every_some : forall t v, every (TOpt t) (VSome v) -> every t v.
  Proof using Type. intros t v H u w I. apply H. constructor. exact I. Qed.
  Lemma every_seq : forall t vs, every (TSeq t) (VSeq vs) -> Forall (every t) vs.
  Proof using Type. intros t vs H. apply Forall_forall. intros v Hv u w I. apply H. econstructor; eassumption. Qed.
  Lemma every_tup : forall ts vs, every (TTup ts) (VTup vs) -> everys ts vs.
  Proof using Type. intros ts vs H i t v T V u w I. apply H. econstructor; eassumption. Qed.
  Lemma every_enum : forall vars i ts vs, nth_error vars i = Some ts -> every (TEnum vars) (VEnum i vs) -> everys ts vs.
  Proof using Type. intros vars i ts vs E H k t v T V u w I. apply H. econstructor; eassumption. Qed.
  Lemma every_poly : forall vars i n ts vs, nth_error vars i = Some (n, ts) -> every (TPoly vars) (VEnum i vs) -> everys ts vs.
  Proof using Type. intros vars i n ts vs E H k t v T V u w I. apply H. econstructor; eassumption. Qed.
  Lemma everys_cons : forall t ts v vs, everys (t :: ts) (v :: vs) -> every t v /\ everys ts vs.
  Proof using Type.
    intros t ts v vs H. split; [apply (H O); reflexivity|]. intros i u w T V. apply (H (S i)); assumption.
  Qed.
  Lemma every_variant : forall tg poly ws i vs ts, nth_error (wire_vars ws) i = Some ts ->
    every (wire_ty (DEnum tg poly ws)) (VEnum i vs) -> everys ts vs.
  Proof using Type.
    intros tg poly ws i vs ts N H. destruct poly; cbn [wire_ty] in H.
    - apply wire_vars_poly in N. destruct N as (nm & N). exact (every_poly _ _ _ _ _ N H).
    - exact (every_enum _ _ _ _ N H).
  Qed.
End Inside.

Definition version_one (u : ty) (w : val) : Prop := u = TInt U16 -> forall n, w = VInt n -> n = 1.
Definition key_good (u : ty) (w : val) : Prop := u = CompressedCurvePoint -> ~ big_key w.

Lemma ver_shape : forall t v, rust_val (V t) v -> exists n w, v = VTup [VInt n; w] /\ rust_val t w.
Proof.
  intros t v R. apply typed_tup in R. destruct R as (_ & vs & -> & T).
  destruct vs as [|x [|y [|z vs]]]; cbn [typed_list] in T; try (destruct T as (_ & T); try (destruct T as (_ & T)); contradiction); try contradiction.
  destruct T as ((_ & Sx) & Ty & _). destruct x; try contradiction. eauto.
Qed.

Lemma declared_all :
  (forall d, no_skip d = true -> forall v, rust_val (wire_ty d) v -> every version_one (wire_ty d) v -> declared d v) /\
  (forall fs, no_skip_flds fs = true -> forall vs, typed_list rust_ok (wire_flds fs) vs -> everys version_one (wire_flds fs) vs -> declared_flds fs vs) /\
  (forall ws, no_skip_vars ws = true -> forall i vs ts, nth_error (wire_vars ws) i = Some ts -> typed_list rust_ok ts vs ->
     everys version_one ts vs -> declared_vars ws i vs).
Proof.
  apply json_ind.
  1-4: intros; exact I.
  - intros d IH K v R E. destruct (ver_shape _ _ R) as (n & w & -> & Rw). apply every_tup in E.
    apply everys_cons in E. destruct E as (En & E). apply everys_cons in E. destruct E as (Ew & _).
    split; [apply (every_here _ _ _ En eq_refl n eq_refl)|apply IH; assumption].
  - intros d IH K v (_ & R) E. destruct v; try contradiction; [exact I|]. apply every_some in E. exact (IH K _ R E).
  - intros d IH K v R E. cbn [wire_ty] in *. apply typed_seq in R. destruct R as (_ & vs & -> & T). apply every_seq in E.
    cbn [declared]. induction vs as [|v vs IHv]; constructor; inversion E; subst; destruct T as (T & Ts).
    + apply IH; assumption.
    + apply IHv; assumption.
  - intros fs IH K v R E. cbn [wire_ty] in *. apply typed_tup in R. destruct R as (_ & vs & -> & T). apply every_tup in E. exact (IH K _ T E).
  - intros fs IH K v R E. cbn [wire_ty] in *. apply typed_tup in R. destruct R as (_ & vs & -> & T). apply every_tup in E. exact (IH K _ T E).
  - intros tg poly ws IH K v R E. apply (enum_typed poly ws v) in R. destruct R as (i & vs & ts & -> & N & T).
    apply (every_variant _ tg poly ws i vs ts N) in E. exact (IH K _ _ _ N T E).
  - intros; exact I.
  - intros nm sk d IHd fs IH K [|v vs] T E; [destruct T|]. destruct T as (T & Ts). apply everys_cons in E. destruct E as (E & Es).
    destruct sk as [s|]; cbn [no_skip_flds] in K.
    + destruct s; try discriminate. destruct d; try discriminate. split; [|apply IH; assumption].
      destruct T as (_ & T). destruct v; try contradiction. reflexivity.
    + apply andb_true_iff in K. split; [apply IHd|apply IH]; tauto.
  - intros _ [|i] vs ts N; discriminate.
  - intros nm sh fs IHf ws IH K i vs ts N T E. cbn [no_skip_vars] in K. apply andb_true_iff in K. destruct K as (K & Ks).
    destruct i; cbn [wire_vars nth_error declared_vars] in *.
    + injection N as <-. apply IHf; assumption.
    + exact (IH Ks i vs ts N T E).
Qed.

Lemma keys_all :
  (forall d v, rust_val (wire_ty d) v -> every key_good (wire_ty d) v -> leaves key_ok d v) /\
  (forall fs vs, typed_list rust_ok (wire_flds fs) vs -> everys key_good (wire_flds fs) vs -> leaves_flds key_ok fs vs) /\
  (forall ws i vs ts, nth_error (wire_vars ws) i = Some ts -> typed_list rust_ok ts vs ->
     everys key_good ts vs -> leaves_vars key_ok ws i vs).
Proof.
  apply json_ind.
  2-4: intros; exact I.
  - intros l v R E. destruct l; try exact I. apply every_here in E. specialize (E eq_refl). cbn [wire_ty leaf_ty] in R.
    apply typed_tup in R. destruct R as (_ & vs & -> & T).
    destruct vs as [|x [|o [|z vs]]]; cbn [typed_list] in T; try (destruct T as (_ & T); try (destruct T as (_ & T)); contradiction); try contradiction.
    destruct T as (Tx & (_ & To) & _). destruct o; try contradiction. apply u8s_tup in Tx. destruct Tx as (bs & -> & B & L).
    cbn [leaves key_ok]. rewrite ints_map. destruct (Z.lt_ge_cases (le_val bs) FP_MODULUS) as [H|H]; [exact H|].
    destruct E. exists (VTup (map VInt bs)), bs, b. split; [reflexivity|]. split; [|exact H]. split; [reflexivity|]. split; assumption.
  - intros d IH v R E. destruct (ver_shape _ _ R) as (n & w & -> & Rw). apply every_tup in E.
    apply everys_cons in E. destruct E as (En & E). apply everys_cons in E. destruct E as (Ew & _). apply IH; assumption.
  - intros d IH v (_ & R) E. destruct v; try contradiction; [exact I|]. apply every_some in E. exact (IH _ R E).
  - intros d IH v R E. cbn [wire_ty] in *. apply typed_seq in R. destruct R as (_ & vs & -> & T). apply every_seq in E.
    cbn [leaves]. induction vs as [|v vs IHv]; constructor; inversion E; subst; destruct T as (T & Ts).
    + apply IH; assumption.
    + apply IHv; assumption.
  - intros fs IH v R E. cbn [wire_ty] in *. apply typed_tup in R. destruct R as (_ & vs & -> & T). apply every_tup in E. exact (IH _ T E).
  - intros fs IH v R E. cbn [wire_ty] in *. apply typed_tup in R. destruct R as (_ & vs & -> & T). apply every_tup in E. exact (IH _ T E).
  - intros tg poly ws IH v R E. apply (enum_typed poly ws v) in R. destruct R as (i & vs & ts & -> & N & T).
    apply (every_variant _ tg poly ws i vs ts N) in E. exact (IH _ _ _ N T E).
  - intros; exact I.
  - intros nm sk d IHd fs IH [|v vs] T E; [destruct T|]. destruct T as (T & Ts). apply everys_cons in E. destruct E as (E & Es).
    destruct sk; [exact (IH _ Ts Es)|]. split; [apply IHd|apply IH]; assumption.
  - intros [|i] vs ts N; discriminate.
  - intros nm sh fs IHf ws IH i vs ts N T E. destruct i; cbn [wire_vars nth_error leaves_vars] in *.
    + injection N as <-. apply IHf; assumption.
    + exact (IH i vs ts N T E).
Qed.

(** ** And back: keys occur only where the JSON form has an address *)

(** a tuple of two whose second member is a truth value occurs in the type *)
Definition pair_bool (ts : list ty) : bool := match ts with [_; TBool] => true | _ => false end.
Fixpoint has_pair (t : ty) : bool :=
  match t with
  | TOpt t | TSeq t => has_pair t
  | TTup ts => pair_bool ts || existsb has_pair ts
  | TEnum vs => existsb (existsb has_pair) vs
  | TPoly vs => existsb (fun p => existsb has_pair (snd p)) vs
  | _ => false
  end.
Lemma inside_pair : forall k t v, inside CompressedCurvePoint k t v -> has_pair t = true.
Proof.
  assert (X : forall ts i t, nth_error ts i = Some t -> has_pair t = true -> existsb has_pair ts = true).
  { intros ts i t N H. apply existsb_exists. exists t. split; [eapply nth_error_In; eassumption|exact H]. }
  intros k t v H. induction H; cbn [has_pair]; auto.
  - rewrite (X _ _ _ H IHinside). apply orb_true_r.
  - apply existsb_exists. exists ts. split; [eapply nth_error_In; eassumption|]. eapply X; eassumption.
  - apply existsb_exists. exists (n, ts). split; [eapply nth_error_In; eassumption|]. eapply X; eassumption.
Qed.
Fixpoint addressed (d : dty) : bool :=
  match d with
  | DLeaf LPub => true
  | DLeaf l => negb (has_pair (leaf_ty l))
  | DV d => negb (pair_bool [TInt U16; wire_ty d]) && addressed d
  | DOpt d | DVec d => addressed d
  | DTup fs | DStruct fs => negb (pair_bool (wire_flds fs)) && addressed_flds fs
  | DEnum _ _ ws => addressed_vars ws
  | _ => true
  end
with addressed_flds (fs : flds) : bool :=
  match fs with
  | FNil => true
  | FCons _ None d fs => addressed d && addressed_flds fs
  | FCons _ (Some _) d fs => negb (has_pair (wire_ty d)) && addressed_flds fs
  end
with addressed_vars (ws : vars) : bool :=
  match ws with WNil => true | WCons _ _ fs ws => addressed_flds fs && addressed_vars ws end.

Definition no_big (t : ty) (v : val) : Prop := forall k, inside CompressedCurvePoint k t v -> ~ big_key k.
Definition no_bigs (ts : list ty) (vs : list val) : Prop :=
  forall i t v, nth_error ts i = Some t -> nth_error vs i = Some v -> no_big t v.
Lemma no_big_flat : forall t v, has_pair t = false -> no_big t v.
Proof. intros t v H k I. apply inside_pair in I. congruence. Qed.
Lemma no_big_tup : forall ts vs, pair_bool ts = false -> no_bigs ts vs -> no_big (TTup ts) (VTup vs).
Proof. intros ts vs P H k I. inversion I; subst; [discriminate|]. eapply H; eassumption. Qed.
Lemma no_big_variant : forall tg poly ws i vs ts, nth_error (wire_vars ws) i = Some ts -> no_bigs ts vs ->
  no_big (wire_ty (DEnum tg poly ws)) (VEnum i vs).
Proof.
  intros tg poly ws i vs ts N H k I. destruct poly; cbn [wire_ty] in I; inversion I; subst.
  - apply wire_poly_nth in H3. assert (ts0 = ts) by congruence. subst. eapply H; eassumption.
  - assert (ts0 = ts) by congruence. subst. eapply H; eassumption.
Qed.
Lemma no_bigs_nil : forall vs, no_bigs [] vs.
Proof. intros vs [|i] t v H; discriminate. Qed.
Lemma no_bigs_cons : forall t ts v vs, no_big t v -> no_bigs ts vs -> no_bigs (t :: ts) (v :: vs).
Proof. intros t ts v vs H Hs [|i] u w T V; cbn in T, V; [injection T as <-; injection V as <-; exact H|exact (Hs i u w T V)]. Qed.

Lemma addressed_all :
  (forall d, addressed d = true -> forall v, rust_val (wire_ty d) v -> leaves key_ok d v -> no_big (wire_ty d) v) /\
  (forall fs, addressed_flds fs = true -> forall vs, typed_list rust_ok (wire_flds fs) vs -> leaves_flds key_ok fs vs -> no_bigs (wire_flds fs) vs) /\
  (forall ws, addressed_vars ws = true -> forall i vs ts, nth_error (wire_vars ws) i = Some ts -> typed_list rust_ok ts vs ->
     leaves_vars key_ok ws i vs -> no_bigs ts vs).
Proof.
  apply json_ind.
  2-4: intros; apply no_big_flat; reflexivity.
  - intros l A v R K. destruct l; cbn [addressed] in A; try (apply no_big_flat; apply negb_true_iff; exact A).
    intros k I (x & bs & o & -> & (-> & Lb & Bb) & H). cbn [wire_ty leaf_ty] in I. inversion I; subst.
    + cbn [leaves key_ok] in K. rewrite ints_map in K. lia.
    + match goal with N : nth_error [FieldElement; TBool] ?i = Some _, J : inside CompressedCurvePoint _ _ _ |- _ =>
        apply inside_pair in J; destruct i as [|[|[|i]]]; cbn in N; try discriminate; injection N as <-; vm_compute in J; discriminate end.
  - intros d IH A v R K. destruct (ver_shape _ _ R) as (n & w & -> & Rw). cbn [addressed] in A. apply andb_true_iff in A. destruct A as (A & Ad).
    cbn [wire_ty]. apply no_big_tup; [apply negb_true_iff; exact A|]. apply no_bigs_cons; [apply no_big_flat; reflexivity|].
    apply no_bigs_cons; [apply IH; assumption|apply no_bigs_nil].
  - intros d IH A v (_ & R) K k I. cbn [wire_ty] in I. inversion I; subst.
    match goal with J : inside _ _ (wire_ty d) _ |- _ => exact (IH A _ R K k J) end.
  - intros d IH A v R K. cbn [wire_ty] in *. apply typed_seq in R. destruct R as (_ & vs & -> & T). cbn [leaves] in K.
    intros k I. inversion I; subst. rewrite Forall_forall in K.
    match goal with M : In v vs, J : inside _ _ (wire_ty d) v |- _ => rename M into Hv; rename J into Hk end.
    assert (Rv : rust_val (wire_ty d) v).
    { clear - T Hv. revert Hv. induction vs as [|x vs IHv]; intros []; destruct T as (T & Ts); [subst; exact T|apply IHv; assumption]. }
    exact (IH A v Rv (K _ Hv) k Hk).
  - intros fs IH A v R K. cbn [wire_ty] in *. apply typed_tup in R. destruct R as (_ & vs & -> & T). cbn [addressed] in A. apply andb_true_iff in A.
    apply no_big_tup; [apply negb_true_iff, A|]. apply IH; [apply A|exact T|exact K].
  - intros fs IH A v R K. cbn [wire_ty] in *. apply typed_tup in R. destruct R as (_ & vs & -> & T). cbn [addressed] in A. apply andb_true_iff in A.
    apply no_big_tup; [apply negb_true_iff, A|]. apply IH; [apply A|exact T|exact K].
  - intros tg poly ws IH A v R K. apply (enum_typed poly ws v) in R. destruct R as (i & vs & ts & -> & N & T).
    apply (no_big_variant _ _ _ _ _ _ N). exact (IH A _ _ _ N T K).
  - intros _ vs _ _. apply no_bigs_nil.
  - intros nm sk d IHd fs IH A [|v vs] T K; [destruct T|]. destruct T as (T & Ts). destruct sk; cbn [addressed_flds] in A; apply andb_true_iff in A; destruct A as (A & As).
    + apply no_bigs_cons; [apply no_big_flat, negb_true_iff, A|apply IH; assumption].
    + destruct K as (K & Ks). apply no_bigs_cons; [apply IHd|apply IH]; assumption.
  - intros _ [|i] vs ts N; discriminate.
  - intros nm sh fs IHf ws IH A i vs ts N T K. cbn [addressed_vars] in A. apply andb_true_iff in A. destruct A as (A & As).
    destruct i; cbn [wire_vars nth_error leaves_vars] in *.
    + injection N as <-. apply IHf; assumption.
    + exact (IH As i vs ts N T K).
Qed.
