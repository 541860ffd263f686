(** The conversions of Ledger/AccountWire.v against the relations of
    AccountWireSpec.v, member by member. *)

From Coq Require Import String ZArith List Bool Lia ZifyBool ZifyNat.
From Verif Require Import Lib.Res Lib.Bytes BinProt.Codec BinProt.CodecSpec Wire.Types Text.FieldText Hashing.ROInput Hashing.Command Hashing.Account
  Ledger.AccountWire Ledger.AccountWireSpec.
Import ListNotations.
Local Open Scope list_scope.
Local Open Scope Z_scope.

(** [fine T conv R big]: on values of the type, [conv] returns what [R] says,
    and panics exactly on [big] values. *)
Definition fine {A : Type} (T : ty) (conv : val -> res unit A) (R : val -> A -> Prop) (big : val -> Prop) : Prop :=
  (forall v a, R v a -> conv v = Ok a) /\ (forall v a, R v a -> rust_val T v) /\
  (forall v, rust_val T v -> (exists a, R v a) \/ (big v /\ conv v = Panic)) /\
  (forall v a, R v a -> ~ big v).
Definition never (v : val) : Prop := False.

Lemma typed_tup : forall ts v, rust_val (TTup ts) v -> exists vs, v = VTup vs /\ typed_list rust_ok ts vs.
Proof. intros ts v (_ & H). destruct v; try contradiction. eauto. Qed.
Lemma typed_bytes : forall n vs, typed_list rust_ok (List.repeat TU8 n) vs <-> exists l, vs = map VInt l /\ List.length l = n /\ bytes_ok l.
Proof.
  induction n as [|n IH]; intros vs.
  - split.
    + destruct vs; [|contradiction]. intros _. exists []. repeat split. apply Forall_nil.
    + intros (l & -> & L & _). destruct l; [exact I|discriminate].
  - split.
    + destruct vs as [|v vs]; [contradiction|]. intros (V & H). apply IH in H. destruct H as (l & -> & L & B).
      destruct V as (V & W). destruct v; try contradiction. exists (z :: l). split; [reflexivity|]. split; [cbn; lia|].
      apply Forall_cons; [|exact B]. cbn in V. unfold byte_ok. lia.
    + intros (l & -> & L & B). destruct l as [|z l]; [discriminate|]. apply Forall_cons_iff in B. destruct B as (B0 & B). split.
      * split; [cbn; unfold byte_ok in B0; lia|exact I].
      * apply IH. exists l. repeat split; auto.
Qed.
Lemma bytes32_iff : forall v, rust_val Bytes32 v <-> exists l, w_bytes v l.
Proof.
  intros v. unfold Bytes32, w_bytes. split.
  - intros H. apply typed_tup in H. destruct H as (vs & -> & H). apply typed_bytes in H. destruct H as (l & -> & L & B). eauto.
  - intros (l & -> & L & B). split; [exact I|]. apply (typed_bytes 32). eauto.
Qed.
Lemma bytes_of_w : forall v l, w_bytes v l -> bytes_of v = l.
Proof. intros v l (-> & _). cbn [bytes_of]. rewrite map_map. cbn [int_of]. apply map_id. Qed.
Lemma map_vint : forall l l', map VInt l = map VInt l' -> l = l'.
Proof. induction l as [|x l IH]; intros [|y l'] H; try discriminate; [reflexivity|]. cbn [map] in H. injection H as -> H. f_equal. auto. Qed.

Lemma fine_bytes : fine Bytes32 (fun v => Ok (bytes_of v)) w_bytes never.
Proof.
  split; [|split; [|split]].
  - intros v a H. f_equal. apply bytes_of_w, H.
  - intros v a H. apply bytes32_iff. eauto.
  - intros v H. left. apply bytes32_iff, H.
  - intros v a _ [].
Qed.
Lemma fine_u64 : fine TU64 (fun v => Ok (int_of v)) (w_num (2 ^ 64)) never.
Proof.
  split; [|split; [|split]].
  - intros v a (-> & _). reflexivity.
  - intros v a (-> & H). split; [exact H|exact I].
  - intros v (H & K). destruct v; try contradiction. left. exists z. split; [reflexivity|exact H].
  - intros v a _ [].
Qed.
Lemma fine_u32 : fine (TInt U32) (fun v => Ok (int_of v)) (w_num (2 ^ 32)) never.
Proof.
  split; [|split; [|split]].
  - intros v a (-> & _). reflexivity.
  - intros v a (-> & H). split; [exact H|exact I].
  - intros v (H & K). destruct v; try contradiction. left. exists z. split; [reflexivity|exact H].
  - intros v a _ [].
Qed.
Lemma fine_key : fine CompressedCurvePoint pubkey_of w_key big_key.
Proof.
  split; [|split; [|split]].
  - intros v a (x & l & -> & W & E & L). cbn [pubkey_of bool_of]. rewrite (bytes_of_w _ _ W). unfold fp_from_bytes. rewrite E.
    replace (pk_x a <? FP_MODULUS) with true by lia. cbn [expect bind]. destruct a. reflexivity.
  - intros v a (x & l & -> & W & _). split; [exact I|]. split; [apply bytes32_iff; eauto|]. split; [split; exact I|exact I].
  - intros v H. apply typed_tup in H. destruct H as (vs & -> & H). destruct vs as [|x [|o [|? ?]]]; try (cbn in H; tauto).
    destruct H as (X & O & _). apply bytes32_iff in X. destruct X as (l & W). destruct O as (_ & O). destruct o; try contradiction.
    cbn [pubkey_of]. rewrite (bytes_of_w _ _ W). unfold fp_from_bytes. destruct (Z.ltb_spec (le_val l) FP_MODULUS) as [L|L].
    + left. exists (mk_pk (le_val l) b), x, l. auto.
    + right. split; [exists x, l, b; auto|reflexivity].
  - intros v a (x & l & -> & (-> & _) & E & L) (x' & l' & o & Q & (-> & _) & G). injection Q as Q _. apply map_vint in Q. subst l'. lia.
Qed.
Lemma fine_option : forall A T (conv : val -> res unit A) R big, fine T conv R big ->
  fine (TOpt T) (option_of conv) (w_option R) (big_option big).
Proof.
  intros A T conv R big (F1 & F2 & F3 & F4). split; [|split; [|split]].
  - intros v [a|].
    + intros (w & -> & H). cbn [option_of]. rewrite (F1 _ _ H). reflexivity.
    + intros ->. reflexivity.
  - intros v [a|].
    + intros (w & -> & H). split; [exact I|]. exact (F2 _ _ H).
    + intros ->. split; exact I.
  - intros v (_ & H). destruct v; try contradiction.
    + left. exists None. reflexivity.
    + destruct (F3 _ H) as [(a & K)|(B & P)].
      * left. exists (Some a). exists v. auto.
      * right. split; [exists v; auto|]. cbn [option_of]. rewrite P. reflexivity.
  - intros v [a|].
    + intros (w & -> & H) (w' & [= <-] & B). exact (F4 _ _ H B).
    + intros -> (w' & E & _). discriminate.
Qed.
Lemma fine_unit : fine TUnit unit_of w_unit never.
Proof.
  split; [|split; [|split]].
  - intros v [] ->. reflexivity.
  - intros v a ->. split; exact I.
  - intros v (_ & H). destruct v; try contradiction. left. exists tt. reflexivity.
  - intros v a _ [].
Qed.
Lemma fine_token_permissions : fine TokenPermissions token_permissions_of w_token_permissions never.
Proof.
  split; [|split; [|split]].
  - intros v [b|b] ->; reflexivity.
  - intros v [b|b] ->; repeat split; exact I.
  - intros v (_ & H). destruct v as [| | | | | | | | | |i vs]; try contradiction. left.
    destruct i as [|[|i]]; [| |destruct i; contradiction].
    + destruct vs as [|b [|? ?]]; try (cbn in H; tauto). destruct H as ((_ & B) & _). destruct b; try contradiction. exists (NotOwned b). reflexivity.
    + destruct vs as [|b [|? ?]]; try (cbn in H; tauto). destruct H as ((_ & B) & _). destruct b; try contradiction. exists (TokenOwned b). reflexivity.
  - intros v a _ [].
Qed.
Lemma fine_auth : fine AuthRequired auth_of w_auth never.
Proof.
  split; [|split; [|split]].
  - intros v [] ->; reflexivity.
  - intros v [] ->; split; exact I.
  - intros v (_ & H). destruct v as [| | | | | | | | | |i vs]; try contradiction. left.
    destruct i as [|[|[|[|[|[|i]]]]]]; [| | | | | |destruct i; contradiction]; (destruct vs; [|contradiction]).
    + exists ANone. reflexivity.
    + exists AEither. reflexivity.
    + exists AProof. reflexivity.
    + exists ASignature. reflexivity.
    + exists ABoth. reflexivity.
    + exists AImpossible. reflexivity.
  - intros v a _ [].
Qed.

Lemma fine_ver : forall A T (conv : val -> res unit A) R big, fine T conv R big ->
  fine (V T) (fun v => conv (unver v)) (w_ver R) (fun v => big (unver v)).
Proof.
  intros A T conv R big (F1 & F2 & F3 & F4). split; [|split; [|split]].
  - intros v a (n & w & -> & _ & H). cbn [unver]. apply F1, H.
  - intros v a (n & w & -> & N & H). split; [exact I|]. split; [split; [exact N|exact I]|]. split; [exact (F2 _ _ H)|exact I].
  - intros v H. apply typed_tup in H. destruct H as (vs & -> & H). destruct vs as [|n [|w [|? ?]]]; try (cbn in H; tauto).
    destruct H as ((N & N') & W & _). destruct n; try contradiction. cbn [unver]. destruct (F3 _ W) as [(a & K)|K]; [left|right; exact K].
    exists a, z, w. auto.
  - intros v a (n & w & -> & _ & H). cbn [unver]. exact (F4 _ _ H).
Qed.
Lemma fine_ext : forall A T (c c' : val -> res unit A) R big big', (forall v, c v = c' v) -> (forall v, big v <-> big' v) ->
  fine T c R big -> fine T c' R big'.
Proof.
  intros A T c c' R big big' E B (F1 & F2 & F3 & F4). split; [|split; [|split]]; auto.
  - intros v a H. rewrite <- E. auto.
  - intros v H. rewrite <- E, <- B. auto.
  - intros v a H. rewrite <- B. eauto.
Qed.

(** ** Permissions *)

Ltac okat F H := let a := fresh "a" in let W := fresh "W" in destruct (proj1 (proj2 (proj2 F)) _ H) as [(a & W)|(W & _)]; [|destruct W].
Lemma fine_permissions : fine Permissions permissions_of w_permissions never.
Proof.
  pose proof fine_auth as F. split; [|split; [|split]].
  - intros v p (a & b & c & d & e & f & g & h & i & j & k & -> & H). decompose [and] H. cbn [permissions_of].
    repeat match goal with W : w_auth ?x _ |- _ => apply (proj1 F) in W; rewrite W; cbn [bind]; clear W end. destruct p. reflexivity.
  - intros v p (a & b & c & d & e & f & g & h & i & j & k & -> & H). decompose [and] H. split; [exact I|]. cbn [List.repeat].
    repeat match goal with W : w_auth ?x _ |- _ => apply (proj1 (proj2 F)) in W end.
    repeat (split; [assumption|]). exact I.
  - intros v H. left. apply typed_tup in H. destruct H as (vs & -> & H). cbn [List.repeat typed_list] in H.
    do 11 (destruct vs as [|? vs]; [cbn in H; tauto|]). destruct vs; [|cbn in H; tauto]. decompose [and] H. clear H.
    repeat match goal with W : typed rust_ok AuthRequired _ |- _ => okat F W; clear W end.
    match goal with |- exists p, w_permissions (VTup [?a; ?b; ?c; ?d; ?e; ?f; ?g; ?h; ?i; ?j; ?k]) p =>
      match goal with A : w_auth a ?xa, B : w_auth b ?xb, C : w_auth c ?xc, D : w_auth d ?xd, E : w_auth e ?xe, F : w_auth f ?xf, G : w_auth g ?xg,
        H : w_auth h ?xh, I : w_auth i ?xi, J : w_auth j ?xj, K : w_auth k ?xk |- _ =>
        exists (mk_perms xa xb xc xd xe xf xg xh xi xj xk), a, b, c, d, e, f, g, h, i, j, k end end.
    split; [reflexivity|]. repeat (split; [assumption|]). assumption.
  - intros v a _ [].
Qed.
Lemma fine_legacy_permissions : fine (TTup (TBool :: List.repeat AuthRequiredV1 6)) legacy_permissions_of w_legacy_permissions never.
Proof.
  pose proof (fine_ver _ _ _ _ _ fine_auth) as F. cbn beta in F. split; [|split; [|split]].
  - intros v p (a & b & c & d & e & f & -> & H). decompose [and] H. cbn [legacy_permissions_of bool_of].
    repeat match goal with W : w_ver w_auth ?x _ |- _ => apply (proj1 F) in W; rewrite W; cbn [bind]; clear W end. destruct p. reflexivity.
  - intros v p (a & b & c & d & e & f & -> & H). decompose [and] H. split; [exact I|]. cbn [List.repeat].
    repeat match goal with W : w_ver w_auth ?x _ |- _ => apply (proj1 (proj2 F)) in W end.
    split; [split; exact I|]. repeat (split; [assumption|]). exact I.
  - intros v H. left. apply typed_tup in H. destruct H as (vs & -> & H). cbn [List.repeat typed_list] in H.
    do 7 (destruct vs as [|? vs]; [cbn in H; tauto|]). destruct vs; [|cbn in H; tauto]. destruct H as ((_ & S) & H).
    destruct v; try contradiction. decompose [and] H. clear H.
    repeat match goal with W : typed rust_ok AuthRequiredV1 _ |- _ => okat F W; clear W end.
    match goal with |- exists p, w_legacy_permissions (VTup [VBool ?s; ?a; ?b; ?c; ?d; ?e; ?f]) p =>
      match goal with A : w_ver w_auth a ?xa, B : w_ver w_auth b ?xb, C : w_ver w_auth c ?xc, D : w_ver w_auth d ?xd, E : w_ver w_auth e ?xe,
        F : w_ver w_auth f ?xf |- _ => exists (mk_perms_legacy s xa xb xc xd xe xf), a, b, c, d, e, f end end.
    split; [reflexivity|]. repeat (split; [assumption|]). assumption.
  - intros v a _ [].
Qed.

(** ** Timing *)

Lemma fine_timing : fine TimingV0 timing_of w_timing never.
Proof.
  pose proof fine_u64 as F. split; [|split; [|split]].
  - intros v [|d].
    + intros ->. reflexivity.
    + intros (a & b & c & e & f & -> & (-> & _) & (-> & _) & (-> & _) & (-> & _) & (-> & _)). destruct d. reflexivity.
  - intros v [|d].
    + intros ->. split; exact I.
    + intros (a & b & c & e & f & -> & H). decompose [and] H. split; [exact I|]. split; [|exact I]. split; [exact I|].
      repeat match goal with W : w_num _ _ _ |- _ => apply (proj1 (proj2 F)) in W end. repeat (split; [assumption|]). exact I.
  - intros v (_ & H). left. destruct v as [| | | | | | | | | |i vs]; try contradiction.
    destruct i as [|[|i]]; [| |destruct i; contradiction].
    + destruct vs; [|contradiction]. exists Untimed. reflexivity.
    + destruct vs as [|w [|? ?]]; try (cbn in H; tauto). destruct H as (H & _). apply typed_tup in H. destruct H as (vs & -> & H).
      do 5 (destruct vs as [|? vs]; [cbn in H; tauto|]). destruct vs; [|cbn in H; tauto]. cbn [typed_list] in H. decompose [and] H. clear H.
      repeat match goal with W : typed rust_ok TU64 _ |- _ => okat F W; clear W end.
      match goal with |- exists p, w_timing (VEnum 1 [VTup [?a; ?b; ?c; ?d; ?e]]) p =>
        match goal with A : w_num _ a ?xa, B : w_num _ b ?xb, C : w_num _ c ?xc, D : w_num _ d ?xd, E : w_num _ e ?xe |- _ =>
          exists (Timed (mk_timed xa xb xc xd xe)), a, b, c, d, e end end.
      split; [reflexivity|]. repeat (split; [assumption|]). assumption.
  - intros v a _ [].
Qed.
Definition timed_of (v : val) : res unit timed_data :=
  match v with
  | VTup [m; ct; ca; vi; vp] => Ok (mk_timed (int_of (unver2 m)) (int_of (unver2 ct)) (int_of (unver2 ca)) (int_of (unver2 vp)) (int_of (unver2 vi)))
  | _ => Panic
  end.
Lemma fine_timed : fine (TTup [AmountV1; BlockTimeV1; AmountV1; AmountV1; BlockTimeV1]) timed_of w_timed never.
Proof.
  pose proof (fine_ver _ _ _ _ _ (fine_ver _ _ _ _ _ fine_u64)) as F. cbn beta in F. fold w_num64v2 in F. split; [|split; [|split]].
  - intros v d (a & b & c & e & f & -> & H). decompose [and] H. cbn [timed_of]. unfold unver2.
    repeat match goal with W : w_num64v2 ?x ?y |- _ => apply (proj1 F) in W; assert (int_of (unver (unver x)) = y) by congruence; clear W end.
    repeat match goal with W : _ = _ |- _ => rewrite W; clear W end. destruct d. reflexivity.
  - intros v d (a & b & c & e & f & -> & H). decompose [and] H. split; [exact I|].
    repeat match goal with W : w_num64v2 _ _ |- _ => apply (proj1 (proj2 F)) in W end. repeat (split; [assumption|]). exact I.
  - intros v H. left. apply typed_tup in H. destruct H as (vs & -> & H).
    do 5 (destruct vs as [|? vs]; [cbn in H; tauto|]). destruct vs; [|cbn in H; tauto]. cbn [typed_list] in H. unfold AmountV1, BlockTimeV1 in H. decompose [and] H. clear H.
    repeat match goal with W : typed rust_ok (V2 TU64) _ |- _ => okat F W; clear W end.
    match goal with |- exists p, w_timed (VTup [?a; ?b; ?c; ?d; ?e]) p =>
      match goal with A : w_num64v2 a ?xa, B : w_num64v2 b ?xb, C : w_num64v2 c ?xc, D : w_num64v2 d ?xd, E : w_num64v2 e ?xe |- _ =>
        exists (mk_timed xa xb xc xe xd), a, b, c, d, e end end.
    split; [reflexivity|]. repeat (split; [assumption|]). assumption.
  - intros v a _ [].
Qed.
Lemma fine_legacy_timing : fine (TEnum [[]; [TimedDataV1]]) legacy_timing_of w_legacy_timing never.
Proof.
  pose proof (fine_ver _ _ _ _ _ fine_timed) as F. cbn beta in F. split; [|split; [|split]].
  - intros v [|d].
    + intros ->. reflexivity.
    + intros (w & -> & H). apply (proj1 F) in H. cbn [legacy_timing_of]. unfold timed_of in H.
      destruct (unver w) as [| | | | | | | | |[|m [|ct [|ca [|vi [|vp [|? ?]]]]]]|]; try discriminate. injection H as <-. reflexivity.
  - intros v [|d].
    + intros ->. split; exact I.
    + intros (w & -> & H). split; [exact I|]. split; [|exact I]. exact (proj1 (proj2 F) _ _ H).
  - intros v (_ & H). left. destruct v as [| | | | | | | | | |i vs]; try contradiction.
    destruct i as [|[|i]]; [| |destruct i; contradiction].
    + destruct vs; [|contradiction]. exists Untimed. reflexivity.
    + destruct vs as [|w [|? ?]]; try (cbn in H; tauto). destruct H as (H & _). okat F H. exists (Timed a), w. auto.
  - intros v a _ [].
Qed.

(** ** Accounts *)

Lemma fine_account : fine AccountV0 account_of wire_account big_account.
Proof.
  pose proof fine_key as FK. pose proof (fine_option _ _ _ _ _ fine_key) as FO. pose proof (fine_option _ _ _ _ _ fine_unit) as FU.
  pose proof fine_bytes as FB. pose proof fine_u64 as F64. pose proof fine_u32 as F32. pose proof fine_token_permissions as FT.
  pose proof fine_timing as FI. pose proof fine_permissions as FP.
  assert (NU : forall v, big_option never v -> False) by (intros v (w & _ & [])).
  split; [|split; [|split]].
  - intros v x (k & t & p & s & b & n & r & d & o & i & m & z & u & -> & K & T & P & S & B & N & R & D & O & I & M & Z & U).
    apply (proj1 FK) in K. apply (proj1 FT) in P. apply (proj1 FO) in D. apply (proj1 FI) in I. apply (proj1 FP) in M.
    apply (proj1 FU) in Z, U. destruct T as (-> & _), B as (-> & _), N as (-> & _).
    cbn [account_of]. rewrite K, P, D, I, M, Z, U. cbn [bind int_of]. rewrite (bytes_of_w _ _ S), (bytes_of_w _ _ R), (bytes_of_w _ _ O).
    destruct x. reflexivity.
  - intros v x (k & t & p & s & b & n & r & d & o & i & m & z & u & -> & K & T & P & S & B & N & R & D & O & I & M & Z & U).
    apply (proj1 (proj2 FK)) in K. apply (proj1 (proj2 FT)) in P. apply (proj1 (proj2 FO)) in D. apply (proj1 (proj2 FI)) in I. apply (proj1 (proj2 FP)) in M.
    apply (proj1 (proj2 FU)) in Z, U. apply (proj1 (proj2 F64)) in T, B. apply (proj1 (proj2 F32)) in N. apply (proj1 (proj2 FB)) in S, R, O.
    split; [exact Logic.I|]. repeat (split; [assumption|]). exact Logic.I.
  - intros v H. apply typed_tup in H. destruct H as (vs & -> & H).
    destruct vs as [|k [|t [|p [|s [|b [|n [|r [|d [|o [|i [|m [|z [|u [|? ?]]]]]]]]]]]]]]; try (cbn in H; tauto).
    destruct H as (K & T & P & S & B & N & R & D & O & I & M & Z & U & _).
    destruct (proj1 (proj2 (proj2 FT)) _ P) as [(p' & P')|([] & _)]. destruct (proj1 (proj2 (proj2 FI)) _ I) as [(i' & I')|([] & _)].
    destruct (proj1 (proj2 (proj2 FP)) _ M) as [(m' & M')|([] & _)].
    destruct (proj1 (proj2 (proj2 FU)) _ Z) as [(z' & Z')|(X & _)]; [|destruct (NU _ X)].
    destruct (proj1 (proj2 (proj2 FU)) _ U) as [(u' & U')|(X & _)]; [|destruct (NU _ X)].
    destruct (proj1 (proj2 (proj2 F64)) _ T) as [(t' & T')|([] & _)]. destruct (proj1 (proj2 (proj2 F64)) _ B) as [(b' & B')|([] & _)].
    destruct (proj1 (proj2 (proj2 F32)) _ N) as [(n' & N')|([] & _)]. destruct (proj1 (proj2 (proj2 FB)) _ S) as [(s' & S')|([] & _)].
    destruct (proj1 (proj2 (proj2 FB)) _ R) as [(r' & R')|([] & _)]. destruct (proj1 (proj2 (proj2 FB)) _ O) as [(o' & O')|([] & _)].
    destruct (proj1 (proj2 (proj2 FK)) _ K) as [(k' & K')|(X & E)].
    + destruct (proj1 (proj2 (proj2 FO)) _ D) as [(d' & D')|(X & E)].
      * left. exists (mk_account k' t' b' p' s' n' r' d' o' i' m' z' u'), k, t, p, s, b, n, r, d, o, i, m, z, u.
        split; [reflexivity|]. repeat (split; [assumption|]). assumption.
      * right. split; [eexists; split; [reflexivity|]; right; exists d; split; [reflexivity|exact X]|].
        cbn [account_of]. rewrite (proj1 FK _ _ K'), (proj1 FT _ _ P'). cbn [bind]. rewrite E. reflexivity.
    + right. split; [eexists; split; [reflexivity|]; left; exists k; split; [reflexivity|exact X]|].
      cbn [account_of]. rewrite E. reflexivity.
  - intros v x (k & t & p & s & b & n & r & d & o & i & m & z & u & -> & K & T & P & S & B & N & R & D & O & I & M & Z & U)
      (l & [= <-] & [(k' & [= <-] & X)|(d' & [= <-] & X)]).
    + exact (proj2 (proj2 (proj2 FK)) _ _ K X).
    + exact (proj2 (proj2 (proj2 FO)) _ _ D X).
Qed.

Definition legacy_body_of (v : val) : res unit legacy := legacy_of (ver3 v).
Lemma fine_legacy_body : fine (TTup [PublicKey2V1; TokenIdV1; TokenPermissionsV1; AmountV1; AccountNonceV1; HashV1;
            TOpt PublicKeyV1; HashV1; TimingV1; PermissionsV1; TOpt TUnit]) legacy_body_of wire_legacy_body big_legacy_body.
Proof.
  pose proof (fine_ver _ _ _ _ _ (fine_ver _ _ _ _ _ (fine_ver _ _ _ _ _ fine_key))) as FK.
  pose proof (fine_option _ _ _ _ _ (fine_ver _ _ _ _ _ (fine_ver _ _ _ _ _ fine_key))) as FO.
  pose proof (fine_option _ _ _ _ _ fine_unit) as FU.
  pose proof (fine_ver _ _ _ _ _ fine_bytes) as FB.
  pose proof (fine_ver _ _ _ _ _ (fine_ver _ _ _ _ _ (fine_ver _ _ _ _ _ fine_u64))) as F3.
  pose proof (fine_ver _ _ _ _ _ (fine_ver _ _ _ _ _ fine_u64)) as F64.
  pose proof (fine_ver _ _ _ _ _ (fine_ver _ _ _ _ _ fine_u32)) as F32.
  pose proof (fine_ver _ _ _ _ _ (fine_ver _ _ _ _ _ fine_token_permissions)) as FT.
  pose proof (fine_ver _ _ _ _ _ (fine_ver _ _ _ _ _ fine_legacy_timing)) as FI.
  pose proof (fine_ver _ _ _ _ _ (fine_ver _ _ _ _ _ fine_legacy_permissions)) as FP.
  assert (NU : forall v, big_option never v -> False) by (intros v (w & _ & [])).
  cbn beta in *. split; [|split; [|split]].
  - intros v x (k & t & p & b & n & r & d & o & i & m & u & -> & K & T & P & B & N & R & D & O & I & M & U).
    apply (proj1 FK) in K. apply (proj1 FT) in P. apply (proj1 FO) in D. apply (proj1 FI) in I. apply (proj1 FP) in M.
    apply (proj1 FU) in U. apply (proj1 F3) in T. apply (proj1 F64) in B. apply (proj1 F32) in N. apply (proj1 FB) in R, O.
    injection T as T. injection B as B. injection N as N. injection R as R. injection O as O.
    unfold legacy_body_of, legacy_of, ver3, ver, unver3, unver2. cbn [unver]. rewrite K, P. cbn [bind]. rewrite D, I, M, U. cbn [bind]. rewrite T, B, N, R, O.
    destruct x as [[] ? ?]. reflexivity.
  - intros v x (k & t & p & b & n & r & d & o & i & m & u & -> & K & T & P & B & N & R & D & O & I & M & U).
    apply (proj1 (proj2 FK)) in K. apply (proj1 (proj2 FT)) in P. apply (proj1 (proj2 FO)) in D. apply (proj1 (proj2 FI)) in I. apply (proj1 (proj2 FP)) in M.
    apply (proj1 (proj2 FU)) in U. apply (proj1 (proj2 F3)) in T. apply (proj1 (proj2 F64)) in B. apply (proj1 (proj2 F32)) in N. apply (proj1 (proj2 FB)) in R, O.
    split; [exact Logic.I|]. repeat (split; [assumption|]). exact Logic.I.
  - intros v H. apply typed_tup in H. destruct H as (vs & -> & H).
    destruct vs as [|k [|t [|p [|b [|n [|r [|d [|o [|i [|m [|u [|? ?]]]]]]]]]]]]; try (cbn in H; tauto).
    destruct H as (K & T & P & B & N & R & D & O & I & M & U & _).
    destruct (proj1 (proj2 (proj2 FT)) _ P) as [(p' & P')|([] & _)]. destruct (proj1 (proj2 (proj2 FI)) _ I) as [(i' & I')|([] & _)].
    destruct (proj1 (proj2 (proj2 FP)) _ M) as [(m' & M')|([] & _)].
    destruct (proj1 (proj2 (proj2 FU)) _ U) as [(u' & U')|(X & _)]; [|destruct (NU _ X)].
    destruct (proj1 (proj2 (proj2 F3)) _ T) as [(t' & T')|([] & _)]. destruct (proj1 (proj2 (proj2 F64)) _ B) as [(b' & B')|([] & _)].
    destruct (proj1 (proj2 (proj2 F32)) _ N) as [(n' & N')|([] & _)].
    destruct (proj1 (proj2 (proj2 FB)) _ R) as [(r' & R')|([] & _)]. destruct (proj1 (proj2 (proj2 FB)) _ O) as [(o' & O')|([] & _)].
    destruct (proj1 (proj2 (proj2 FK)) _ K) as [(k' & K')|(X & E)].
    + destruct (proj1 (proj2 (proj2 FO)) _ D) as [(d' & D')|(X & E)].
      * left. exists (mk_legacy (mk_account_legacy k' t' p' b' n' r' d' o' i') m' u'), k, t, p, b, n, r, d, o, i, m, u.
        split; [reflexivity|]. repeat (split; [assumption|]). assumption.
      * right. split; [eexists; split; [reflexivity|]; right; exists d; split; [reflexivity|exact X]|].
        unfold legacy_body_of, legacy_of, ver3, ver, unver3, unver2. cbn [unver].
        rewrite (proj1 FK _ _ K'), (proj1 FT _ _ P'). cbn [bind]. rewrite E. reflexivity.
    + right. split; [eexists; split; [reflexivity|]; left; exists k; split; [reflexivity|exact X]|].
      unfold legacy_body_of, legacy_of, ver3, ver, unver3, unver2. cbn [unver]. rewrite E. reflexivity.
  - intros v x (k & t & p & b & n & r & d & o & i & m & u & -> & K & T & P & B & N & R & D & O & I & M & U)
      (l & [= <-] & [(k' & [= <-] & X)|(d' & [= <-] & X)]).
    + exact (proj2 (proj2 (proj2 FK)) _ _ K X).
    + exact (proj2 (proj2 (proj2 FO)) _ _ D X).
Qed.
Lemma fine_legacy : fine AccountV1 legacy_of wire_legacy big_legacy.
Proof.
  refine (fine_ext _ _ _ _ _ _ _ _ _ (fine_ver _ _ _ _ _ (fine_ver _ _ _ _ _ (fine_ver _ _ _ _ _ fine_legacy_body)))); intros v; reflexivity.
Qed.

(** ** The other direction *)

Lemma to_bytes_w : forall v l, w_bytes v l -> bytes_to l = v.
Proof. intros v l (-> & _). reflexivity. Qed.
Lemma to_key_w : forall v k, w_key v k -> pubkey_to k = v.
Proof.
  intros v k (x & l & -> & (-> & L & B) & E & _). unfold pubkey_to, bytes_to. rewrite <- E. rewrite <- L. rewrite le_bytes_le_val by exact B. reflexivity.
Qed.
Lemma to_option_w : forall A (R : val -> A -> Prop) f v o, (forall v a, R v a -> f a = v) -> w_option R v o -> option_to f o = v.
Proof. intros A R f v [a|] H; [intros (w & -> & K); cbn; f_equal; auto|intros ->; reflexivity]. Qed.
Lemma to_unit_w : forall v o, w_option w_unit v o -> option_to (fun _ => VUnit) o = v.
Proof. intros v o. apply to_option_w. intros w a ->. reflexivity. Qed.
Lemma to_auth_w : forall v a, w_auth v a -> auth_to a = v.
Proof. intros v a ->. reflexivity. Qed.
Lemma account_to_w : forall v a, wire_account v a -> account_to a = v.
Proof.
  intros v x (k & t & p & s & b & n & r & d & o & i & m & z & u & -> & K & T & P & S & B & N & R & D & O & I & M & Z & U).
  unfold account_to. rewrite (to_key_w _ _ K), (to_bytes_w _ _ S), (to_bytes_w _ _ R), (to_bytes_w _ _ O), (to_unit_w _ _ Z), (to_unit_w _ _ U).
  rewrite (to_option_w _ _ _ _ _ to_key_w D). destruct T as (-> & _), B as (-> & _), N as (-> & _).
  replace (token_permissions_to (a_token_permissions x)) with p by (destruct (a_token_permissions x); exact P).
  replace (timing_to (a_timing x)) with i.
  2:{ destruct (a_timing x) as [|y]; [exact I|]. destruct I as (? & ? & ? & ? & ? & -> & (-> & _) & (-> & _) & (-> & _) & (-> & _) & (-> & _)). reflexivity. }
  replace (permissions_to (a_permissions x)) with m; [reflexivity|].
  destruct M as (? & ? & ? & ? & ? & ? & ? & ? & ? & ? & ? & -> & M). decompose [and] M. unfold permissions_to. cbn [map].
  repeat match goal with W : w_auth _ _ |- _ => apply to_auth_w in W; rewrite W; clear W end. reflexivity.
Qed.

(** Every account has a wire value. *)
Lemma w_bytes_ex : forall l, List.length l = 32%nat -> bytes_ok l -> w_bytes (bytes_to l) l.
Proof. intros l L B. split; [reflexivity|auto]. Qed.
Lemma w_key_ex : forall k, key_ok k -> w_key (pubkey_to k) k.
Proof.
  intros k (A & B). exists (bytes_to (le_bytes 32 (pk_x k))), (le_bytes 32 (pk_x k)). split; [reflexivity|].
  split; [apply w_bytes_ex; [apply le_bytes_length|apply le_bytes_ok]|]. split; [|exact B].
  rewrite le_val_le_bytes. apply Z.mod_small. split; [exact A|]. apply Z.lt_trans with FP_MODULUS; [exact B|]. vm_compute. reflexivity.
Qed.
Lemma w_option_ex : forall A (R : val -> A -> Prop) f (P : A -> Prop) o, (forall a, P a -> R (f a) a) -> option_ok P o -> w_option R (option_to f o) o.
Proof. intros A R f P [a|] H K; [exists (f a); split; [reflexivity|auto]|reflexivity]. Qed.
Lemma w_unit_ex : forall o, w_option w_unit (option_to (fun _ => VUnit) o) o.
Proof. intros [u|]; [exists VUnit; split; reflexivity|reflexivity]. Qed.
Lemma w_tp_ex : forall t, w_token_permissions (token_permissions_to t) t.
Proof. intros [b|b]; reflexivity. Qed.
Lemma w_permissions_ex : forall p, w_permissions (permissions_to p) p.
Proof.
  intros p. unfold permissions_to. cbn [map]. do 11 eexists. split; [reflexivity|]. repeat split; reflexivity.
Qed.
Lemma w_ver_ex : forall A (R : val -> A -> Prop) v a, R v a -> w_ver R (ver v) a.
Proof. intros A R v a H. exists 1, v. split; [reflexivity|]. split; [lia|exact H]. Qed.
