(** Properties C54, C81, C82, C84, C85 and C92: the JSON forms of the wire types. *)

From Coq Require Import String ZArith List Bool Lia ZifyBool ZifyNat Permutation.
From Verif Require Import Lib.Res Lib.Bytes BinProt.Prim BinProt.Codec BinProt.CodecSpec BinProt.CodecProofs
  Wire.Types Text.Numbers Text.Base58 Text.Base58Props Text.FieldText Text.Checksum Text.ChecksumProps
  Json.Json Json.JsonTypes Json.JsonSpec Json.JsonFacts Json.JsonReadFacts Json.JsonTextFacts Json.JsonCrashFacts.
Import ListNotations.
Local Open Scope string_scope.
Local Open Scope list_scope.
Local Open Scope Z_scope.
Notation length := List.length.

(** Membership of a JSON type with its wire type. *)
Definition json_type (d : dty) (t : ty) : Prop := exists nm, In (nm, d, t) json_types.

Lemma json_type_all : forall f : dty -> bool, forallb (fun p => f (snd (fst p))) json_types = true ->
  forall d t, json_type d t -> f d = true.
Proof. intros f H d t (nm & I). rewrite forallb_forall in H. exact (H _ I). Qed.
Lemma json_type_wire : forall d t, json_type d t -> wire_ty d = t.
Proof. intros d t (nm & I). pose proof json_wire_types as H. rewrite Forall_forall in H. exact (H _ I). Qed.
Lemma json_type_wf : forall d t, json_type d t -> jwf d = true.
Proof. apply json_type_all. vm_compute. reflexivity. Qed.
Lemma json_type_names : forall d t, json_type d t -> names_ascii d = true.
Proof. apply json_type_all. vm_compute. reflexivity. Qed.
Lemma json_type_real : forall d t, json_type d t -> real d = true.
Proof. apply json_type_all. vm_compute. reflexivity. Qed.
Lemma json_type_defaults : forall d t, json_type d t -> defaults_ok d.
Proof.
  assert (H : Forall (fun p => defaults_ok (snd (fst p))) json_types).
  { repeat (apply Forall_cons; [cbn; repeat split; lia|]). apply Forall_nil. }
  intros d t (nm & I). rewrite Forall_forall in H. exact (H _ I).
Qed.

Section Props.
  Variable checked : bool.
  Variable checksum : list Z -> list Z.
  Variable addr : list Z -> bool -> list Z.
  Variable unaddr : list Z -> option (list Z * bool).
  (** What is assumed of the two external functions: a checksum is four bytes;
      an address reads back as the key it was made of. *)
  Hypothesis checksum_len : forall l, length (checksum l) = 4%nat.
  Hypothesis checksum_bytes : forall l, bytes_ok (checksum l).
  Hypothesis addr_back : forall x b, bytes_ok x -> length x = 32%nat -> le_val x < FP_MODULUS ->
    unaddr (addr x b) = Some (x, b).
  Hypothesis unaddr_ok : forall s x b, unaddr s = Some (x, b) -> bytes_ok x /\ length x = 32%nat /\ le_val x < FP_MODULUS.
  Hypothesis addr_ascii : forall x b, ascii (addr x b).
  (** the first byte of SHA-256 applied twice to nothing *)
  Hypothesis checksum_empty : nth 0 (checksum []) 0 = 0x5d.

  Notation write := (jser checked checksum addr).
  Notation read := (jde checked checksum unaddr).

  (** ** C82 *)

  (** Every value with valid public keys is written, and reading the document
      gives its carried part. *)
  Theorem C82_round_trip : forall d t v, json_type d t -> rust_val t v -> leaves key_ok d v ->
    exists j, write d v = Ok j /\ read d j = Ok (norm d v).
  Proof using checksum_len checksum_bytes addr_back.
    intros d t v T R K. rewrite <- (json_type_wire d t T) in R.
    destruct (proj1 (back_all checked checksum addr unaddr checksum_len checksum_bytes addr_back) d
      (json_type_wf d t T) v R K) as (j & S & D & _). eauto.
  Qed.
  (** So the way through JSON is the identity exactly on the values with the
      declared version numbers and the defaults in the skipped fields. *)
  Theorem C82_identity_iff : forall d t v, json_type d t -> rust_val t v -> leaves key_ok d v ->
    ((exists j, write d v = Ok j /\ read d j = Ok v) <-> declared d v).
  Proof using checksum_len checksum_bytes addr_back.
    intros d t v T R K. destruct (C82_round_trip d t v T R K) as (j & S & D).
    rewrite <- (json_type_wire d t T) in R. rewrite <- (proj1 norm_all d v R). split.
    - intros (j' & S' & D'). rewrite S in S'. injection S' as <-. rewrite D in D'. injection D' as E. exact E.
    - intros E. exists j. rewrite E in D. auto.
  Qed.
  (** Two values with the same document differ in version numbers and skipped
      fields only. *)
  Theorem C82_injective : forall d t v w, json_type d t -> rust_val t v -> rust_val t w -> leaves key_ok d v -> leaves key_ok d w ->
    write d v = write d w -> norm d v = norm d w.
  Proof using checksum_len checksum_bytes addr_back.
    intros d t v w T Rv Rw Kv Kw E. destruct (C82_round_trip d t v T Rv Kv) as (j & S & D).
    destruct (C82_round_trip d t w T Rw Kw) as (j' & S' & D'). rewrite <- E, S in S'. injection S' as <-.
    rewrite D in D'. now injection D'.
  Qed.
  (** The protocol versions of a block are not written: what is read has version
      2.0.0 and no proposed version, whatever was written. *)
  Theorem C82_protocol_version_refuted : forall v, rust_val ExternalTransitionV1 v -> leaves key_ok jExternalTransition v ->
    exists j a1 a2 a3 a4, write jExternalTransition v = Ok j /\
      read jExternalTransition j = Ok (VTup [VInt 1; VTup [a1; a2; a3; a4; VTup [VInt 1; VTup [VInt 2; VInt 0; VInt 0]]; VNone; VUnit]]).
  Proof using checksum_len checksum_bytes addr_back.
    intros v R K.
    assert (T : json_type jExternalTransition ExternalTransitionV1) by (exists "ExternalTransition"; left; reflexivity).
    destruct (C82_round_trip _ _ v T R K) as (j & S & D).
    rewrite <- (json_type_wire _ _ T) in R. unfold jExternalTransition in R. cbn [wire_ty] in R.
    apply typed_tup in R. destruct R as (_ & us & -> & R).
    destruct us as [|n [|b [|]]]; try (destruct R as (_ & R); contradiction); try (destruct R as (_ & _ & R); contradiction); [destruct R|].
    destruct R as (Rn & R & _). destruct n; try (destruct Rn as (_ & Rn); contradiction).
    apply typed_tup in R. destruct R as (_ & us & -> & R). cbn [wire_flds] in R.
    destruct us as [|x1 [|x2 [|x3 [|x4 [|x5 [|x6 [|x7 [|]]]]]]]]; cbn [typed_list] in R; try tauto.
    exists j. do 4 eexists. split; [exact S|]. rewrite D. unfold jExternalTransition. cbn [norm norm_flds].
    reflexivity.
  Qed.
  (** Writing crashes on a public key that is not below the modulus. *)
  Theorem C82_key_crash : forall x b, bytes_ok x -> length x = 32%nat -> FP_MODULUS <= le_val x ->
    rust_val PublicKeyV1 (VTup [VInt 1; VTup [VInt 1; VTup [VTup (map VInt x); VBool b]]]) /\
    write jPub (VTup [VInt 1; VTup [VInt 1; VTup [VTup (map VInt x); VBool b]]]) = Panic.
  Proof using Type.
    intros x b B L M. split.
    - assert (X : rust_val Bytes32 (VTup (map VInt x))) by (apply (u8s_tup 32); exists x; auto).
      assert (V1 : forall t v, rust_val t v -> rust_val (V t) (VTup [VInt 1; v])).
      { intros t v H. apply typed_tup. split; [exact I|]. eexists. split; [reflexivity|]. cbn [typed_list].
        split; [split; [clear; cbn; lia|exact I]|]. split; [exact H|exact I]. }
      apply V1, V1. apply typed_tup. split; [exact I|]. eexists. split; [reflexivity|]. cbn [typed_list].
      split; [exact X|]. split; [split; exact I|exact I].
    - unfold jPub, D2. cbn [Json.jser leaf_ser rmap]. rewrite ints_map.
      replace (le_val x <? FP_MODULUS) with false by (symmetry; apply Z.ltb_ge; exact M). reflexivity.
  Qed.

  (** ** C54 *)

  (** Any enum in the list-tagged form reads back, if its names are distinct
      and no newtype variant holds a list. *)
  Theorem C54_round_trip : forall expand poly ws i vs, jwf (DEnum (Listed expand) poly ws) = true ->
    rust_val (wire_ty (DEnum (Listed expand) poly ws)) (VEnum i vs) -> leaves key_ok (DEnum (Listed expand) poly ws) (VEnum i vs) ->
    exists x l, write (DEnum (Listed expand) poly ws) (VEnum i vs) = Ok (JArr (x :: l)) /\
      read (DEnum (Listed expand) poly ws) (JArr (x :: l)) = Ok (VEnum i (norm_vars ws i vs)).
  Proof using checksum_len checksum_bytes addr_back.
    intros x poly ws i vs W R K.
    destruct (proj1 (back_all checked checksum addr unaddr checksum_len checksum_bytes addr_back) _ W _ R K) as (j & S & D & _).
    assert (A : exists a l, j = JArr (a :: l)).
    { destruct (jde_eqs checked checksum unaddr) as (_ & _ & _ & _ & _ & _ & _ & E8 & _). rewrite E8 in D.
      apply bind_ok in D. destruct D as (e & T & _). destruct j as [| | | | |[|a l]|]; try discriminate. eauto. }
    destruct A as (a & l & ->). exists a, l. auto.
  Qed.
  (** The enums of the project that are written in this form, as whole types. *)
  Theorem C54_project : forall d t poly ws i vs, json_type d t -> d = DV (DEnum (Listed true) poly ws) ->
    rust_val t (VTup [VInt 1; VEnum i vs]) -> leaves key_ok d (VTup [VInt 1; VEnum i vs]) ->
    exists x l, write d (VTup [VInt 1; VEnum i vs]) = Ok (JArr (x :: l)) /\
      read d (JArr (x :: l)) = Ok (VTup [VInt 1; VEnum i (norm_vars ws i vs)]).
  Proof using checksum_len checksum_bytes addr_back.
    intros d t poly ws i vs T -> R K.
    pose proof (json_type_wf _ _ T) as W. rewrite <- (json_type_wire _ _ T) in R.
    cbn [wire_ty] in R. apply typed_tup in R. destruct R as (_ & us & E & R). injection E as <-. destruct R as (_ & R & _).
    destruct (C54_round_trip true poly ws i vs W R K) as (x & l & S & D).
    exists x, l. split; [exact S|]. change (read (DV (DEnum (Listed true) poly ws)) (JArr (x :: l)))
      with (let* v := read (DEnum (Listed true) poly ws) (JArr (x :: l)) in Ok (VTup [VInt 1; v])). rewrite D. reflexivity.
  Qed.
  (** A newtype variant that holds a list of something other than lists reads
      back exactly if the list has two elements or more. *)
  Theorem C54_list_iff : forall nm d vs, jwf d = true -> may_arr d = false ->
    rust_val (TSeq (wire_ty d)) (VSeq vs) -> Forall (leaves key_ok d) vs ->
    let e := DEnum (Listed true) false (WCons nm SNew (FCons "" None (DVec d) FNil) WNil) in
    exists j, write e (VEnum 0 [VSeq vs]) = Ok j /\
      ((exists w, read e j = Ok w) <-> (2 <= length vs)%nat).
  Proof using checksum_len checksum_bytes addr_back.
    intros nm d vs W A R K e. apply typed_seq in R. destruct R as (_ & us & E & T). injection E as <-.
    destruct (back_all checked checksum addr unaddr checksum_len checksum_bytes addr_back) as (BK & _).
    assert (M : exists l, mapM (write d) vs = Ok l /\ mapM (read d) l = Ok (map (norm d) vs) /\ length l = length vs /\ Forall not_arr l).
    { clear e. induction vs as [|v vs IHvs]; [exists []; cbn; auto|]. destruct T as (T & Ts). inversion K; subst.
      destruct (IHvs Ts H2) as (l & S & D & L & N). destruct (BK d W v T H1) as (j & Sj & Dj & _ & Aj).
      exists (j :: l). cbn [mapM map]. rewrite Sj, S, Dj, D. cbn [bind length]. split; [reflexivity|]. split; [reflexivity|]. split; [clear - L; lia|]. constructor; auto. }
    destruct M as (l & S & D & L & N). exists (JArr (JStr (str_bytes nm) :: l)). split.
    - destruct (jser_eqs checked checksum addr) as (_ & _ & _ & E4 & _ & _ & E7 & _ & E9 & E10 & _).
      unfold e. rewrite E7, E10, E9, E4, S. reflexivity.
    - destruct (jde_eqs checked checksum unaddr) as (E1 & E2 & E3 & E4 & E5 & E6 & E7 & E8 & E9 & E10 & E11 & E12 & E13).
      unfold e. rewrite E8. destruct l as [|a [|b l]]; cbn [tag_de bind ext_de length] in *.
      + rewrite E13, key_eqb_refl. cbn [bind]. split; [intros (w & X); discriminate|clear - L; lia].
      + rewrite E13, key_eqb_refl, E10. inversion N; subst.
        assert (X : read (DVec d) a = Err JE) by (destruct a; try reflexivity; contradiction).
        rewrite X. cbn [bind]. split; [intros (w & Y); discriminate|clear - L; lia].
      + rewrite E13, key_eqb_refl, E10, E4, D. cbn [rmap bind].
        change (jde_seq checked checksum unaddr FNil []) with (@Ok jerr (list val) []). cbn [bind].
        split; [clear - L; lia|eauto].
  Qed.

  (** ** C84 *)

  (** A document that is read gives a value of the wire type with the declared
      version numbers and defaults. *)
  Theorem C84_read_sound : forall d t j v, json_type d t -> json_ok j -> read d j = Ok v -> rust_val t v /\ declared d v.
  Proof using unaddr_ok.
    intros d t j v T J H. rewrite <- (json_type_wire d t T).
    destruct (proj1 (snd_all checked checksum unaddr unaddr_ok) d (json_type_wf d t T) (json_type_defaults d t T) j v J H) as (R & D & _).
    auto.
  Qed.
  (** Written again it reads as the same value. *)
  Theorem C84_stable : forall d t j v, json_type d t -> json_ok j -> read d j = Ok v ->
    exists j', write d v = Ok j' /\ read d j' = Ok v.
  Proof using checksum_len checksum_bytes addr_back unaddr_ok.
    intros d t j v T J H. destruct (C84_read_sound d t j v T J H) as (R & D).
    apply (C82_identity_iff d t v T R); [|exact D].
    destruct (proj1 (snd_all checked checksum unaddr unaddr_ok) d (json_type_wf d t T) (json_type_defaults d t T) j v J H) as (R' & _ & K).
    clear - R' K. revert v R' K.
    enough (X : (forall d v, leaves read_ok d v -> leaves key_ok d v) /\ (forall fs vs, leaves_flds read_ok fs vs -> leaves_flds key_ok fs vs) /\
      (forall ws i vs, leaves_vars read_ok ws i vs -> leaves_vars key_ok ws i vs)) by (intros; apply (proj1 X); assumption).
    apply json_ind; try (intros; exact I).
    - intros l v H. exact (proj1 H).
    - intros d0 IH v H. destruct v; try exact I. destruct vs as [|a [|b [|]]]; try exact I; destruct a; try exact I; exact (IH _ H).
    - intros d0 IH v H. destruct v; try exact I. exact (IH _ H).
    - intros d0 IH v H. destruct v; try exact I. exact (Forall_impl _ IH H).
    - intros fs IH v H. destruct v; try exact I. exact (IH _ H).
    - intros fs IH v H. destruct v; try exact I. exact (IH _ H).
    - intros tg p ws IH v H. destruct v; try exact I. exact (IH _ _ H).
    - intros nm sk d0 IHd fs IH vs H. destruct vs as [|v vs]; [destruct sk; exact I|]. destruct sk; [exact (IH _ H)|].
      exact (conj (IHd _ (proj1 H)) (IH _ (proj2 H))).
    - intros nm sh fs IHf ws IH i vs H. destruct i; [exact (IHf _ H)|exact (IH _ _ H)].
  Qed.

  (** ** C81 *)

  (** Reading a list-tagged enum crashes on everything but non-empty lists. *)
  Theorem C81_tag_crash : forall expand poly ws j, (forall x l, j <> JArr (x :: l)) ->
    read (DEnum (Listed expand) poly ws) j = Panic.
  Proof using Type.
    intros x poly ws j H. destruct j as [| | | | |[|a l]|]; try reflexivity. destruct (H a l). reflexivity.
  Qed.
  (** The types for which some document crashes the reader are those with a
      list-tagged enum, a character or a field element in them, and in a build
      with overflow checks those with a decimal amount. *)
  Theorem C81_crashes_iff : forall d t, json_type d t ->
    ((exists j, read d j = Panic) <-> calm checked d = false).
  Proof using checksum_len checksum_bytes checksum_empty.
    intros d t T. split.
    - intros (j & H). destruct (calm checked d) eqn:C; [|reflexivity].
      destruct (proj1 (still_all checked checksum unaddr checksum_len checksum_bytes checksum_empty) d C (json_type_real d t T) j H).
    - intros C. assert (X : (calm checked d || match crash checked d with Some _ => true | None => false end) = true).
      { apply (json_type_all (fun d => calm checked d || match crash checked d with Some _ => true | None => false end)) with t; [|exact T].
        clear. destruct checked; vm_compute; reflexivity. }
      rewrite C in X. cbn [orb] in X. destruct (crash checked d) as [j|] eqn:J; [|discriminate]. exists j.
      apply (proj1 (crash_all checked checksum unaddr) d (json_type_wf d t T) j J).
  Qed.

  (** ** C85 *)

  (** The strings of a written document are UTF-8 exactly when the bytes that
      are turned into text without a check are. *)
  Theorem C85_valid_iff : forall d t v j, json_type d t -> rust_val t v -> write d v = Ok j ->
    (strings (fun s => utf8_valid s = true) j <-> leaves text_ok d v).
  Proof using addr_ascii.
    intros d t v j T R H. rewrite <- (json_type_wire d t T) in R.
    apply (proj1 (txt_all checked checksum addr addr_ascii) d (json_type_wf d t T) (json_type_names d t T) v j R H).
  Qed.
End Props.

(** ** C92 *)

Lemma obj_loop_perm : forall f m m', Permutation m m' -> forall r, obj_loop f m = Ok r ->
  exists r', obj_loop f m' = Ok r' /\ Permutation r r'.
Proof.
  intros f m m' P. induction P as [|(k, j) m m' P IH|(k1, j1) (k2, j2) m|m1 m2 m3 P1 IH1 P2 IH2]; intros r H.
  - exists r. auto.
  - cbn [obj_loop] in *. destruct (f k j) as [x|].
    + apply bind_ok in H. destruct H as (v & -> & H). apply bind_ok in H. destruct H as (r0 & H & E). injection E as <-.
      destruct (IH r0 H) as (r1 & -> & Q). cbn [bind]. eexists. split; [reflexivity|]. now constructor.
    + apply IH, H.
  - cbn [obj_loop] in *. destruct (f k1 j1) as [x1|]; destruct (f k2 j2) as [x2|].
    + apply bind_ok in H. destruct H as (v2 & -> & H). apply bind_ok in H. destruct H as (r0 & H & E). injection E as <-.
      apply bind_ok in H. destruct H as (v1 & -> & H). apply bind_ok in H. destruct H as (r1 & -> & E). injection E as <-.
      cbn [bind]. eexists. split; [reflexivity|]. constructor.
    + exists r. auto.
    + exists r. auto.
    + exists r. auto.
  - destruct (IH1 r H) as (r1 & H1 & Q1). destruct (IH2 r1 H1) as (r2 & H2 & Q2). exists r2. split; [exact H2|].
    eapply Permutation_trans; eassumption.
Qed.
Lemma obj_loop_keys : forall f m r, obj_loop f m = Ok r -> NoDup (map fst m) -> NoDup (map fst r) /\ incl (map fst r) (map fst m).
Proof.
  intros f. induction m as [|(k, j) m IH]; intros r H N; cbn [obj_loop map fst] in *.
  - injection H as <-. split; [constructor|apply incl_refl].
  - inversion N; subst. destruct (f k j) as [x|].
    + apply bind_ok in H. destruct H as (v & -> & H). apply bind_ok in H. destruct H as (r0 & H & E). injection E as <-.
      destruct (IH r0 H H3) as (N' & I'). cbn [map fst]. split; [constructor; [|exact N']|].
      * intros A. apply H2, I', A.
      * intros a [A|A]; [left; exact A|right; apply I', A].
    + destruct (IH r H H3) as (N' & I'). split; [exact N'|]. intros a A. right. apply I', A.
Qed.
Lemma assoc_perm : forall r r', Permutation r r' -> NoDup (map fst r) -> forall k, assoc k r' = assoc k r.
Proof.
  intros r r' P N k.
  assert (N' : NoDup (map fst r')) by (eapply Permutation_NoDup; [apply Permutation_map, P|exact N]).
  destruct (assoc k r) as [v|] eqn:A.
  - apply assoc_in; [exact N'|]. eapply Permutation_in; [exact P|]. clear - A.
    induction r as [|(k', v') r IH]; [discriminate|]. cbn [assoc] in A. destruct (key_eqb k' k) eqn:E.
    + apply key_eqb_iff in E. subst. injection A as ->. left. reflexivity.
    + right. apply IH, A.
  - destruct (assoc k r') as [v|] eqn:A'; [|reflexivity]. exfalso.
    assert (I : In (k, v) r').
    { clear - A'. induction r' as [|(k', v') r IH]; [discriminate|]. cbn [assoc] in A'. destruct (key_eqb k' k) eqn:E.
      + apply key_eqb_iff in E. subst. injection A' as ->. left. reflexivity.
      + right. apply IH, A'. }
    apply (Permutation_in _ (Permutation_sym P)) in I. rewrite (assoc_in _ _ _ N I) in A. discriminate.
Qed.
Lemma assemble_ext : forall fs r r', (forall k, assoc k r' = assoc k r) -> assemble fs r' = assemble fs r.
Proof.
  induction fs as [|nm sk d fs IH]; intros r r' H; [reflexivity|]. destruct sk; cbn [assemble]; rewrite ?H, (IH r r' H); reflexivity.
Qed.

Lemma not_missing : forall d, optional d = false -> missing d = None.
Proof. induction d; intros H; try reflexivity; try discriminate. cbn [optional missing] in *. rewrite IHd by exact H. reflexivity. Qed.

Section Order.
  Variable checked : bool.
  Variable checksum : list Z -> list Z.
  Variable unaddr : list Z -> option (list Z * bool).
  Notation read := (jde checked checksum unaddr).
  Notation fld_de := (fld_de checked checksum unaddr).

  Lemma fld_unknown : forall fs k j, ~ In k (keys fs) -> fld_de fs k j = None.
  Proof.
    induction fs as [|nm sk d fs IH]; intros k j N; [reflexivity|]. destruct sk; cbn [keys] in N.
    - apply IH, N.
    - change (fld_de (FCons nm None d fs) k j) with (if key_eqb (str_bytes nm) k then Some (read d j) else fld_de fs k j).
      rewrite key_neqb; [apply IH; intros A; apply N; right; exact A|]. intros A. apply N. left. exact A.
  Qed.

  (** The members of an object can come in any order. *)
  Theorem C92_order : forall fs m m' v, NoDup (map fst m) -> Permutation m m' ->
    read (DStruct fs) (JObj m) = Ok v -> read (DStruct fs) (JObj m') = Ok v.
  Proof.
    intros fs m m' v N P H. destruct (jde_eqs checked checksum unaddr) as (_ & _ & _ & _ & _ & E6 & _).
    rewrite E6 in *. apply bind_ok in H. destruct H as (r & O & H).
    destruct (obj_loop_perm _ _ _ P r O) as (r' & O' & Q). rewrite O'. cbn [bind].
    rewrite (assemble_ext fs r r'); [exact H|]. apply assoc_perm; [exact Q|].
    apply (obj_loop_keys _ _ _ O N).
  Qed.
  (** Members that are no field of the type are ignored, whatever they hold. *)
  Theorem C92_unknown : forall fs m1 k x m2, ~ In k (keys fs) ->
    read (DStruct fs) (JObj (m1 ++ (k, x) :: m2)) = read (DStruct fs) (JObj (m1 ++ m2)).
  Proof.
    intros fs m1 k x m2 N. destruct (jde_eqs checked checksum unaddr) as (_ & _ & _ & _ & _ & E6 & _).
    rewrite !E6. f_equal. induction m1 as [|(k1, x1) m1 IH]; cbn [app obj_loop].
    - rewrite fld_unknown by exact N. reflexivity.
    - rewrite IH. reflexivity.
  Qed.
  (** Every field that is neither optional nor skipped has to be there. *)
  Theorem C92_required : forall fs m v, read (DStruct fs) (JObj m) = Ok v ->
    forall k, In k (required fs) -> In k (map fst m).
  Proof.
    intros fs m v H k I. destruct (jde_eqs checked checksum unaddr) as (_ & _ & _ & _ & _ & E6 & _).
    rewrite E6 in H. apply bind_ok in H. destruct H as (r & O & H). apply rmap_ok in H. destruct H as (vs & H & _).
    assert (A : assoc k r <> None).
    { clear O E6. revert vs H I. induction fs as [|nm sk d fs IH]; intros vs H I; [destruct I|].
      destruct sk; cbn [assemble required] in *; apply bind_ok in H; destruct H as (x & H1 & H2).
      - apply (IH x H1 I).
      - apply bind_ok in H2. destruct H2 as (xs & H2 & _). destruct (optional d) eqn:M; [apply (IH xs H2 I)|].
        destruct I as [E|I]; [|apply (IH xs H2 I)]. rewrite <- E. intros A.
        rewrite A, (not_missing d M) in H1. discriminate. }
    destruct (assoc k r) as [w|] eqn:A'; [|congruence].
    destruct (obj_loop_inv _ _ _ O k w A') as (j & J & _). apply in_map_iff. exists (k, j). auto.
  Qed.
End Order.

(** ** Concrete cases *)

(** The real checksum and the real addresses meet the hypotheses. *)
Lemma sha_addr_back : forall x b, bytes_ok x -> length x = 32%nat -> le_val x < FP_MODULUS ->
  from_address sha_checksum (into_address sha_checksum x b) = Some (x, b).
Proof. exact (C53_address_round_trip sha_checksum sha_checksum_len sha_checksum_bytes). Qed.
Lemma sha_unaddr_ok : forall s x b, from_address sha_checksum s = Some (x, b) ->
  bytes_ok x /\ length x = 32%nat /\ le_val x < FP_MODULUS.
Proof.
  intros s x b H. destruct (C53_address_canonical sha_checksum sha_checksum_len sha_checksum_bytes s x b H) as (B & L & M & _). auto.
Qed.
Lemma sha_addr_ascii : forall x b, ascii (into_address sha_checksum x b).
Proof. intros x b. apply b58_ascii. Qed.
Lemma sha_empty : nth 0 (sha_checksum []) 0 = 0x5d.
Proof. rewrite sha_checksum_empty. reflexivity. Qed.

Notation write c := (jser c sha_checksum (into_address sha_checksum)).
Notation read c := (jde c sha_checksum (from_address sha_checksum)).
Notation text := str_bytes.

(** A value of every wire type: zeros, no elements, the first variants. *)
Fixpoint zero (t : ty) : val :=
  let zeros := fix zeros (ts : list ty) : list val := match ts with [] => [] | t :: ts => zero t :: zeros ts end in
  match t with
  | TUnit => VUnit
  | TBool => VBool false
  | TChar => VChar 0
  | TF32 | TF64 => VFloat 0
  | TStr => VStr []
  | TOpt _ => VNone
  | TSeq _ => VSeq []
  | TTup ts => VTup (zeros ts)
  | TEnum vs => VEnum 0 match vs with [] => [] | ts :: _ => zeros ts end
  | TPoly vs => VEnum 0 match vs with [] => [] | (_, ts) :: _ => zeros ts end
  | _ => VInt 0
  end.
Definition zeros (ts : list ty) : list val := map zero ts.
Lemma zero_tup : forall ts, zero (TTup ts) = VTup (zeros ts).
Proof. intros ts. reflexivity. Qed.
Lemma zero_enum : forall ts vs, zero (TEnum (ts :: vs)) = VEnum 0 (zeros ts).
Proof. intros ts vs. reflexivity. Qed.
Lemma zero_poly : forall nm ts vs, zero (TPoly ((nm, ts) :: vs)) = VEnum 0 (zeros ts).
Proof. intros nm ts vs. reflexivity. Qed.
(** No enum without a variant. *)
Fixpoint full (t : ty) : bool :=
  match t with
  | TTup ts => forallb full ts
  | TEnum (ts :: _) => forallb full ts
  | TPoly ((_, ts) :: _) => forallb full ts
  | TEnum [] | TPoly [] => false
  | _ => true
  end.
Lemma zero_typed : forall t, full t = true -> rust_val t (zero t).
Proof.
  assert (L : forall ts, Forall (fun t => full t = true -> rust_val t (zero t)) ts -> forallb full ts = true ->
    typed_list rust_ok ts (zeros ts)).
  { intros ts F. induction F as [|t ts H F IH]; intros E; [exact I|]. cbn [forallb] in E. apply andb_true_iff in E.
    split; [apply H, E|apply IH, E]. }
  induction t using ty_ind'; intros F.
  1-9: try (destruct k); (split; [cbn; try lia; auto|exact I]). 
  - repeat split. constructor.
  - split; exact I.
  - split; [cbn; lia|exact I].
  - rewrite zero_tup. apply typed_tup. split; [exact I|]. eexists. split; [reflexivity|]. apply L; assumption.
  - destruct vs as [|ts vs]; [discriminate|]. rewrite zero_enum. apply typed_enum. split; [exact I|].
    exists 0%nat, (zeros ts), ts. split; [reflexivity|]. split; [reflexivity|]. inversion H; subst. apply L; assumption.
  - destruct vs as [|(nm, ts) vs]; [discriminate|]. rewrite zero_poly. apply typed_poly. split; [exact I|].
    exists 0%nat, (zeros ts), nm, ts. split; [reflexivity|]. split; [reflexivity|]. inversion H; subst. apply L; assumption.
Qed.
Lemma zero_keys : forall d, leaves key_ok d (zero (wire_ty d)).
Proof.
  enough (X : (forall d, leaves key_ok d (zero (wire_ty d))) /\ (forall fs, leaves_flds key_ok fs (zeros (wire_flds fs))) /\
    (forall ws, match ws with WNil => True | WCons _ _ fs _ => leaves_flds key_ok fs (zeros (wire_flds fs)) end)) by apply X.
  apply json_ind; try (intros; exact I).
  - intros l. destruct l; try exact I. vm_compute. reflexivity.
  - intros d H. exact H.
  - intros d _. constructor.
  - intros fs H. exact H.
  - intros fs H. exact H.
  - intros tg p ws H. destruct ws as [|nm sh fs ws]; [destruct p; exact I|].
    destruct p; exact H.
  - intros nm sk d Hd fs H. destruct sk; [exact H|]. exact (conj Hd H).
  - intros nm sh fs H ws _. exact H.
Qed.
Ltac small := vm_compute; repeat split; first [exact I|discriminate|reflexivity].

(** C54, C82: the two fee transfers of a coinbase. *)
Definition a_key : val := VTup [VInt 1; VTup [VInt 1; VTup [VTup (map VInt (1 :: repeat 0 31)); VBool true]]].
Definition a_transfer : val := VTup [VInt 1; VTup [VInt 1; VTup [a_key; VTup [VInt 1; VTup [VInt 1; VInt 1500000000]]]]].
Definition a_coinbase : val := VTup [VInt 1; VEnum 2 [VSome a_transfer; VNone]].
Example C54_case : forall c, write c jCoinBase a_coinbase = Ok (JArr [JStr (text "Two");
  JObj [(text "receiver_pk", JStr (into_address sha_checksum (1 :: repeat 0 31) true)); (text "fee", JStr (text "1.5"))]; JNull]).
Proof. intros c. vm_compute. reflexivity. Qed.
Lemma a_coinbase_typed : rust_val CoinBaseV1 a_coinbase.
Proof. small. Qed.
Lemma a_coinbase_keys : leaves key_ok jCoinBase a_coinbase.
Proof. small. Qed.
Lemma coinbase_json : json_type jCoinBase CoinBaseV1.
Proof. exists "CoinBase". unfold json_types. repeat (try (left; reflexivity); right). Qed.
Example C82_case : forall c, exists j, write c jCoinBase a_coinbase = Ok j /\ read c jCoinBase j = Ok a_coinbase.
Proof.
  intros c. apply (C82_identity_iff c sha_checksum (into_address sha_checksum) (from_address sha_checksum) sha_checksum_len sha_checksum_bytes sha_addr_back jCoinBase CoinBaseV1
    a_coinbase coinbase_json a_coinbase_typed a_coinbase_keys). small.
Qed.
(** An empty "One" is told from "Zero". *)
Example C54_case_one : forall c, write c jCoinBase (VTup [VInt 1; VEnum 1 [VNone]]) = Ok (JArr [JStr (text "One"); JNull]) /\
  read c jCoinBase (JArr [JStr (text "One"); JNull]) = Ok (VTup [VInt 1; VEnum 1 [VNone]]) /\
  read c jCoinBase (JArr [JStr (text "Zero")]) = Ok (VTup [VInt 1; VEnum 0 []]) /\
  read c jCoinBase (JArr [JStr (text "One")]) = Err JE.
Proof. intros c. vm_compute. auto. Qed.

(** The form is ambiguous in general: a variant holding one list of booleans.
    Lists of no element and of one element are lost. *)
Definition a_list : dty := DEnum (Listed true) false (WCons "All" SNew (FCons "" None (DVec DBool) FNil) WNil).
Theorem C54_ambiguous_refuted : forall c,
  (write c a_list (VEnum 0 [VSeq []]) = Ok (JArr [JStr (text "All")]) /\ read c a_list (JArr [JStr (text "All")]) = Err JE) /\
  (write c a_list (VEnum 0 [VSeq [VBool true]]) = Ok (JArr [JStr (text "All"); JBool true]) /\
   read c a_list (JArr [JStr (text "All"); JBool true]) = Err JE) /\
  (exists j, write c a_list (VEnum 0 [VSeq [VBool true; VBool false]]) = Ok j /\
   read c a_list j = Ok (VEnum 0 [VSeq [VBool true; VBool false]])).
Proof. intros c. repeat split; try (vm_compute; reflexivity). eexists. split; vm_compute; reflexivity. Qed.
Example C54_list_iff_case : jwf DBool = true /\ may_arr DBool = false /\
  rust_val (TSeq (wire_ty DBool)) (VSeq [VBool true]) /\ Forall (leaves key_ok DBool) [VBool true].
Proof. repeat split. constructor; [exact I|constructor]. Qed.

(** C82: values that do not come back. *)

(** The number of a wrapper is not written. *)
Theorem C82_version_refuted : forall c, exists v w j, rust_val GlobalSlotV1 v /\ leaves key_ok jGlobalSlot v /\
  write c jGlobalSlot v = Ok j /\ read c jGlobalSlot j = Ok w /\ w <> v.
Proof.
  intros c. exists (zero GlobalSlotV1), (norm jGlobalSlot (zero GlobalSlotV1)),
    (JObj [(text "slot_number", JStr (text "0")); (text "slots_per_epoch", JStr (text "0"))]).
  split; [small|]. split; [small|]. split; [vm_compute; reflexivity|]. split; [vm_compute; reflexivity|].
  vm_compute. discriminate.
Qed.
Example C82_protocol_version_case : rust_val ExternalTransitionV1 (zero ExternalTransitionV1) /\
  leaves key_ok jExternalTransition (zero ExternalTransitionV1).
Proof.
  split; [apply zero_typed; vm_compute; reflexivity|].
  replace ExternalTransitionV1 with (wire_ty jExternalTransition) by (vm_compute; reflexivity). apply zero_keys.
Qed.
(** A public key that can be received in a block but not written. *)
Theorem C82_key_refuted : forall c, exists v, rust_val PublicKeyV1 v /\ write c jPub v = Panic.
Proof.
  intros c. eexists. apply (C82_key_crash c sha_checksum (into_address sha_checksum) (repeat 255 32) false).
  - cbn [repeat]. repeat (apply Forall_cons; [unfold byte_ok; lia|]). apply Forall_nil.
  - reflexivity.
  - vm_compute. discriminate.
Qed.

(** C84 *)
Example C84_case : forall c,
  let j := JObj [(text "extra", JFloat 0); (text "slots_per_epoch", JStr (text "+7140")); (text "slot_number", JStr (text "007"))] in
  json_ok j /\ read c jGlobalSlot j =
    Ok (VTup [VInt 1; VTup [VInt 1; VTup [VTup [VInt 1; VTup [VInt 1; VInt 7]]; VTup [VInt 1; VTup [VInt 1; VInt 7140]]]]]) /\
  write c jGlobalSlot (VTup [VInt 1; VTup [VInt 1; VTup [VTup [VInt 1; VTup [VInt 1; VInt 7]]; VTup [VInt 1; VTup [VInt 1; VInt 7140]]]]]) =
    Ok (JObj [(text "slot_number", JStr (text "7")); (text "slots_per_epoch", JStr (text "7140"))]).
Proof.
  intros c j. split; [|split; vm_compute; reflexivity]. unfold j. cbn [json_ok].
  repeat split; try reflexivity; (apply Forall_forall; intros x H; repeat (destruct H as [<-|H]; [unfold byte_ok; vm_compute; intuition congruence|]); destruct H).
Qed.

(** C81 *)
Theorem C81_refuted : forall c, read c jCoinBase (JArr []) = Panic /\ read c jCoinBase (JStr (text "Zero")) = Panic /\
  read c jSgn JNull = Panic /\ read c jChar (JStr []) = Panic /\
  read true jDec (JStr (text "18446744073709551615")) = Panic.
Proof. intros c. vm_compute. auto 6. Qed.
(** Protocol states and the chains of a delta proof cannot crash the reader;
    blocks can. *)
Example C81_case : forall c, calm c jProtocolState = true /\ calm c jDeltaProof = true /\ calm c jExternalTransition = false.
Proof. intros c. destruct c; vm_compute; auto. Qed.

(** C85 *)

(** A block whose snark work has the digest 0xff is written with a string that
    is not UTF-8. *)
Definition a_statement (digest : list Z) : val :=
  match zero StatementV1 with
  | VTup [_; VTup [_; VTup vs]] => VTup [VInt 1; VTup [VInt 1; VTup (removelast vs ++ [VTup [VInt 1; VSeq (map VInt digest)]])]]
  | v => v
  end.
Lemma statement_json : json_type jStatement StatementV1.
Proof. exists "Statement". unfold json_types. repeat (try (left; reflexivity); right). Qed.
Theorem C85_refuted : forall c, exists v j, rust_val StatementV1 v /\ write c jStatement v = Ok j /\
  ~ strings (fun s => utf8_valid s = true) j.
Proof.
  intros c. assert (R : rust_val StatementV1 (a_statement [255])) by small.
  destruct (C82_round_trip c sha_checksum (into_address sha_checksum) (from_address sha_checksum) sha_checksum_len sha_checksum_bytes sha_addr_back _ _ (a_statement [255]) statement_json R) as (j & S & _);
    [small|].
  exists (a_statement [255]), j. split; [exact R|]. split; [exact S|].
  intros H. apply (C85_valid_iff c sha_checksum (into_address sha_checksum) sha_addr_ascii _ _ _ _ statement_json R S) in H.
  vm_compute in H. decompose [and] H. discriminate.
Qed.
(** With an ASCII digest the strings are fine. *)
Example C85_case : forall c, exists j, write c jStatement (a_statement (text "sok")) = Ok j /\ strings (fun s => utf8_valid s = true) j.
Proof.
  intros c. assert (R : rust_val StatementV1 (a_statement (text "sok"))) by small.
  destruct (C82_round_trip c sha_checksum (into_address sha_checksum) (from_address sha_checksum) sha_checksum_len sha_checksum_bytes sha_addr_back _ _ (a_statement (text "sok")) statement_json R) as (j & S & _);
    [small|].
  exists j. split; [exact S|]. apply (C85_valid_iff c sha_checksum (into_address sha_checksum) sha_addr_ascii _ _ _ _ statement_json R S). small.
Qed.
(** A character other than ASCII is read, cut down to a byte, and written as
    that byte alone. *)
Theorem C85_char_refuted : forall c, utf8_valid [0xc3; 0xa9] = true /\
  exists v, read c jChar (JStr [0xc3; 0xa9]) = Ok v /\ rust_val (wire_ty jChar) v /\
    exists s, write c jChar v = Ok (JStr s) /\ utf8_valid s = false.
Proof.
  intros c. split; [reflexivity|]. eexists. split; [vm_compute; reflexivity|]. split; [small|].
  eexists. split; vm_compute; reflexivity.
Qed.

(** C92 *)
Example C92_case : forall c,
  read c jGlobalSlot (JObj [(text "slots_per_epoch", JStr (text "2")); (text "slot_number", JStr (text "1"))]) =
  read c jGlobalSlot (JObj [(text "slot_number", JStr (text "1")); (text "more", JNull); (text "slots_per_epoch", JStr (text "2"))]) /\
  (exists v, read c jGlobalSlot (JObj [(text "slot_number", JStr (text "1")); (text "slots_per_epoch", JStr (text "2"))]) = Ok v) /\
  read c jGlobalSlot (JObj [(text "slot_number", JStr (text "1"))]) = Err JE.
Proof. intros c. split; [vm_compute; reflexivity|]. split; [eexists|]; vm_compute; reflexivity. Qed.

Print Assumptions C82_round_trip.
Print Assumptions C82_identity_iff.
Print Assumptions C82_injective.
Print Assumptions C82_protocol_version_refuted.
Print Assumptions C82_key_crash.
Print Assumptions C54_round_trip.
Print Assumptions C54_project.
Print Assumptions C54_list_iff.
Print Assumptions C84_read_sound.
Print Assumptions C84_stable.
Print Assumptions C81_tag_crash.
Print Assumptions C81_crashes_iff.
Print Assumptions C85_valid_iff.
Print Assumptions C92_order.
Print Assumptions C92_unknown.
Print Assumptions C92_required.
Print Assumptions C54_ambiguous_refuted.
Print Assumptions C82_version_refuted.
Print Assumptions C82_key_refuted.
Print Assumptions C81_refuted.
Print Assumptions C85_refuted.
Print Assumptions C85_char_refuted.
