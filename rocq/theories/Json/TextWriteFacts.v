(** What is written can be printed and read.  Models no code. *)

From Coq Require Import String ZArith List Bool Lia ZifyBool ZifyNat Permutation.
From Verif Require Import Lib.Res Lib.Bytes Lib.Decimal Lib.Text BinProt.Codec BinProt.CodecSpec BinProt.CodecProofs Wire.Types Text.Numbers Text.NumbersProps Text.Base58 Text.Base64 Text.Base64Props Text.Hex Text.FieldText
  Json.Json Json.JsonSpec Json.JsonFacts Json.JsonTypes Json.JsonReadFacts Json.JsonTextFacts Json.JsonProps Convert.JsonViewSpec Convert.JsonViewFacts.
From Verif Require Import Json.Grammar Json.Parse Json.ParseFacts Json.JsonText Json.TextSpec Json.PrintFacts Json.TextFacts Json.TextReadFacts.
Import ListNotations.
Local Open Scope list_scope.
Local Open Scope Z_scope.
Notation length := List.length.

(** ** The texts are bytes *)
Lemma nth_byte : forall l n, bytes_ok l -> byte_ok (nth n l 0).
Proof. induction l as [|x l IH]; intros [|n] H; cbn; try (unfold byte_ok; lia); inversion H; subst; auto. Qed.
Lemma b58_bytes : forall data, bytes_ok (b58_encode data).
Proof.
  intros data. unfold b58_encode. apply Forall_forall. intros c I. apply in_map_iff in I. destruct I as (d & <- & _).
  unfold char_of. apply nth_byte. apply str_bytes_ok.
Qed.
Lemma b64_bytes : forall bs, bytes_ok (b64_encode bs).
Proof.
  assert (C : forall d, byte_ok (b64_char d)).
  { intros d. unfold b64_char. apply nth_byte. first [apply str_bytes_ok|unfold bytes_ok; vm_compute; repeat (apply Forall_cons; [split; intros X; discriminate X|]); apply Forall_nil]. }
  induction bs as [|a|a b|a b c r IH] using list3_ind; cbn [b64_encode];
    repeat (apply Forall_cons; [first [apply C|unfold byte_ok; lia]|]); first [apply Forall_nil|exact IH].
Qed.
Lemma digits_bytes : forall l, digits l -> bytes_ok l.
Proof. intros l H. eapply Forall_impl; [|exact H]. intros c C. unfold is_digit in C. unfold byte_ok. lia. Qed.
Lemma dec_bytes : forall n, 0 <= n -> bytes_ok (dec n).
Proof. intros n H. apply digits_bytes, dec_digits, H. Qed.
Lemma trim_bytes : forall c l, bytes_ok l -> bytes_ok (trim_end c l).
Proof. intros c l H. destruct (trim_end_spec c l) as (k & E & _). rewrite E in H. apply Forall_app in H. tauto. Qed.
Lemma decimal_bytes : forall a, 0 <= a -> bytes_ok (decimal_json_ser a).
Proof.
  intros a H. unfold decimal_json_ser. apply trim_bytes, trim_bytes. assert (0 < MINA_PRECISION) by reflexivity.
  apply Forall_app. split; [apply dec_bytes, Z.div_pos; lia|]. apply Forall_app. split; [apply Forall_cons; [unfold byte_ok; lia|apply Forall_nil]|].
  unfold pad0. apply Forall_app. split; [|apply dec_bytes; apply Z.mod_pos_bound; lia].
  apply Forall_forall. intros c I. apply repeat_spec in I. subst. unfold byte_ok. lia.
Qed.
Lemma hex_bytes : forall bs, bytes_ok bs -> bytes_ok (hex_encode bs).
Proof.
  intros bs H. induction H as [|b bs B Bs IH]; [constructor|]. cbn [hex_encode]. unfold byte_ok in B.
  assert (0 <= b / 16 < 16) by (split; [apply Z.div_pos; lia|apply Z.div_lt_upper_bound; lia]).
  assert (0 <= b mod 16 < 16) by (apply Z.mod_pos_bound; lia).
  repeat (apply Forall_cons; [unfold hex_char, byte_ok; destruct (_ <? _) eqn:E; lia|]). exact IH.
Qed.
Lemma versioned_bytes : forall checksum c ver t v s, to_base58_versioned checksum c ver t v = Ok s -> bytes_ok s.
Proof.
  intros checksum c ver t v s H. unfold to_base58_versioned in H. apply bind_ok in H. destruct H as (buf & _ & H).
  injection H as <-. apply b58_bytes.
Qed.

(** ** Documents of bounded depth without floats *)
Fixpoint good (n : nat) (j : json) {struct j} : Prop :=
  match j with
  | JNum z => - 2 ^ 63 <= z < 2 ^ 64
  | JFloat _ => False
  | JStr s => bytes_ok s
  | JArr l => match n with O => False | S n => (fix all (l : list json) : Prop := match l with [] => True | j :: l => good n j /\ all l end) l end
  | JObj m => match n with O => False | S n => (fix all (m : list (list Z * json)) : Prop := match m with [] => True | (k, j) :: m => bytes_ok k /\ good n j /\ all m end) m end
  | _ => True
  end.
Lemma good_arr : forall n l, good (S n) (JArr l) <-> Forall (good n) l.
Proof.
  intros n. induction l as [|j l IH]; [split; [constructor|intros; exact I]|]. split.
  - intros (A & B). constructor; [exact A|apply IH; exact B].
  - intros H. inversion H; subst. split; [assumption|apply IH; assumption].
Qed.
Lemma good_obj : forall n m, good (S n) (JObj m) <-> Forall (fun p => bytes_ok (fst p) /\ good n (snd p)) m.
Proof.
  intros n. induction m as [|(k, j) m IH]; [split; [constructor|intros; exact I]|]. split.
  - intros (A & B & C). constructor; [auto|apply IH; exact C].
  - intros H. inversion H as [|? ? [A B] C]; subst. split; [exact A|]. split; [exact B|]. apply IH, C.
Qed.
Lemma good_mono : forall j n n', good n j -> (n <= n')%nat -> good n' j.
Proof.
  induction j as [|b|z|b|s|l IH|m IH] using json_nest; intros n n' G L; try exact G.
  - destruct n as [|n]; [destruct G|]. destruct n' as [|n']; [lia|]. apply good_arr in G. apply good_arr.
    rewrite Forall_forall in *. intros j I. apply (IH j I n); [apply G, I|lia].
  - destruct n as [|n]; [destruct G|]. destruct n' as [|n']; [lia|]. apply good_obj in G. apply good_obj.
    rewrite Forall_forall in *. intros p I. destruct (G p I) as [A B]. split; [exact A|]. apply (IH p I n); [exact B|lia].
Qed.
Lemma good_sorted : forall j n, good n j -> good n (sorted j).
Proof.
  induction j as [|b|z|b|s|l IH|m IH] using json_nest; intros n G; try exact G; (destruct n as [|n]; [destruct G|]).
  - cbn [sorted]. apply good_arr in G. apply good_arr. rewrite Forall_forall in *. intros j I. apply in_map_iff in I. destruct I as (x & <- & I). apply IH; auto.
  - cbn [sorted]. apply good_obj in G. apply good_obj. rewrite Forall_forall in *. intros p I. apply map_of_in, in_map_iff in I. destruct I as ([k x] & <- & I).
    destruct (G _ I) as [A B]. split; [exact A|]. apply (IH _ I), B.
Qed.
Lemma good_parts : forall float_text j n, good n j -> no_float j /\ in_range j /\ strings bytes_ok j /\ (depth (raw_of float_text j) <= n)%nat.
Proof.
  intros ft. induction j as [|b|z|b|s|l IH|m IH] using json_nest; intros n G.
  - repeat split. apply Nat.le_0_l.
  - repeat split. apply Nat.le_0_l.
  - split; [exact I|]. split; [exact G|]. split; [exact I|apply Nat.le_0_l].
  - destruct G.
  - split; [exact I|]. split; [exact I|]. split; [exact G|apply Nat.le_0_l].
  - destruct n as [|n]; [destruct G|]. apply good_arr in G.
    assert (X : no_float (JArr l) /\ in_range (JArr l) /\ strings bytes_ok (JArr l) /\ Forall (fun k => (k <= n)%nat) (map depth (map (raw_of ft) l))).
    { induction l as [|j l IHl]; [repeat split; constructor|]. inversion IH as [|? ? I1 I2]; inversion G as [|? ? G1 G2]; subst.
      destruct (I1 n G1) as (A1 & A2 & A3 & A4). destruct (IHl I2 G2) as (B1 & B2 & B3 & B4). cbn [map]. split; [exact (conj A1 B1)|].
      split; [exact (conj A2 B2)|]. split; [exact (conj A3 B3)|]. constructor; assumption. }
    destruct X as (A & B & C & D). split; [exact A|]. split; [exact B|]. split; [exact C|]. cbn [raw_of depth]. apply le_n_S, list_max_le, D.
  - destruct n as [|n]; [destruct G|]. apply good_obj in G.
    assert (X : no_float (JObj m) /\ in_range (JObj m) /\ strings bytes_ok (JObj m) /\
      Forall (fun k => (k <= n)%nat) (map (fun p : list Z * raw => let (_, r) := p in depth r) (map (fun p : list Z * json => let (k, j) := p in (k, raw_of ft j)) m))).
    { induction m as [|[k j] m IHm]; [repeat split; constructor|]. inversion IH as [|? ? I1 I2]; inversion G as [|? ? [G0 G1] G2]; subst. cbn [fst snd] in *.
      destruct (I1 n G1) as (A1 & A2 & A3 & A4). destruct (IHm I2 G2) as (B1 & B2 & B3 & B4). cbn [map]. split; [exact (conj A1 B1)|].
      split; [exact (conj A2 B2)|]. split; [exact (conj G0 (conj A3 B3))|]. constructor; assumption. }
    destruct X as (A & B & C & D). split; [exact A|]. split; [exact B|]. split; [exact C|]. cbn [raw_of depth]. apply le_n_S, list_max_le, D.
Qed.

(** the levels of a document of a type *)
Fixpoint levels (d : dty) : nat :=
  match d with
  | DV d | DOpt d => levels d
  | DVec d => S (levels d)
  | DTup fs | DStruct fs => S (levels_flds fs)
  | DEnum _ _ ws => S (S (levels_vars ws))
  | _ => O
  end
with levels_flds (fs : flds) : nat := match fs with FNil => O | FCons _ _ d fs => Nat.max (levels d) (levels_flds fs) end
with levels_vars (ws : vars) : nat := match ws with WNil => O | WCons _ _ fs ws => Nat.max (levels_flds fs) (levels_vars ws) end.
Lemma levels_small : forall d t, json_type d t -> (levels d <=? MAX_DEPTH)%nat = true.
Proof. apply json_type_all. vm_compute. reflexivity. Qed.

Lemma good_tag : forall tg e j n, good (S (S n)) e -> tag_ser tg e = Ok j -> good (S (S n)) j.
Proof.
  intros [|x] e j n G H; cbn [tag_ser] in H; [injection H as <-; exact G|]. destruct e as [| | | |s|l|m]; try (injection H as <-; exact G).
  - injection H as <-. apply good_arr. constructor; [exact G|constructor].
  - destruct m as [|(k, v) [|p m]]; try discriminate. apply good_obj in G. inversion G as [|? ? [A B] _]; subst. cbn [fst snd] in *.
    assert (X : good (S (S n)) (JArr [JStr k; v])) by (apply good_arr; constructor; [exact A|constructor; [exact B|constructor]]).
    destruct x; [|injection H as <-; exact X]. destruct v; injection H as <-; try exact X. apply good_arr. constructor; [exact A|].
    apply good_arr in B. eapply Forall_impl; [|exact B]. intros a Ga. apply (good_mono a n); [exact Ga|lia].
Qed.

Definition goods (n : nat) (m : list (list Z * json)) : Prop := Forall (fun p => bytes_ok (fst p) /\ good n (snd p)) m.
Lemma goods_mono : forall n n' m, goods n m -> (n <= n')%nat -> goods n' m.
Proof. intros n n' m G L. eapply Forall_impl; [|exact G]. intros p [A B]. split; [exact A|]. exact (good_mono _ _ _ B L). Qed.
Lemma goods_snd : forall n m, goods n m -> Forall (good n) (map snd m).
Proof. intros n m G. induction G as [|p m [A B] G IH]; constructor; assumption. Qed.
Definition like {A : Type} (R : A -> A -> Prop) (x y : res jerr A) : Prop :=
  match x, y with Ok a, Ok b => R a b | Err _, Err _ => True | Panic, Panic => True | _, _ => False end.
Lemma like_refl : forall (A : Type) (R : A -> A -> Prop) x, (forall a, R a a) -> like R x x.
Proof. intros A R [a|e|] H; cbn; auto. Qed.
Lemma like_rmap : forall (A B : Type) (R : A -> A -> Prop) (Q : B -> B -> Prop) f x y, like R x y -> (forall a b, R a b -> Q (f a) (f b)) -> like Q (rmap f x) (rmap f y).
Proof. intros A B R Q f [a|e|] [b|e'|] L H; cbn in *; auto. Qed.
Definition ties (j j' : json) : Prop := distinct j -> same j j'.
Definition mties (m m' : list (list Z * json)) : Prop := Forall2 (fun p q => fst p = fst q /\ ties (snd p) (snd q)) m m'.
Lemma mties_snd : forall m m', mties m m' -> Forall distinct (map snd m) -> Forall2 same (map snd m) (map snd m').
Proof. intros m m' F. induction F as [|p q m m' [E T] F IH]; intros D; [constructor|]. inversion D; subst. cbn [map]. constructor; auto. Qed.

(** types without enums *)
Fixpoint plain (d : dty) : bool :=
  match d with
  | DV d | DOpt d | DVec d => plain d
  | DTup fs | DStruct fs => plain_flds fs
  | DEnum _ _ _ => false
  | _ => true
  end
with plain_flds (fs : flds) : bool := match fs with FNil => true | FCons _ _ d fs => plain d && plain_flds fs end.

Section Write.
  Variable checked : bool.
  Variable checksum : list Z -> list Z.
  Variable addr : list Z -> bool -> list Z.
  Hypothesis addr_bytes : forall x b, bytes_ok (addr x b).
  Notation leaf_ser := (leaf_ser checked checksum addr).
  Notation jser := (jser checked checksum addr).
  Notation jser_flds := (jser_flds checked checksum addr).
  Notation jser_vars := (jser_vars checked checksum addr).
  Notation tser := (tser checked checksum addr).
  Notation tser_flds := (tser_flds checked checksum addr).

  Lemma leaf_bytes : forall l v s, rust_val (leaf_ty l) v -> leaf_ser l v = Ok s -> bytes_ok s.
  Proof using addr_bytes.
    intros l v s R S. destruct l; cbn [leaf_ty] in R.
    1-5: destruct R as (R & T), v; try contradiction; cbn in R; injection S as <-.
    - apply dec_bytes; lia.
    - destruct (C43_onto z R) as (A & _). apply dec_bytes; lia.
    - apply dec_bytes; lia.
    - apply decimal_bytes; lia.
    - unfold char_json_ser. repeat constructor; lia.
    - apply bytes_seq in R. destruct R as (bs & -> & B & L). injection S as <-. unfold bytevec_json_ser. rewrite ints_map. exact B.
    - apply conv_ok, versioned_bytes in S. exact S.
    - apply bytes_seq in R. destruct R as (bs & -> & B & L). injection S as <-. apply b58_bytes.
    - apply bytes_seq in R. destruct R as (bs & -> & B & L). injection S as <-. apply b58_bytes.
    - apply bytes_seq in R. destruct R as (bs & -> & B & L). injection S as <-. apply b64_bytes.
    - destruct v as [| | | | | | | | |vs|]; try discriminate.
      cbn [Json.leaf_ser] in S. destruct vs as [|x [|b [|y vs]]]; try discriminate; destruct x; try discriminate; destruct b; try discriminate.
      destruct (_ <? _); [|discriminate]. injection S as <-. apply addr_bytes.
    - apply conv_ok, versioned_bytes in S. exact S.
    - apply (u8s_tup 32) in R. destruct R as (bs & -> & B & L). injection S as <-. rewrite ints_map.
      unfold field_json_ser. repeat (apply Forall_cons; [unfold byte_ok; lia|]). apply hex_bytes, B.
    - cbn [Json.leaf_ser] in S. apply bind_ok in S. destruct S as (bs & _ & S). injection S as <-. apply b64_bytes.
  Qed.

  Lemma jgood_all :
    (forall d v j, rust_val (wire_ty d) v -> jser d v = Ok j -> good (levels d) j) /\
    (forall fs vs m, typed_list rust_ok (wire_flds fs) vs -> jser_flds fs vs = Ok m -> goods (levels_flds fs) m) /\
    (forall ws i vs ts e, nth_error (wire_vars ws) i = Some ts -> typed_list rust_ok ts vs -> jser_vars ws i vs = Ok e -> good (S (S (levels_vars ws))) e).
  Proof using addr_bytes.
    pose proof (jser_eqs checked checksum addr) as (E1 & E2 & E3 & E4 & E5 & E6 & E7 & E8 & E9 & E10 & E11).
    apply json_ind.
    - intros l v j R H. rewrite E1 in H. apply rmap_ok in H. destruct H as (s & S & ->). exact (leaf_bytes l v s R S).
    - intros v j (R & T) H. destruct v; try contradiction. injection H as <-. exact I.
    - intros v j (R & T) H. destruct v; try contradiction. injection H as <-. cbn in R |- *. lia.
    - intros v j (R & T) H. destruct v; try contradiction. injection H as <-. exact I.
    - intros d IH v j R H. cbn [wire_ty levels] in *. apply typed_tup in R. destruct R as (_ & vs & -> & T).
      destruct vs as [|x [|y [|z vs]]]; cbn [typed_list] in T;
        try (destruct T as (_ & T); try (destruct T as (_ & T)); contradiction); try contradiction.
      destruct T as ((_ & Sx) & Ty & _). destruct x; try contradiction. rewrite E2 in H. apply (IH y j Ty H).
    - intros d IH v j (_ & R) H. destruct v; try contradiction.
      + injection H as <-. exact I.
      + rewrite E3 in H. apply (IH v j R H).
    - intros d IH v j R H. cbn [wire_ty levels] in *. apply typed_seq in R. destruct R as (_ & vs & -> & T).
      rewrite E4 in H. apply rmap_ok in H. destruct H as (l & H & ->). apply good_arr.
      revert l H. induction vs as [|v vs IHvs]; intros l H; cbn [mapM] in H.
      + injection H as <-. constructor.
      + apply bind_ok in H. destruct H as (j & Hj & H). apply bind_ok in H. destruct H as (l' & Hl & H). injection H as <-.
        destruct T as (T & Ts). constructor; [exact (IH v j T Hj)|exact (IHvs Ts l' Hl)].
    - intros fs IH v j R H. cbn [wire_ty levels] in *. apply typed_tup in R. destruct R as (_ & vs & -> & T).
      rewrite E5 in H. apply rmap_ok in H. destruct H as (m & H & ->). apply good_arr, goods_snd, (IH vs m T H).
    - intros fs IH v j R H. cbn [wire_ty levels] in *. apply typed_tup in R. destruct R as (_ & vs & -> & T).
      rewrite E6 in H. apply rmap_ok in H. destruct H as (m & H & ->). apply good_obj, (IH vs m T H).
    - intros tg poly ws IH v j R H. apply (enum_typed poly ws v) in R. destruct R as (i & vs & ts & -> & Nt & T).
      rewrite E7 in H. apply bind_ok in H. destruct H as (e & S & H). cbn [levels]. eapply good_tag; [|exact H]. exact (IH i vs ts e Nt T S).
    - intros [|v vs] m T H; [|destruct T]. injection H as <-. constructor.
    - intros nm sk d IHd fs IH [|v vs] m T H; [destruct T|]. cbn [wire_flds typed_list] in T. destruct T as (T & Ts). cbn [levels_flds].
      destruct sk as [x|].
      + rewrite E8 in H. eapply goods_mono; [exact (IH vs m Ts H)|lia].
      + rewrite E9 in H. apply bind_ok in H. destruct H as (j & Hj & H). apply bind_ok in H. destruct H as (m' & Hm & H). injection H as <-.
        constructor; [cbn [fst snd]; split; [apply str_bytes_ok|eapply good_mono; [exact (IHd v j T Hj)|lia]]|]. eapply goods_mono; [exact (IH vs m' Ts Hm)|lia].
    - intros [|i] vs ts e H; discriminate.
    - intros nm sh fs IHf ws IH i vs ts e Nt T H. cbn [levels_vars]. destruct i as [|i]; cbn [wire_vars nth_error] in *.
      + injection Nt as <-. rewrite E10 in H. apply bind_ok in H. destruct H as (m & S & H). pose proof (IHf vs m T S) as G.
        assert (L : (levels_flds fs <= Nat.max (levels_flds fs) (levels_vars ws))%nat) by lia. pose proof (goods_mono _ _ _ G L) as G'. clear G L.
        set (n := Nat.max (levels_flds fs) (levels_vars ws)) in *. destruct sh.
        * injection H as <-. apply str_bytes_ok.
        * destruct m as [|(k, j) [|]]; try discriminate. injection H as <-. inversion G' as [|? ? [A B] _]; subst. cbn [fst snd] in *.
          apply good_obj. constructor; [split; [apply str_bytes_ok|eapply good_mono; [exact B|lia]]|constructor].
        * injection H as <-. apply good_obj. constructor; [split; [apply str_bytes_ok|apply good_arr, goods_snd, G']|constructor].
        * injection H as <-. apply good_obj. constructor; [split; [apply str_bytes_ok|apply good_obj, G']|constructor].
      + rewrite E11 in H. eapply good_mono; [exact (IH i vs ts e Nt T H)|lia].
  Qed.

  (** ** Texts and documents *)
  Lemma tser_eqs :
    (forall d n v, tser (DV d) (VTup [VInt n; v]) = tser d v) /\
    (forall d v, tser (DOpt d) (VSome v) = tser d v) /\
    (forall d vs, tser (DVec d) (VSeq vs) = rmap JArr (mapM (tser d) vs)) /\
    (forall fs vs, tser (DTup fs) (VTup vs) = rmap (fun m => JArr (map snd m)) (tser_flds fs vs)) /\
    (forall fs vs, tser (DStruct fs) (VTup vs) = rmap JObj (tser_flds fs vs)) /\
    (forall tg p ws v, tser (DEnum tg p ws) v = rmap sorted (jser (DEnum tg p ws) v)) /\
    (forall nm x d fs v vs, tser_flds (FCons nm (Some x) d fs) (v :: vs) = tser_flds fs vs) /\
    (forall nm d fs v vs, tser_flds (FCons nm None d fs) (v :: vs) =
       let* j := tser d v in let* m := tser_flds fs vs in Ok ((str_bytes nm, j) :: m)).
  Proof using Type. repeat split; reflexivity. Qed.
  Lemma like_all :
    (forall d v, like ties (jser d v) (tser d v)) /\
    (forall fs vs, like mties (jser_flds fs vs) (tser_flds fs vs)) /\ (forall ws : vars, True).
  Proof using Type.
    pose proof (jser_eqs checked checksum addr) as (E1 & E2 & E3 & E4 & E5 & E6 & E7 & E8 & E9 & E10 & E11).
    pose proof tser_eqs as (T2 & T3 & T4 & T5 & T6 & T7 & T8 & T9).
    assert (Rf : forall x, like ties x x) by (intros x; apply like_refl; intros a D; apply S_refl).
    apply json_ind.
    - intros l v. destruct v; apply Rf.
    - intros v. destruct v; apply Rf.
    - intros v. destruct v; apply Rf.
    - intros v. destruct v; apply Rf.
    - intros d IH v. destruct v as [| | | | | | | | |[|a [|w [|]]]|]; try exact I; destruct a; try exact I. rewrite E2, T2. apply IH.
    - intros d IH v. destruct v; try apply Rf. rewrite E3, T3. apply IH.
    - intros d IH v. destruct v; try apply Rf. rewrite E4, T4.
      apply like_rmap with (R := fun l l' => Forall distinct l -> Forall2 same l l').
      + induction vs as [|v vs IHv]; cbn [mapM]; [intros _; constructor|]. specialize (IH v). destruct (jser d v) as [a|e|], (tser d v) as [b|e'|]; try contradiction; try exact I.
        cbn [bind]. destruct (mapM (jser d) vs) as [l|e|], (mapM (tser d) vs) as [l'|e'|]; try contradiction; try exact I. cbn [bind like] in *.
        intros D. inversion D; subst. constructor; [apply IH; assumption|apply IHv; assumption].
      + intros l l' H D. apply S_arr, H, distinct_arr, D.
    - intros fs IH v. destruct v; try apply Rf. rewrite E5, T5. apply like_rmap with (R := mties); [apply IH|].
      intros m m' H D. apply S_arr. apply mties_snd; [exact H|]. apply distinct_arr, D.
    - intros fs IH v. destruct v; try apply Rf. rewrite E6, T6. apply like_rmap with (R := mties); [apply IH|].
      intros m m' H D. apply distinct_obj in D. destruct D as (N & D). eapply S_obj; [exact N|apply Permutation_refl|].
      clear N. induction H as [|p q m m' [E T] H IHm]; [constructor|]. inversion D; subst. constructor; [split; [exact E|apply T; assumption]|apply IHm; assumption].
    - intros tg p ws _ v. rewrite T7. destruct (jser (DEnum tg p ws) v) as [j|e|]; cbn; auto. intros D. apply same_sorted, D.
    - intros vs. destruct vs; [constructor|exact I].
    - intros nm sk d IHd fs IH vs. destruct vs as [|v vs]; [destruct sk; exact I|]. destruct sk as [x|]; [rewrite E8, T8; apply IH|].
      rewrite E9, T9. specialize (IHd v). specialize (IH vs). destruct (jser d v) as [a|e|], (tser d v) as [b|e'|]; try contradiction; try exact I. cbn [bind].
      destruct (jser_flds fs vs) as [l|e|], (tser_flds fs vs) as [l'|e'|]; try contradiction; try exact I. cbn [bind like] in *. constructor; [split; [reflexivity|exact IHd]|exact IH].
    - exact I.
    - intros; exact I.
  Qed.
  Lemma plain_all :
    (forall d, plain d = true -> forall v, tser d v = jser d v) /\
    (forall fs, plain_flds fs = true -> forall vs, tser_flds fs vs = jser_flds fs vs) /\ (forall ws : vars, True).
  Proof using Type.
    pose proof (jser_eqs checked checksum addr) as (E1 & E2 & E3 & E4 & E5 & E6 & E7 & E8 & E9 & E10 & E11).
    pose proof tser_eqs as (T2 & T3 & T4 & T5 & T6 & T7 & T8 & T9).
    apply json_ind.
    - intros l _ v. destruct v; reflexivity.
    - intros _ v. destruct v; reflexivity.
    - intros _ v. destruct v; reflexivity.
    - intros _ v. destruct v; reflexivity.
    - intros d IH P v. destruct v as [| | | | | | | | |[|a [|w [|]]]|]; try reflexivity; destruct a; try reflexivity. rewrite E2, T2. apply IH, P.
    - intros d IH P v. destruct v; try reflexivity. rewrite E3, T3. apply IH, P.
    - intros d IH P v. destruct v; try reflexivity. rewrite E4, T4. f_equal. induction vs as [|v vs IHv]; [reflexivity|]. cbn [mapM]. rewrite (IH P v), IHv. reflexivity.
    - intros fs IH P v. destruct v; try reflexivity. rewrite E5, T5, (IH P). reflexivity.
    - intros fs IH P v. destruct v; try reflexivity. rewrite E6, T6, (IH P). reflexivity.
    - intros tg p ws _ P. discriminate P.
    - intros _ vs. destruct vs; reflexivity.
    - intros nm sk d IHd fs IH P vs. cbn [plain_flds] in P. apply andb_true_iff in P. destruct P as (P & Ps). destruct vs as [|v vs]; [destruct sk; reflexivity|].
      destruct sk as [x|]; [rewrite E8, T8; apply IH, Ps|]. rewrite E9, T9, (IHd P), (IH Ps). reflexivity.
    - exact I.
    - intros; exact I.
  Qed.
  Lemma tgood_all :
    (forall d v j, rust_val (wire_ty d) v -> tser d v = Ok j -> good (levels d) j) /\
    (forall fs vs m, typed_list rust_ok (wire_flds fs) vs -> tser_flds fs vs = Ok m -> goods (levels_flds fs) m) /\ (forall ws : vars, True).
  Proof using addr_bytes.
    pose proof tser_eqs as (T2 & T3 & T4 & T5 & T6 & T7 & T8 & T9).
    apply json_ind.
    - intros l v j R H. apply (proj1 jgood_all _ v j R). destruct v; exact H.
    - intros v j R H. apply (proj1 jgood_all _ v j R). destruct v; exact H.
    - intros v j R H. apply (proj1 jgood_all _ v j R). destruct v; exact H.
    - intros v j R H. apply (proj1 jgood_all _ v j R). destruct v; exact H.
    - intros d IH v j R H. cbn [wire_ty levels] in *. apply typed_tup in R. destruct R as (_ & vs & -> & T).
      destruct vs as [|x [|y [|z vs]]]; cbn [typed_list] in T;
        try (destruct T as (_ & T); try (destruct T as (_ & T)); contradiction); try contradiction.
      destruct T as ((_ & Sx) & Ty & _). destruct x; try contradiction. rewrite T2 in H. apply (IH y j Ty H).
    - intros d IH v j (_ & R) H. destruct v; try contradiction.
      + injection H as <-. exact I.
      + rewrite T3 in H. apply (IH v j R H).
    - intros d IH v j R H. cbn [wire_ty levels] in *. apply typed_seq in R. destruct R as (_ & vs & -> & T).
      rewrite T4 in H. apply rmap_ok in H. destruct H as (l & H & ->). apply good_arr.
      revert l H. induction vs as [|v vs IHvs]; intros l H; cbn [mapM] in H.
      + injection H as <-. constructor.
      + apply bind_ok in H. destruct H as (j & Hj & H). apply bind_ok in H. destruct H as (l' & Hl & H). injection H as <-.
        destruct T as (T & Ts). constructor; [exact (IH v j T Hj)|exact (IHvs Ts l' Hl)].
    - intros fs IH v j R H. cbn [wire_ty levels] in *. apply typed_tup in R. destruct R as (_ & vs & -> & T).
      rewrite T5 in H. apply rmap_ok in H. destruct H as (m & H & ->). apply good_arr, goods_snd, (IH vs m T H).
    - intros fs IH v j R H. cbn [wire_ty levels] in *. apply typed_tup in R. destruct R as (_ & vs & -> & T).
      rewrite T6 in H. apply rmap_ok in H. destruct H as (m & H & ->). apply good_obj, (IH vs m T H).
    - intros tg poly ws _ v j R H. rewrite T7 in H. apply rmap_ok in H. destruct H as (e & H & ->). apply good_sorted. exact (proj1 jgood_all _ v e R H).
    - intros [|v vs] m T H; [|destruct T]. injection H as <-. constructor.
    - intros nm sk d IHd fs IH [|v vs] m T H; [destruct T|]. cbn [wire_flds typed_list] in T. destruct T as (T & Ts). cbn [levels_flds].
      destruct sk as [x|].
      + rewrite T8 in H. eapply goods_mono; [exact (IH vs m Ts H)|lia].
      + rewrite T9 in H. apply bind_ok in H. destruct H as (j & Hj & H). apply bind_ok in H. destruct H as (m' & Hm & H). injection H as <-.
        constructor; [cbn [fst snd]; split; [apply str_bytes_ok|eapply good_mono; [exact (IHd v j T Hj)|lia]]|]. eapply goods_mono; [exact (IH vs m' Ts Hm)|lia].
    - exact I.
    - intros; exact I.
  Qed.
End Write.
