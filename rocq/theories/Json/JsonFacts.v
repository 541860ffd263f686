(** Facts about the JSON forms. *)

From Coq Require Import String ZArith List Bool Lia ZifyBool ZifyNat.
From Verif Require Import Lib.Res Lib.Bytes BinProt.Prim BinProt.Codec BinProt.CodecSpec BinProt.CodecProofs
  BinProt.BufRead BinProt.CodecProps Wire.Types Wire.WireProps
  Text.Numbers Text.NumbersProps Text.Base58 Text.Base58Props Text.Base64 Text.Base64Props
  Text.Hex Text.HexSpec Text.HexProps Text.FieldText Json.Json Json.JsonSpec.
Import ListNotations.
Local Open Scope Z_scope.
Notation length := List.length.

Scheme dty_mind := Induction for dty Sort Prop
  with flds_mind := Induction for flds Sort Prop
  with vars_mind := Induction for vars Sort Prop.
Combined Scheme json_ind from dty_mind, flds_mind, vars_mind.

Lemma key_eqb_iff : forall a b, key_eqb a b = true <-> a = b.
Proof. intros a b. unfold key_eqb. destruct (list_eq_dec Z.eq_dec a b); split; congruence. Qed.
Lemma key_eqb_refl : forall a, key_eqb a a = true.
Proof. intros a. apply key_eqb_iff. reflexivity. Qed.
Lemma key_neqb : forall a b, a <> b -> key_eqb a b = false.
Proof. intros a b N. destruct (key_eqb a b) eqn:E; [apply key_eqb_iff in E; contradiction|reflexivity]. Qed.

(** ** Values that are bytes *)

Lemma ints_map : forall bs, ints (map VInt bs) = bs.
Proof. induction bs as [|b bs IH]; [reflexivity|]. cbn. unfold ints in IH. now rewrite IH. Qed.

Lemma bytes_seq : forall v, rust_val (TSeq TU8) v -> exists bs, v = VSeq (map VInt bs) /\ bytes_ok bs /\
  Z.of_nat (length bs) < 2 ^ 64.
Proof.
  intros v H. apply typed_seq in H. destruct H as (L & vs & -> & T).
  assert (E : exists bs, vs = map VInt bs /\ bytes_ok bs).
  { clear L. induction vs as [|v vs IH]; [exists []; split; [reflexivity|constructor]|].
    destruct T as (T & Ts). destruct (IH Ts) as (bs & -> & B). destruct T as (R & S). destruct v; try contradiction.
    exists (z :: bs). split; [reflexivity|]. constructor; [|exact B]. unfold byte_ok. cbn in R. lia. }
  destruct E as (bs & -> & B). exists bs. split; [reflexivity|]. split; [exact B|].
  cbn in L. now rewrite map_length in L.
Qed.
Lemma seq_bytes : forall bs, bytes_ok bs -> Z.of_nat (length bs) < 2 ^ 64 -> rust_val (TSeq TU8) (VSeq (map VInt bs)).
Proof.
  intros bs B L. apply typed_seq. split; [cbn; now rewrite map_length|]. exists (map VInt bs). split; [reflexivity|].
  clear L. induction B as [|b bs B Bs IH]; [exact I|]. split; [|exact IH]. split; [cbn; unfold byte_ok in B; lia|exact I].
Qed.

Lemma u8s_tup : forall n v, rust_val (TTup (repeat TU8 n)) v <-> exists bs, v = VTup (map VInt bs) /\ bytes_ok bs /\ length bs = n.
Proof.
  intros n v. split.
  - intros H. apply typed_tup in H. destruct H as (_ & vs & -> & T).
    assert (E : exists bs, vs = map VInt bs /\ bytes_ok bs /\ length bs = n).
    { revert n T. induction vs as [|v vs IH]; intros [|n] T; cbn [repeat typed_list] in T; try contradiction.
      - exists []. repeat split. constructor.
      - destruct T as (T & Ts). destruct (IH n Ts) as (bs & -> & B & L). destruct T as (R & S). destruct v; try contradiction.
        exists (z :: bs). cbn [map length]. repeat split; [|lia]. constructor; [|exact B]. unfold byte_ok. cbn in R. lia. }
    destruct E as (bs & -> & B & L). exists bs. auto.
  - intros (bs & -> & B & <-). apply typed_tup. split; [exact I|]. exists (map VInt bs). split; [reflexivity|].
    induction B as [|b bs B Bs IH]; [exact I|]. cbn [length repeat map]. split; [|exact IH].
    split; [cbn; unfold byte_ok in B; lia|exact I].
Qed.

(** ** Types without u64 *)

Fixpoint no_u64 (t : ty) : bool :=
  let all := fix all (ts : list ty) : bool := match ts with [] => true | t :: ts' => no_u64 t && all ts' end in
  match t with
  | TU64 => false
  | TOpt t | TSeq t => no_u64 t
  | TTup ts => all ts
  | TEnum vs => (fix go (vs : list (list ty)) : bool := match vs with [] => true | ts :: vs' => all ts && go vs' end) vs
  | TPoly vs =>
    (fix go (vs : list (string * list ty)) : bool := match vs with [] => true | (_, ts) :: vs' => all ts && go vs' end) vs
  | _ => true
  end.
Definition no_u64s : list ty -> bool :=
  fix all (ts : list ty) : bool := match ts with [] => true | t :: ts' => no_u64 t && all ts' end.

Lemma no_u64_below : forall t, no_u64 t = true -> forall v, rust_val t v -> u64s_below t v.
Proof.
  assert (L : forall ts, Forall (fun t => no_u64 t = true -> forall v, rust_val t v -> u64s_below t v) ts ->
    no_u64s ts = true -> forall vs, typed_list rust_ok ts vs ->
    typed_list (fun t v => match t, v with TU64, VInt z => z < 2 ^ 63 | _, _ => True end) ts vs).
  { induction ts as [|t ts IH]; intros HF HN [|v vs] T; try contradiction; auto.
    cbn in HN. apply andb_true_iff in HN. inversion HF; subst. destruct T as (T & Ts). split; [apply H1|apply IH]; tauto. }
  induction t using ty_ind'; intros HN v T; unfold rust_val, u64s_below in *; try discriminate.
  1-8: destruct T as (R & S), v; try contradiction; (split; exact I).
  - destruct T as (R & S), v; try contradiction; (split; [exact I|]); [exact I|]. apply (IHt HN); exact S.
  - apply typed_seq in T. destruct T as (_ & vs & -> & T). apply typed_seq. split; [exact I|]. exists vs. split; [reflexivity|].
    induction vs as [|v vs IH]; [exact I|]. destruct T as (T & Ts). split; [apply (IHt HN)|apply IH]; assumption.
  - apply typed_tup in T. destruct T as (_ & vs & -> & T). apply typed_tup. split; [exact I|]. exists vs. split; [reflexivity|].
    apply L; assumption.
  - apply typed_enum in T. destruct T as (_ & i & ws & ts & -> & N & T). apply typed_enum. split; [exact I|].
    exists i, ws, ts. split; [reflexivity|]. split; [exact N|]. 
    assert (K : no_u64s ts = true /\ Forall (fun t => no_u64 t = true -> forall v, typed rust_ok t v ->
      typed (fun t v => match t, v with TU64, VInt z => z < 2 ^ 63 | _, _ => True end) t v) ts).
    { clear T. revert i HN N. induction vs as [|us vs IH]; intros [|i] HN N; try discriminate.
      - cbn in HN. apply andb_true_iff in HN. inversion H; subst. cbn in N. injection N as <-. tauto.
      - cbn in HN. apply andb_true_iff in HN. inversion H; subst. apply (IH H3 i); tauto. }
    apply L; tauto.
  - apply typed_poly in T. destruct T as (_ & i & ws & nm & ts & -> & N & T). apply typed_poly. split; [exact I|].
    exists i, ws, nm, ts. split; [reflexivity|]. split; [exact N|]. 
    assert (K : no_u64s ts = true /\ Forall (fun t => no_u64 t = true -> forall v, typed rust_ok t v ->
      typed (fun t v => match t, v with TU64, VInt z => z < 2 ^ 63 | _, _ => True end) t v) ts).
    { clear T. revert i HN N. induction vs as [|(nu, us) vs IH]; intros [|i] HN N; try discriminate.
      - cbn in HN. apply andb_true_iff in HN. inversion H; subst. cbn in N. injection N as <- <-. tauto.
      - cbn in HN. apply andb_true_iff in HN. inversion H; subst. apply (IH H3 i); tauto. }
    apply L; tauto.
Qed.

Lemma fits_small : forall c t v, plain t = true -> no_u64 t = true -> rust_val t v -> fits c t v.
Proof. intros c t v P N R. apply lifts_all; [exact P|exact R|]. apply no_u64_below; assumption. Qed.

Lemma strict_sound : forall c t bs v, bytes_ok bs -> from_reader_strict BUF_CAP c t (chunks_of bs) = Ok v -> rust_val t v.
Proof.
  intros c t bs v B E.
  assert (Hi : Forall (fun ch => ch <> []) (chunks_of bs)).
  { destruct bs; cbn [chunks_of]; constructor; [discriminate|constructor]. }
  assert (Hc : List.concat (chunks_of bs) = bs) by (destruct bs; cbn; [reflexivity|now rewrite app_nil_r]).
  apply C10_strict_general_partial in E; [|unfold BUF_CAP; lia|exact Hi]. rewrite Hc in E. destruct E as (rest & E).
  apply (C61_decode_sound c t bs v rest B E).
Qed.

(** ** Well-formed descriptors *)

Fixpoint may_null (d : dty) : bool :=
  match d with DUnit | DOpt _ => true | DV d => may_null d | _ => false end.
Fixpoint may_arr (d : dty) : bool :=
  match d with
  | DVec _ | DTup _ | DEnum (Listed _) _ _ => true
  | DV d | DOpt d => may_arr d
  | _ => false
  end.
Fixpoint keys (fs : flds) : list (list Z) :=
  match fs with
  | FNil => []
  | FCons nm None _ fs => str_bytes nm :: keys fs
  | FCons _ (Some _) _ fs => keys fs
  end.
Fixpoint vkeys (ws : vars) : list (list Z) :=
  match ws with WNil => [] | WCons nm _ _ ws => str_bytes nm :: vkeys ws end.
Fixpoint fst_arr (fs : flds) : bool :=
  match fs with
  | FNil => false
  | FCons _ None d _ => may_arr d
  | FCons _ (Some _) _ fs => fst_arr fs
  end.
Fixpoint nodupb (l : list (list Z)) : bool :=
  match l with [] => true | k :: l' => negb (existsb (key_eqb k) l') && nodupb l' end.
Definition leaf_wf (l : leaf) : bool :=
  match l with LHash v | LAux v => (0 <=? v) && (v <? 256) | _ => true end.
Definition expands (tg : tagging) : bool := match tg with Listed true => true | _ => false end.
Definition shape_wf (tg : tagging) (sh : shape) (fs : flds) : bool :=
  match sh with
  | SUnit => Nat.eqb (length (keys fs)) 0
  | SNew => Nat.eqb (length (keys fs)) 1 && (negb (expands tg) || negb (fst_arr fs))
  | STup => Nat.leb (if expands tg then 2 else 1) (length (keys fs))
  | SStruct => nodupb (keys fs)
  end.

Fixpoint jwf (d : dty) : bool :=
  match d with
  | DLeaf l => leaf_wf l
  | DBool | DI64 | DUnit => true
  | DV d | DVec d => jwf d
  | DOpt d => negb (may_null d) && jwf d
  | DTup fs => jwf_flds fs
  | DStruct fs => nodupb (keys fs) && jwf_flds fs
  | DEnum tg _ ws => nodupb (vkeys ws) && jwf_vars tg ws
  end
with jwf_flds (fs : flds) : bool :=
  match fs with FNil => true | FCons _ _ d fs => jwf d && jwf_flds fs end
with jwf_vars (tg : tagging) (ws : vars) : bool :=
  match ws with
  | WNil => true
  | WCons _ sh fs ws => shape_wf tg sh fs && jwf_flds fs && jwf_vars tg ws
  end.

Lemma nodupb_iff : forall l, nodupb l = true -> NoDup l.
Proof.
  induction l as [|k l IH]; intros H; [constructor|]. cbn in H. apply andb_true_iff in H. destruct H as (H & Hl).
  constructor; [|auto]. intros I. apply negb_true_iff in H.
  assert (existsb (key_eqb k) l = true) by (apply existsb_exists; exists k; split; [exact I|apply key_eqb_refl]). congruence.
Qed.

(** ** List tagging *)

Definition not_arr (j : json) : Prop := match j with JArr _ => False | _ => True end.

Lemma tag_back : forall tg e j, tag_ser tg e = Ok j ->
  ((exists k, e = JStr k) \/ (exists k v, e = JObj [(k, v)] /\ (expands tg = true -> forall l, v = JArr l -> (2 <= length l)%nat))) ->
  tag_de tg j = Ok e.
Proof.
  intros [|x] e j S H; [injection S as <-; reflexivity|].
  destruct H as [(k & ->)|(k & v & -> & H)]; cbn [tag_ser] in S.
  - injection S as <-. reflexivity.
  - destruct x.
    + destruct v as [|b|z|z|s|l|m]; try (injection S as <-; reflexivity).
      specialize (H eq_refl l eq_refl). injection S as <-.
      destruct l as [|a [|b l]]; cbn [length] in H; try lia. reflexivity.
    + injection S as <-. reflexivity.
Qed.
Lemma tag_ser_ok : forall tg e, (exists k, e = JStr k) \/ (exists k v, e = JObj [(k, v)]) ->
  exists j, tag_ser tg e = Ok j /\ j <> JNull /\ (match tg with External => not_arr j | _ => True end).
Proof.
  intros tg e [(k & ->)|(k & v & ->)]; destruct tg as [|[|]]; cbn [tag_ser];
    try destruct v; eexists; (split; [reflexivity|]); split; try discriminate; exact I.
Qed.

(** ** Objects *)

Fixpoint named (fs : flds) (vs : list val) : list (list Z * val) :=
  match fs, vs with
  | FCons _ (Some _) _ fs, _ :: vs => named fs vs
  | FCons nm None _ fs, v :: vs => (str_bytes nm, v) :: named fs vs
  | _, _ => []
  end.

Lemma obj_loop_ext : forall f g m, (forall k j, In (k, j) m -> f k j = g k j) -> obj_loop f m = obj_loop g m.
Proof.
  intros f g. induction m as [|(k, j) m IH]; intros H; [reflexivity|]. cbn [obj_loop].
  rewrite (H k j) by (left; reflexivity). rewrite IH by (intros; apply H; right; assumption). reflexivity.
Qed.
Lemma assoc_in : forall m k v, NoDup (map fst m) -> In (k, v) m -> assoc k m = Some v.
Proof.
  induction m as [|(k', v') m IH]; intros k v N I; [destruct I|]. cbn [map fst] in N. inversion N; subst. cbn [assoc].
  destruct I as [E|I].
  - injection E as -> ->. now rewrite key_eqb_refl.
  - rewrite key_neqb; [apply IH; assumption|]. intros ->. apply H1. apply in_map_iff. exists (k, v). auto.
Qed.
Lemma assemble_named : forall fs vs m, typed_list rust_ok (wire_flds fs) vs ->
  (forall k v, In (k, v) (named fs (norm_flds fs vs)) -> assoc k m = Some v) ->
  assemble fs m = Ok (norm_flds fs vs).
Proof.
  induction fs as [|nm sk d fs IH]; intros vs m T H; destruct vs as [|v vs]; cbn in T; try contradiction; [reflexivity|].
  destruct T as (T & Ts). destruct sk as [dflt|]; cbn [assemble norm_flds named] in *.
  - rewrite (IH vs m Ts H). reflexivity.
  - rewrite (H (str_bytes nm) (norm d v)) by (left; reflexivity). cbn [bind].
    rewrite (IH vs m Ts) by (intros; apply H; right; assumption). reflexivity.
Qed.
Lemma named_keys : forall fs vs, typed_list rust_ok (wire_flds fs) vs -> map fst (named fs (norm_flds fs vs)) = keys fs.
Proof.
  induction fs as [|nm sk d fs IH]; intros [|v vs] T; cbn in T; try contradiction; [reflexivity|].
  destruct T as (T & Ts). destruct sk; cbn [norm_flds named keys map fst]; [|f_equal]; apply IH; exact Ts.
Qed.

Lemma wire_poly_nth : forall ws i nm ts, nth_error (wire_poly ws) i = Some (nm, ts) -> nth_error (wire_vars ws) i = Some ts.
Proof.
  induction ws as [|n sh fs ws IH]; intros [|i] nm ts H; try discriminate; cbn in *.
  - now injection H as <- <-.
  - apply (IH i nm); exact H.
Qed.
Lemma wire_vars_poly : forall ws i ts, nth_error (wire_vars ws) i = Some ts -> exists nm, nth_error (wire_poly ws) i = Some (nm, ts).
Proof.
  induction ws as [|n sh fs ws IH]; intros [|i] ts H; try discriminate; cbn in *.
  - injection H as <-. eauto.
  - apply IH; exact H.
Qed.
(** enums of both kinds *)
Lemma enum_typed : forall poly ws v, rust_val (wire_ty (DEnum External poly ws)) v <->
  exists i vs ts, v = VEnum i vs /\ nth_error (wire_vars ws) i = Some ts /\ typed_list rust_ok ts vs.
Proof.
  intros poly ws v. cbn [wire_ty]. unfold rust_val. destruct poly; [rewrite typed_poly|rewrite typed_enum]; split.
  - intros (_ & i & vs & nm & ts & -> & N & T). exists i, vs, ts. eauto using wire_poly_nth.
  - intros (i & vs & ts & -> & N & T). split; [exact I|]. apply wire_vars_poly in N. destruct N as (nm & N). exists i, vs, nm, ts. auto.
  - intros (_ & i & vs & ts & -> & N & T). exists i, vs, ts. auto.
  - intros (i & vs & ts & -> & N & T). split; [exact I|]. exists i, vs, ts. auto.
Qed.

Section Facts.
  Variable checked : bool.
  Variable checksum : list Z -> list Z.
  Variable addr : list Z -> bool -> list Z.
  Variable unaddr : list Z -> option (list Z * bool).
  Hypothesis checksum_len : forall l, length (checksum l) = 4%nat.
  Hypothesis checksum_bytes : forall l, bytes_ok (checksum l).
  Hypothesis addr_back : forall x b, bytes_ok x -> length x = 32%nat -> le_val x < FP_MODULUS ->
    unaddr (addr x b) = Some (x, b).

  Notation leaf_ser := (leaf_ser checked checksum addr).
  Notation leaf_de := (leaf_de checked checksum unaddr).
  Notation jser := (jser checked checksum addr).
  Notation jser_flds := (jser_flds checked checksum addr).
  Notation jser_vars := (jser_vars checked checksum addr).
  Notation jde := (jde checked checksum unaddr).
  Notation jde_seq := (jde_seq checked checksum unaddr).
  Notation fld_de := (fld_de checked checksum unaddr).
  Notation jde_vars := (jde_vars checked checksum unaddr).

  Lemma versioned_back : forall ver t v, byte_ok ver -> plain t = true -> no_u64 t = true -> rust_val t v ->
    exists s, conv (to_base58_versioned checksum checked ver t v) = Ok s /\
      conv (from_base58_versioned checksum checked ver t s) = Ok v.
  Proof.
    intros ver t v B P N R.
    destruct (C53_versioned_round_trip checksum checksum_len checksum_bytes checked ver t v B (fits_small checked t v P N R)) as (s & S & D).
    exists s. rewrite S, D. split; reflexivity.
  Qed.

  Lemma leaf_back : forall l v, leaf_wf l = true -> rust_val (leaf_ty l) v -> key_ok l v ->
    exists s, leaf_ser l v = Ok s /\ leaf_de l s = Ok v.
  Proof.
    intros l v W R K. destruct l; cbn [leaf_ty] in R.
    1-5: destruct R as (R & S), v; try contradiction; cbn in R; eexists; (split; [reflexivity|]); cbn [Json.leaf_de].
    - destruct (C43_json z R) as (_ & _ & ->). reflexivity.
    - destruct (C43_onto z R) as (A & B). destruct (C43_json _ A) as (_ & _ & ->). cbn [conv rmap]. now rewrite B.
    - destruct (C43_json64 z R) as (_ & _ & ->). reflexivity.
    - rewrite C42_round_trip by exact R. reflexivity.
    - reflexivity.
    - apply bytes_seq in R. destruct R as (bs & -> & B & L). eexists. split; [reflexivity|].
      cbn [Json.leaf_de]. unfold bytevec_json_de, bytevec_json_ser. now rewrite ints_map.
    - cbn in W. apply versioned_back; [unfold byte_ok; lia|reflexivity|reflexivity|exact R].
    - apply bytes_seq in R. destruct R as (bs & -> & B & L). eexists. split; [reflexivity|].
      cbn [Json.leaf_de]. cbn in W. rewrite ints_map. rewrite C53_round_trip by (unfold byte_ok; try assumption; lia). reflexivity.
    - apply bytes_seq in R. destruct R as (bs & -> & B & L). eexists. split; [reflexivity|].
      cbn [Json.leaf_de]. rewrite ints_map, C53_memo_round_trip by assumption. reflexivity.
    - apply bytes_seq in R. destruct R as (bs & -> & B & L). eexists. split; [reflexivity|].
      cbn [Json.leaf_de]. rewrite ints_map, C83_round_trip by assumption. reflexivity.
    - apply typed_tup in R. destruct R as (_ & vs & -> & T). destruct vs as [|x [|b [|y vs]]]; cbn [typed_list] in T;
        try (destruct T as (_ & T); try (destruct T as (_ & T)); contradiction); try contradiction.
      destruct T as (Tx & (Tb & Sb) & _). destruct b; try contradiction.
      apply (u8s_tup 32) in Tx. destruct Tx as (bs & -> & B & L).
      cbn [key_ok] in K. cbn [Json.leaf_ser]. rewrite ints_map in *.
      replace (le_val bs <? FP_MODULUS) with true by (symmetry; apply Z.ltb_lt; exact K).
      eexists. split; [reflexivity|]. cbn [Json.leaf_de]. rewrite addr_back by assumption. reflexivity.
    - apply versioned_back; [unfold byte_ok, SIGNATURE; lia|reflexivity|reflexivity|exact R].
    - apply (u8s_tup 32) in R. destruct R as (bs & -> & B & L). eexists. split; [reflexivity|].
      cbn [Json.leaf_de]. rewrite ints_map. destruct (C52_round_trip [] bs (or_introl eq_refl) B L) as (_ & ->). reflexivity.
    - cbn [Json.leaf_ser Json.leaf_de].
      destruct (round_trip checked ProtocolStateProofV1 v) as (bs & S & B & D).
      { apply fits_small; [vm_compute; reflexivity|vm_compute; reflexivity|exact R]. }
      unfold to_bytes. rewrite S. cbn [conv bind]. eexists. split; [reflexivity|].
      rewrite C83_round_trip by exact B. cbn [conv_opt bind]. specialize (D []). rewrite app_nil_r in D.
      rewrite (strict_whole _ _ _ _ D). reflexivity.
  Qed.

  (** Unfolding equations *)
  Lemma jser_eqs :
    (forall l v, jser (DLeaf l) v = rmap JStr (leaf_ser l v)) /\
    (forall d n v, jser (DV d) (VTup [VInt n; v]) = jser d v) /\
    (forall d v, jser (DOpt d) (VSome v) = jser d v) /\
    (forall d vs, jser (DVec d) (VSeq vs) = rmap JArr (mapM (jser d) vs)) /\
    (forall fs vs, jser (DTup fs) (VTup vs) = rmap (fun m => JArr (map snd m)) (jser_flds fs vs)) /\
    (forall fs vs, jser (DStruct fs) (VTup vs) = rmap JObj (jser_flds fs vs)) /\
    (forall tg p ws i vs, jser (DEnum tg p ws) (VEnum i vs) = let* e := jser_vars ws i vs in tag_ser tg e) /\
    (forall nm x d fs v vs, jser_flds (FCons nm (Some x) d fs) (v :: vs) = jser_flds fs vs) /\
    (forall nm d fs v vs, jser_flds (FCons nm None d fs) (v :: vs) =
       let* j := jser d v in let* m := jser_flds fs vs in Ok ((str_bytes nm, j) :: m)) /\
    (forall nm sh fs ws vs, jser_vars (WCons nm sh fs ws) 0 vs =
      let* m := jser_flds fs vs in
      match sh with
      | SUnit => Ok (JStr (str_bytes nm))
      | SNew => match m with [(_, j)] => Ok (JObj [(str_bytes nm, j)]) | _ => Err JE end
      | STup => Ok (JObj [(str_bytes nm, JArr (map snd m))])
      | SStruct => Ok (JObj [(str_bytes nm, JObj m)])
      end) /\
    (forall nm sh fs ws i vs, jser_vars (WCons nm sh fs ws) (S i) vs = jser_vars ws i vs).
  Proof. repeat split; reflexivity. Qed.
  Lemma jde_eqs :
    (forall l s, jde (DLeaf l) (JStr s) = leaf_de l s) /\
    (forall d j, jde (DV d) j = let* v := jde d j in Ok (VTup [VInt 1; v])) /\
    (forall d j, jde (DOpt d) j = match j with JNull => Ok VNone | _ => rmap VSome (jde d j) end) /\
    (forall d l, jde (DVec d) (JArr l) = rmap VSeq (mapM (jde d) l)) /\
    (forall fs l, jde (DTup fs) (JArr l) = rmap VTup (jde_seq fs l)) /\
    (forall fs m, jde (DStruct fs) (JObj m) = let* r := obj_loop (fld_de fs) m in rmap VTup (assemble fs r)) /\
    (forall fs l, jde (DStruct fs) (JArr l) = rmap VTup (jde_seq fs l)) /\
    (forall tg p ws j, jde (DEnum tg p ws) j =
      let* e := tag_de tg j in let* (i, vs) := ext_de (jde_vars ws 0) e in Ok (VEnum i vs)) /\
    (forall nm x d fs l, jde_seq (FCons nm (Some x) d fs) l = let* vs := jde_seq fs l in Ok (x :: vs)) /\
    (forall nm d fs l, jde_seq (FCons nm None d fs) l =
       match l with [] => Err JE | j :: l => let* v := jde d j in let* vs := jde_seq fs l in Ok (v :: vs) end) /\
    (forall nm x d fs k j, fld_de (FCons nm (Some x) d fs) k j = fld_de fs k j) /\
    (forall nm d fs k j, fld_de (FCons nm None d fs) k j = if key_eqb (str_bytes nm) k then Some (jde d j) else fld_de fs k j) /\
    (forall nm sh fs ws n k arg, jde_vars (WCons nm sh fs ws) n k arg =
      if key_eqb (str_bytes nm) k then
        let* vs :=
          match sh, arg with
          | SUnit, None | SUnit, Some JNull => jde_seq fs []
          | SNew, Some j => jde_seq fs [j]
          | STup, Some (JArr []) => Err JE
          | STup, Some (JArr l) => jde_seq fs l
          | SStruct, Some (JObj m) => let* r := obj_loop (fld_de fs) m in assemble fs r
          | _, _ => Err JE
          end in
        Ok (n, vs)
      else jde_vars ws (S n) k arg).
  Proof. repeat split; reflexivity. Qed.
  Ltac eqs :=
    repeat (first [rewrite (proj1 jser_eqs) | rewrite (proj1 jde_eqs) 
     | progress (destruct jser_eqs as (_ & E2 & E3 & E4 & E5 & E6 & E7 & E8 & E9 & E10 & E11);
         rewrite ?E2, ?E3, ?E4, ?E5, ?E6, ?E7, ?E8, ?E9, ?E10, ?E11; clear E2 E3 E4 E5 E6 E7 E8 E9 E10 E11)
     | progress (destruct jde_eqs as (_ & E2 & E3 & E4 & E5 & E6 & E7 & E8 & E9 & E10 & E11 & E12 & E13);
         rewrite ?E2, ?E3, ?E4, ?E5, ?E6, ?E7, ?E8, ?E9, ?E10, ?E11, ?E12, ?E13; clear E2 E3 E4 E5 E6 E7 E8 E9 E10 E11 E12 E13)]);
    cbn [norm norm_flds norm_vars].

  (** ** Writing and reading back *)

  Definition back_d (d : dty) : Prop := jwf d = true -> forall v, rust_val (wire_ty d) v -> leaves key_ok d v ->
    exists j, jser d v = Ok j /\ jde d j = Ok (norm d v) /\ (may_null d = false -> j <> JNull) /\
      (may_arr d = false -> not_arr j).
  Definition back_fs (fs : flds) : Prop := jwf_flds fs = true -> forall vs, typed_list rust_ok (wire_flds fs) vs ->
    leaves_flds key_ok fs vs ->
    exists m, jser_flds fs vs = Ok m /\ map fst m = keys fs /\ jde_seq fs (map snd m) = Ok (norm_flds fs vs) /\
      (NoDup (keys fs) -> obj_loop (fld_de fs) m = Ok (named fs (norm_flds fs vs))) /\
      (fst_arr fs = false -> match m with (_, j) :: _ => not_arr j | [] => True end).
  Definition back_ws (ws : vars) : Prop := forall tg n, jwf_vars tg ws = true -> NoDup (vkeys ws) ->
    forall i vs ts, nth_error (wire_vars ws) i = Some ts -> typed_list rust_ok ts vs -> leaves_vars key_ok ws i vs ->
    exists e k, jser_vars ws i vs = Ok e /\ In k (vkeys ws) /\
      ((e = JStr k /\ jde_vars ws n k None = Ok ((n + i)%nat, norm_vars ws i vs)) \/
       (exists v, e = JObj [(k, v)] /\ jde_vars ws n k (Some v) = Ok ((n + i)%nat, norm_vars ws i vs) /\
          (expands tg = true -> forall l, v = JArr l -> (2 <= length l)%nat))).

  Lemma back_all : (forall d, back_d d) /\ (forall fs, back_fs fs) /\ (forall ws, back_ws ws).
  Proof.
    apply json_ind; unfold back_d, back_fs, back_ws.
    - intros l W v R K. destruct (leaf_back l v W R K) as (s & S & D). exists (JStr s).
      eqs. rewrite S. repeat split; auto; discriminate.
    - intros _ v (R & S) _. destruct v; try contradiction. exists (JBool b). repeat split; auto; discriminate.
    - intros _ v (R & S) _. destruct v; try contradiction. cbn in R. exists (JNum z). cbn [Json.jser Json.jde norm].
      replace (z <? 2 ^ 63) with true by lia. repeat split; auto; discriminate.
    - intros _ v (R & S) _. destruct v; try contradiction. exists JNull. repeat split; auto; discriminate.
    - intros d IH W v R K. cbn [jwf wire_ty] in *. apply typed_tup in R. destruct R as (_ & vs & -> & T).
      destruct vs as [|x [|y [|z vs]]]; cbn [typed_list] in T;
        try (destruct T as (_ & T); try (destruct T as (_ & T)); contradiction); try contradiction.
      destruct T as ((_ & Sx) & Ty & _). destruct x; try contradiction. cbn [leaves] in K.
      destruct (IH W y Ty K) as (j & S & D & N & A). exists j. eqs; cbn [may_null may_arr]. rewrite D. auto.
    - intros d IH W v R K. cbn [jwf wire_ty] in *. apply andb_true_iff in W. destruct W as (W0 & W). apply negb_true_iff in W0.
      destruct R as (_ & R). destruct v; try contradiction.
      + exists JNull. cbn. repeat split; auto; discriminate.
      + destruct (IH W v R K) as (j & S & D & N & A). exists j. eqs; cbn [may_null may_arr].
        split; [exact S|]. split; [|split; [discriminate|exact A]].
        specialize (N W0). destruct j; try (now rewrite D). now destruct N.
    - intros d IH W v R K. cbn [jwf wire_ty] in *. apply typed_seq in R. destruct R as (_ & vs & -> & T).
      cbn [leaves] in K.
      assert (E : exists l, mapM (jser d) vs = Ok l /\ mapM (jde d) l = Ok (map (norm d) vs)).
      { induction vs as [|v vs IHvs]; [exists []; auto|]. destruct T as (T & Ts). inversion K; subst.
        destruct (IHvs Ts H2) as (l & S & D). destruct (IH W v T H1) as (j & Sj & Dj & _).
        exists (j :: l). cbn [mapM map]. rewrite Sj, S, Dj, D. auto. }
      destruct E as (l & S & D). exists (JArr l). eqs. rewrite S, D. repeat split; auto; discriminate.
    - intros fs IH W v R K. cbn [jwf wire_ty] in *. apply typed_tup in R. destruct R as (_ & vs & -> & T).
      destruct (IH W vs T K) as (m & S & _ & D & _). exists (JArr (map snd m)). eqs.
      rewrite S, D. repeat split; auto; discriminate.
    - intros fs IH W v R K. cbn [jwf wire_ty] in *. apply andb_true_iff in W. destruct W as (W0 & W). apply nodupb_iff in W0.
      apply typed_tup in R. destruct R as (_ & vs & -> & T).
      destruct (IH W vs T K) as (m & S & _ & _ & D & _). exists (JObj m). eqs.
      rewrite S, (D W0). cbn [bind rmap].
      rewrite (assemble_named fs vs); [repeat split; auto; discriminate|exact T|].
      intros k v I. apply assoc_in; [rewrite named_keys by exact T; exact W0|exact I].
    - intros tg poly ws IH W v R K. apply (enum_typed poly ws v) in R. destruct R as (i & vs & ts & -> & N & T).
      cbn [jwf] in W. apply andb_true_iff in W. destruct W as (W0 & W). apply nodupb_iff in W0.
      cbn [leaves] in K. destruct (IH tg 0%nat W W0 i vs ts N T K) as (e & k & S & _ & H).
      assert (SH : (exists k, e = JStr k) \/ (exists k v, e = JObj [(k, v)])).
      { destruct H as [(-> & _)|(v & -> & _)]; eauto. }
      destruct (tag_ser_ok tg e SH) as (j & J & N0 & A0). exists j. eqs. rewrite S. cbn [bind].
      split; [exact J|]. split; [|split; [auto|]].
      + rewrite (tag_back tg e j J).
        * cbn [bind]. destruct H as [(-> & D)|(v & -> & D & _)]; cbn [ext_de]; rewrite D; reflexivity.
        * destruct H as [(-> & _)|(v & -> & _ & L)]; [left; eauto|right; exists k, v; auto].
      + cbn [may_arr]. destruct tg; [auto|discriminate].
    - intros _ [|v vs] T _; [|destruct T]. exists []. cbn. repeat split; auto.
    - intros nm sk d IHd fs IH W [|v vs] T K; [destruct T|]. cbn [wire_flds typed_list] in T. destruct T as (T & Ts).
      cbn [jwf_flds] in W. apply andb_true_iff in W. destruct W as (Wd & W).
      destruct sk as [dflt|]; cbn [leaves_flds] in K.
      + destruct (IH W vs Ts K) as (m & S & KS & D & O & A). exists m.
        eqs; cbn [keys named fst_arr].
        rewrite D. repeat split; auto.
      + destruct K as (K & Ks). destruct (IH W vs Ts Ks) as (m & S & KS & D & O & A).
        destruct (IHd Wd v T K) as (j & Sj & Dj & N & Aj). exists ((str_bytes nm, j) :: m).
        eqs; cbn [keys named fst_arr map fst snd].
        rewrite S, Sj, Dj, D, KS. cbn [bind]. repeat split; auto.
        intros ND. inversion ND; subst. cbn [obj_loop]; eqs. rewrite key_eqb_refl. rewrite Dj. cbn [bind].
        rewrite (obj_loop_ext _ (fld_de fs)); [rewrite O by assumption; reflexivity|].
        intros k j' I. eqs; rewrite key_neqb; [reflexivity|]. intros E. apply H1. rewrite <- KS.
        apply in_map_iff. exists (k, j'). auto.
    - intros tg n W ND [|i] vs ts H; discriminate.
    - intros nm sh fs IHf ws IH tg n W ND i vs ts N T K. cbn [jwf_vars] in W. apply andb_true_iff in W. destruct W as (W & Ww).
      apply andb_true_iff in W. destruct W as (Wsh & Wf). cbn [vkeys] in *. inversion ND; subst.
      destruct i as [|i]; cbn [wire_vars nth_error] in N.
      + injection N as <-. cbn [leaves_vars] in K. destruct (IHf Wf vs T K) as (m & S & KS & D & O & A).
        eqs. rewrite S, Nat.add_0_r. cbn [bind].
        assert (LK : length m = length (keys fs)) by (rewrite <- KS, map_length; reflexivity).
        destruct sh; cbn [shape_wf] in Wsh.
        * eexists; exists (str_bytes nm). split; [reflexivity|]. split; [left; reflexivity|]. left. split; [reflexivity|].
          eqs; rewrite key_eqb_refl. destruct m; [|cbn [length] in LK; lia]. cbn [map] in D. rewrite D. reflexivity.
        * apply andb_true_iff in Wsh. destruct Wsh as (Wl & Wx). destruct m as [|(k, j) [|]]; cbn [length] in LK; try lia.
          eexists; exists (str_bytes nm). split; [reflexivity|]. split; [left; reflexivity|]. right. exists j.
          split; [reflexivity|]. eqs; rewrite key_eqb_refl. cbn [map snd] in D. rewrite D. split; [reflexivity|].
          intros X l ->. rewrite X in Wx. cbn in Wx. apply negb_true_iff in Wx. destruct (A Wx).
        * eexists; exists (str_bytes nm). split; [reflexivity|]. split; [left; reflexivity|]. right. exists (JArr (map snd m)).
          split; [reflexivity|]. eqs; rewrite key_eqb_refl. split.
          -- destruct m as [|p m]; [destruct (expands tg); cbn [length] in LK; lia|]. cbn [map] in *. rewrite D. reflexivity.
          -- intros X l E. injection E as <-. rewrite map_length. rewrite X in Wsh. lia.
        * eexists; exists (str_bytes nm). split; [reflexivity|]. split; [left; reflexivity|]. right. exists (JObj m).
          split; [reflexivity|]. eqs; rewrite key_eqb_refl. apply nodupb_iff in Wsh. rewrite (O Wsh). cbn [bind].
          rewrite (assemble_named fs vs); [split; [reflexivity|discriminate]|exact T|].
          intros k v I. apply assoc_in; [rewrite named_keys by exact T; exact Wsh|exact I].
      + destruct (IH tg (S n) Ww H2 i vs ts N T K) as (e & k & S & I & H). exists e, k.
        eqs. split; [exact S|]. split; [right; exact I|].
        assert (NE : key_eqb (str_bytes nm) k = false) by (apply key_neqb; intros E; apply H1; rewrite E; exact I).
        rewrite Nat.add_succ_r. destruct H as [(-> & H)|(v & -> & H & L)]; [left|right; exists v]; eqs; rewrite NE; auto.
  Qed.

  (** ** The values that are carried whole *)

  Lemma norm_all :
    (forall d v, rust_val (wire_ty d) v -> (norm d v = v <-> declared d v)) /\
    (forall fs vs, typed_list rust_ok (wire_flds fs) vs -> (norm_flds fs vs = vs <-> declared_flds fs vs)) /\
    (forall ws i vs ts, nth_error (wire_vars ws) i = Some ts -> typed_list rust_ok ts vs ->
       (norm_vars ws i vs = vs <-> declared_vars ws i vs)).
  Proof using Type.
    apply json_ind.
    - intros l v _. split; [intros _; exact I|reflexivity].
    - intros v _. split; [intros _; exact I|reflexivity].
    - intros v _. split; [intros _; exact I|reflexivity].
    - intros v _. split; [intros _; exact I|reflexivity].
    - intros d IH v R. cbn [wire_ty] in R. apply typed_tup in R. destruct R as (_ & vs & -> & T).
      destruct vs as [|x [|y [|z vs]]]; cbn [typed_list] in T;
        try (destruct T as (_ & T); try (destruct T as (_ & T)); contradiction); try contradiction.
      destruct T as ((_ & Sx) & Ty & _). destruct x; try contradiction. cbn [norm declared]. rewrite <- (IH y Ty).
      split; [intros E|intros (-> & ->); reflexivity].
      injection E as E1 E2. split; [symmetry; exact E1|exact E2].
    - intros d IH v (_ & R). destruct v; try contradiction; cbn [norm declared].
      + split; [intros _; exact I|reflexivity].
      + rewrite <- (IH v R). split; [intros E; injection E as E; exact E|intros ->; reflexivity].
    - intros d IH v R. cbn [wire_ty] in R. apply typed_seq in R. destruct R as (_ & vs & -> & T). cbn [norm declared].
      assert (E : map (norm d) vs = vs <-> Forall (declared d) vs).
      { clear checked checksum addr unaddr checksum_len checksum_bytes addr_back.
        induction vs as [|v vs IHv]; [split; [constructor|reflexivity]|]. destruct T as (T & Ts).
        specialize (IH v T). specialize (IHv Ts). cbn [map]. split.
        - intros E. injection E as E1 E2. constructor; [apply IH|apply IHv]; assumption.
        - intros F. inversion F; subst. f_equal; [apply IH|apply IHv]; assumption. }
      rewrite <- E. split; [intros X; injection X as X; exact X|intros ->; reflexivity].
    - intros fs IH v R. cbn [wire_ty] in R. apply typed_tup in R. destruct R as (_ & vs & -> & T). cbn [norm declared].
      rewrite <- (IH vs T). split; [intros X; injection X as X; exact X|intros ->; reflexivity].
    - intros fs IH v R. cbn [wire_ty] in R. apply typed_tup in R. destruct R as (_ & vs & -> & T). cbn [norm declared].
      rewrite <- (IH vs T). split; [intros X; injection X as X; exact X|intros ->; reflexivity].
    - intros tg poly ws IH v R. apply (enum_typed poly ws v) in R. destruct R as (i & vs & ts & -> & N & T). cbn [norm declared].
      rewrite <- (IH i vs ts N T). split; [intros X; injection X as X; exact X|intros ->; reflexivity].
    - intros [|v vs] T; [|destruct T]. split; [intros _; exact I|reflexivity].
    - intros nm sk d IHd fs IH [|v vs] T; [destruct T|]. cbn [wire_flds typed_list] in T. destruct T as (T & Ts).
      specialize (IHd v T). specialize (IH vs Ts).
      destruct sk; cbn [norm_flds declared_flds]; rewrite <- IH; [|rewrite <- IHd];
        (split; [intros X; injection X as X1 X2; split; first [assumption|symmetry; assumption]|intros (E1 & E2); congruence]).
    - intros [|i] vs ts H; discriminate.
    - intros nm sh fs IHf ws IH [|i] vs ts N T; cbn [wire_vars nth_error norm_vars declared_vars] in *.
      + injection N as <-. apply IHf; exact T.
      + apply (IH i vs ts N T).
  Qed.
End Facts.
