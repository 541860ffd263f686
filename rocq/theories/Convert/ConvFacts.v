(** The conversions against their specification, for every pair of a conversion
    and a wire type that fit together ([agrees], which is decidable). *)

From Coq Require Import String ZArith List Bool Lia ZifyBool ZifyNat.
From Verif Require BinProt.CodecProofs.
From Verif Require Import Lib.Res Lib.Bytes BinProt.Codec BinProt.CodecSpec Wire.Types Text.FieldText Hashing.ROInput Hashing.Command
  Ledger.AccountWire Ledger.AccountWireSpec Ledger.AccountWireFacts Convert.Conv Convert.ConvSpec.
Import ListNotations.
Local Open Scope list_scope.
Local Open Scope Z_scope.
Local Notation length := List.length.

(** ** Fitting together *)
Definition is_u8 (t : ty) : bool := match t with TU8 => true | _ => false end.
Definition is_b32 (t : ty) : bool := match t with TTup ts => forallb is_u8 ts && Nat.eqb (length ts) 32 | _ => false end.
Definition is_key (t : ty) : bool := match t with TTup [a; TBool] => is_b32 a | _ => false end.
Definition is_sig (t : ty) : bool :=
  match t with TTup [TInt U16; TTup [TInt U16; TTup [a; b]]] => is_b32 a && is_b32 b | _ => false end.
(** types without keys, signatures and version numbers inside *)
Definition leaf (t : ty) : bool :=
  match t with
  | TUnit | TBool | TU8 | TU64 => true
  | TInt U16 => false
  | TInt _ => true
  | TSeq t => is_u8 t
  | TTup ts => forallb is_u8 ts
  | _ => false
  end.
Fixpoint distinct (l : list string) : bool :=
  match l with [] => true | n :: l' => negb (existsb (String.eqb n) l') && distinct l' end.
Definition names_agree (wire names : list string) (n : nat) : bool :=
  distinct wire && distinct names && Nat.eqb (length wire) n && forallb (fun n => existsb (String.eqb n) names) wire.
Section Agrees.
  Variable f : conv -> ty -> bool.
  Fixpoint agrees_list (cs : list conv) (ts : list ty) {struct cs} : bool :=
    match cs, ts with
    | [], [] => true
    | c :: cs', t :: ts' => f c t && agrees_list cs' ts'
    | _, _ => false
    end.
  Fixpoint agrees_fields (wire : list string) (ts : list ty) (fields : list (string * conv)) {struct fields} : bool :=
    match fields with
    | [] => true
    | (n, c) :: fields' => match at_name n wire ts with Some t => f c t | None => false end && agrees_fields wire ts fields'
    end.
  Fixpoint agrees_variants (wire : list string) (tss : list (list ty)) (variants : list (string * list conv)) {struct variants} : bool :=
    match variants with
    | [] => true
    | (n, cs) :: variants' =>
        match at_name n wire tss with Some ts => agrees_list cs ts | None => false end && agrees_variants wire tss variants'
    end.
End Agrees.
Fixpoint agrees (c : conv) (t : ty) {struct c} : bool :=
  match c with
  | Key => is_key t
  | Sig => is_sig t
  | _ =>
      negb (is_key t) && negb (is_sig t) &&
      match c, t with
      | Same, _ => leaf t
      | Ver c, TTup [TInt U16; u] => agrees c u
      | Cast, TInt I32 => true
      | Opt c, TOpt u => agrees c u
      | Seq c, TSeq u => agrees c u
      | Tuple cs, TTup ts => agrees_list agrees cs ts
      | Struct wire fields, TTup ts => names_agree wire (map fst fields) (length ts) && agrees_fields agrees wire ts fields
      | Enum wire variants, TEnum vars =>
          names_agree wire (map fst variants) (length vars) && agrees_variants agrees wire vars variants
      | Enum wire variants, TPoly vars =>
          names_agree wire (map fst variants) (length vars) && agrees_variants agrees wire (map snd vars) variants
      | _, _ => false
      end
  end.

(** ** Induction on conversions *)
Section Ind.
  Variable P : conv -> Prop.
  Hypothesis (HSame : P Same) (HVer : forall c, P c -> P (Ver c)) (HKey : P Key) (HSig : P Sig) (HCast : P Cast)
    (HOpt : forall c, P c -> P (Opt c)) (HSeq : forall c, P c -> P (Seq c)) (HTuple : forall cs, Forall P cs -> P (Tuple cs))
    (HStruct : forall wire fields, Forall P (map snd fields) -> P (Struct wire fields))
    (HEnum : forall wire variants, Forall (fun v => Forall P (snd v)) variants -> P (Enum wire variants)).
  Fixpoint conv_induction (c : conv) : P c :=
    match c return P c with
    | Same => HSame
    | Ver c => HVer c (conv_induction c)
    | Key => HKey
    | Sig => HSig
    | Cast => HCast
    | Opt c => HOpt c (conv_induction c)
    | Seq c => HSeq c (conv_induction c)
    | Tuple cs => HTuple cs ((fix all (cs : list conv) : Forall P cs :=
        match cs with [] => Forall_nil _ | c :: cs' => Forall_cons _ (conv_induction c) (all cs') end) cs)
    | Struct wire fields => HStruct wire fields ((fix all (l : list (string * conv)) : Forall P (map snd l) :=
        match l with [] => Forall_nil _ | p :: l' => Forall_cons _ (match p return P (snd p) with (n, c) => conv_induction c end) (all l') end) fields)
    | Enum wire variants => HEnum wire variants ((fix alls (l : list (string * list conv)) : Forall (fun v => Forall P (snd v)) l :=
        match l with
        | [] => Forall_nil _
        | p :: l' => Forall_cons _ (match p return Forall P (snd p) with (n, cs) =>
            (fix all (cs : list conv) : Forall P cs :=
              match cs with [] => Forall_nil _ | c :: cs' => Forall_cons _ (conv_induction c) (all cs') end) cs end) (alls l')
        end) variants)
    end.
End Ind.

(** ** Names *)
Lemma distinct_spec : forall l, distinct l = true <-> NoDup l.
Proof.
  induction l as [|n l IH]; cbn [distinct].
  - split; [intros _; constructor|reflexivity].
  - rewrite andb_true_iff, IH, negb_true_iff. split.
    + intros (H & K). constructor; [|exact K]. intros I. assert (E : existsb (String.eqb n) l = true).
      { apply existsb_exists. exists n. split; [exact I|apply String.eqb_refl]. } congruence.
    + intros H. inversion H as [|? ? N D]; subst. split; [|exact D]. destruct (existsb (String.eqb n) l) eqn:E; [|reflexivity].
      apply existsb_exists in E. destruct E as (m & I & Q). apply String.eqb_eq in Q. subst m. contradiction.
Qed.
Lemma names_agree_spec : forall wire names n, names_agree wire names n = true ->
  NoDup wire /\ NoDup names /\ length wire = n /\ forall m, In m wire -> In m names.
Proof.
  unfold names_agree. intros wire names n H. rewrite !andb_true_iff, !distinct_spec, Nat.eqb_eq in H.
  destruct H as (((A & B) & C) & D). repeat split; auto. intros m I. rewrite forallb_forall in D. specialize (D m I).
  apply existsb_exists in D. destruct D as (k & K & E). apply String.eqb_eq in E. subst k. exact K.
Qed.
Lemma at_name_nth : forall A wire (l : list A) i n, NoDup wire -> nth_error wire i = Some n -> at_name n wire l = nth_error l i.
Proof.
  induction wire as [|m wire IH]; intros l i n D H; [destruct i; discriminate|]. inversion D as [|? ? N D']; subst.
  destruct i as [|i]; cbn [nth_error] in H.
  - injection H as ->. destruct l; cbn [at_name nth_error]; [reflexivity|]. rewrite String.eqb_refl. reflexivity.
  - destruct l as [|a l]; cbn [at_name nth_error]; [reflexivity|]. destruct (String.eqb_spec m n) as [->|_].
    + apply nth_error_In in H. contradiction.
    + apply IH; assumption.
Qed.
Lemma at_name_index : forall A wire (l : list A) n a, at_name n wire l = Some a ->
  nth_error wire (index_of n wire) = Some n /\ nth_error l (index_of n wire) = Some a.
Proof.
  induction wire as [|m wire IH]; intros l n a H; [discriminate|]. destruct l as [|b l]; [discriminate|]. cbn [at_name index_of] in *.
  destruct (String.eqb_spec m n) as [->|_].
  - injection H as ->. split; reflexivity.
  - cbn [nth_error]. apply IH, H.
Qed.
Lemma at_name_some : forall A B wire (l : list A) (k : list B) n a, at_name n wire l = Some a -> length l = length k ->
  exists b, at_name n wire k = Some b.
Proof.
  induction wire as [|m wire IH]; intros l k n a H L; [discriminate|]. destruct l as [|x l]; [discriminate|].
  destruct k as [|y k]; [discriminate|]. cbn [at_name] in *. destruct (String.eqb m n); [eauto|]. eapply IH; [exact H|]. cbn in L. lia.
Qed.
Lemma at_name_map : forall A wire (f : string -> A) n, In n wire -> at_name n wire (map f wire) = Some (f n).
Proof.
  induction wire as [|m wire IH]; intros f n H; [destruct H|]. cbn [map at_name]. destruct (String.eqb_spec m n) as [->|E]; [reflexivity|].
  apply IH. destruct H; [contradiction|assumption].
Qed.

(** ** Values of a type *)
Lemma typed_list_length : forall ts vs, typed_list rust_ok ts vs -> length ts = length vs.
Proof. induction ts as [|t ts IH]; intros [|v vs] H; try contradiction; [reflexivity|]. cbn. f_equal. apply IH, H. Qed.
Lemma typed_list_nth : forall ts vs, typed_list rust_ok ts vs <->
  length ts = length vs /\ forall i t v, nth_error ts i = Some t -> nth_error vs i = Some v -> rust_val t v.
Proof.
  induction ts as [|t ts IH]; intros [|v vs]; cbn [typed_list length].
  - split; [|intros; exact I]. intros _. split; [reflexivity|]. intros [|i] ? ? H; discriminate.
  - split; [contradiction|]. intros (H & _). discriminate.
  - split; [contradiction|]. intros (H & _). discriminate.
  - rewrite IH. split.
    + intros (A & L & B). split; [lia|]. intros [|i] u w; cbn [nth_error]; [intros [= <-] [= <-]; exact A|]. apply B.
    + intros (L & B). split; [exact (B O t v eq_refl eq_refl)|]. split; [lia|]. intros i u w. exact (B (S i) u w).
Qed.
Lemma typed_all_repeat : forall t vs, typed_all rust_ok t vs <-> typed_list rust_ok (List.repeat t (length vs)) vs.
Proof. induction vs as [|v vs IH]; [reflexivity|]. cbn [typed_all List.repeat length typed_list]. fold (typed_all rust_ok t). rewrite IH. reflexivity. Qed.
Lemma rust_tup : forall ts v, rust_val (TTup ts) v <-> exists vs, v = VTup vs /\ typed_list rust_ok ts vs.
Proof. intros. unfold rust_val. rewrite BinProt.CodecProofs.typed_tup. split; [intros (_ & H); exact H|]. intros H. split; [exact I|exact H]. Qed.
Lemma rust_enum : forall vars v, rust_val (TEnum vars) v <->
  exists i vs ts, v = VEnum i vs /\ nth_error vars i = Some ts /\ typed_list rust_ok ts vs.
Proof. intros. unfold rust_val. rewrite BinProt.CodecProofs.typed_enum. split; [intros (_ & H); exact H|]. intros H. split; [exact I|exact H]. Qed.
Lemma rust_poly : forall vars v, rust_val (TPoly vars) v <->
  exists i vs nm ts, v = VEnum i vs /\ nth_error vars i = Some (nm, ts) /\ typed_list rust_ok ts vs.
Proof. intros. unfold rust_val. rewrite BinProt.CodecProofs.typed_poly. split; [intros (_ & H); exact H|]. intros H. split; [exact I|exact H]. Qed.
Lemma rust_seq : forall t v, rust_val (TSeq t) v <->
  exists vs, v = VSeq vs /\ Z.of_nat (length vs) < 2 ^ 64 /\ typed_list rust_ok (List.repeat t (length vs)) vs.
Proof.
  intros. unfold rust_val. rewrite BinProt.CodecProofs.typed_seq. split.
  - intros (L & vs & -> & H). exists vs. rewrite <- typed_all_repeat. auto.
  - intros (vs & -> & L & H). rewrite <- typed_all_repeat in H. eauto.
Qed.
Lemma renumbereds_nth : forall ts vs ws, length ts = length vs -> length ts = length ws ->
  (forall i t v w, nth_error ts i = Some t -> nth_error vs i = Some v -> nth_error ws i = Some w -> renumbered t v w) -> renumbereds ts vs ws.
Proof.
  induction ts as [|t ts IH]; intros [|v vs] [|w ws] L M H; try discriminate; [constructor|]. constructor.
  - exact (H O t v w eq_refl eq_refl eq_refl).
  - apply IH; [cbn in L; lia|cbn in M; lia|]. intros i a b c. exact (H (S i) a b c).
Qed.

(** ** Key and signature types *)
Lemma is_b32_spec : forall t, is_b32 t = true -> t = Bytes32.
Proof.
  intros t H. destruct t; try discriminate. cbn [is_b32] in H. apply andb_true_iff in H. destruct H as (H & L). apply Nat.eqb_eq in L.
  unfold Bytes32. rewrite <- L. f_equal. clear L. induction ts as [|t ts IH]; [reflexivity|]. cbn [forallb] in H.
  apply andb_true_iff in H. destruct H as (A & B). cbn [List.repeat length]. f_equal; [|apply IH, B]. destruct t; try discriminate. reflexivity.
Qed.
Lemma is_key_spec : forall t, is_key t = true <-> t = CompressedCurvePoint.
Proof.
  intros t. split; [|intros ->; reflexivity]. intros H. unfold is_key in H.
  destruct t as [| | | | | | | | | | |ts| |]; try discriminate. destruct ts as [|a [|b [|? ?]]]; try discriminate; destruct b; try discriminate.
  apply is_b32_spec in H. subst a. reflexivity.
Qed.
Lemma is_sig_spec : forall t, is_sig t = true <-> t = SignatureV1.
Proof.
  intros t. split; [|intros ->; reflexivity]. intros H. unfold is_sig in H.
  repeat match type of H with
  | match ?x with _ => _ end = true => destruct x; try discriminate
  end.
  apply andb_true_iff in H. destruct H as (A & B). apply is_b32_spec in A. apply is_b32_spec in B. subst. reflexivity.
Qed.
Definition plain (t : ty) : Prop := t <> CompressedCurvePoint /\ t <> SignatureV1.
Lemma plain_spec : forall t, negb (is_key t) && negb (is_sig t) = true -> plain t.
Proof.
  intros t H. apply andb_true_iff in H. destruct H as (A & B). rewrite negb_true_iff in A, B. split; intros E.
  - apply is_key_spec in E. congruence.
  - apply is_sig_spec in E. congruence.
Qed.

(** ** Where the bad parts are *)
Definition bads (ts : list ty) (vs : list val) : Prop :=
  exists i t v, nth_error ts i = Some t /\ nth_error vs i = Some v /\ bad t v.
Lemma bads_cons : forall t ts v vs, bads (t :: ts) (v :: vs) <-> bad t v \/ bads ts vs.
Proof.
  intros t ts v vs. split.
  - intros ([|i] & u & w & A & B & C); cbn [nth_error] in A, B.
    + injection A as <-. injection B as <-. left. exact C.
    + right. exists i, u, w. auto.
  - intros [H|(i & u & w & A & B & C)].
    + exists O, t, v. auto.
    + exists (S i), u, w. auto.
Qed.
Lemma bads_nil : ~ bads [] [].
Proof. intros ([|i] & t & v & A & _); discriminate. Qed.
Ltac bad_in H := destruct H as [(k & I & K)|(k & I & K)]; inversion I; subst; try (exfalso; tauto).
Lemma bad_tup : forall ts vs, plain (TTup ts) -> (bad (TTup ts) (VTup vs) <-> bads ts vs).
Proof.
  intros ts vs (P & Q). split.
  - intros [(k & I & K)|(k & I & K)]; inversion I; subst; try contradiction; exists i, t, v; split; auto; split; auto; [left|right]; exists k; auto.
  - intros (i & t & v & A & B & [(k & I & K)|(k & I & K)]); [left|right]; exists k; (split; [eapply In_tup; eauto|exact K]).
Qed.
Lemma bad_opt : forall t v, bad (TOpt t) (VSome v) <-> bad t v.
Proof.
  intros t v. split.
  - intros [(k & I & K)|(k & I & K)]; inversion I; subst; [left|right]; exists k; auto.
  - intros [(k & I & K)|(k & I & K)]; [left|right]; exists k; (split; [constructor; exact I|exact K]).
Qed.
Lemma bad_none : forall t, ~ bad (TOpt t) VNone.
Proof. intros t [(k & I & K)|(k & I & K)]; inversion I. Qed.
Lemma nth_error_repeat' : forall A (x : A) n i y, nth_error (List.repeat x n) i = Some y -> y = x.
Proof. intros A x n i y H. apply nth_error_In in H. apply repeat_spec in H. exact H. Qed.
Lemma bad_seq : forall t vs, bad (TSeq t) (VSeq vs) <-> bads (List.repeat t (length vs)) vs.
Proof.
  intros t vs. split.
  - assert (G : forall v, In v vs -> bad t v -> bads (List.repeat t (length vs)) vs).
    { intros v I B. apply In_nth_error in I. destruct I as (i & E). exists i, t, v. split; [|auto].
      apply nth_error_repeat. apply nth_error_Some. congruence. }
    intros [(k & I & K)|(k & I & K)]; inversion I; subst; (eapply G; [eassumption|]); [left|right]; exists k; auto.
  - intros (i & u & v & A & B & [(k & I & K)|(k & I & K)]); apply nth_error_repeat' in A; subst u; [left|right]; exists k;
      (split; [eapply In_seq; [eapply nth_error_In, B|exact I]|exact K]).
Qed.
Lemma bad_enum : forall vars j ts vs, nth_error vars j = Some ts -> (bad (TEnum vars) (VEnum j vs) <-> bads ts vs).
Proof.
  intros vars j ts vs E. split.
  - intros [(k & I & K)|(k & I & K)]; inversion I; subst; match goal with H : nth_error vars j = Some ?u |- _ => assert (u = ts) by congruence; subst u end;
      eexists _, _, _; split; eauto; split; eauto; [left|right]; exists k; auto.
  - intros (i & t & v & A & B & [(k & I & K)|(k & I & K)]); [left|right]; exists k; (split; [eapply In_enum; eauto|exact K]).
Qed.
Lemma bad_poly : forall vars j n ts vs, nth_error vars j = Some (n, ts) -> (bad (TPoly vars) (VEnum j vs) <-> bads ts vs).
Proof.
  intros vars j n ts vs E. split.
  - intros [(k & I & K)|(k & I & K)]; inversion I; subst; match goal with H : nth_error vars j = Some (_, ?u) |- _ => assert (u = ts) by congruence; subst u end;
      eexists _, _, _; split; eauto; split; eauto; [left|right]; exists k; auto.
  - intros (i & t & v & A & B & [(k & I & K)|(k & I & K)]); [left|right]; exists k; (split; [eapply In_poly; eauto|exact K]).
Qed.
Lemma not_bad_u8s : forall ts vs, forallb is_u8 ts = true -> typed_list rust_ok ts vs -> ~ bads ts vs.
Proof.
  induction ts as [|t ts IH]; intros [|v vs] H T; try contradiction; [apply bads_nil|]. cbn [forallb] in H. apply andb_true_iff in H.
  destruct H as (A & B). rewrite bads_cons. intros [C|C]; [|exact (IH _ B (proj2 T) C)]. destruct t; try discriminate.
  destruct C as [(k & I & K)|(k & I & K)]; inversion I.
Qed.
Lemma not_bad_leaf : forall t v, plain t -> leaf t = true -> rust_val t v -> ~ bad t v.
Proof.
  intros t v P L T B. destruct t; try discriminate; try (destruct B as [(? & I & _)|(? & I & _)]; inversion I; fail).
  - apply rust_seq in T. destruct T as (vs & -> & _ & T). rewrite bad_seq in B. revert B. apply not_bad_u8s; [|exact T]. clear T.
    induction vs as [|v vs IH]; [reflexivity|]. cbn [length List.repeat forallb]. rewrite IH. cbn in L. rewrite L. reflexivity.
  - apply rust_tup in T. destruct T as (vs & -> & T). rewrite (bad_tup _ _ P) in B. revert B. apply not_bad_u8s; assumption.
Qed.
Lemma renumbered_u8s : forall ts vs, forallb is_u8 ts = true -> typed_list rust_ok ts vs -> renumbereds ts vs vs.
Proof.
  induction ts as [|t ts IH]; intros [|v vs] H T; try contradiction; [constructor|]. cbn [forallb] in H. apply andb_true_iff in H.
  destruct H as (A & B). constructor; [|exact (IH _ B (proj2 T))]. destruct t; try discriminate. constructor.
Qed.
Lemma renumbered_leaf : forall t v, leaf t = true -> rust_val t v -> renumbered t v v.
Proof.
  intros t v L T. destruct t; try discriminate; try (constructor; fail).
  - destruct k; try discriminate; constructor; discriminate.
  - apply rust_seq in T. destruct T as (vs & -> & _ & T). constructor. apply renumbered_u8s; [|exact T]. clear T.
    induction vs as [|v vs IH]; [reflexivity|]. cbn [length List.repeat forallb]. rewrite IH. cbn in L. rewrite L. reflexivity.
  - apply rust_tup in T. destruct T as (vs & -> & T). constructor. apply renumbered_u8s; assumption.
Qed.

(** ** Wire to base *)
Definition down_ok (c : conv) (t : ty) : Prop := forall v, rust_val t v ->
  (exists b, down c v = Ok b /\ base_val c t b /\ renumbered t v (up c b) /\ ~ bad t v) \/ (down c v = Panic /\ bad t v).

Lemma down_list_ok : forall cs ts, Forall (fun c => forall t, agrees c t = true -> down_ok c t) cs ->
  agrees_list agrees cs ts = true -> forall vs, typed_list rust_ok ts vs ->
  (exists bs, down_list down cs vs = Ok bs /\ base_vals cs ts bs /\ renumbereds ts vs (up_list up cs bs) /\ ~ bads ts vs) \/
  (down_list down cs vs = Panic /\ bads ts vs).
Proof.
  induction cs as [|c cs IH]; intros [|t ts] F A vs T; try discriminate.
  - destruct vs; [|contradiction]. left. exists []. repeat split; try constructor. apply bads_nil.
  - destruct vs as [|v vs]; [contradiction|]. apply Forall_cons_iff in F. destruct F as (Fc & F). cbn [agrees_list] in A.
    apply andb_true_iff in A. destruct A as (Ac & A). destruct T as (Tv & T). cbn [down_list]. pose proof (bads_cons t ts v vs) as BC.
    destruct (Fc t Ac v Tv) as [(b & E & B & R & N)|(E & B)]; rewrite E; cbn [bind].
    + destruct (IH ts F A vs T) as [(bs & E' & B' & R' & N')|(E' & B')]; rewrite E'; cbn [bind].
      * left. exists (b :: bs). cbn [up_list]. repeat split; try (constructor; assumption). tauto.
      * right. tauto.
    + right. tauto.
Qed.
Lemma down_all_list : forall c vs, down_all (down c) vs = down_list down (List.repeat c (length vs)) vs.
Proof. induction vs as [|v vs IH]; [reflexivity|]. cbn [down_all down_list List.repeat length]. fold (down_all (down c)). rewrite IH. reflexivity. Qed.
Lemma up_list_repeat : forall c bs, up_list up (List.repeat c (length bs)) bs = map (up c) bs.
Proof. induction bs as [|b bs IH]; [reflexivity|]. cbn [up_list List.repeat length map]. rewrite IH. reflexivity. Qed.
Lemma agrees_repeat : forall c t n, agrees c t = true -> agrees_list agrees (List.repeat c n) (List.repeat t n) = true.
Proof. induction n as [|n IH]; intros H; [reflexivity|]. cbn [List.repeat agrees_list]. rewrite H, IH; auto. Qed.
Lemma base_vals_length : forall cs ts bs, base_vals cs ts bs -> length cs = length bs /\ length ts = length bs.
Proof. induction cs as [|c cs IH]; intros ts bs H; inversion H; subst; [split; reflexivity|]. cbn. edestruct IH; eauto. Qed.

Lemma down_fields_ok : forall wire ts vs fields, length ts = length vs ->
  (forall n t v, at_name n wire ts = Some t -> at_name n wire vs = Some v -> rust_val t v) ->
  Forall (fun c => forall t, agrees c t = true -> down_ok c t) (map snd fields) ->
  agrees_fields agrees wire ts fields = true ->
  (exists bs us, down_fields down wire vs fields = Ok bs /\ map (fun f => at_name (fst f) wire ts) fields = map Some us /\
     base_vals (map snd fields) us bs /\
     (forall n, In n (map fst fields) -> exists t v, at_name n wire ts = Some t /\ at_name n wire vs = Some v /\
        renumbered t v (up_field up n fields bs) /\ ~ bad t v)) \/
  (down_fields down wire vs fields = Panic /\ exists n t v, at_name n wire ts = Some t /\ at_name n wire vs = Some v /\ bad t v).
Proof.
  intros wire ts vs fields L TV. induction fields as [|(n, c) fields IH]; intros F A.
  - left. exists [], []. repeat split; try constructor. intros n [].
  - cbn [map snd] in F. apply Forall_cons_iff in F. destruct F as (Fc & F). cbn [agrees_fields] in A. apply andb_true_iff in A.
    destruct A as (Ac & A). destruct (at_name n wire ts) as [t|] eqn:Et; [|discriminate].
    destruct (at_name_some _ _ _ _ vs _ _ Et L) as (v & Ev). cbn [down_fields]. rewrite Ev.
    destruct (Fc t Ac v (TV _ _ _ Et Ev)) as [(b & E & B & R & N)|(E & B)]; rewrite E; cbn [bind].
    + destruct (IH F A) as [(bs & us & E' & M' & B' & R')|(E' & B')]; rewrite E'; cbn [bind].
      * left. exists (b :: bs), (t :: us). cbn [map fst snd]. rewrite Et, M'. repeat split; [constructor; assumption|].
        intros m Im. cbn [up_field]. destruct (String.eqb_spec n m) as [->|Ne].
        -- exists t, v. auto.
        -- destruct Im as [->|Im]; [contradiction|]. apply R', Im.
      * right. auto.
    + right. split; [reflexivity|]. exists n, t, v. auto.
Qed.
Lemma down_variant_ok : forall wire tss n vs ts variants k, at_name n wire tss = Some ts -> typed_list rust_ok ts vs ->
  Forall (fun v => Forall (fun c => forall t, agrees c t = true -> down_ok c t) (snd v)) variants ->
  agrees_variants agrees wire tss variants = true -> In n (map fst variants) ->
  (exists j cs bs, down_variant down n vs variants k = Ok (VEnum (k + j) bs) /\ nth_error variants j = Some (n, cs) /\ base_vals cs ts bs /\
     renumbereds ts vs (up_list up cs bs) /\ ~ bads ts vs) \/
  (down_variant down n vs variants k = Panic /\ bads ts vs).
Proof.
  intros wire tss n vs ts variants k E T. revert k. induction variants as [|(m, cs) variants IH]; intros k F A In'; [destruct In'|].
  apply Forall_cons_iff in F. destruct F as (Fc & F). cbn [snd] in Fc. cbn [agrees_variants] in A. apply andb_true_iff in A. destruct A as (Ac & A).
  cbn [down_variant]. destruct (String.eqb_spec m n) as [->|Ne].
  - rewrite E in Ac. destruct (down_list_ok _ _ Fc Ac _ T) as [(bs & D & B & R & N)|(D & B)]; rewrite D; cbn [bind].
    + left. exists O, cs, bs. rewrite Nat.add_0_r. auto.
    + right. auto.
  - destruct In' as [Eq|In']; [cbn [fst] in Eq; contradiction|]. destruct (IH (S k) F A In') as [(j & cs' & bs & D & N & R)|R]; [left|right; exact R].
    exists (S j), cs', bs. rewrite <- plus_n_Sm. auto.
Qed.
Lemma up_variant_nth : forall wire variants j n cs bs, nth_error variants j = Some (n, cs) ->
  up_variant up wire j bs variants = VEnum (index_of n wire) (up_list up cs bs).
Proof.
  induction variants as [|(m, ds) variants IH]; intros [|j] n cs bs H; try discriminate; cbn [nth_error] in H; cbn [up_variant].
  - injection H as -> ->. reflexivity.
  - apply IH, H.
Qed.
Lemma index_nth : forall wire i n, NoDup wire -> nth_error wire i = Some n -> index_of n wire = i.
Proof.
  induction wire as [|m wire IH]; intros [|i] n D H; try discriminate; inversion D as [|? ? N D']; subst; cbn [nth_error] in H; cbn [index_of].
  - injection H as ->. rewrite String.eqb_refl. reflexivity.
  - destruct (String.eqb_spec m n) as [->|_]; [apply nth_error_In in H; contradiction|]. f_equal. apply IH; assumption.
Qed.
Lemma down_enum_ok : forall wire variants tss i vs ts, names_agree wire (map fst variants) (length tss) = true ->
  Forall (fun v => Forall (fun c => forall t, agrees c t = true -> down_ok c t) (snd v)) variants ->
  agrees_variants agrees wire tss variants = true -> nth_error tss i = Some ts -> typed_list rust_ok ts vs ->
  (exists j n cs bs, down (Enum wire variants) (VEnum i vs) = Ok (VEnum j bs) /\ nth_error variants j = Some (n, cs) /\
     at_name n wire tss = Some ts /\ base_vals cs ts bs /\
     up (Enum wire variants) (VEnum j bs) = VEnum i (up_list up cs bs) /\ renumbereds ts vs (up_list up cs bs) /\ ~ bads ts vs) \/
  (down (Enum wire variants) (VEnum i vs) = Panic /\ bads ts vs).
Proof.
  intros wire variants tss i vs ts NA F A N T. apply names_agree_spec in NA. destruct NA as (Dw & Dn & L & Sub).
  assert (G : exists n, nth_error wire i = Some n).
  { destruct (nth_error wire i) eqn:Q; [eauto|]. apply nth_error_None in Q. assert (nth_error tss i <> None) as Q' by congruence.
    apply nth_error_Some in Q'. lia. }
  destruct G as (n & Q). assert (E : at_name n wire tss = Some ts) by (rewrite (at_name_nth _ _ _ _ _ Dw Q); exact N).
  destruct (down_variant_ok wire tss n vs ts variants 0 E T F A (Sub _ (nth_error_In _ _ Q))) as [(j & cs & bs & D & Nj & B & R & NB)|(D & B)].
  - left. exists j, n, cs, bs. cbn [down]. rewrite Q. cbn [Nat.add] in D. rewrite D. cbn [up]. rewrite (up_variant_nth _ _ _ _ _ _ Nj).
    rewrite (index_nth _ _ _ Dw Q). auto 10.
  - right. cbn [down]. rewrite Q. auto.
Qed.

Lemma le_val_small : forall l, length l = 32%nat -> bytes_ok l -> 0 <= le_val l < 2 ^ 256.
Proof. intros l L B. pose proof (le_val_range l B) as H. rewrite L in H. exact H. Qed.
Lemma le_bytes_back : forall l, length l = 32%nat -> bytes_ok l -> le_bytes 32 (le_val l) = l.
Proof. intros l L B. rewrite <- L. apply le_bytes_le_val, B. Qed.

Lemma renumbered_bytes32 : forall v, rust_val Bytes32 v -> renumbered Bytes32 v v.
Proof. intros v H. apply renumbered_leaf; [reflexivity|exact H]. Qed.
Lemma inside_bytes32 : forall u w v, inside u w Bytes32 v -> u = Bytes32 \/ u = TU8.
Proof.
  intros u w v H. inversion H as [| | |ts vs i t x A B C| |]; subst; [left; reflexivity|]. apply nth_error_In in A.
  assert (t = TU8) by (apply (repeat_spec 32), A). subst t. inversion C. right. reflexivity.
Qed.
Lemma inside_key : forall u w v, inside u w CompressedCurvePoint v ->
  (u = CompressedCurvePoint /\ w = v) \/ u = Bytes32 \/ u = TU8 \/ u = TBool.
Proof.
  intros u w v H. inversion H as [| | |ts vs i t x A B C| |]; subst; [left; auto|]. destruct i as [|[|[|i]]]; try discriminate; injection A as <-.
  - apply inside_bytes32 in C. tauto.
  - inversion C. tauto.
Qed.
Lemma inside_sig : forall u w v, inside u w SignatureV1 v ->
  (u = SignatureV1 /\ w = v) \/ u = V (TTup [Bytes32; Bytes32]) \/ u = TTup [Bytes32; Bytes32] \/ u = Bytes32 \/ u = TU8 \/ u = TInt U16.
Proof.
  intros u w v H. inversion H as [| | |ts vs i t x A B C| |]; subst; [left; auto|]. destruct i as [|[|[|i]]]; try discriminate; injection A as <-.
  - inversion C. tauto.
  - inversion C as [| | |ts1 vs1 i1 t1 x1 A1 B1 C1| |]; subst; [tauto|]. destruct i1 as [|[|[|i1]]]; try discriminate; injection A1 as <-.
    + inversion C1. tauto.
    + inversion C1 as [| | |ts2 vs2 i2 t2 x2 A2 B2 C2| |]; subst; [tauto|]. destruct i2 as [|[|[|i2]]]; try discriminate; injection A2 as <-.
      all: apply inside_bytes32 in C2; tauto.
Qed.
Lemma bad_key : forall v, bad CompressedCurvePoint v <-> big_key v.
Proof.
  intros v. split.
  - intros [(k & I & K)|(k & I & K)]; apply inside_key in I; destruct I as [(Q & ->)|[E|[E|E]]]; try discriminate; exact K.
  - intros H. left. exists v. split; [constructor|exact H].
Qed.
Lemma bad_sig : forall v, bad SignatureV1 v <-> big_sig v.
Proof.
  intros v. split.
  - intros [(k & I & K)|(k & I & K)]; apply inside_sig in I; destruct I as [(Q & ->)|[E|[E|[E|[E|E]]]]]; try discriminate; exact K.
  - intros H. right. exists v. split; [constructor|exact H].
Qed.
Lemma down_key : down_ok Key CompressedCurvePoint.
Proof.
  intros v T. destruct fine_key as (F1 & F2 & F3 & F4). cbn [down]. rewrite bad_key.
  destruct (F3 v T) as [(k & K)|(B & P)]; [|right; rewrite P; auto].
  left. rewrite (F1 _ _ K). cbn [bind]. eexists. split; [reflexivity|]. pose proof K as (x & l & -> & W & E & Lt).
  destruct W as (-> & L & Bo). split; [|split].
  - constructor. pose proof (le_val_small l L Bo). lia.
  - cbn [up]. assert (Q : pubkey_to {| pk_x := pk_x k; pk_odd := pk_odd k |} = VTup [VTup (map VInt l); VBool (pk_odd k)]).
    { replace {| pk_x := pk_x k; pk_odd := pk_odd k |} with k by (destruct k; reflexivity). apply (to_key_w _ _ K). }
    rewrite Q. constructor. constructor; [|constructor; constructor]. apply renumbered_bytes32, bytes32_iff. exists l. split; auto.
  - rewrite bad_key. exact (F4 _ _ K).
Qed.
Lemma FP_small : FP_MODULUS < 2 ^ 256.
Proof. reflexivity. Qed.
Lemma FQ_small : FQ_MODULUS < 2 ^ 256.
Proof. reflexivity. Qed.
Lemma pow256 : 256 ^ Z.of_nat 32 = 2 ^ 256.
Proof. reflexivity. Qed.
Lemma ver_shape : forall t v, rust_val (V t) v <-> exists n w, v = VTup [VInt n; w] /\ 0 <= n < 2 ^ 16 /\ rust_val t w.
Proof.
  intros t v. unfold V. rewrite rust_tup. split.
  - intros (vs & -> & H). destruct vs as [|n [|w [|? ?]]]; try (cbn in H; tauto). destruct H as ((N & S) & W & _).
    destruct n; try contradiction. exists z, w. auto.
  - intros (n & w & -> & N & W). exists [VInt n; w]. split; [reflexivity|]. split; [split; [exact N|exact I]|]. split; [exact W|exact I].
Qed.
Lemma sig_shape : forall v, rust_val SignatureV1 v <-> exists m n r s k l, v = VTup [VInt m; VTup [VInt n; VTup [r; s]]] /\
  0 <= m < 2 ^ 16 /\ 0 <= n < 2 ^ 16 /\ w_bytes r k /\ w_bytes s l.
Proof.
  intros v. unfold SignatureV1, V2. rewrite ver_shape. split.
  - intros (m & w & -> & M & H). apply ver_shape in H. destruct H as (n & w' & -> & N & H). apply rust_tup in H. destruct H as (vs & -> & H).
    destruct vs as [|r [|s [|? ?]]]; try (cbn in H; tauto). destruct H as (R & S & _). apply bytes32_iff in R. apply bytes32_iff in S.
    destruct R as (k & R). destruct S as (l & S). exists m, n, r, s, k, l. auto.
  - intros (m & n & r & s & k & l & -> & M & N & R & S). exists m, (VTup [VInt n; VTup [r; s]]). split; [reflexivity|]. split; [exact M|].
    apply ver_shape. exists n, (VTup [r; s]). split; [reflexivity|]. split; [exact N|]. apply rust_tup. exists [r; s]. split; [reflexivity|].
    split; [apply bytes32_iff; eauto|]. split; [apply bytes32_iff; eauto|exact I].
Qed.
Lemma down_sig : down_ok Sig SignatureV1.
Proof.
  intros v T. rewrite bad_sig. apply sig_shape in T. destruct T as (m & n & r & s & k & l & -> & M & N & R & S).
  assert (BS : big_sig (VTup [VInt m; VTup [VInt n; VTup [r; s]]]) <-> FP_MODULUS <= le_val k \/ FQ_MODULUS <= le_val l).
  { split.
    - intros (m' & n' & r' & s' & k' & l' & E & (Er & _) & (Es & _) & H). destruct R as (-> & _). destruct S as (-> & _).
      injection E as _ _ E1 E2. rewrite Er in E1. rewrite Es in E2. injection E1 as E1. injection E2 as E2. apply map_vint in E1. apply map_vint in E2.
      subst. exact H.
    - intros H. exists (VInt m), (VInt n), r, s, k, l. auto. }
  cbn [down]. rewrite (bytes_of_w _ _ R), (bytes_of_w _ _ S). unfold fp_from_bytes, fq_from_bytes.
  destruct R as (-> & Lk & Bk). destruct S as (-> & Ll & Bl). pose proof (le_val_small k Lk Bk). pose proof (le_val_small l Ll Bl).
  destruct (Z.ltb_spec (le_val k) FP_MODULUS) as [Fk|Fk]; cbn [expect bind]; [|right; split; [reflexivity|apply BS; auto]].
  destruct (Z.ltb_spec (le_val l) FQ_MODULUS) as [Fl|Fl]; cbn [expect bind]; [|right; split; [reflexivity|apply BS; auto]].
  left. eexists. split; [reflexivity|]. split; [constructor; lia|]. split.
  - cbn [up]. rewrite (le_bytes_back k Lk Bk), (le_bytes_back l Ll Bl). unfold bytes_to. unfold SignatureV1, V2, V.
    apply N_tup. apply N_cons; [constructor|]. apply N_cons; [|constructor].
    apply N_tup. apply N_cons; [constructor|]. apply N_cons; [|constructor].
    apply N_tup. apply N_cons; [|apply N_cons; [|constructor]]; apply renumbered_bytes32, bytes32_iff; [exists k|exists l]; split; auto.
  - rewrite bad_sig, BS. lia.
Qed.

Lemma wraps_wrapu32 : forall z, wraps 32 (wrapu 32 z) = wraps 32 z.
Proof. intros z. unfold wraps, wrapu. rewrite ?Z.mod_mod by lia. reflexivity. Qed.

Theorem down_correct : forall c t, agrees c t = true -> down_ok c t.
Proof.
  induction c using conv_induction; intros t A.
  - cbn [agrees] in A. apply andb_true_iff in A. destruct A as (P & A). apply plain_spec in P. intros v T. left. exists v.
    split; [reflexivity|]. split; [constructor; exact T|]. split; [apply renumbered_leaf; assumption|apply not_bad_leaf; assumption].
  - cbn [agrees] in A. apply andb_true_iff in A. destruct A as (P & A). apply plain_spec in P.
    destruct t as [| | | | | | | | | | |ts| |]; try discriminate. destruct ts as [|[] [|u [|? ?]]]; try discriminate; destruct k; try discriminate.
    intros v T. apply ver_shape in T. destruct T as (n & w & -> & N & W). rewrite (bad_tup _ _ P), bads_cons, bads_cons. cbn [down].
    assert (NV : ~ bad (TInt U16) (VInt n)) by (intros [(? & I & _)|(? & I & _)]; inversion I).
    pose proof bads_nil as NN.
    destruct (IHc u A w W) as [(b & E & B & R & NB)|(E & B)]; [left|right; tauto].
    exists b. split; [exact E|]. split; [constructor; exact B|]. split; [|rewrite (bad_tup _ _ P), bads_cons, bads_cons; tauto].
    cbn [up]. apply N_tup. apply N_cons; [constructor|]. apply N_cons; [exact R|constructor].
  - cbn [agrees] in A. apply is_key_spec in A. subst t. apply down_key.
  - cbn [agrees] in A. apply is_sig_spec in A. subst t. apply down_sig.
  - cbn [agrees] in A. apply andb_true_iff in A. destruct A as (P & A). destruct t; try discriminate. destruct k; try discriminate.
    intros v (T & S). destruct v; try contradiction. cbn [rust_ok] in T. left. cbn [down]. eexists. split; [reflexivity|].
    split; [constructor; apply Z.mod_pos_bound; lia|]. split; [|intros [(? & I & _)|(? & I & _)]; inversion I].
    cbn [up]. rewrite wraps_wrapu32. rewrite wraps_id by lia. constructor. discriminate.
  - cbn [agrees] in A. apply andb_true_iff in A. destruct A as (P & A). destruct t; try discriminate.
    intros v (_ & T). destruct v as [| | | | | | |v| | |]; try contradiction.
    + left. exists VNone. split; [reflexivity|]. split; [constructor|]. split; [constructor|]. apply bad_none.
    + cbn [down]. rewrite bad_opt. destruct (IHc _ A v T) as [(b & E & B & R & NB)|(E & B)]; rewrite E; cbn [bind]; [left|right; auto].
      exists (VSome b). split; [reflexivity|]. split; [constructor; exact B|]. split; [constructor; exact R|]. rewrite bad_opt. exact NB.
  - cbn [agrees] in A. apply andb_true_iff in A. destruct A as (P & A). destruct t as [| | | | | | | | | |u| | |]; try discriminate.
    intros v T. apply rust_seq in T. destruct T as (vs & -> & L & T). rewrite bad_seq. cbn [down]. rewrite down_all_list.
    assert (F : Forall (fun c => forall t, agrees c t = true -> down_ok c t) (List.repeat c (length vs))).
    { apply Forall_forall. intros d I. apply repeat_spec in I. subst d. exact IHc. }
    destruct (down_list_ok _ _ F (agrees_repeat _ _ _ A) vs T) as [(bs & E & B & R & NB)|(E & B)]; rewrite E; cbn [bind]; [left|right; auto].
    assert (LB : length bs = length vs) by (apply base_vals_length in B; rewrite repeat_length in B; lia).
    exists (VSeq bs). split; [reflexivity|]. split; [constructor; [lia|]; rewrite LB; exact B|]. split; [|rewrite bad_seq; exact NB].
    cbn [up]. rewrite <- up_list_repeat. constructor. rewrite LB. exact R.
  - cbn [agrees] in A. apply andb_true_iff in A. destruct A as (P & A). apply plain_spec in P. destruct t; try discriminate.
    intros v T. apply rust_tup in T. destruct T as (vs & -> & T). rewrite (bad_tup _ _ P). cbn [down].
    destruct (down_list_ok _ _ H A vs T) as [(bs & E & B & R & NB)|(E & B)]; rewrite E; cbn [bind]; [left|right; auto].
    exists (VTup bs). split; [reflexivity|]. split; [constructor; exact B|]. split; [constructor; exact R|]. rewrite (bad_tup _ _ P). exact NB.
  - cbn [agrees] in A. apply andb_true_iff in A. destruct A as (P & A). apply plain_spec in P. destruct t; try discriminate.
    apply andb_true_iff in A. destruct A as (NA & A). apply names_agree_spec in NA. destruct NA as (Dw & Dn & L & Sub).
    intros v T. apply rust_tup in T. destruct T as (vs & -> & T). apply typed_list_nth in T. destruct T as (LV & T).
    assert (TV : forall n t v, at_name n wire ts = Some t -> at_name n wire vs = Some v -> rust_val t v).
    { intros n t v Et Ev. apply at_name_index in Et. apply at_name_index in Ev. eapply T; [apply Et|apply Ev]. }
    destruct (down_fields_ok wire ts vs fields LV TV H A) as [(bs & us & E & M & B & R)|(E & n & t & v & Et & Ev & B)].
    + left. exists (VTup bs). cbn [down]. rewrite E. split; [reflexivity|]. split; [econstructor; eassumption|].
      assert (G : forall i t v, nth_error ts i = Some t -> nth_error vs i = Some v -> exists n, nth_error wire i = Some n /\
        renumbered t v (up_field up n fields bs) /\ ~ bad t v).
      { intros i t v Et Ev. destruct (nth_error wire i) as [n|] eqn:En.
        - exists n. split; [reflexivity|]. destruct (R n (Sub _ (nth_error_In _ _ En))) as (t' & v' & Et' & Ev' & Q).
          rewrite (at_name_nth _ _ _ _ _ Dw En) in Et'. rewrite (at_name_nth _ _ _ _ _ Dw En) in Ev'. rewrite Et in Et'. rewrite Ev in Ev'. injection Et' as <-. injection Ev' as <-. exact Q.
        - exfalso. apply nth_error_None in En. assert (Q : nth_error ts i <> None) by congruence. apply nth_error_Some in Q. lia. }
      split.
      * cbn [up]. apply N_tup. apply renumbereds_nth; [exact LV|rewrite map_length; lia|]. intros i t v w Et Ev Ew.
        destruct (G i t v Et Ev) as (n & En & Q & _). rewrite nth_error_map, En in Ew. cbn [option_map] in Ew. injection Ew as <-. exact Q.
      * rewrite (bad_tup _ _ P). intros (i & t & v & Et & Ev & Bad). destruct (G i t v Et Ev) as (n & En & _ & Q). contradiction.
    + right. cbn [down]. rewrite E. split; [reflexivity|]. rewrite (bad_tup _ _ P). apply at_name_index in Et. apply at_name_index in Ev.
      exists (index_of n wire), t, v. split; [apply Et|]. split; [apply Ev|exact B].
  - cbn [agrees] in A. apply andb_true_iff in A. destruct A as (P & A). apply plain_spec in P. destruct t; try discriminate;
      apply andb_true_iff in A; destruct A as (NA & A); intros v T.
    + apply rust_enum in T. destruct T as (i & ws & ts & -> & N & T). rewrite (bad_enum _ _ _ _ N).
      destruct (down_enum_ok _ _ _ _ _ _ NA H A N T) as [(j & n & cs & bs & E & Nj & At & B & U & R & NB)|(E & B)]; [left|right; auto].
      exists (VEnum j bs). split; [exact E|]. split; [econstructor; eassumption|]. rewrite U. split; [econstructor; eassumption|].
      rewrite (bad_enum _ _ _ _ N). exact NB.
    + apply rust_poly in T. destruct T as (i & ws & nm & ts & -> & N & T). rewrite (bad_poly _ _ _ _ _ N).
      assert (N' : nth_error (map snd vs) i = Some ts) by (rewrite nth_error_map, N; reflexivity).
      rewrite <- (map_length snd) in NA.
      destruct (down_enum_ok _ _ _ _ _ _ NA H A N' T) as [(j & n & cs & bs & E & Nj & At & B & U & R & NB)|(E & B)]; [left|right; auto].
      exists (VEnum j bs). split; [exact E|]. split; [econstructor; eassumption|]. rewrite U. split; [econstructor; eassumption|].
      rewrite (bad_poly _ _ _ _ _ N). exact NB.
Qed.

(** ** Base to wire *)
Definition up_ok (c : conv) (t : ty) : Prop := forall b, base_val c t b -> rust_val t (up c b) /\ down c (up c b) = Ok b.

Lemma up_list_ok : forall cs ts bs, Forall (fun c => forall t, agrees c t = true -> up_ok c t) cs ->
  agrees_list agrees cs ts = true -> base_vals cs ts bs ->
  typed_list rust_ok ts (up_list up cs bs) /\ down_list down cs (up_list up cs bs) = Ok bs.
Proof.
  induction cs as [|c cs IH]; intros ts bs F A B; inversion B; subst.
  - split; [exact I|reflexivity].
  - apply Forall_cons_iff in F. destruct F as (Fc & F). cbn [agrees_list] in A. apply andb_true_iff in A. destruct A as (Ac & A).
    edestruct Fc as (R & D); [exact Ac|eassumption|]. edestruct IH as (R' & D'); [exact F|exact A|eassumption|].
    cbn [up_list typed_list down_list]. rewrite D. cbn [bind]. rewrite D'. split; [split; assumption|reflexivity].
Qed.
Lemma up_field_nth : forall fields bs j n c b, NoDup (map fst fields) -> nth_error fields j = Some (n, c) -> nth_error bs j = Some b ->
  up_field up n fields bs = up c b.
Proof.
  induction fields as [|(m, d) fields IH]; intros [|b' bs] [|j] n c b D F B; try discriminate; cbn [nth_error] in F, B; cbn [up_field].
  - injection F as -> ->. injection B as ->. rewrite String.eqb_refl. reflexivity.
  - inversion D as [|? ? N D']; subst. destruct (String.eqb_spec m n) as [->|_].
    + exfalso. apply N. apply nth_error_In in F. apply (in_map fst) in F. exact F.
    + eapply IH; eauto.
Qed.
Lemma down_fields_back : forall wire vs fields bs, length fields = length bs ->
  (forall j n c b, nth_error fields j = Some (n, c) -> nth_error bs j = Some b -> exists v, at_name n wire vs = Some v /\ down c v = Ok b) ->
  down_fields down wire vs fields = Ok bs.
Proof.
  intros wire vs fields. induction fields as [|(n, c) fields IH]; intros [|b bs] L H; try discriminate; [reflexivity|]. cbn [down_fields].
  destruct (H O n c b eq_refl eq_refl) as (v & -> & ->). cbn [bind]. rewrite (IH bs); [reflexivity|cbn in L; lia|].
  intros j m d e. exact (H (S j) m d e).
Qed.
Lemma base_vals_nth : forall cs ts bs i c t b, base_vals cs ts bs -> nth_error cs i = Some c -> nth_error ts i = Some t -> nth_error bs i = Some b ->
  base_val c t b.
Proof.
  induction cs as [|d cs IH]; intros ts bs [|i] c t b H C T B; try discriminate; inversion H; subst; cbn [nth_error] in C, T, B.
  - congruence.
  - eapply IH; eauto.
Qed.
Lemma agrees_fields_nth : forall wire ts fields j n c, agrees_fields agrees wire ts fields = true -> nth_error fields j = Some (n, c) ->
  exists t, at_name n wire ts = Some t /\ agrees c t = true.
Proof.
  induction fields as [|(m, d) fields IH]; intros [|j] n c A F; try discriminate; cbn [nth_error] in F; cbn [agrees_fields] in A;
    apply andb_true_iff in A; destruct A as (A & A').
  - injection F as -> ->. destruct (at_name n wire ts) as [t|]; [eauto|discriminate].
  - eapply IH; eauto.
Qed.
Lemma agrees_variants_nth : forall wire tss variants j n cs, agrees_variants agrees wire tss variants = true -> nth_error variants j = Some (n, cs) ->
  exists ts, at_name n wire tss = Some ts /\ agrees_list agrees cs ts = true.
Proof.
  induction variants as [|(m, d) variants IH]; intros [|j] n c A F; try discriminate; cbn [nth_error] in F; cbn [agrees_variants] in A;
    apply andb_true_iff in A; destruct A as (A & A').
  - injection F as -> ->. destruct (at_name n wire tss) as [t|]; [eauto|discriminate].
  - eapply IH; eauto.
Qed.
Lemma down_variant_nth : forall n vs bs variants j cs k, NoDup (map fst variants) -> nth_error variants j = Some (n, cs) ->
  down_list down cs vs = Ok bs -> down_variant down n vs variants k = Ok (VEnum (k + j) bs).
Proof.
  induction variants as [|(m, d) variants IH]; intros [|j] cs k D F E; try discriminate; cbn [nth_error] in F; cbn [down_variant].
  - injection F as -> ->. rewrite String.eqb_refl, E. cbn [bind]. rewrite Nat.add_0_r. reflexivity.
  - inversion D as [|? ? N D']; subst. destruct (String.eqb_spec m n) as [->|_].
    + exfalso. apply N. apply nth_error_In in F. apply (in_map fst) in F. exact F.
    + rewrite (IH j cs (S k) D' F E). rewrite <- plus_n_Sm. reflexivity.
Qed.
Lemma up_enum_ok : forall wire variants tss j n cs ts bs, names_agree wire (map fst variants) (length tss) = true ->
  Forall (fun v => Forall (fun c => forall t, agrees c t = true -> up_ok c t) (snd v)) variants ->
  agrees_variants agrees wire tss variants = true -> nth_error variants j = Some (n, cs) -> at_name n wire tss = Some ts -> base_vals cs ts bs ->
  exists vs, up (Enum wire variants) (VEnum j bs) = VEnum (index_of n wire) vs /\ nth_error tss (index_of n wire) = Some ts /\
    typed_list rust_ok ts vs /\ down (Enum wire variants) (VEnum (index_of n wire) vs) = Ok (VEnum j bs).
Proof.
  intros wire variants tss j n cs ts bs NA F A N E B. apply names_agree_spec in NA. destruct NA as (Dw & Dn & L & Sub).
  exists (up_list up cs bs). cbn [up]. split; [apply up_variant_nth, N|]. pose proof (at_name_index _ _ _ _ _ E) as (W & T).
  split; [exact T|]. rewrite Forall_forall in F. specialize (F _ (nth_error_In _ _ N)). cbn [snd] in F.
  destruct (agrees_variants_nth _ _ _ _ _ _ A N) as (ts' & E' & A'). assert (ts' = ts) by congruence. subst ts'.
  destruct (up_list_ok cs ts bs F A' B) as (R & D). split; [exact R|]. cbn [down]. rewrite W.
  exact (down_variant_nth n _ bs variants j cs 0 Dn N D).
Qed.
Theorem up_correct : forall c t, agrees c t = true -> up_ok c t.
Proof.
  induction c using conv_induction; intros t A b B.
  - inversion B; subst. split; [assumption|reflexivity].
  - inversion B; subst. cbn [agrees] in A. apply andb_true_iff in A. destruct A as (_ & A). unfold V in A.
    edestruct IHc as (R & D); [exact A|eassumption|]. cbn [up down]. split; [|exact D]. apply ver_shape. exists 1, (up c b). split; [reflexivity|]. split; [lia|exact R].
  - inversion B; subst. cbn [up down].
    pose proof (w_key_ex {| pk_x := x; pk_odd := o |} H) as W. destruct fine_key as (F1 & F2 & _). rewrite (F1 _ _ W). split; [exact (F2 _ _ W)|reflexivity].
  - inversion B; subst. cbn [up down]. pose proof FP_small as FP. pose proof FQ_small as FQ.
    pose proof (w_bytes_ex (le_bytes 32 r) (le_bytes_length _ _) (le_bytes_ok _ _)) as Wr.
    pose proof (w_bytes_ex (le_bytes 32 s) (le_bytes_length _ _) (le_bytes_ok _ _)) as Ws.
    split.
    + apply sig_shape. exists 1, 1, (bytes_to (le_bytes 32 r)), (bytes_to (le_bytes 32 s)), (le_bytes 32 r), (le_bytes 32 s).
      split; [reflexivity|]. split; [lia|]. split; [lia|]. split; assumption.
    + rewrite (bytes_of_w _ _ Wr), (bytes_of_w _ _ Ws). unfold fp_from_bytes, fq_from_bytes. rewrite !le_val_le_bytes, pow256.
      rewrite !Z.mod_small by lia. replace (r <? FP_MODULUS) with true by lia. replace (s <? FQ_MODULUS) with true by lia. reflexivity.
  - inversion B; subst. cbn [up down]. split.
    + split; [|exact I]. cbn [rust_ok]. apply (signed_range 32); [lia|]. apply Z.mod_pos_bound. lia.
    + rewrite wrapu_wraps by lia. unfold wrapu. rewrite Z.mod_small by lia. reflexivity.
  - cbn [agrees] in A. apply andb_true_iff in A. destruct A as (_ & A). inversion B; subst; cbn [up down].
    + split; [split; exact I|reflexivity].
    + edestruct IHc as (R & D); [exact A|eassumption|]. rewrite D. split; [split; [exact I|exact R]|reflexivity].
  - cbn [agrees] in A. apply andb_true_iff in A. destruct A as (_ & A). inversion B as [| | | | | | |? u bs L Bs| | | |]; subst. cbn [up down].
    assert (F : Forall (fun c => forall t, agrees c t = true -> up_ok c t) (List.repeat c (length bs))).
    { apply Forall_forall. intros d I. apply repeat_spec in I. subst d. exact IHc. }
    destruct (up_list_ok _ _ _ F (agrees_repeat _ _ _ A) Bs) as (R & D). rewrite up_list_repeat in R, D.
    rewrite down_all_list, map_length, D. split; [|reflexivity]. apply rust_seq. exists (map (up c) bs). rewrite map_length. auto.
  - cbn [agrees] in A. apply andb_true_iff in A. destruct A as (_ & A). inversion B; subst. cbn [up down].
    edestruct up_list_ok as (R & D); [exact H|exact A|eassumption|]. rewrite D. split; [|reflexivity]. apply rust_tup. eauto.
  - cbn [agrees] in A. apply andb_true_iff in A. destruct A as (_ & A). inversion B as [| | | | | | | | |? ? ts us bs M Bs| |]; subst. cbn [up down].
    apply andb_true_iff in A. destruct A as (NA & A). apply names_agree_spec in NA. destruct NA as (Dw & Dn & L & Sub).
    pose proof (base_vals_length _ _ _ Bs) as (LF & LU). rewrite map_length in LF.
    assert (G : forall j n c b, nth_error fields j = Some (n, c) -> nth_error bs j = Some b -> exists t, at_name n wire ts = Some t /\
      up_field up n fields bs = up c b /\ rust_val t (up c b) /\ down c (up c b) = Ok b).
    { intros j n c b F Eb. destruct (agrees_fields_nth _ _ _ _ _ _ A F) as (t & Et & Ac). exists t. split; [exact Et|].
      split; [eapply up_field_nth; eauto|]. assert (Fc : nth_error (map snd fields) j = Some c) by (rewrite nth_error_map, F; reflexivity).
      rewrite Forall_forall in H. apply (H c (nth_error_In _ _ Fc) t Ac). eapply base_vals_nth; [exact Bs|exact Fc| |exact Eb].
      assert (Q : nth_error (map (fun f => at_name (fst f) wire ts) fields) j = Some (Some t)) by (rewrite nth_error_map, F; cbn; congruence).
      rewrite M, nth_error_map in Q. destruct (nth_error us j); cbn in Q; congruence. }
    rewrite (down_fields_back wire _ fields bs LF).
    + split; [|reflexivity]. apply rust_tup. eexists. split; [reflexivity|]. apply typed_list_nth. rewrite map_length. split; [lia|].
      intros i t v Et Ev. rewrite nth_error_map in Ev. destruct (nth_error wire i) as [n|] eqn:En; cbn [option_map] in Ev; [|discriminate].
      injection Ev as <-. pose proof (Sub _ (nth_error_In _ _ En)) as In'. apply In_nth_error in In'. destruct In' as (j & Ej).
      rewrite nth_error_map in Ej. destruct (nth_error fields j) as [(n', c)|] eqn:Ef; cbn in Ej; [|discriminate]. injection Ej as ->.
      destruct (nth_error bs j) as [b|] eqn:Eb.
      * destruct (G j n c b Ef Eb) as (t' & Et' & U & R & _). rewrite (at_name_nth _ _ _ _ _ Dw En) in Et'. rewrite U. congruence.
      * apply nth_error_None in Eb. assert (Q : nth_error fields j <> None) by congruence. apply nth_error_Some in Q. lia.
    + intros j n c b F Eb. destruct (G j n c b F Eb) as (t & Et & U & R & D). exists (up c b). split; [|exact D]. rewrite <- U.
      apply (at_name_map _ wire (fun n => up_field up n fields bs)). apply at_name_index in Et. eapply nth_error_In. apply Et.
  - cbn [agrees] in A. apply andb_true_iff in A. destruct A as (_ & A). inversion B as [| | | | | | | | | |? ? vars j n cs ts bs N E Bs|? ? vars j n cs ts bs N E Bs]; subst;
      apply andb_true_iff in A; destruct A as (NA & A).
    + destruct (up_enum_ok _ _ _ _ _ _ _ _ NA H A N E Bs) as (vs & -> & T & R & D). split; [|exact D]. apply rust_enum. eexists _, _, _. split; [reflexivity|]. split; eassumption.
    + rewrite <- (map_length snd) in NA. destruct (up_enum_ok _ _ _ _ _ _ _ _ NA H A N E Bs) as (vs & -> & T & R & D). split; [|exact D]. apply rust_poly.
      rewrite nth_error_map in T. destruct (nth_error vars (index_of n wire)) as [(nm, ts')|] eqn:Q; cbn in T; [|discriminate]. injection T as ->.
      eexists _, _, _, _. split; [reflexivity|]. split; eassumption.
Qed.

(** ** Version numbers *)
Lemma renumbered_eq : forall t v w, renumbered t v w -> (forall n, inside (TInt U16) (VInt n) t v -> n = 1) -> w = v.
Proof.
  apply (renumbered_mut (fun t v w => (forall n, inside (TInt U16) (VInt n) t v -> n = 1) -> w = v)
    (fun ts vs ws => (forall n i t v, nth_error ts i = Some t -> nth_error vs i = Some v -> inside (TInt U16) (VInt n) t v -> n = 1) -> ws = vs)); try reflexivity.
  - intros n H. rewrite (H n); [reflexivity|constructor].
  - intros t v w _ IH H. rewrite IH; [reflexivity|]. intros n I. apply H. constructor. exact I.
  - intros t vs ws _ IH H. rewrite IH; [reflexivity|]. intros n i u v U V' I. apply H. apply nth_error_repeat' in U. subst u.
    eapply In_seq; [eapply nth_error_In, V'|exact I].
  - intros ts vs ws _ IH H. rewrite IH; [reflexivity|]. intros n i u v U V' I. apply H. eapply In_tup; eauto.
  - intros vars j ts vs ws N _ IH H. rewrite IH; [reflexivity|]. intros n i u v U V' I. apply H. eapply In_enum; eauto.
  - intros vars j nm ts vs ws N _ IH H. rewrite IH; [reflexivity|]. intros n i u v U V' I. apply H. eapply In_poly; eauto.
  - intros t ts v vs w ws _ IH _ IHs H. rewrite IH, IHs; [reflexivity| |].
    + intros n i u x U X. apply (H n (S i) u x U X).
    + intros n. apply (H n O t v eq_refl eq_refl).
Qed.
Lemma renumbered_ones : forall t v w, renumbered t v w -> forall n, inside (TInt U16) (VInt n) t w -> n = 1.
Proof.
  apply (renumbered_mut (fun t v w => forall n, inside (TInt U16) (VInt n) t w -> n = 1)
    (fun ts vs ws => forall n i t w, nth_error ts i = Some t -> nth_error ws i = Some w -> inside (TInt U16) (VInt n) t w -> n = 1)).
  - intros _ n H. inversion H. reflexivity.
  - intros v n H. inversion H.
  - intros v n H. inversion H.
  - intros v n H. inversion H.
  - intros k v K n H. inversion H. congruence.
  - intros v n H. inversion H.
  - intros t n H. inversion H.
  - intros t v w _ IH n H. inversion H; subst. auto.
  - intros t vs ws R IH n H. inversion H as [| |? ? ? I J| | |]; subst. apply In_nth_error in I. destruct I as (i & I). eapply (IH n i t); eauto.
    assert (L : length ws = length vs). { clear -R. remember (List.repeat t (length vs)) as ts eqn:E. revert E.
      assert (G : forall ts vs ws, renumbereds ts vs ws -> length ws = length vs) by (induction 1; cbn; congruence). intros _. eapply G, R. }
    apply nth_error_repeat. rewrite <- L. apply nth_error_Some. congruence.
  - intros ts vs ws R IH n H. inversion H; subst. eapply IH; eauto.
  - intros vars j ts vs ws N R IH n H. inversion H; subst. assert (ts0 = ts) by congruence. subst ts0. eapply IH; eauto.
  - intros vars j nm ts vs ws N R IH n H. inversion H; subst. assert (ts0 = ts) by congruence. subst ts0. eapply IH; eauto.
  - intros n [|i] t w T; discriminate.
  - intros t ts v vs w ws _ IH _ IHs n [|i] u x U X H; cbn [nth_error] in U, X.
    + injection U as <-. injection X as <-. auto.
    + eapply IHs; eauto.
Qed.
