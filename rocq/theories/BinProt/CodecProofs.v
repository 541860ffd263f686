(** Proofs about the typed codec: simulation between byte sources, round trip,
    truncation. *)
From Coq Require Import ZArith List Bool String Lia ZifyBool ZifyNat.
From Verif Require Import Lib.Res Lib.Bytes BinProt.Prim BinProt.PrimProofs BinProt.Codec
  BinProt.CodecSpec.
Import ListNotations.
Open Scope Z_scope.
Ltac Zify.zify_post_hook ::= Z.div_mod_to_equations.

Section TyInd.
  Variable P : ty -> Prop.
  Hypothesis HUnit : P TUnit.
  Hypothesis HBool : P TBool.
  Hypothesis HChar : P TChar.
  Hypothesis HU8 : P TU8.
  Hypothesis HInt : forall k, P (TInt k).
  Hypothesis HU64 : P TU64.
  Hypothesis HF32 : P TF32.
  Hypothesis HF64 : P TF64.
  Hypothesis HStr : P TStr.
  Hypothesis HOpt : forall t, P t -> P (TOpt t).
  Hypothesis HSeq : forall t, P t -> P (TSeq t).
  Hypothesis HTup : forall ts, Forall P ts -> P (TTup ts).
  Hypothesis HEnum : forall vs, Forall (Forall P) vs -> P (TEnum vs).
  Hypothesis HPoly : forall vs, Forall (fun p => Forall P (snd p)) vs -> P (TPoly vs).
  Fixpoint ty_ind' (t : ty) : P t :=
    let fl := fix fl (ts : list ty) : Forall P ts :=
      match ts with [] => Forall_nil _ | t :: ts' => Forall_cons _ (ty_ind' t) (fl ts') end in
    match t with
    | TUnit => HUnit | TBool => HBool | TChar => HChar | TU8 => HU8 | TInt k => HInt k
    | TU64 => HU64 | TF32 => HF32 | TF64 => HF64 | TStr => HStr
    | TOpt t => HOpt t (ty_ind' t)
    | TSeq t => HSeq t (ty_ind' t)
    | TTup ts => HTup ts (fl ts)
    | TEnum vs => HEnum vs
        ((fix fv (vs : list (list ty)) : Forall (Forall P) vs :=
          match vs with [] => Forall_nil _ | ts :: vs' => Forall_cons _ (fl ts) (fv vs') end) vs)
    | TPoly vs => HPoly vs
        ((fix fv (vs : list (string * list ty)) : Forall (fun p => Forall P (snd p)) vs :=
          match vs with
          | [] => Forall_nil _
          | p :: vs' => Forall_cons p (fl (snd p)) (fv vs') end) vs)
    end.
End TyInd.

(** * Unfolding equations *)
Section Eqs.
  Variable c : bool.
  Variable S : Type.
  Variable rd : Z -> S -> res err (list Z * S).
  Notation de := (de c S rd).
  Notation de_list := (de_list c S rd).
  Notation de_rep := (de_rep c S rd).

  Lemma de_tup : forall ts s,
    de (TTup ts) s = let* (vs, s) := de_list ts s in Ok (VTup vs, s).
  Proof. reflexivity. Qed.
  Lemma de_seq : forall t s,
    de (TSeq t) s = let* (n, s) := bin_read_nat0 S rd R_u64 s in
                    let* (vs, s) := de_rep t (Z.to_nat n) s in Ok (VSeq vs, s).
  Proof. reflexivity. Qed.
  Lemma de_enum : forall vars s,
    de (TEnum vars) s =
      let* (i, s) := bin_read_variant_index S rd s in
      let* (vs, s) := match nth_error vars (Z.to_nat i) with
                      | Some ts => de_list ts s
                      | None => Err ECustom
                      end in
      Ok (VEnum (Z.to_nat i) vs, s).
  Proof.
    intros. cbn [Codec.de]. apply bind_ext. intros (i, s1). f_equal.
    generalize (Z.to_nat i). induction vars as [|ts vars IH]; destruct n; cbn; auto.
  Qed.
  Lemma de_poly : forall vars s,
    de (TPoly vars) s =
      let* (h, s) := bin_read_polyvar_tag S rd s in
      let* i := find_variant c (map fst vars) 0 h in
      let* (vs, s) := match nth_error vars (Z.to_nat i) with
                      | Some (_, ts) => de_list ts s
                      | None => Err ECustom
                      end in
      Ok (VEnum (Z.to_nat i) vs, s).
  Proof.
    intros. cbn [Codec.de]. apply bind_ext. intros (h, s1). apply bind_ext. intros i. f_equal.
    generalize (Z.to_nat i). clear i. induction vars as [|(nm, ts) vars IH]; destruct n; cbn; auto.
  Qed.
End Eqs.

Lemma de_rep_S : forall c S rd t n s,
  de_rep c S rd t (Datatypes.S n) s =
    let* (v, s) := de c S rd t s in let* (vs, s) := de_rep c S rd t n s in Ok (v :: vs, s).
Proof. reflexivity. Qed.
Lemma de_rep_0 : forall c S rd t s, de_rep c S rd t 0 s = Ok ([], s).
Proof. reflexivity. Qed.
Lemma ser_all_cons : forall c t v vs,
  ser_all c t (v :: vs) = let* a := ser c t v in let* b := ser_all c t vs in Ok (a ++ b).
Proof. reflexivity. Qed.

Section SerEqs.
  Variable c : bool.
  Lemma ser_tup : forall ts vs, ser c (TTup ts) (VTup vs) = ser_list c ts vs.
  Proof. reflexivity. Qed.
  Lemma ser_seq : forall t vs,
    ser c (TSeq t) (VSeq vs) =
      let* body := ser_all c t vs in Ok (bin_write_nat0 (Z.of_nat (List.length vs)) ++ body).
  Proof. reflexivity. Qed.
  Lemma ser_enum : forall vars i vs,
    ser c (TEnum vars) (VEnum i vs) =
      let* tag := write_variant_index_or_tag c None (Z.of_nat i) in
      let* body := match nth_error vars i with
                   | Some ts => ser_list c ts vs
                   | None => Err ECustom
                   end in
      Ok (tag ++ body).
  Proof.
    intros. cbn [ser]. apply bind_ext. intros tag. f_equal.
    revert i. induction vars as [|ts vars IH]; destruct i; cbn; auto.
  Qed.
  Lemma ser_poly : forall vars i vs,
    ser c (TPoly vars) (VEnum i vs) =
      match nth_error vars i with
      | Some (nm, ts) =>
        let* tag := write_variant_index_or_tag c (Some nm) (Z.of_nat i) in
        let* body := ser_list c ts vs in
        Ok (tag ++ body)
      | None => Err ECustom
      end.
  Proof.
    intros. cbn [ser]. generalize (Z.of_nat i). intros z.
    revert i. induction vars as [|(nm, ts) vars IH]; destruct i; cbn; auto.
  Qed.
End SerEqs.

Section TypedEqs.
  Variable P : ty -> val -> Prop.
  Lemma typed_tup : forall ts v, typed P (TTup ts) v <->
    P (TTup ts) v /\ exists vs, v = VTup vs /\ typed_list P ts vs.
  Proof.
    intros. split.
    - intros (H & K). split; auto. destruct v; try contradiction. eauto.
    - intros (H & vs & -> & K). split; auto.
  Qed.
  Lemma typed_seq : forall t v, typed P (TSeq t) v <->
    P (TSeq t) v /\ exists vs, v = VSeq vs /\ typed_all P t vs.
  Proof.
    intros. split.
    - intros (H & K). split; auto. destruct v; try contradiction. eauto.
    - intros (H & vs & -> & K). split; auto.
  Qed.
  Lemma typed_enum : forall vars v, typed P (TEnum vars) v <->
    P (TEnum vars) v /\ exists i vs ts, v = VEnum i vs /\ nth_error vars i = Some ts /\ typed_list P ts vs.
  Proof.
    intros. split.
    - intros (H & K). split; auto. destruct v; try contradiction. exists i, vs.
      clear H. revert i K. induction vars as [|ts vars IH]; intros [|i] K; try contradiction.
      + exists ts. auto.
      + apply IH in K. destruct K as (ts' & E & N & T). exists ts'. auto.
    - intros (H & i & vs & ts & -> & N & K). split; auto. clear H.
      revert i N. induction vars as [|ts' vars IH]; intros [|i] N; try discriminate.
      + injection N as ->. auto.
      + cbn in N. apply IH in N. auto.
  Qed.
  Lemma typed_poly : forall vars v, typed P (TPoly vars) v <->
    P (TPoly vars) v /\ exists i vs nm ts,
      v = VEnum i vs /\ nth_error vars i = Some (nm, ts) /\ typed_list P ts vs.
  Proof.
    intros. split.
    - intros (H & K). split; auto. destruct v; try contradiction. exists i, vs.
      clear H. revert i K. induction vars as [|(nm, ts) vars IH]; intros [|i] K; try contradiction.
      + exists nm, ts. auto.
      + apply IH in K. destruct K as (nm' & ts' & E & N & T). exists nm', ts'. auto.
    - intros (H & i & vs & nm & ts & -> & N & K). split; auto. clear H.
      revert i N. induction vars as [|(nm', ts') vars IH]; intros [|i] N; try discriminate.
      + injection N as -> ->. auto.
      + cbn in N. apply IH in N. auto.
  Qed.
End TypedEqs.

Lemma nat0_nonneg : forall S rd s n s', bin_read_nat0 S rd R_u64 s = Ok (n, s') -> 0 <= n.
Proof.
  intros S rd s n s' H. unfold bin_read_nat0 in H.
  apply bind_ok in H. destruct H as ((b & t) & _ & H).
  assert (G : forall x t n s', from_prim S R_u64 x t = Ok (n, s') -> 0 <= n).
  { intros. apply from_prim_inv in H0. destruct H0 as (-> & _ & E).
    unfold in_range, R_u64 in E; cbn [lo hi] in E. lia. }
  repeat match type of H with context [if ?b then _ else _] => destruct b end;
    try discriminate; try (apply G in H; auto; fail);
    apply bind_ok in H; destruct H as ((x & t') & _ & H); apply G in H; auto.
Qed.

(** * Simulation between two byte sources *)
Section Sim.
  Variable c : bool.
  Variables S1 S2 : Type.
  Variable rd1 : Z -> S1 -> res err (list Z * S1).
  Variable rd2 : Z -> S2 -> res err (list Z * S2).
  Variable R : S1 -> S2 -> Prop.
  Variable tot : Prop.

  Definition rel {A} (r1 : res err (A * S1)) (r2 : res err (A * S2)) : Prop :=
    match r1 with
    | Ok (a, s1) => exists s2, r2 = Ok (a, s2) /\ R s1 s2
    | Err e => tot -> r2 = Err e
    | Panic => r2 = Panic
    end.

  Lemma rel_bind : forall A B (r1 : res err (A * S1)) r2
    (f1 : A * S1 -> res err (B * S1)) (f2 : A * S2 -> res err (B * S2)),
    rel r1 r2 ->
    (forall a s1 s2, R s1 s2 -> rel (f1 (a, s1)) (f2 (a, s2))) ->
    rel (bind r1 f1) (bind r2 f2).
  Proof.
    intros A B r1 r2 f1 f2 H F. destruct r1 as [(a, s1)|e|]; cbn in H |- *.
    - destruct H as (s2 & -> & HR). cbn. apply F; auto.
    - intros T. rewrite (H T). reflexivity.
    - rewrite H. reflexivity.
  Qed.
  Lemma rel_ok : forall A (a : A) s1 s2, R s1 s2 -> rel (Ok (a, s1)) (Ok (a, s2)).
  Proof. intros. cbn. eauto. Qed.
  Lemma rel_err : forall A e, rel (@Err err (A * S1) e) (@Err err (A * S2) e).
  Proof. intros. cbn. auto. Qed.

  Hypothesis Hrd : forall n s1 s2, 0 <= n -> R s1 s2 -> rel (rd1 n s1) (rd2 n s2).

  Lemma sim_u8 : forall s1 s2, R s1 s2 -> rel (read_u8 S1 rd1 s1) (read_u8 S2 rd2 s2).
  Proof.
    intros. unfold read_u8. eapply rel_bind; [apply Hrd; auto; lia|].
    intros l t1 t2 HR. apply rel_ok; auto.
  Qed.
  Lemma sim_ule : forall n s1 s2, 0 <= n -> R s1 s2 ->
    rel (read_ule S1 rd1 n s1) (read_ule S2 rd2 n s2).
  Proof.
    intros. unfold read_ule. eapply rel_bind; [apply Hrd; auto; lia|].
    intros l t1 t2 HR. apply rel_ok; auto.
  Qed.
  Lemma sim_sle : forall n s1 s2, 0 <= n -> R s1 s2 ->
    rel (read_sle S1 rd1 n s1) (read_sle S2 rd2 n s2).
  Proof.
    intros. unfold read_sle. eapply rel_bind; [apply Hrd; auto; lia|].
    intros l t1 t2 HR. apply rel_ok; auto.
  Qed.
  Lemma sim_from : forall r x s1 s2, R s1 s2 -> rel (from_prim S1 r x s1) (from_prim S2 r x s2).
  Proof. intros. unfold from_prim. destruct (in_range r x); [apply rel_ok; auto|apply rel_err]. Qed.
  Lemma sim_bool : forall s1 s2, R s1 s2 -> rel (bin_read_bool S1 rd1 s1) (bin_read_bool S2 rd2 s2).
  Proof.
    intros. unfold bin_read_bool. eapply rel_bind; [apply sim_u8; auto|].
    intros b t1 t2 HR. destruct (b =? 0); [apply rel_ok; auto|].
    destruct (b =? 1); [apply rel_ok; auto|apply rel_err].
  Qed.
  Lemma sim_unit : forall s1 s2, R s1 s2 -> rel (bin_read_unit S1 rd1 s1) (bin_read_unit S2 rd2 s2).
  Proof.
    intros. unfold bin_read_unit. eapply rel_bind; [apply sim_u8; auto|].
    intros b t1 t2 HR. destruct (b =? 0); [apply rel_ok; auto|apply rel_err].
  Qed.
  Lemma sim_integer : forall r s1 s2, R s1 s2 ->
    rel (bin_read_integer S1 rd1 r s1) (bin_read_integer S2 rd2 r s2).
  Proof.
    intros. unfold bin_read_integer. eapply rel_bind; [apply sim_u8; auto|].
    intros b t1 t2 HR.
    repeat match goal with |- context [if ?b then _ else _] => destruct b end;
      first [ apply rel_err | apply sim_from; assumption
            | eapply rel_bind; [apply sim_sle; auto; lia | intros; apply sim_from; auto] ].
  Qed.
  Lemma sim_nat0 : forall r s1 s2, R s1 s2 ->
    rel (bin_read_nat0 S1 rd1 r s1) (bin_read_nat0 S2 rd2 r s2).
  Proof.
    intros. unfold bin_read_nat0. eapply rel_bind; [apply sim_u8; auto|].
    intros b t1 t2 HR.
    repeat match goal with |- context [if ?b then _ else _] => destruct b end;
      first [ apply rel_err | apply sim_from; assumption
            | eapply rel_bind; [apply sim_ule; auto; lia | intros; apply sim_from; auto] ].
  Qed.
  Lemma sim_tag : forall s1 s2, R s1 s2 ->
    rel (bin_read_polyvar_tag S1 rd1 s1) (bin_read_polyvar_tag S2 rd2 s2).
  Proof.
    intros. unfold bin_read_polyvar_tag. eapply rel_bind; [apply sim_ule; auto; lia|].
    intros. apply rel_ok; auto.
  Qed.
  (** Like [rel_bind] but remembering the first result. *)
  Lemma rel_bind_eq : forall A B (r1 : res err (A * S1)) r2
    (f1 : A * S1 -> res err (B * S1)) (f2 : A * S2 -> res err (B * S2)),
    rel r1 r2 ->
    (forall a s1 s2, r1 = Ok (a, s1) -> R s1 s2 -> rel (f1 (a, s1)) (f2 (a, s2))) ->
    rel (bind r1 f1) (bind r2 f2).
  Proof.
    intros A B r1 r2 f1 f2 H F. destruct r1 as [(a, s1)|e|]; cbn in H |- *.
    - destruct H as (s2 & -> & HR). cbn. apply F; auto.
    - intros T. rewrite (H T). reflexivity.
    - rewrite H. reflexivity.
  Qed.
  Lemma sim_string : forall s1 s2, R s1 s2 ->
    rel (bin_read_string S1 rd1 s1) (bin_read_string S2 rd2 s2).
  Proof.
    intros. unfold bin_read_string. eapply rel_bind_eq; [apply sim_nat0; auto|].
    intros n t1 t2 E HR. apply nat0_nonneg in E.
    unfold alloc. destruct (n <? 2 ^ 63); cbn [bind]; [|reflexivity].
    eapply rel_bind; [apply Hrd; auto|]. intros l u1 u2 HR'.
    destruct (utf8_valid l); [apply rel_ok; auto|apply rel_err].
  Qed.
  Lemma sim_bytes : forall s1 s2, R s1 s2 ->
    rel (bin_read_bytes S1 rd1 s1) (bin_read_bytes S2 rd2 s2).
  Proof.
    intros. unfold bin_read_bytes. eapply rel_bind_eq; [apply sim_nat0; auto|].
    intros n t1 t2 E HR. apply nat0_nonneg in E.
    unfold alloc. destruct (n <? 2 ^ 63); cbn [bind]; [|reflexivity]. apply Hrd; auto.
  Qed.

  Lemma sim_list : forall ts,
    Forall (fun t => forall s1 s2, R s1 s2 -> rel (de c S1 rd1 t s1) (de c S2 rd2 t s2)) ts ->
    forall s1 s2, R s1 s2 -> rel (de_list c S1 rd1 ts s1) (de_list c S2 rd2 ts s2).
  Proof.
    induction ts as [|t ts IH]; intros HF s1 s2 HR; cbn [de_list].
    - apply rel_ok; auto.
    - inversion HF; subst. eapply rel_bind; [apply H1; auto|].
      intros v t1 t2 HR1. eapply rel_bind; [apply IH; auto|].
      intros vs u1 u2 HR2. apply rel_ok; auto.
  Qed.

  Theorem sim_de : forall t s1 s2, R s1 s2 -> rel (de c S1 rd1 t s1) (de c S2 rd2 t s2).
  Proof.
    induction t using ty_ind'; intros s1 s2 HR.
    1-9: cbn [de]; eapply rel_bind;
      [ first [ apply sim_unit | apply sim_bool | apply sim_string | apply sim_integer
              | apply sim_ule; try lia | apply sim_u8 ]; auto
      | intros; apply rel_ok; auto ].
    - cbn [de]. eapply rel_bind; [apply sim_bool; auto|].
      intros b t1 t2 HR1. destruct b; [|apply rel_ok; auto].
      eapply rel_bind; [apply IHt; auto|]. intros; apply rel_ok; auto.
    - rewrite !de_seq. eapply rel_bind; [apply sim_nat0; auto|].
      intros n t1 t2 HR1. eapply rel_bind; [|intros; apply rel_ok; auto].
      generalize (Z.to_nat n). intros k. revert t1 t2 HR1.
      induction k as [|k IHk]; intros t1 t2 HR1; [rewrite !de_rep_0; apply rel_ok; auto|rewrite !de_rep_S].
      eapply rel_bind; [apply IHt; auto|]. intros v u1 u2 HR2.
      eapply rel_bind; [apply IHk; auto|]. intros; apply rel_ok; auto.
    - rewrite !de_tup. eapply rel_bind; [apply sim_list; auto|]. intros; apply rel_ok; auto.
    - rewrite !de_enum. eapply rel_bind; [apply sim_u8; auto|].
      intros i t1 t2 HR1. eapply rel_bind; [|intros; apply rel_ok; auto].
      destruct (nth_error vs (Z.to_nat i)) as [ts|] eqn:E; [|apply rel_err].
      apply sim_list; auto. apply nth_error_In in E.
      rewrite Forall_forall in H. apply H; auto.
    - rewrite !de_poly. eapply rel_bind; [apply sim_tag; auto|].
      intros h t1 t2 HR1. destruct (find_variant c (map fst vs) 0 h) as [i|e|]; cbn [bind].
      2: apply rel_err. 2: reflexivity.
      eapply rel_bind; [|intros; apply rel_ok; auto].
      destruct (nth_error vs (Z.to_nat i)) as [(nm & ts)|] eqn:E; [|apply rel_err].
      apply sim_list; auto. apply nth_error_In in E.
      rewrite Forall_forall in H. apply (H _ E).
  Qed.
End Sim.

(** * Consequences for slices *)
Lemma sread_mono : forall x n s1 s2, 0 <= n -> s2 = s1 ++ x ->
  rel (list Z) (list Z) (fun a b => b = a ++ x) False (sread n s1) (sread n s2).
Proof.
  intros x n s1 s2 Hn ->. destruct (sread n s1) as [(l, s')|e|] eqn:E; cbn [rel].
  - apply sread_ok in E; auto. destruct E as (-> & <-).
    exists (s' ++ x). rewrite <- app_assoc. split; auto. apply sread_app; auto.
  - tauto.
  - exfalso. apply sread_no_panic in E. auto.
Qed.

Lemma from_slice_mono : forall c t bs x,
  match from_slice c t bs with
  | Ok (v, r) => from_slice c t (bs ++ x) = Ok (v, r ++ x)
  | Err _ => True
  | Panic => from_slice c t (bs ++ x) = Panic
  end.
Proof.
  intros c t bs x. unfold from_slice.
  pose proof (sim_de c _ _ sread sread (fun a b => b = a ++ x) False (sread_mono x) t bs (bs ++ x) eq_refl) as H.
  unfold rel in H. destruct (de c (list Z) sread t bs) as [(v, r)|e|]; auto.
  destruct H as (s2 & H & ->). auto.
Qed.

(** The bytes not consumed are a suffix of the input. *)
Lemma sread_suffix : forall n s1 s2, 0 <= n -> s1 = s2 ->
  rel (list Z) (list Z) (fun a b => a = b) True (sread n s1) (sread n s2).
Proof.
  intros n s1 s2 _ ->. destruct (sread n s2) as [(l, s')|e|] eqn:E; cbn [rel]; eauto.
Qed.

(** * Variant hashes *)
Lemma name_poly_ge : forall l acc, bytes_ok l -> 0 <= acc -> acc <= name_poly acc l.
Proof.
  induction l as [|b l IH]; intros acc Hl Ha; cbn [name_poly]; [lia|].
  inversion Hl; subst. unfold byte_ok in *. specialize (IH (223 * acc + b)). 
  assert (223 * acc + b <= name_poly (223 * acc + b) l) by (apply IH; auto; lia). lia.
Qed.
Lemma name_poly_mod : forall l a b, a mod 2 ^ 32 = b mod 2 ^ 32 ->
  name_poly a l mod 2 ^ 32 = name_poly b l mod 2 ^ 32.
Proof.
  induction l as [|x l IH]; intros a b H; cbn [name_poly]; auto.
  apply IH. rewrite (Z.add_mod (223 * a)), (Z.mul_mod 223 a), H by lia.
  rewrite <- Z.mul_mod, <- Z.add_mod by lia. reflexivity.
Qed.

Lemma hash_fold_spec : forall c l acc, bytes_ok l -> 0 <= acc < 2 ^ 32 ->
  hash_fold c acc l =
    if c && (2 ^ 32 <=? name_poly acc l) then Panic
    else Ok (name_poly acc l mod 2 ^ 32).
Proof.
  intros c l. induction l as [|b l IH]; intros acc Hl Ha; cbn [hash_fold name_poly].
  - destruct (Z.leb_spec (2 ^ 32) acc); [lia|]. rewrite andb_false_r, Z.mod_small by lia. reflexivity.
  - inversion Hl; subst.
    pose proof H1 as Hb. unfold byte_ok in Hb.
    pose proof (name_poly_ge l (223 * acc + b) H2 ltac:(lia)) as G.
    unfold u32_arith at 1. destruct (Z.ltb_spec (223 * acc) (2 ^ 32)) as [L1|L1]; cbn [bind].
    + unfold u32_arith. destruct (Z.ltb_spec (223 * acc + b) (2 ^ 32)) as [L2|L2]; cbn [bind].
      * rewrite IH by (auto; lia). reflexivity.
      * destruct c; cbn [bind andb].
        -- destruct (Z.leb_spec (2 ^ 32) (name_poly (223 * acc + b) l)); [reflexivity|lia].
        -- rewrite IH by (auto; unfold wrapu; lia). cbn [andb]. f_equal.
           apply name_poly_mod. unfold wrapu. rewrite Z.mod_mod by lia. reflexivity.
    + destruct c; cbn [bind andb].
      * destruct (Z.leb_spec (2 ^ 32) (name_poly (223 * acc + b) l)); [reflexivity|lia].
      * unfold u32_arith.
        assert (M : wrapu 32 (223 * acc) + b = 223 * acc + b - 2 ^ 32 * (223 * acc / 2 ^ 32)).
        { unfold wrapu. pose proof (Z.div_mod (223 * acc) (2 ^ 32)). lia. }
        destruct (Z.ltb_spec (wrapu 32 (223 * acc) + b) (2 ^ 32)) as [L2|L2]; cbn [bind andb].
        -- rewrite IH by (auto; unfold wrapu in *; lia). cbn [andb]. f_equal.
           apply name_poly_mod. rewrite M.
           rewrite <- (Z_mod_plus_full (223 * acc + b) (- (223 * acc / 2 ^ 32)) (2 ^ 32)).
           f_equal. lia.
        -- rewrite IH by (auto; unfold wrapu in *; lia). cbn [andb]. f_equal.
           apply name_poly_mod. unfold wrapu at 1. rewrite Z.mod_mod by lia. rewrite M.
           rewrite <- (Z_mod_plus_full (223 * acc + b) (- (223 * acc / 2 ^ 32)) (2 ^ 32)).
           f_equal. lia.
Qed.

Lemma caml_hash_spec : forall c nm,
  caml_hash_variant c nm =
    if c && (2 ^ 32 <=? name_value nm) then Panic else Ok (name_hash32 nm).
Proof.
  intros. unfold caml_hash_variant, name_value, name_hash32.
  apply hash_fold_spec; [apply str_bytes_ok|lia].
Qed.

Lemma find_variant_spec : forall c names k i nm,
  nth_error names i = Some nm ->
  (forall j nm', (j <= i)%nat -> nth_error names j = Some nm' ->
       Forall (fun b => b < 128) (str_bytes nm') /\
       (c = true -> name_value nm' < 2 ^ 32) /\
       ((j < i)%nat -> name_hash32 nm' <> name_hash32 nm)) ->
  find_variant c names k (name_hash32 nm) = Ok (wrapu 8 (k + Z.of_nat i)).
Proof.
  intros c names. induction names as [|a names IH]; intros k i nm E H; [destruct i; discriminate|].
  cbn [find_variant].
  destruct (H 0%nat a ltac:(lia) eq_refl) as (Ha & Hc & Hd).
  assert (A : is_ascii a = true).
  { unfold is_ascii. apply forallb_forall. intros x Hx. rewrite Forall_forall in Ha. apply Ha in Hx. lia. }
  rewrite A, caml_hash_spec.
  assert (B : c && (2 ^ 32 <=? name_value a) = false).
  { destruct c; auto. specialize (Hc eq_refl). cbn. lia. }
  rewrite B. cbn [bind].
  destruct i as [|i].
  - injection E as ->. rewrite Z.eqb_refl. do 2 f_equal. lia.
  - destruct (Z.eqb_spec (name_hash32 a) (name_hash32 nm)) as [Q|Q].
    + exfalso. apply Hd; auto. lia.
    + rewrite (IH (k + 1) i nm); auto.
      * do 2 f_equal. lia.
      * intros j nm' Hj Hn. destruct (H (S j) nm' ltac:(lia) Hn) as (X & Y & W).
        repeat split; auto. intros. apply W. lia.
Qed.

(** * Round trip *)
Section RoundTrip.
  Variable c : bool.
  Notation P := (fun t v => rust_ok t v /\ wire_ok c t v).
  Definition rt (t : ty) : Prop := forall v, fits c t v ->
    exists bs, ser c t v = Ok bs /\ bytes_ok bs /\
      forall rest, de c (list Z) sread t (bs ++ rest) = Ok (v, rest).

  Lemma rt_list : forall ts, Forall rt ts -> forall vs, typed_list P ts vs ->
    exists bs, ser_list c ts vs = Ok bs /\ bytes_ok bs /\
      forall rest, de_list c (list Z) sread ts (bs ++ rest) = Ok (vs, rest).
  Proof.
    induction ts as [|t ts IH]; intros HF vs HT; destruct vs as [|v vs]; try contradiction.
    - exists []. repeat split; auto. constructor.
    - inversion HF; subst. destruct HT as (Hv & Hvs).
      destruct (H1 v Hv) as (a & Sa & Oa & Da).
      destruct (IH H2 vs Hvs) as (b & Sb & Ob & Db).
      exists (a ++ b). cbn [ser_list]. rewrite Sa. cbn [bind]. rewrite Sb. cbn [bind].
      split; [reflexivity|]. split; [apply bytes_ok_app; auto|].
      intros rest. cbn [de_list]. rewrite <- app_assoc, Da. cbn [bind]. rewrite Db. reflexivity.
  Qed.

  Lemma bytes1 : forall b, 0 <= b < 256 -> bytes_ok [b].
  Proof. intros. constructor; [auto|constructor]. Qed.
  Lemma bytes_app : forall a b, bytes_ok a -> bytes_ok b -> bytes_ok (a ++ b).
  Proof. intros. apply bytes_ok_app; auto. Qed.

  Theorem round_trip : forall t, rt t.
  Proof.
    induction t using ty_ind'; intros v Hv.
    - destruct Hv as ((Hr & Hw) & K), v; try contradiction.
      exists [0]. split; [reflexivity|]. split; [apply bytes1; lia|]. intros.
      cbn [de]. change [0] with bin_write_unit. rewrite bin_unit_roundtrip. reflexivity.
    - destruct Hv as ((Hr & Hw) & K), v; try contradiction.
      exists (bin_write_bool b). split; [reflexivity|].
      split; [destruct b; apply bytes1; lia|]. intros.
      cbn [de]. rewrite bin_bool_roundtrip. reflexivity.
    - destruct Hv as ((Hr & Hw) & K), v; try contradiction. cbn in Hr, Hw.
      exists [wrapu 8 c0]. split; [reflexivity|]. unfold wrapu. rewrite Z.mod_small by lia.
      split; [apply bytes1; lia|]. intros.
      cbn [de]. unfold bin_read_char. cbn [app]. rewrite read_u8_cons. reflexivity.
    - destruct Hv as ((Hr & Hw) & K), v; try contradiction. cbn in Hr, Hw.
      exists [z]. split; [reflexivity|]. split; [apply bytes1; lia|]. intros.
      cbn [de]. cbn [app]. rewrite read_u8_cons. reflexivity.
    - destruct Hv as ((Hr & Hw) & K), v; try contradiction.
      exists (bin_write_integer z). split; [reflexivity|]. split; [apply bin_write_integer_ok|].
      intros. cbn [de]. rewrite bin_integer_roundtrip; [reflexivity| |];
        destruct k; cbn in Hr; unfold in_range; cbn [irange R_i8 R_i16 R_i32 R_i64 R_u16 R_u32 lo hi]; lia.
    - destruct Hv as ((Hr & Hw) & K), v; try contradiction. cbn in Hr, Hw.
      exists (bin_write_integer (wraps 64 z)). split; [reflexivity|]. split; [apply bin_write_integer_ok|].
      rewrite wraps_id by lia.
      intros. cbn [de]. rewrite bin_integer_roundtrip; [reflexivity| |];
        unfold in_range; cbn [R_u64 lo hi]; lia.
    - destruct Hv as ((Hr & Hw) & K), v; try contradiction. cbn in Hr, Hw.
      exists (le_bytes 4 bits). split; [reflexivity|]. split; [apply le_bytes_ok|].
      intros. cbn [de]. rewrite (read_ule_le 4 4) by reflexivity. cbn [bind].
      rewrite Z.mod_small by lia. reflexivity.
    - destruct Hv as ((Hr & Hw) & K), v; try contradiction. cbn in Hr, Hw.
      exists (le_bytes 8 bits). split; [reflexivity|]. split; [apply le_bytes_ok|].
      intros. cbn [de]. rewrite (read_ule_le 8 8) by reflexivity. cbn [bind].
      rewrite Z.mod_small by lia. reflexivity.
    - destruct Hv as ((Hr & Hw) & K), v; try contradiction. cbn in Hr, Hw.
      destruct Hr as (Ho & Hu & Hl).
      exists (bin_write_nat0 (Z.of_nat (List.length l)) ++ l). split; [reflexivity|].
      split; [apply bytes_app; auto; apply bin_write_nat0_ok|].
      intros. cbn [de]. unfold bin_read_string. rewrite <- app_assoc.
      rewrite bin_nat0_roundtrip; [|lia|unfold in_range; cbn [R_u64 lo hi]; lia].
      cbn [bind]. unfold alloc.
      destruct (Z.ltb_spec (Z.of_nat (List.length l)) (2 ^ 63)); [|lia]. cbn [bind].
      rewrite sread_app by reflexivity. cbn [bind]. rewrite Hu. reflexivity.
    - destruct Hv as ((Hr & Hw) & K), v; try contradiction.
      + exists [0]. split; [reflexivity|]. split; [apply bytes1; lia|]. intros.
        cbn [de]. change [0] with (bin_write_bool false). rewrite bin_bool_roundtrip. reflexivity.
      + destruct (IHt v K) as (a & Sa & Oa & Da).
        exists (1 :: a). cbn [ser]. rewrite Sa. split; [reflexivity|].
        split; [change (1 :: a) with ([1] ++ a); apply bytes_app; auto; apply bytes1; lia|].
        intros. cbn [de]. change ((1 :: a) ++ rest) with (bin_write_bool true ++ (a ++ rest)).
        rewrite bin_bool_roundtrip. cbn [bind]. rewrite Da. reflexivity.
    - apply typed_seq in Hv. destruct Hv as ((Hr & Hw) & vs & -> & K). cbn in Hr.
      assert (G : exists bs, ser_all c t vs = Ok bs /\ bytes_ok bs /\
        forall rest, de_rep c (list Z) sread t (List.length vs) (bs ++ rest) = Ok (vs, rest)).
      { clear Hr Hw. induction vs as [|v vs IH].
        - exists []. repeat split; auto. constructor.
        - destruct K as (Hv & Hvs). destruct (IHt v Hv) as (a & Sa & Oa & Da).
          destruct (IH Hvs) as (b & Sb & Ob & Db).
          exists (a ++ b). rewrite ser_all_cons. rewrite Sa. cbn [bind]. rewrite Sb.
          split; [reflexivity|]. split; [apply bytes_app; auto|].
          intros rest. cbn [List.length]. rewrite de_rep_S. rewrite <- app_assoc, Da. cbn [bind]. rewrite Db. reflexivity. }
      destruct G as (bs & Sb & Ob & Db).
      exists (bin_write_nat0 (Z.of_nat (List.length vs)) ++ bs). rewrite ser_seq, Sb. split; [reflexivity|].
      split; [apply bytes_app; auto; apply bin_write_nat0_ok|].
      intros. rewrite de_seq, <- app_assoc.
      rewrite bin_nat0_roundtrip; [|lia|unfold in_range; cbn [R_u64 lo hi]; lia].
      cbn [bind]. rewrite Nat2Z.id, Db. reflexivity.
    - apply typed_tup in Hv. destruct Hv as ((Hr & Hw) & vs & -> & K).
      destruct (rt_list ts H vs K) as (b & Sb & Ob & Db).
      exists b. rewrite ser_tup. repeat split; auto. intros. rewrite de_tup, Db. reflexivity.
    - apply typed_enum in Hv. destruct Hv as ((Hr & Hw) & i & ws & ts & -> & N & K).
      cbn in Hw.
      assert (HF : Forall rt ts).
      { rewrite Forall_forall in H. apply H. eapply nth_error_In; eauto. }
      destruct (rt_list ts HF ws K) as (b & Sb & Ob & Db).
      exists (Z.of_nat i :: b). rewrite ser_enum. unfold write_variant_index_or_tag.
      destruct (Z.ltb_spec (Z.of_nat i) 256); [|lia]. cbn [bind]. rewrite N, Sb.
      split; [reflexivity|].
      split; [change (Z.of_nat i :: b) with ([Z.of_nat i] ++ b); apply bytes_app; auto; apply bytes1; lia|].
      intros. rewrite de_enum. unfold bin_read_variant_index. cbn [app]. rewrite read_u8_cons.
      cbn [bind]. rewrite Nat2Z.id, N, Db. reflexivity.
    - apply typed_poly in Hv. destruct Hv as ((Hr & Hw) & i & ws & nm & ts & -> & N & K).
      cbn in Hw. destruct Hw as (Hi & nm' & Hn & Hh & Hd).
      rewrite nth_error_map, N in Hn. cbn in Hn. injection Hn as <-.
      assert (HF : Forall rt ts).
      { rewrite Forall_forall in H. apply nth_error_In in N. apply (H _ N). }
      destruct (rt_list ts HF ws K) as (b & Sb & Ob & Db).
      assert (E : nth_error (map fst vs) i = Some nm) by (rewrite nth_error_map, N; reflexivity).
      assert (Hc : c && (2 ^ 32 <=? name_value nm) = false).
      { destruct (Hd i nm ltac:(lia) E) as (_ & Q & _).
        destruct c; auto. specialize (Q eq_refl). cbn. lia. }
      exists (bin_write_polyvar_tag (name_hash32 nm) ++ b).
      rewrite ser_poly, N. unfold write_variant_index_or_tag.
      rewrite caml_hash_spec, Hc. cbn [bind]. rewrite Sb.
      split; [reflexivity|].
      split; [apply bytes_app; auto; apply le_bytes_ok|].
      intros. rewrite de_poly, <- app_assoc.
      rewrite bin_polyvar_roundtrip by (unfold name_hash32 in *; lia). cbn [bind].
      rewrite (find_variant_spec c (map fst vs) 0 i nm E Hd). cbn [bind].
      unfold wrapu. rewrite Z.mod_small by lia.
      replace (Z.to_nat (0 + Z.of_nat i)) with i by lia.
      rewrite N, Db. reflexivity.
  Qed.
End RoundTrip.
