(** Reading a text is reading its value.  Models no code. *)

From Coq Require Import String ZArith List Bool Lia ZifyBool ZifyNat Permutation.
From Verif Require Import Lib.Res Lib.Bytes Lib.Decimal Lib.Text BinProt.Codec BinProt.CodecSpec Wire.Types Text.Base58 Json.Json Json.JsonSpec Json.JsonFacts
  Json.JsonReadFacts Json.JsonProps Convert.JsonViewSpec Convert.JsonViewFacts.
From Verif Require Import Json.Grammar Json.Parse Json.ParseFacts Json.JsonText Json.TextSpec Json.PrintFacts.
Import ListNotations.
Local Open Scope list_scope.
Local Open Scope Z_scope.
Notation length := List.length.

(** ** Maps *)
Lemma ins_perm : forall k j m, ~ In k (map fst m) -> Permutation (ins k j m) ((k, j) :: m).
Proof.
  intros k j. induction m as [|[k' j'] m IH]; intros N; [reflexivity|]. cbn [ins]. cbn [map fst In] in N.
  rewrite key_neqb by (intros E; apply N; left; symmetry; exact E). destruct (bytes_lt k k'); [reflexivity|].
  rewrite IH by tauto. apply perm_swap.
Qed.
Lemma fold_perm : forall m acc, NoDup (map fst m ++ map fst acc) ->
  Permutation (fold_left (fun acc p => ins (fst p) (snd p) acc) m acc) (m ++ acc).
Proof.
  induction m as [|[k j] m IH]; intros acc N; [reflexivity|]. cbn [fold_left fst snd]. cbn [map fst app] in N. inversion N as [|? ? A B]; subst.
  assert (P : Permutation (ins k j acc) ((k, j) :: acc)) by (apply ins_perm; intros I; apply A, in_or_app; right; exact I).
  rewrite IH.
  - rewrite P. symmetry. apply Permutation_middle.
  - eapply Permutation_NoDup; [|exact N]. rewrite (Permutation_map fst P). cbn [map fst]. apply Permutation_middle.
Qed.
Lemma map_of_perm : forall m, NoDup (map fst m) -> Permutation m (map_of m).
Proof. intros m N. unfold map_of. rewrite fold_perm by (cbn [map]; rewrite app_nil_r; exact N). rewrite app_nil_r. reflexivity. Qed.
Lemma ins_in : forall k j m p, In p (ins k j m) -> p = (k, j) \/ In p m.
Proof.
  intros k j. induction m as [|[k' j'] m IH]; intros p I; cbn [ins] in I; [destruct I as [<-|[]]; auto|].
  destruct (key_eqb k k'); [destruct I as [<-|I]; [auto|right; right; exact I]|].
  destruct (bytes_lt k k'); [destruct I as [<-|I]; auto|]. destruct I as [<-|I]; [right; left; reflexivity|].
  destruct (IH p I) as [->|J]; [auto|right; right; exact J].
Qed.
Lemma map_of_in : forall m p, In p (map_of m) -> In p m.
Proof.
  intros m p. unfold map_of. enough (G : forall acc, In p (fold_left (fun acc p => ins (fst p) (snd p) acc) m acc) -> In p m \/ In p acc)
    by (intros I; destruct (G [] I) as [J|[]]; exact J).
  induction m as [|[k j] m IH]; intros acc I; [right; exact I|]. cbn [fold_left fst snd] in I. destruct (IH _ I) as [J|J]; [left; right; exact J|].
  destruct (ins_in _ _ _ _ J) as [->|K]; [left; left; reflexivity|right; exact K].
Qed.

(** ** Documents that differ in the order of members *)
Lemma f2_refl : forall (A : Type) (R : A -> A -> Prop) l, (forall x, R x x) -> Forall2 R l l.
Proof. intros A R l H. induction l; constructor; auto. Qed.
Lemma f2_perm : forall (A B : Type) (R : A -> B -> Prop) l l', Permutation l l' -> forall m, Forall2 R m l -> exists m1, Permutation m m1 /\ Forall2 R m1 l'.
Proof.
  intros A B R l l' P. induction P as [|q l l' P IH|q q' l|l1 l2 l3 P1 IH1 P2 IH2]; intros m F.
  - inversion F; subst. exists []. auto.
  - inversion F as [|p ? m0 ? Rp F']; subst. destruct (IH m0 F') as (m1 & Q & G). exists (p :: m1). split; [constructor; exact Q|constructor; assumption].
  - inversion F as [|p ? m0 ? Rp F']; subst. inversion F' as [|p' ? m3 ? R' F'']; subst. exists (p' :: p :: m3). split; [apply perm_swap|repeat constructor; assumption].
  - destruct (IH1 m F) as (m1 & Q & G). destruct (IH2 m1 G) as (m3 & Q' & G'). exists m3. split; [eapply Permutation_trans; eassumption|exact G'].
Qed.
Lemma same_sorted : forall j, distinct j -> same j (sorted j).
Proof.
  induction j as [|b|z|b|s|l IH|m IH] using json_nest; intros D; cbn [sorted]; try apply S_refl.
  - apply S_arr. apply distinct_arr in D. induction l as [|j l IHl]; [constructor|]. inversion IH; inversion D; subst. cbn [map]. constructor; auto.
  - apply distinct_obj in D. destruct D as [N D]. set (m' := map (fun p : list Z * json => let (k, j) := p in (k, sorted j)) m).
    assert (F : Forall2 (fun p q => fst p = fst q /\ same (snd p) (snd q)) m m').
    { subst m'. clear N. induction m as [|[k j] m IHm]; [constructor|]. inversion IH; inversion D; subst. cbn [map]. constructor; [split; [reflexivity|auto]|auto]. }
    assert (N' : NoDup (map fst m')).
    { replace (map fst m') with (map fst m); [exact N|]. subst m'. rewrite map_map. apply map_ext. intros [k j]. reflexivity. }
    pose proof (map_of_perm m' N') as P.
    assert (G : exists m1, Permutation m m1 /\ Forall2 (fun p q => fst p = fst q /\ same (snd p) (snd q)) m1 (map_of m')).
    { exact (f2_perm _ _ _ m' (map_of m') P m F). }
    destruct G as (m1 & Q & G). eapply S_obj; eassumption.
Qed.
Lemma same_null : forall j, same JNull j -> j = JNull.
Proof. intros j S. inversion S; reflexivity. Qed.
Lemma same_not_null : forall j j', same j j' -> j <> JNull -> j' <> JNull.
Proof. intros j j' S N E. subst. inversion S; subst; auto. Qed.

Section Same.
  Variable checked : bool.
  Variable checksum : list Z -> list Z.
  Variable unaddr : list Z -> option (list Z * bool).
  Notation jde := (jde checked checksum unaddr).
  Notation jde_seq := (jde_seq checked checksum unaddr).
  Notation fld_de := (fld_de checked checksum unaddr).
  Notation jde_vars := (jde_vars checked checksum unaddr).

  Definition same_fld (fs : flds) : Prop := forall k j j' x, same j j' -> fld_de fs k j = Some x ->
    exists x', fld_de fs k j' = Some x' /\ forall v, x = Ok v -> x' = Ok v.
  Lemma fld_none : forall fs k j j', fld_de fs k j = None -> fld_de fs k j' = None.
  Proof.
    pose proof (jde_eqs checked checksum unaddr) as (_ & _ & _ & _ & _ & _ & _ & _ & _ & _ & E11 & E12 & _).
    induction fs as [|nm [x|] d fs IH]; intros k j j' H; [reflexivity| |].
    - rewrite E11 in *. eauto.
    - rewrite E12 in *. destruct (key_eqb (str_bytes nm) k); [discriminate H|eauto].
  Qed.
  Lemma loop_same : forall fs, same_fld fs -> forall m m', Forall2 (fun p q => fst p = fst q /\ same (snd p) (snd q)) m m' ->
    forall r, obj_loop (fld_de fs) m = Ok r -> obj_loop (fld_de fs) m' = Ok r.
  Proof.
    intros fs H m m' F. induction F as [|[k j] [k' j'] m m' [E S] F IH]; intros r O; [exact O|]. cbn [fst snd] in *. subst k'. cbn [obj_loop] in *.
    destruct (fld_de fs k j) as [x|] eqn:X.
    - destruct (H k j j' x S X) as (x' & -> & G). apply bind_ok in O. destruct O as (v & -> & O). rewrite (G v eq_refl). cbn [bind].
      apply bind_ok in O. destruct O as (r' & O & Q). injection Q as <-. rewrite (IH _ O). reflexivity.
    - rewrite (fld_none fs k j j' X). apply IH, O.
  Qed.
  Lemma obj_same : forall fs, same_fld fs -> forall m m1 m' r vs, NoDup (map fst m) -> Permutation m m1 ->
    Forall2 (fun p q => fst p = fst q /\ same (snd p) (snd q)) m1 m' -> obj_loop (fld_de fs) m = Ok r -> assemble fs r = Ok vs ->
    exists r', obj_loop (fld_de fs) m' = Ok r' /\ assemble fs r' = Ok vs.
  Proof.
    intros fs H m m1 m' r vs N P F O A. destruct (obj_loop_perm _ _ _ P r O) as (r' & O' & Q). exists r'. split; [eapply loop_same; eassumption|].
    rewrite (assemble_ext fs r r'); [exact A|]. apply assoc_perm; [exact Q|]. apply (obj_loop_keys _ _ _ O N).
  Qed.

  Lemma same_tag : forall tg j j' e, same j j' -> tag_de tg j = Ok e -> exists e', tag_de tg j' = Ok e' /\ same e e'.
  Proof.
    intros [|x] j j' e S T; cbn [tag_de] in *; [injection T as <-; eauto|].
    destruct j as [| | | | |l|]; try discriminate T. inversion S as [|l0 l' F|]; subst; [exists e; split; [exact T|apply S_refl]|].
    destruct F as [|a a' l l' Sa F]; [discriminate T|]. destruct F as [|b b' l l' Sb F].
    - destruct a; injection T as <-; (exists a'; split; [|exact Sa]); inversion Sa; subst; reflexivity.
    - destruct F as [|c c' l l' Sc F].
      + destruct a; try discriminate T. injection T as <-. inversion Sa; subst. eexists. split; [reflexivity|].
        eapply S_obj; [repeat constructor; intros []|apply Permutation_refl|]. constructor; [split; [reflexivity|exact Sb]|constructor].
      + destruct a; try discriminate T. injection T as <-. inversion Sa; subst. eexists. split; [reflexivity|].
        eapply S_obj; [repeat constructor; intros []|apply Permutation_refl|]. constructor; [split; [reflexivity|]|constructor].
        apply S_arr. repeat constructor; assumption.
  Qed.
  Definition same_arg (a a' : option json) : Prop := match a, a' with None, None => True | Some j, Some j' => same j j' | _, _ => False end.
  Lemma same_all :
    (forall d j j' v, same j j' -> jde d j = Ok v -> jde d j' = Ok v) /\
    (forall fs, (forall l l' vs, Forall2 same l l' -> jde_seq fs l = Ok vs -> jde_seq fs l' = Ok vs) /\ same_fld fs) /\
    (forall ws n k a a' r, same_arg a a' -> jde_vars ws n k a = Ok r -> jde_vars ws n k a' = Ok r).
  Proof.
    pose proof (jde_eqs checked checksum unaddr) as (E1 & E2 & E3 & E4 & E5 & E6 & E7 & E8 & E9 & E10 & E11 & E12 & E13).
    apply json_ind.
    - intros l j j' v S H. destruct j; try discriminate H. inversion S; subst. exact H.
    - intros j j' v S H. destruct j; try discriminate H. inversion S; subst. exact H.
    - intros j j' v S H. destruct j; try discriminate H. inversion S; subst. exact H.
    - intros j j' v S H. destruct j; try discriminate H. inversion S; subst. exact H.
    - intros d IH j j' v S H. rewrite E2 in *. apply bind_ok in H. destruct H as (u & H & Q). rewrite (IH _ _ _ S H). exact Q.
    - intros d IH j j' v S H. rewrite E3 in *. assert (D : {j = JNull} + {j <> JNull}) by (destruct j; [left; reflexivity|right; discriminate..]).
      destruct D as [->|D]; [rewrite (same_null _ S); exact H|]. pose proof (same_not_null _ _ S D) as D'.
      assert (X : rmap VSome (jde d j) = Ok v) by (destruct j; [contradiction|exact H..]). apply rmap_ok in X. destruct X as (u & X & ->).
      rewrite (IH _ _ _ S X). destruct j'; [contradiction|reflexivity..].
    - intros d IH j j' v S H. destruct j as [| | | | |l|]; try discriminate H. inversion S as [|? l' F|]; subst; [exact H|]. rewrite E4 in *.
      apply rmap_ok in H. destruct H as (vs & H & ->). enough (G : mapM (jde d) l' = Ok vs) by (rewrite G; reflexivity). clear S.
      revert vs H. induction F as [|a a' l l' Sa F IHl]; intros vs H; [exact H|]. cbn [mapM] in *. apply bind_ok in H. destruct H as (u & Hu & H).
      apply bind_ok in H. destruct H as (us & Hs & Q). rewrite (IH _ _ _ Sa Hu), (IHl _ Hs). exact Q.
    - intros fs [IHs _] j j' v S H. destruct j as [| | | | |l|]; try discriminate H. inversion S as [|? l' F|]; subst; [exact H|]. rewrite E5 in *.
      apply rmap_ok in H. destruct H as (vs & H & ->). rewrite (IHs _ _ _ F H). reflexivity.
    - intros fs [IHs IHf] j j' v S H. destruct j as [| | | | |l|m]; try discriminate H.
      + inversion S as [|? l' F|]; subst; [exact H|]. rewrite E7 in *. apply rmap_ok in H. destruct H as (vs & H & ->). rewrite (IHs _ _ _ F H). reflexivity.
      + inversion S as [| |? m1 m' N P F]; subst; [exact H|]. rewrite E6 in *. apply bind_ok in H. destruct H as (r & O & H). apply rmap_ok in H. destruct H as (vs & A & ->).
        destruct (obj_same fs IHf m m1 m' r vs N P F O A) as (r' & -> & A'). cbn [bind]. rewrite A'. reflexivity.
    - intros tg p ws IH j j' v S H. rewrite E8 in *. apply bind_ok in H. destruct H as (e & T & H). destruct (same_tag tg j j' e S T) as (e' & -> & Se). cbn [bind].
      apply bind_ok in H. destruct H as ((i & vs) & X & Q). enough (G : ext_de (jde_vars ws 0) e' = Ok (i, vs)) by (rewrite G; exact Q).
      destruct e as [| | | |k| |[|[k x] [|]]]; try discriminate X; cbn [ext_de] in X.
      + inversion Se; subst. exact (IH 0%nat k None None (i, vs) I X).
      + inversion Se as [| |? m1 m' N P F]; subst; [exact X|]. apply Permutation_length_1_inv in P. subst m1.
        inversion F as [|? [k' x'] ? ? [Ek Sx] F']; subst. inversion F'; subst. cbn [fst snd] in *. subst k'. exact (IH 0%nat k (Some x) (Some x') (i, vs) Sx X).
    - split; [|intros k j j' x S H; discriminate H]. intros l l' vs F H. inversion F; subst; exact H.
    - intros nm sk d IHd fs [IHs IHf]. destruct sk as [x|].
      + split; [intros l l' vs F H|intros k j j' y S H].
        * rewrite E9 in *. apply bind_ok in H. destruct H as (us & H & Q). rewrite (IHs _ _ _ F H). exact Q.
        * rewrite E11 in *. exact (IHf k j j' y S H).
      + split; [intros l l' vs F H|intros k j j' y S H].
        * rewrite E10 in *. destruct F as [|a a' l l' Sa F]; [discriminate H|]. apply bind_ok in H. destruct H as (u & Hu & H).
          apply bind_ok in H. destruct H as (us & Hs & Q). rewrite (IHd _ _ _ Sa Hu), (IHs _ _ _ F Hs). exact Q.
        * rewrite E12 in *. destruct (key_eqb (str_bytes nm) k); [|exact (IHf k j j' y S H)]. injection H as <-. exists (jde d j'). split; [reflexivity|].
          intros v. apply IHd, S.
    - intros n k a a' r S H. exact H.
    - intros nm sh fs [IHs IHf] ws IH n k a a' r S H. rewrite E13 in *. destruct (key_eqb (str_bytes nm) k); [|exact (IH _ _ _ _ _ S H)].
      apply bind_ok in H. destruct H as (vs & H & Q).
      match goal with |- bind ?x _ = _ => enough (G : x = Ok vs) by (rewrite G; exact Q) end.
      destruct sh; destruct a as [j|]; destruct a' as [j'|]; try contradiction; try discriminate H; try exact H.
      + cbn [same_arg] in S. destruct j; try discriminate H. rewrite (same_null _ S). exact H.
      + apply (IHs [j]); [constructor; [exact S|constructor]|exact H].
      + cbn [same_arg] in S. destruct j as [| | | | |l|]; try discriminate H. inversion S as [|? l' F|]; subst; [exact H|].
        destruct F as [|a a' l l' Sa F]; [discriminate H|]. apply (IHs (a :: l)); [constructor; assumption|exact H].
      + cbn [same_arg] in S. destruct j as [| | | | | |m]; try discriminate H. inversion S as [| |? m1 m' N P F]; subst; [exact H|].
        apply bind_ok in H. destruct H as (q & O & A). destruct (obj_same fs IHf m m1 m' q vs N P F O A) as (q' & -> & A'). exact A'.
  Qed.
End Same.
