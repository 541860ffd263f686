(** Reading the tree of a text and reading its value; what is written is a
    text that can be read.  Models no code. *)

From Coq Require Import String ZArith List Bool Lia ZifyBool ZifyNat Permutation.
From Verif Require Import Lib.Res Lib.Bytes Lib.Decimal Lib.Text BinProt.Codec BinProt.CodecSpec BinProt.CodecProofs Wire.Types Text.Numbers Text.Base58 Text.Base64 Text.Hex Text.FieldText
  Json.Json Json.JsonSpec Json.JsonFacts Json.JsonTypes Json.JsonReadFacts Json.JsonTextFacts Json.JsonProps Convert.JsonViewSpec Convert.JsonViewFacts.
From Verif Require Import Json.Grammar Json.Parse Json.ParseFacts Json.JsonText Json.PrintFacts Json.TextFacts.
Import ListNotations.
Local Open Scope list_scope.
Local Open Scope Z_scope.
Notation length := List.length.

Lemma once_arr : forall l, once (RArr l) -> Forall once l.
Proof. induction l as [|r l IH]; intros O; constructor; [apply O|apply IH, O]. Qed.
Lemma once_obj : forall m, once (RObj m) -> NoDup (map fst m) /\ Forall (fun p => once (snd p)) m.
Proof. intros m [N O]. split; [exact N|]. clear N. induction m as [|[k r] m IH]; constructor; [apply O|apply IH, O]. Qed.
Lemma depth_arr : forall l n, (depth (RArr l) <= n)%nat -> exists k, n = S k /\ Forall (fun r => (depth r <= k)%nat) l.
Proof.
  intros l [|k] H; cbn [depth] in H; [lia|]. exists k. split; [reflexivity|]. apply le_S_n in H. rewrite list_max_le in H.
  apply Forall_forall. intros r I. rewrite Forall_forall in H. apply H, in_map, I.
Qed.
Lemma depth_obj : forall m n, (depth (RObj m) <= n)%nat -> exists k, n = S k /\ Forall (fun p => (depth (snd p) <= k)%nat) m.
Proof.
  intros m [|k] H; cbn [depth] in H; [lia|]. exists k. split; [reflexivity|]. apply le_S_n in H. rewrite list_max_le in H.
  apply Forall_forall. intros [a r] I. rewrite Forall_forall in H. apply H. apply in_map_iff. exists (a, r). auto.
Qed.
Lemma all_some_f2 : forall (A B : Type) (f : A -> option B) l r, all_some (map f l) = Some r <-> Forall2 (fun a b => f a = Some b) l r.
Proof.
  intros A B f. induction l as [|a l IH]; intros r; cbn [map all_some].
  - split; [injection 1 as <-; constructor|intros F; inversion F; reflexivity].
  - split.
    + destruct (f a) as [b|] eqn:E; [|discriminate]. destruct (all_some (map f l)) as [r'|] eqn:E'; [|discriminate].
      injection 1 as <-. constructor; [exact E|apply IH; reflexivity].
    + intros F. inversion F as [|? b ? r' E F']; subst. rewrite E. rewrite (proj2 (IH r') F'). reflexivity.
Qed.

(** externally tagged enums have only variants without fields *)
Fixpoint all_unit (ws : vars) : bool := match ws with WNil => true | WCons _ SUnit _ ws => all_unit ws | _ => false end.
Fixpoint units (d : dty) : bool :=
  match d with
  | DV d | DOpt d | DVec d => units d
  | DTup fs | DStruct fs => units_flds fs
  | DEnum External _ ws => all_unit ws
  | _ => true
  end
with units_flds (fs : flds) : bool := match fs with FNil => true | FCons _ _ d fs => units d && units_flds fs end.
Lemma only_units : forall d t, json_type d t -> units d = true.
Proof. apply json_type_all. vm_compute. reflexivity. Qed.

Section Agree.
  Variable checked : bool.
  Variable checksum : list Z -> list Z.
  Variable unaddr : list Z -> option (list Z * bool).
  Variable float_of : list Z -> option Z.
  Notation jde := (jde checked checksum unaddr).
  Notation jde_seq := (jde_seq checked checksum unaddr).
  Notation fld_de := (fld_de checked checksum unaddr).
  Notation jde_vars := (jde_vars checked checksum unaddr).
  Notation tde := (tde checked checksum unaddr float_of).
  Notation tde_seq := (tde_seq checked checksum unaddr float_of).
  Notation tfld_de := (tfld_de checked checksum unaddr float_of).
  Notation value_of := (value_of float_of).

  Lemma unit_vars : forall ws n k j r, all_unit ws = true -> jde_vars ws n k (Some j) = Ok r -> j = JNull.
  Proof.
    pose proof (jde_eqs checked checksum unaddr) as (_ & _ & _ & _ & _ & _ & _ & _ & _ & _ & _ & _ & E13).
    induction ws as [|nm sh fs ws IH]; intros n k j r U H; [discriminate H|]. rewrite E13 in H. cbn [all_unit] in U. destruct sh; try discriminate U.
    destruct (key_eqb (str_bytes nm) k); [|eauto]. destruct j; try discriminate H. reflexivity.
  Qed.
  Lemma num_of_shape : forall t j, num_of float_of t = Some j -> (exists z, j = JNum z) \/ (exists b, j = JFloat b).
  Proof.
    intros t j E. unfold num_of in E. assert (F : option_map JFloat (float_of t) = Some j -> exists b, j = JFloat b).
    { destruct (float_of t); [|discriminate]. injection 1 as <-. eauto. }
    destruct t as [|c ds]; [auto|]. destruct (c =? 45); [destruct (_ && _ && _)|destruct (_ && _)]; try (right; apply F, E); injection E as <-; eauto.
  Qed.
  Lemma value_null : forall r, value_of r = Some JNull -> r = RNull.
  Proof.
    intros [| |t| |l|m] E; cbn [JsonText.value_of] in E; try discriminate E; [reflexivity| | |].
    - destruct (num_of_shape t _ E) as [[z X]|[b X]]; discriminate X.
    - destruct (all_some _); discriminate E.
    - destruct (all_some _); discriminate E.
  Qed.
  Lemma value_arr : forall r l, value_of r = Some (JArr l) -> exists rs, r = RArr rs /\ Forall2 (fun r j => value_of r = Some j) rs l.
  Proof.
    intros [| |t| |rs|m] l E; cbn [JsonText.value_of] in E; try discriminate E.
    - destruct (num_of_shape t _ E) as [[z X]|[b X]]; discriminate X.
    - destruct (all_some _) as [l'|] eqn:A; [|discriminate E]. injection E as <-. exists rs. split; [reflexivity|]. apply all_some_f2, A.
    - destruct (all_some _); discriminate E.
  Qed.
  Definition pair_of (p : list Z * raw) (q : list Z * json) : Prop := fst p = fst q /\ value_of (snd p) = Some (snd q).
  Lemma value_obj : forall m j, value_of (RObj m) = Some j -> exists ms, j = JObj (map_of ms) /\ Forall2 pair_of m ms.
  Proof.
    intros m j E. cbn [JsonText.value_of] in E. destruct (all_some _) as [ms|] eqn:A; [|discriminate E]. injection E as <-. exists ms. split; [reflexivity|].
    apply all_some_f2 in A. clear - A. induction A as [|[k r] [k' j] m ms E A IH]; constructor; [|exact IH].
    destruct (JsonText.value_of float_of r) eqn:V; [|discriminate E]. injection E as <- <-. split; [reflexivity|exact V].
  Qed.
  Lemma pair_keys : forall m ms, Forall2 pair_of m ms -> map fst m = map fst ms.
  Proof. intros m ms F. induction F as [|p q m ms [E _] F IH]; [reflexivity|]. cbn [map]. rewrite E, IH. reflexivity. Qed.

  Definition ok_same {A : Type} (x y : res jerr A) : Prop := forall v, x = Ok v <-> y = Ok v.
  Definition agree_fld (fs : flds) : Prop := forall k r j lim, value_of r = Some j -> once r -> (depth r <= lim)%nat ->
    match tfld_de fs lim k r, fld_de fs k j with None, None => True | Some x, Some y => ok_same x y | _, _ => False end.
  Lemma loop_agree : forall fs lim, agree_fld fs -> forall m ms, Forall2 pair_of m ms -> Forall (fun p => once (snd p)) m -> Forall (fun p => (depth (snd p) <= lim)%nat) m ->
    forall seen, NoDup (map fst m) -> (forall k, In k seen -> ~ In k (map fst m)) -> ok_same (member_loop (tfld_de fs lim) seen m) (obj_loop (fld_de fs) ms).
  Proof.
    intros fs lim A m ms F. induction F as [|[k r] [k' j] m ms [Ek V] F IH]; intros O D seen N S vs; [reflexivity|]. cbn [fst snd] in *. subst k'.
    inversion O as [|? ? O1 O2]; subst. inversion D as [|? ? D1 D2]; subst. inversion N as [|? ? N1 N2]; subst. cbn [fst snd] in *. cbn [member_loop obj_loop].
    specialize (A k r j lim V O1 D1). destruct (tfld_de fs lim k r) as [x|], (fld_de fs k j) as [y|]; try contradiction.
    - assert (existsb (key_eqb k) seen = false) as ->.
      { destruct (existsb (key_eqb k) seen) eqn:E; [|reflexivity]. apply existsb_exists in E. destruct E as (k2 & I & E). apply key_eqb_iff in E. subst k2.
        destruct (S k I). left. reflexivity. }
      assert (S' : forall k2, In k2 (k :: seen) -> ~ In k2 (map fst m)) by (intros k2 [<-|I]; [exact N1|intros J; apply (S k2 I); right; exact J]).
      specialize (IH O2 D2 (k :: seen) N2 S'). split; intros H; apply bind_ok in H; destruct H as (v & X & H); apply bind_ok in H; destruct H as (us & Y & H).
      + apply A in X. apply IH in Y. rewrite X. cbn [bind]. rewrite Y. exact H.
      + apply A in X. apply IH in Y. rewrite X. cbn [bind]. rewrite Y. exact H.
    - apply IH; auto. intros k2 I J. apply (S k2 I). right. exact J.
  Qed.

  Lemma agree_all :
    (forall d, units d = true -> forall r j lim, value_of r = Some j -> once r -> (depth r <= lim)%nat -> ok_same (tde d lim r) (jde d j)) /\
    (forall fs, units_flds fs = true -> (forall l js lim, Forall2 (fun r j => value_of r = Some j) l js -> Forall once l -> Forall (fun r => (depth r <= lim)%nat) l ->
        ok_same (tde_seq fs lim l) (jde_seq fs js)) /\ agree_fld fs) /\
    (forall ws : vars, True).
  Proof.
    pose proof (jde_eqs checked checksum unaddr) as (E1 & E2 & E3 & E4 & E5 & E6 & E7 & E8 & E9 & E10 & E11 & E12 & E13).
    assert (Seq : forall fs, (units_flds fs = true -> (forall l js lim, Forall2 (fun r j => value_of r = Some j) l js -> Forall once l -> Forall (fun r => (depth r <= lim)%nat) l ->
        ok_same (tde_seq fs lim l) (jde_seq fs js)) /\ agree_fld fs) -> units_flds fs = true -> forall l js lim, value_of (RArr l) = Some js -> once (RArr l) -> (depth (RArr l) <= lim)%nat ->
        exists k js', lim = S k /\ js = JArr js' /\ ok_same (tde_seq fs k l) (jde_seq fs js')).
    { intros fs IH U l js lim V O D. cbn [JsonText.value_of] in V. destruct (all_some _) as [js'|] eqn:A; [|discriminate V]. injection V as <-. apply all_some_f2 in A.
      destruct (depth_arr _ _ D) as (k & -> & D'). exists k, js'. split; [reflexivity|]. split; [reflexivity|]. apply (proj1 (IH U)); [exact A|apply once_arr, O|exact D']. }
    assert (NV : forall t, (forall z, num_of float_of t <> Some (JNum z)) -> forall j, num_of float_of t = Some j -> exists b, j = JFloat b).
    { intros t N j E. destruct (num_of_shape t j E) as [[z ->]|X]; [destruct (N z E)|exact X]. }
    assert (Atom : forall r j, value_of r = Some j -> match r, j with
        | RNull, JNull | RArr _, JArr _ | RObj _, JObj _ | RNum _, JNum _ | RNum _, JFloat _ => True | RBool b, JBool b' => b = b' | RStr s, JStr s' => s = s' | _, _ => False end).
    { intros [| |t| |l|m] j E; cbn [JsonText.value_of] in E; try (injection E as <-; reflexivity || exact I).
      - destruct (num_of_shape t j E) as [[z ->]|[b ->]]; exact I.
      - destruct (all_some _); [|discriminate E]. injection E as <-. exact I.
      - destruct (all_some _); [|discriminate E]. injection E as <-. exact I. }
    apply json_ind.
    - intros l U r j lim V O D v. pose proof (Atom r j V) as A. destruct r, j; try contradiction; cbn [JsonText.tde Json.jde]; try tauto. subst. reflexivity.
    - intros U r j lim V O D v. pose proof (Atom r j V) as A. destruct r, j; try contradiction; cbn [JsonText.tde Json.jde]; try tauto. subst. reflexivity.
    - intros U r j lim V O D v. pose proof (Atom r j V) as A. destruct r as [| |t| | |], j; try contradiction; cbn [JsonText.tde Json.jde]; try tauto;
        cbn [JsonText.value_of] in V; rewrite V; reflexivity.
    - intros U r j lim V O D v. pose proof (Atom r j V) as A. destruct r, j; try contradiction; cbn [JsonText.tde Json.jde]; tauto.
    - intros d IH U r j lim V O D v. cbn [units] in U. rewrite E2. cbn [JsonText.tde].
      split; intros H; apply bind_ok in H; destruct H as (u & H & Q); apply (IH U r j lim V O D) in H; rewrite H; exact Q.
    - intros d IH U r j lim V O D v. cbn [units] in U. rewrite E3. specialize (IH U r j lim V O D).
      assert (X : r <> RNull -> j <> JNull) by (intros N E; subst; apply N, value_null, V).
      assert (G : ok_same (rmap VSome (tde d lim r)) (rmap VSome (jde d j))).
      { intros w. split; intros H; apply rmap_ok in H; destruct H as (u & H & ->); apply IH in H; rewrite H; reflexivity. }
      cbn [JsonText.tde]. destruct r; [injection V as <-; reflexivity|destruct j; [destruct X; [discriminate|reflexivity]|apply G..]..].
    - intros d IH U r j lim V O D v. cbn [units] in U. pose proof (Atom r j V) as A. destruct r as [| | | |l|], j as [| | | | |js|]; try contradiction; try (cbn [JsonText.tde Json.jde]; tauto).
      rewrite E4. cbn [JsonText.tde].
      destruct (value_arr _ _ V) as (rs & Er & F). injection Er as <-. destruct (depth_arr _ _ D) as (k & -> & D'). apply once_arr in O.
      assert (G : ok_same (mapM (tde d k) l) (mapM (jde d) js)).
      { clear - F O D' IH U. induction F as [|r j l js V F IHl]; intros vs; [reflexivity|]. inversion O; inversion D'; subst. cbn [mapM]. specialize (IHl ltac:(assumption) ltac:(assumption)).
        split; intros H; apply bind_ok in H; destruct H as (u & Hu & H); apply bind_ok in H; destruct H as (us & Hs & Q);
          apply (IH U r j k V ltac:(assumption) ltac:(assumption)) in Hu; apply IHl in Hs; rewrite Hu; cbn [bind]; rewrite Hs; exact Q. }
      split; intros H; apply rmap_ok in H; destruct H as (vs & H & ->); apply G in H; rewrite H; reflexivity.
    - intros fs IH U r j lim V O D v. cbn [units] in U. pose proof (Atom r j V) as A. destruct r as [| | | |l|], j as [| | | | |js|]; try contradiction; try (cbn [JsonText.tde Json.jde]; tauto).
      rewrite E5. change (tde (DTup fs) lim (RArr l)) with (match lim with S lim => rmap VTup (tde_seq fs lim l) | O => Err JE end).
      destruct (Seq fs IH U l _ lim V O D) as (k & js' & -> & Q & G). injection Q as <-.
      split; intros H; apply rmap_ok in H; destruct H as (vs & H & ->); apply G in H; rewrite H; reflexivity.
    - intros fs IH U r j lim V O D v. cbn [units] in U. pose proof (Atom r j V) as A. destruct r as [| | | |l|m], j as [| | | | |js|m']; try contradiction; try (cbn [JsonText.tde Json.jde]; tauto).
      + change (tde (DStruct fs) lim (RArr l)) with (match lim with S lim => rmap VTup (tde_seq fs lim l) | O => Err JE end).
        destruct (Seq fs IH U l _ lim V O D) as (k & js' & -> & Q & G). injection Q as <-. rewrite E7.
        split; intros H; apply rmap_ok in H; destruct H as (vs & H & ->); apply G in H; rewrite H; reflexivity.
      + destruct (value_obj _ _ V) as (ms & Q & F). injection Q as ->. destruct (depth_obj _ _ D) as (k & -> & D'). destruct (once_obj _ O) as (N & O'). rewrite E6.
        change (tde (DStruct fs) (S k) (RObj m)) with (let* vs := member_loop (tfld_de fs k) [] m in rmap VTup (assemble fs vs)).
        pose proof (loop_agree fs k (proj2 (IH U)) m ms F O' D' [] N (fun _ I _ => I)) as G.
        assert (N' : NoDup (map fst ms)) by (rewrite <- (pair_keys _ _ F); exact N). pose proof (map_of_perm ms N') as P.
        split; intros H; apply bind_ok in H; destruct H as (vs & X & H).
        * apply G in X. destruct (obj_loop_perm _ _ _ P vs X) as (vs' & -> & Q). cbn [bind]. rewrite (assemble_ext fs vs vs'); [exact H|].
          apply assoc_perm; [exact Q|]. apply (obj_loop_keys _ _ _ X N').
        * destruct (obj_loop_perm _ _ _ (Permutation_sym P) vs X) as (vs' & X' & Q). pose proof (proj2 (G vs') X') as Y. rewrite Y. cbn [bind].
          rewrite (assemble_ext fs vs vs'); [exact H|]. apply assoc_perm; [exact Q|].
          apply (obj_loop_keys _ _ _ X). eapply Permutation_NoDup; [apply Permutation_map, P|exact N'].
    - intros tg p ws _ U r j lim V O D v. destruct tg as [|x].
      + cbn [units] in U. rewrite E8. cbn [tag_de bind JsonText.tde]. pose proof (Atom r j V) as A.
        destruct r as [| | |s| |m], j as [| | | |s'| |m']; try contradiction; cbn [ext_de bind]; try tauto; [subst; reflexivity|].
        destruct (value_obj _ _ V) as (ms & Q & F). injection Q as ->. destruct (depth_obj _ _ D) as (k & -> & _). destruct (once_obj _ O) as (N & _).
        assert (N' : NoDup (map fst ms)) by (rewrite <- (pair_keys _ _ F); exact N). pose proof (Permutation_length (map_of_perm ms N')) as L.
        destruct F as [|[k1 r1] [k2 j1] m ms [Ek Vr] F]; [cbn; tauto|]. cbn [fst snd] in *. subst k2. destruct F as [|q q' m ms Rq F].
        * change (map_of [(k1, j1)]) with [(k1, j1)]. cbn [ext_de]. destruct r1.
          1: injection Vr as <-; reflexivity.
          all: (split; [discriminate|]); intros H; apply bind_ok in H; destruct H as ((i & us) & H & _); apply (unit_vars ws 0 k1 j1 _ U) in H; subst j1;
            apply value_null in Vr; discriminate Vr.
        * destruct (map_of ((k1, j1) :: q' :: ms)) as [|[k3 j3] [|q3 m3]]; cbn [List.length] in L; try lia. cbn [ext_de bind].
          destruct r1; (split; discriminate).
      + cbn [JsonText.tde]. rewrite V. replace (depth r <=? lim)%nat with true by lia. reflexivity.
    - intros U. split.
      + intros l js lim F O D vs. destruct F; [reflexivity|]. split; discriminate.
      + intros k r j lim V O D. exact I.
    - intros nm sk d IHd fs IH U. cbn [units_flds] in U. apply andb_true_iff in U. destruct U as [Ud U]. specialize (IH U). destruct IH as [IHs IHf]. specialize (IHd Ud).
      destruct sk as [x|]; (split; [intros l js lim F O D vs|intros k r j lim V O D]).
      + rewrite E9. change (tde_seq (FCons nm (Some x) d fs) lim l) with (let* vs := tde_seq fs lim l in Ok (x :: vs)).
        split; intros H; apply bind_ok in H; destruct H as (us & H & Q); apply (IHs l js lim F O D) in H; rewrite H; exact Q.
      + rewrite E11. exact (IHf k r j lim V O D).
      + rewrite E10. change (tde_seq (FCons nm None d fs) lim l) with (match l with [] => Err JE | r :: l => let* v := tde d lim r in let* vs := tde_seq fs lim l in Ok (v :: vs) end).
        destruct F as [|r j l js V F]; [reflexivity|]. inversion O; inversion D; subst.
        split; intros H; apply bind_ok in H; destruct H as (u & Hu & H); apply bind_ok in H; destruct H as (us & Hs & Q);
          apply (IHd r j lim V ltac:(assumption) ltac:(assumption)) in Hu; apply (IHs l js lim F ltac:(assumption) ltac:(assumption)) in Hs; rewrite Hu; cbn [bind]; rewrite Hs; exact Q.
      + rewrite E12. change (tfld_de (FCons nm None d fs) lim k r) with (if key_eqb (str_bytes nm) k then Some (tde d lim r) else tfld_de fs lim k r).
        destruct (key_eqb (str_bytes nm) k); [exact (IHd r j lim V O D)|exact (IHf k r j lim V O D)].
    - exact I.
    - intros; exact I.
  Qed.
End Agree.
