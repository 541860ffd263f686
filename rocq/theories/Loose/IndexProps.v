(** C105: indexing into what was decoded. *)
From Coq Require Import ZArith List Bool String Lia ZifyBool ZifyNat.
From Verif Require Import Lib.Res Lib.Bytes BinProt.Prim BinProt.PrimProofs BinProt.PrimSpec BinProt.FormatSpec
  Loose.Loose Loose.LooseSpec Loose.LooseProofs Loose.LooseWire Loose.LooseFacts Loose.LooseProps Loose.Index Loose.IndexSpec.
Import ListNotations.
Open Scope string_scope.
Open Scope list_scope.
Open Scope Z_scope.

Lemma decoded_wire : forall sz layout bs v rest, bytes_ok bs -> loose_value sz layout bs = Ok (v, rest) ->
  exists used q, bs = used ++ rest /\ lenient sz None layout v used q.
Proof.
  intros sz layout bs v rest B H. rewrite loose_dec in H. apply bind_ok in H.
  destruct H as ((w & q & s') & H & E). cbn [snd] in E. injection E as -> ->.
  apply (dec_takes sz (depth layout) layout (le_n _) None bs v q rest B) in H. destruct H as (used & E & W). eauto.
Qed.
Lemma part_refl : forall a, part a a.
Proof. intros a. exists [], []. rewrite app_nil_r. reflexivity. Qed.
Lemma part_trans : forall a b c, part a b -> part b c -> part a c.
Proof. intros a b c (x & y & ->) (z & w & ->). exists (z ++ x), (y ++ w). rewrite <- !app_assoc. reflexivity. Qed.
Lemma part_app_r : forall a b x, part a b -> part a (b ++ x).
Proof. intros a b x (z & w & ->). exists z, (w ++ x). rewrite <- !app_assoc. reflexivity. Qed.

Lemma field_combine : forall a k r b vs, ~ In k (map fst a) ->
  field k (combine (map (@fst string rule) (a ++ (k, r) :: b)) vs) = nth_error vs (List.length a).
Proof.
  induction a as [|(k' & r') a IH]; intros k r b vs N; destruct vs as [|v vs]; cbn [map app combine List.length nth_error fst];
    try reflexivity; unfold field; cbn [find fst].
  - rewrite String.eqb_refl. reflexivity.
  - destruct (String.eqb_spec k' k) as [->|]; [exfalso; apply N; left; reflexivity|]. apply (IH k r b). intros I. apply N. right. exact I.
Qed.
Lemma field_none : forall (ks : list string) vs k, ~ In k ks -> field k (combine ks vs) = None.
Proof.
  induction ks as [|k' ks IH]; intros vs k N; [reflexivity|]. destruct vs as [|v vs]; [reflexivity|]. unfold field. cbn [combine find fst].
  destruct (String.eqb_spec k' k) as [->|]; [exfalso; apply N; left; reflexivity|]. apply IH. intros I. apply N. right. exact I.
Qed.
Lemma first_name : forall (fs : list (string * rule)) k, In k (map fst fs) ->
  exists a r b, fs = a ++ (k, r) :: b /\ ~ In k (map fst a).
Proof.
  induction fs as [|(k' & r') fs IH]; intros k I; [contradiction|]. destruct (string_dec k' k) as [->|N].
  - exists [], r', fs. split; [reflexivity|intros []].
  - destruct I as [E|I]; [cbn [fst] in E; contradiction|]. destruct (IH k I) as (a & r & b & -> & H). exists ((k', r') :: a), r, b.
    split; [reflexivity|]. cbn [map fst In]. tauto.
Qed.

Section Forms.
  Variable sz : Z.
  Variable NF IF : list Z -> Z -> Prop.
  Variable TF : Z -> Z -> Prop.
  Notation wire := (wire sz NF IF TF).
  Notation wires := (wires sz NF IF TF).
  Lemma wires_nth : forall rs p vs bs q n r, wires p rs vs bs q -> nth_error rs n = Some r ->
    exists v p' b q', nth_error vs n = Some v /\ wire p' r v b q' /\ part b bs.
  Proof.
    induction rs as [|r0 rs IH]; intros p vs bs q n r W E; [destruct n; discriminate|].
    inversion W as [|? ? ? v vs' a b q1 ? W1 W2]; subst. destruct n as [|n]; cbn [nth_error] in *.
    - injection E as ->. exists v, p, a, q1. split; [reflexivity|]. split; auto. exists [], b. reflexivity.
    - destruct (IH q1 vs' b q n r W2 E) as (w & p' & b' & q' & H1 & H2 & H3). exists w, p', b', q'. split; auto. split; auto.
      destruct H3 as (x & y & ->). exists (a ++ x), y. rewrite <- !app_assoc. reflexivity.
  Qed.
  Lemma wires_length : forall rs p vs bs q, wires p rs vs bs q -> List.length vs = List.length rs.
  Proof. induction rs as [|r0 rs IH]; intros p vs bs q W; inversion W; subst; [reflexivity|]. cbn [List.length]. f_equal. eauto. Qed.
  Lemma wire_under : forall r k r', under r k r' -> forall p v bs q, wire p r v bs q ->
    exists w p' b q', index_into k v = Some w /\ wire p' r' w b q' /\ part b bs.
  Proof.
    intros r k r' U. induction U as [a k r b N|rs n r E|m r k r' U IH]; intros p v bs q W.
    - inversion W as [| | | |? ? ? ? H| | | | |? ? vs ? ? W'| | | | | | |]; subst; [intuition discriminate|]. cbn [index_into].
      rewrite field_combine by auto. eapply wires_nth; [exact W'|]. rewrite map_app, nth_error_app2 by (rewrite map_length; auto).
      rewrite map_length, Nat.sub_diag. reflexivity.
    - inversion W as [| | | |? ? ? ? H| | | | | |? ? vs ? ? W'| | | | | |]; subst; [intuition discriminate|]. cbn [index_into].
      destruct (wires_nth _ _ _ _ _ _ _ W' E) as (w & p' & b & q' & H1 & H2 & H3). exists w, p', b, q'. split; auto.
      unfold get. rewrite Nat2Z.id. assert (n < List.length vs)%nat by (apply nth_error_Some; congruence).
      destruct (Z.ltb_spec (Z.of_nat n) (Z.of_nat (List.length vs))); [auto|lia].
    - inversion W as [| | | |? ? ? ? H| | | | | | | | | |? ? ? ? ? ? W'| |]; subst; [intuition discriminate|]. eauto.
  Qed.
  Lemma wire_name : forall p r v bs q, wire p r v bs q -> forall k,
    index_into (KName k) v <> None <-> exists r', under r (KName k) r'.
  Proof.
    intros p r v bs q W. induction W; intros nm;
      try (split; [intros H'; exfalso; apply H'; reflexivity|intros (r' & U); inversion U]; fail).
    - split; [intros H'; exfalso; apply H'; reflexivity|]. intros (r' & U). destruct H as [->|[->|[->| ->]]]; inversion U.
    - cbn [index_into]. split.
      + intros F. destruct (in_dec string_dec nm (map fst fs)) as [I|I].
        * destruct (first_name fs nm I) as (a & r & b & -> & N'). exists r. apply U_field. auto.
        * rewrite field_none in F by auto. contradiction.
      + intros (r' & U). inversion U; subst. rewrite field_combine by auto. apply nth_error_Some.
        rewrite (wires_length _ _ _ _ _ H), map_length, app_length. cbn [List.length]. lia.
    - rewrite IHW. split; intros (r' & U).
      + exists r'. apply U_ref. auto.
      + inversion U; subst. eauto.
  Qed.
  Lemma wire_path : forall ks r r', unders r ks r' -> forall p v bs q, wire p r v bs q ->
    exists w p' b q', index_path v ks = Ok w /\ wire p' r' w b q' /\ part b bs.
  Proof.
    induction ks as [|k ks IH]; intros r r' U p v bs q W; inversion U as [|? ? r1 ? ? U1 U2]; subst.
    - exists v, p, bs, q. split; [reflexivity|]. split; auto. apply part_refl.
    - destruct (wire_under _ _ _ U1 _ _ _ _ W) as (w & p1 & b1 & q1 & E & W1 & P1).
      destruct (IH _ _ U2 _ _ _ _ W1) as (w2 & p2 & b2 & q2 & E2 & W2 & P2). exists w2, p2, b2, q2.
      cbn [index_path]. unfold index. rewrite E. cbn [bind]. split; auto. split; auto. eapply part_trans; eauto.
  Qed.
  Lemma wire_strip : forall p r v bs q, wire p r v bs q -> exists p', wire p' (strip r) v bs q.
  Proof. intros p r v bs q W. induction W; cbn [strip]; eauto; try (eexists; econstructor; eauto; fail). destruct H as [->|[->|[->| ->]]]; eexists; econstructor; eauto. Qed.
End Forms.
Lemma index_path_app : forall ks ks' v, index_path v (ks ++ ks') = (let* w := index_path v ks in index_path w ks').
Proof. induction ks as [|k ks IH]; intros ks' v; cbn [app index_path bind]; [reflexivity|]. rewrite bind_assoc. apply bind_ext. intros. apply IH. Qed.
Lemma no_none : forall A (o : option A), o <> None <-> exists a, o = Some a.
Proof. intros A [a|]; split; intros H; eauto; try discriminate; [contradiction|destruct H; discriminate]. Qed.

(** Along fields and components of the layout, indexing never panics; it gives a
    value of the layout found there, written in a part of the bytes. *)
Theorem C105_path : forall sz layout bs v rest ks r, bytes_ok bs -> loose_value sz layout bs = Ok (v, rest) -> unders layout ks r ->
  exists w p used q, index_path v ks = Ok w /\ lenient sz p r w used q /\ part used bs.
Proof.
  intros sz layout bs v rest ks r B H U. destruct (decoded_wire _ _ _ _ _ B H) as (used & q & -> & W).
  destruct (wire_path _ _ _ _ _ _ _ U _ _ _ _ W) as (w & p & b & q' & E & W' & P). exists w, p, b, q'. split; auto. split; auto.
  apply part_app_r. auto.
Qed.
(** Whether a name may follow is a matter of the layout alone, *)
Theorem C105_name : forall sz layout bs v rest ks r k, bytes_ok bs -> loose_value sz layout bs = Ok (v, rest) -> unders layout ks r ->
  (exists r', under r (KName k) r') /\ (exists w, index_path v (ks ++ [KName k]) = Ok w) \/
  ~ (exists r', under r (KName k) r') /\ index_path v (ks ++ [KName k]) = Panic.
Proof.
  intros sz layout bs v rest ks r k B H U. destruct (decoded_wire _ _ _ _ _ B H) as (used & q & -> & W).
  destruct (wire_path _ _ _ _ _ _ _ U _ _ _ _ W) as (w & p & b & q' & E & W' & P).
  rewrite index_path_app, E. cbn [bind index_path]. unfold index. pose proof (wire_name _ _ _ _ _ _ _ _ _ W' k) as N.
  destruct (index_into (KName k) w) as [x|] eqn:F; cbn [bind].
  - left. split; eauto. apply N. discriminate.
  - right. split; auto. rewrite <- N. intros X. apply X. reflexivity.
Qed.
(** so a sum is never indexed by a name, although index.rs:27 says that one with a
    record inside can be: what was decoded has a tuple there. *)
Theorem C105_sum_name_refuted : forall sz layout ss bs v rest k, bytes_ok bs -> loose_value sz layout bs = Ok (v, rest) ->
  strip layout = RSum ss -> index v (KName k) = Panic.
Proof.
  intros sz layout ss bs v rest k B H E. destruct (decoded_wire _ _ _ _ _ B H) as (used & q & -> & W).
  apply wire_strip in W. destruct W as (p & W). rewrite E in W. inversion W; subst; [intuition discriminate|]. reflexivity.
Qed.
(** Positions: a sum has those of its constructor's arguments. *)
Theorem C105_sum_number : forall sz layout ss i bs v rest, bytes_ok (i :: bs) -> loose_value sz layout (i :: bs) = Ok (v, rest) ->
  strip layout = RSum ss -> exists name n args, nth_error ss (Z.to_nat i) = Some (name, n, args) /\
  forall k, 0 <= k -> (k < Z.of_nat (List.length args) /\ (exists w, index v (KNum k) = Ok w)) \/
    (Z.of_nat (List.length args) <= k /\ index v (KNum k) = Panic).
Proof.
  intros sz layout ss i bs v rest B H E. destruct (decoded_wire _ _ _ _ _ B H) as (used & q & Eb & W).
  apply wire_strip in W. destruct W as (p & W). rewrite E in W.
  inversion W as [| | | |? ? ? ? X| | | | | | |? ? j nm n args vs b ? N L I W'| | | | |]; subst; [intuition discriminate|].
  injection Eb as -> _. rewrite Nat2Z.id. exists nm, n, args. split; auto. intros k K. unfold index. cbn [index_into]. unfold get.
  rewrite (wires_length _ _ _ _ _ _ _ _ _ W'). destruct (Z.ltb_spec k (Z.of_nat (List.length args))); [left|right; auto].
  split; auto. destruct (nth_error vs (Z.to_nat k)) as [w|] eqn:F; eauto. apply nth_error_None in F.
  rewrite (wires_length _ _ _ _ _ _ _ _ _ W') in F. lia.
Qed.
(** Polymorphic variants, which hold a tuple as well, have none, nor have
    options, records and single values. *)
Definition single (r : rule) : Prop :=
  match r with
  | RUnit | RBool | RChar | RInt | RInt32 | RInt64 | RNativeInt | RFloat | ROption _ | RRecord _ | RPolyvar _ => True
  | _ => False
  end.
Theorem C105_no_number : forall sz layout bs v rest k, bytes_ok bs -> loose_value sz layout bs = Ok (v, rest) ->
  single (strip layout) -> index v (KNum k) = Panic.
Proof.
  intros sz layout bs v rest k B H S. destruct (decoded_wire _ _ _ _ _ B H) as (used & q & -> & W).
  apply wire_strip in W. destruct W as (p & W). destruct (strip layout); cbn [single] in S; try contradiction;
    inversion W; subst; try reflexivity; intuition discriminate.
Qed.
(** Lists and texts have as many as elements. *)
Theorem C105_list : forall sz layout bs v rest, bytes_ok bs -> loose_value sz layout bs = Ok (v, rest) ->
  strip layout = RString \/ (exists r, strip layout = RList r) ->
  exists vs, v = LList vs /\ forall k, 0 <= k -> (k < Z.of_nat (List.length vs) /\ (exists w, index v (KNum k) = Ok w)) \/
    (Z.of_nat (List.length vs) <= k /\ index v (KNum k) = Panic).
Proof.
  intros sz layout bs v rest B H S. destruct (decoded_wire _ _ _ _ _ B H) as (used & q & -> & W).
  apply wire_strip in W. destruct W as (p & W).
  assert (exists vs, v = LList vs) as (vs & ->) by (destruct S as [E|(r & E)]; rewrite E in W; inversion W; subst; eauto; intuition discriminate).
  exists vs. split; auto. intros k K. unfold index. cbn [index_into]. unfold get.
  destruct (Z.ltb_spec k (Z.of_nat (List.length vs))); [left|right; auto].
  split; auto. destruct (nth_error vs (Z.to_nat k)) as [w|] eqn:F; eauto. apply nth_error_None in F. lia.
Qed.
Lemma strip_no_ref : forall r m r', strip r <> RResolved m r'.
Proof. fix IH 1. intros r m r'. destruct r; cbn [strip]; try discriminate. apply IH. Qed.
(** [inner] may be called exactly where the layout has an option. *)
Theorem C105_inner : forall sz layout bs v rest ks r, bytes_ok bs -> loose_value sz layout bs = Ok (v, rest) -> unders layout ks r ->
  (exists r', strip r = ROption r') /\ (exists o, (let* w := index_path v ks in inner w) = Ok o) \/
  ~ (exists r', strip r = ROption r') /\ (let* w := index_path v ks in inner w) = Panic.
Proof.
  intros sz layout bs v rest ks r B H U. destruct (decoded_wire _ _ _ _ _ B H) as (used & q & -> & W).
  destruct (wire_path _ _ _ _ _ _ _ U _ _ _ _ W) as (w & p & b & q' & E & W' & P). rewrite E. cbn [bind]. clear - W'.
  apply wire_strip in W'. destruct W' as (p' & W'). inversion W'; subst;
    try (right; split; [intros (r' & X); congruence|reflexivity]; fail); try (left; split; [eexists; reflexivity|cbn [inner]; eauto]; fail).
  - right. split; [intros (r' & X); rewrite X in H; intuition discriminate|reflexivity].
  - exfalso. eapply strip_no_ref. symmetry. eassumption.
Qed.

(** ** Cases *)
Definition ex_at (ks : list key) : res err value := index_path ex_value ks.
Example C105_ex_decoded : loose_value 200 ex_layout ex_bytes = Ok (ex_value, []).
Proof. pose proof (ex_decodes []) as H. rewrite app_nil_r in H. exact H. Qed.
Example C105_ex_under : unders ex_layout [KName "d"] (RResolved "State_hash" (RCustom [])) /\
  (exists r, under ex_layout (KName "b") r) /\ ~ exists r, under ex_layout (KName "e") r.
Proof.
  split; [|split].
  - econstructor; [|constructor]. unfold ex_layout.
    match goal with |- under (RRecord [?a; ?b; ?c; ?d]) _ _ => change [a; b; c; d] with ([a; b; c] ++ d :: []) end.
    constructor. cbn. intuition discriminate.
  - eexists. unfold ex_layout. match goal with |- under (RRecord [?a; ?b; ?c; ?d]) _ _ => change [a; b; c; d] with ([a] ++ b :: [c; d]) end.
    constructor. cbn. intuition discriminate.
  - intros (r & U). inversion U as [a k r' b N E| |]; subst. unfold ex_layout in E.
    assert (I : In ("e", r) (a ++ ("e", r) :: b)) by (apply in_or_app; right; left; reflexivity).
    rewrite E in I. cbn [In] in I. intuition discriminate.
Qed.
Example C105_ex_index : ex_at [KName "d"; KNum 31] = Ok (LChar 7) /\ ex_at [KName "b"; KNum 1; KNum 0] = Ok (LChar 65) /\
  ex_at [KName "b"; KNum 2] = Panic /\ ex_at [KName "c"; KNum 0] = Panic /\ ex_at [KName "e"] = Panic /\
  inner ex_value = Panic /\ (let* a := ex_at [KName "a"] in inner a) = Ok (Some (LInt 300)).
Proof. repeat split. Qed.
(** a record inside a constructor: the position comes first *)
Definition ex_sum : rule := RResolved "M" (RSum [("A", 0, [RRecord [("x", RInt)]])]).
Example C105_ex_sum : exists v, loose_value 200 ex_sum [0; 5] = Ok (v, []) /\ strip ex_sum = RSum [("A", 0, [RRecord [("x", RInt)]])] /\
  index v (KName "x") = Panic /\ index_path v [KNum 0; KName "x"] = Ok (LInt 5).
Proof. exists (LSum "A" 0 (LTuple [LRecord [("x", LInt 5)]])). repeat split. Qed.
Example C105_ex_polyvar : exists v, loose_value 200 (RPolyvar [inl ("One", 3953222, [RChar])]) [141; 164; 120; 0; 65] = Ok (v, []) /\
  index v (KNum 0) = Panic.
Proof. eexists. split; [vm_compute; reflexivity|reflexivity]. Qed.

Print Assumptions C105_path.
Print Assumptions C105_name.
Print Assumptions C105_sum_name_refuted.
Print Assumptions C105_sum_number.
Print Assumptions C105_no_number.
Print Assumptions C105_list.
Print Assumptions C105_inner.
