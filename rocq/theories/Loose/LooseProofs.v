(** Proofs about the layout-driven decoder. *)
From Coq Require Import ZArith List Bool String Lia ZifyBool ZifyNat.
From Verif Require Import Lib.Res Lib.Bytes BinProt.Prim BinProt.PrimProofs BinProt.PrimSpec
  BinProt.PrimSpecProofs BinProt.FormatSpec BinProt.FormatProps BinProt.AcceptProps
  Loose.Loose Loose.LooseSpec.
Import ListNotations.
Open Scope string_scope.
Open Scope list_scope.
Open Scope Z_scope.
Ltac Zify.zify_post_hook ::= Z.div_mod_to_equations.

Lemma list_max_in : forall l n x, (list_max l <= n)%nat -> In x l -> (x <= n)%nat.
Proof.
  intros l n x H I. apply list_max_le in H. rewrite Forall_forall in H. auto.
Qed.
Lemma depth_in : forall rs n r, (list_max (map depth rs) <= n)%nat -> In r rs -> (depth r <= n)%nat.
Proof. intros rs n r H I. eapply list_max_in; eauto. apply in_map. auto. Qed.
Lemma depth_pos : forall r, (1 <= depth r)%nat.
Proof. destruct r; cbn; lia. Qed.

Section Stack.
  Variable rule_size : Z.
  Variable S : Type.
  Variable read_exact : Z -> S -> res err (list Z * S).
  Local Notation dec := (dec rule_size S read_exact).
  Local Notation loose := (loose rule_size S read_exact).

  (** the result of the recursive decoder as a state with the rules [rest] left *)
  Definition out {A} (rest : list rule) (x : res err (A * (option string * S)))
    : res err (A * state S) :=
    let* (v, t) := x in Ok (v, ((rest, fst t), snd t)).

  Definition agrees (fuel : nat) (d : decoder (option string * S)) (r : rule) : Prop :=
    forall rest p s, loose fuel ((r :: rest, p), s) = out rest (d (p, s)).

  Lemma seq_agrees : forall fuel ds rs, Forall2 (agrees fuel) ds rs -> forall rest p s,
    visit_seq S (loose fuel) (List.length rs) ((rs ++ rest, p), s) = out rest (all ds (p, s)).
  Proof using Type.
    intros fuel ds rs H. induction H as [|d r ds rs A F IH]; intros rest p s; cbn [List.length visit_seq all app].
    - reflexivity.
    - rewrite A. destruct (d (p, s)) as [(v & q & s1)|e|]; cbn [out bind fst snd]; auto.
      rewrite IH. destruct (all ds (q, s1)) as [(vs & t)|e|]; cbn [out bind fst snd]; auto.
  Qed.

  Lemma map_agrees : forall fuel ds rs, Forall2 (agrees fuel) ds rs -> forall names rest p s,
    List.length names = List.length rs ->
    visit_map S (loose fuel) names ((rs ++ rest, p), s) =
      out rest (let* (vs, t) := all ds (p, s) in Ok (combine names vs, t)).
  Proof using Type.
    intros fuel ds rs H. induction H as [|d r ds rs A F IH]; intros names rest p s L; destruct names as [|k names];
      cbn [List.length] in L; try lia; cbn [visit_map all app].
    - reflexivity.
    - rewrite A. destruct (d (p, s)) as [(v & q & s1)|e|]; cbn [out bind fst snd]; auto.
      rewrite IH by lia. destruct (all ds (q, s1)) as [(vs & t)|e|]; cbn [out bind fst snd]; auto.
  Qed.

  Lemma forall2_map : forall fuel rs, (forall r, In r rs -> agrees fuel (dec r) r) ->
    Forall2 (agrees fuel) (map dec rs) rs.
  Proof using Type.
    intros fuel rs H. induction rs; cbn [map]; constructor.
    - apply H. left. auto.
    - apply IHrs. intros r I. apply H. right. auto.
  Qed.
  Lemma forall2_repeat : forall fuel d r n, agrees fuel d r ->
    Forall2 (agrees fuel) (repeat d n) (repeat r n).
  Proof using Type. intros fuel d r n H. induction n; cbn [repeat]; constructor; auto. Qed.

  Lemma out_bind : forall A B rest (x : res err (A * (option string * S)))
    (f : A -> B),
    (let* (v, st) := out rest x in Ok (f v, st)) = out rest (let* (v, t) := x in Ok (f v, t)).
  Proof using Type. intros. destruct x as [(v & t)|e|]; reflexivity. Qed.

  Lemma find_pick : forall ps tag,
    find_tag ps tag = let* x := pick (map (fun p => match p with
        | inl x => inl (fst x, snd x) | inr _ => inr tt end) ps) tag in Ok x.
  Proof using Type.
    clear. intros ps tag. induction ps as [|[((nm, h), args)|r] ps IH]; cbn [find_tag pick map fst snd]; auto.
    destruct (h =? tag); auto.
  Qed.
  Lemma pick_map : forall (A B : Type) (f : A -> B) (ps : list (string * Z * A + rule)) tag,
    pick (map (fun p => match p with
        | inl x => inl (fst x, f (snd x)) | inr _ => inr tt end) ps) tag =
    let* x := pick (map (fun p => match p with
        | inl x => inl (fst x, snd x) | inr _ => inr tt end) ps) tag in Ok (fst x, f (snd x)).
  Proof using Type.
    clear. intros A B f ps tag. induction ps as [|[((nm, h), args)|r] ps IH]; cbn [pick map fst snd]; auto.
    destruct (h =? tag); auto.
  Qed.
  Lemma pick_in : forall (A : Type) (ps : list (string * Z * A + rule)) tag x,
    pick (map (fun p => match p with
        | inl x => inl (fst x, snd x) | inr _ => inr tt end) ps) tag = Ok x -> In (inl x) ps.
  Proof using Type.
    clear. intros A ps tag x. induction ps as [|[((nm, h), args)|r] ps IH]; cbn [pick map fst snd]; intros H; try discriminate.
    destruct (h =? tag); [injection H as <-; left; auto | right; auto].
  Qed.

  Lemma tuple_agrees : forall fuel rs, (forall r, In r rs -> agrees fuel (dec r) r) ->
    agrees (Datatypes.S fuel) (dec (RTuple rs)) (RTuple rs).
  Proof using Type.
    intros fuel rs H rest p s. cbn [Loose.loose next fst snd next_top bind LooseSpec.dec].
    rewrite (seq_agrees _ _ _ (forall2_map _ _ H)). apply out_bind.
  Qed.

  Lemma stack_dec : forall n r fuel, (depth r <= n)%nat -> (n <= fuel)%nat ->
    agrees fuel (dec r) r.
  Proof using Type.
    induction n as [|n IH]; intros r fuel Hd Hf; [pose proof (depth_pos r); lia|].
    destruct fuel as [|fuel]; [lia|].
    assert (IHl : forall rs, (list_max (map depth rs) <= n)%nat -> forall r, In r rs -> agrees fuel (dec r) r).
    { intros rs L x I. apply IH; [|lia]. eapply depth_in; eauto. }
    destruct r; cbn [depth] in Hd;
      try (intros rest p s; cbn [Loose.loose next fst snd next_top bind LooseSpec.dec leaf]; unfold keep;
           cbn [fst snd]; reflexivity);
      try (intros rest p s; cbn [Loose.loose next fst snd next_top bind LooseSpec.dec leaf]; unfold keep;
           cbn [fst snd];
           match goal with |- bind ?x _ = _ => destruct x as [(a & s1)|e|]; reflexivity end).
    - (* option *)
      intros rest p s. cbn [Loose.loose next fst snd next_top bind LooseSpec.dec]. unfold option_of, keep.
      cbn [fst snd]. destruct (bin_read_variant_index S read_exact s) as [(i & s1)|e|]; cbn [bind out]; auto.
      destruct (i =? 0); auto. destruct (i =? 1); auto.
      unfold push. cbn [rev app fst snd]. rewrite (IH r) by lia. apply out_bind.
    - (* record *)
      intros rest p s. cbn [Loose.loose next fst snd next_top bind LooseSpec.dec].
      replace (map (fun f => dec (snd f)) fs) with (map dec (map snd fs)) by (rewrite map_map; reflexivity).
      rewrite (map_agrees fuel (map dec (map snd fs))).
      + rewrite out_bind. f_equal. destruct (all _ _) as [(vs & t)|e|]; reflexivity.
      + apply forall2_map. apply IHl. rewrite map_map. lia.
      + rewrite !map_length. reflexivity.
    - (* tuple *)
      apply tuple_agrees. apply IHl. lia.
    - (* sum *)
      intros rest p s. cbn [Loose.loose next fst snd next_top bind LooseSpec.dec]. unfold sum_of, keep.
      cbn [fst snd]. destruct (bin_read_variant_index S read_exact s) as [(i & s1)|e|]; cbn [bind out]; auto.
      rewrite nth_error_map. destruct (nth_error ss (Z.to_nat i)) as [((nm, ix), args)|] eqn:E; cbn [option_map fst snd]; auto.
      destruct ((0 <=? ix) && (ix <? 256)); auto.
      unfold push. cbn [rev app fst snd].
      assert (D : (list_max (map depth args) <= n - 1)%nat).
      { apply nth_error_In in E.
        apply (list_max_in (map (fun x => list_max (map depth (snd x))) ss) (n - 1)); [lia|].
        apply (in_map (fun x => list_max (map depth (snd x)))) in E. exact E. }
      rewrite (IH (RTuple args)) by (cbn [depth]; lia).
      rewrite out_bind. unfold out. cbn [LooseSpec.dec].
      destruct (all (map dec args) (p, s1)) as [(vs & t)|e|]; reflexivity.
    - (* polyvar *)
      intros rest p s. cbn [Loose.loose next fst snd next_top bind LooseSpec.dec]. unfold polyvar_of, keep.
      cbn [fst snd]. destruct (bin_read_polyvar_tag S read_exact s) as [(tag & s1)|e|]; cbn [bind out]; auto.
      rewrite find_pick, (pick_map _ _ (map dec)).
      destruct (pick _ tag) as [((nm, ix), args)|e|] eqn:E; cbn [bind fst snd]; auto.
      apply pick_in in E.
      unfold push. cbn [rev app fst snd].
      assert (D : (list_max (map depth args) <= n - 1)%nat).
      { apply (list_max_in (map (fun p => match p with
          inl t => list_max (map depth (snd t)) | inr r => depth r end) ps) (n - 1)); [lia|].
        apply (in_map (fun p => match p with
          inl t => list_max (map depth (snd t)) | inr r => depth r end)) in E. exact E. }
      rewrite (IH (RTuple args)) by (cbn [depth]; lia).
      rewrite out_bind. unfold out. cbn [LooseSpec.dec].
      destruct (all (map dec args) (p, s1)) as [(vs & t)|e|]; reflexivity.
    - (* list *)
      intros rest p s. cbn [Loose.loose next fst snd next_top bind LooseSpec.dec]. unfold list_of, keep.
      cbn [fst snd]. destruct (bin_read_nat0 S read_exact R_u64 s) as [(len & s1)|e|]; cbn [bind out]; auto.
      unfold push_n. destruct (len * rule_size <? 2 ^ 63); cbn [bind]; auto. cbn [fst snd].
      rewrite <- (repeat_length r (Z.to_nat len)) at 1.
      rewrite (seq_agrees fuel (repeat (dec r) (Z.to_nat len))).
      + rewrite out_bind. reflexivity.
      + apply forall2_repeat. apply IH; lia.
    - (* reference *)
      intros rest p s. change (loose (Datatypes.S fuel) (r :: rest, Some path, s) = out rest (dec r (Some path, s))).
      apply (IH r (Datatypes.S fuel)); lia.
    - (* custom *)
      intros rest p s. cbn [Loose.loose next fst snd next_top bind LooseSpec.dec]. unfold custom.
      destruct p as [p|]; cbn [bind out fst]; auto.
      destruct (vector_len p) as [len|] eqn:EV.
      + destruct rs as [|r rs]; cbn [map out bind]; auto.
        unfold push, push_n. cbn [rev app fst snd]. destruct (len * rule_size <? 2 ^ 63); cbn [bind]; auto.
        assert (L : Z.to_nat (len + 1) = List.length (repeat r (Z.to_nat len) ++ [RUnit])).
        { rewrite app_length, repeat_length. cbn [List.length].
          unfold vector_len in EV.
          repeat match type of EV with (if ?c then _ else _) = _ => destruct c end;
            try discriminate; injection EV as <-; reflexivity. }
        replace (repeat r (Z.to_nat len) ++ RUnit :: rest) with ((repeat r (Z.to_nat len) ++ [RUnit]) ++ rest)
          by (rewrite <- app_assoc; reflexivity).
        rewrite L. erewrite (seq_agrees fuel (repeat (dec r) (Z.to_nat len) ++ [_])).
        * rewrite out_bind. reflexivity.
        * apply Forall2_app.
          -- apply forall2_repeat. apply IH; [|lia]. cbn [map list_max fold_right] in Hd. lia.
          -- constructor; [|constructor]. apply (IH RUnit fuel); cbn [depth]; lia.
      + destruct (is_big_int p); cbn [out bind]; auto.
        unfold push_n. destruct (32 * rule_size <? 2 ^ 63) eqn:EB; cbn [bind]; auto. cbn [fst snd].
        change 32%nat with (List.length (repeat RChar (Z.to_nat 32))) at 1.
        erewrite (seq_agrees fuel (repeat _ 32)).
        * rewrite out_bind. reflexivity.
        * apply (forall2_repeat fuel _ RChar 32). apply (IH RChar fuel); cbn [depth]; lia.
  Qed.
End Stack.

(** * What the recursive decoder accepts from a byte slice *)
Local Notation sread := slice_read_exact.

Lemma all_app : forall T (a b : list (decoder T)) t,
  all (a ++ b) t = let* (x, t) := all a t in let* (y, t) := all b t in Ok (x ++ y, t).
Proof.
  intros T a b. induction a as [|d a IH]; intros t; cbn [app all bind].
  - destruct (all b t) as [(y & t')|e|]; reflexivity.
  - destruct (d t) as [(v & t1)|e|]; cbn [bind]; auto. rewrite IH.
    destruct (all a t1) as [(x & t2)|e|]; cbn [bind]; auto.
    destruct (all b t2) as [(y & t3)|e|]; cbn [bind app]; auto.
Qed.
Lemma all_length : forall T (ds : list (decoder T)) t vs t',
  all ds t = Ok (vs, t') -> List.length vs = List.length ds.
Proof.
  intros T ds. induction ds as [|d ds IH]; intros t vs t' H; cbn [all] in H.
  - injection H as <- <-. reflexivity.
  - apply bind_ok in H. destruct H as ((v & t1) & _ & H).
    apply bind_ok in H. destruct H as ((ws & t2) & H1 & H2). injection H2 as <- <-.
    cbn [List.length]. f_equal. eauto.
Qed.
Lemma map_repeat : forall A B (f : A -> B) x n, map f (repeat x n) = repeat (f x) n.
Proof. intros. induction n; cbn [repeat map]; f_equal; auto. Qed.

Lemma pick_iff : forall A (ps : list (string * Z * A + rule)) tag nm h args,
  pick (map (fun p => match p with
        | inl x => inl (fst x, snd x) | inr _ => inr tt end) ps) tag = Ok (nm, h, args) <->
  h = tag /\ exists qs rest, ps = qs ++ inl (nm, tag, args) :: rest /\
    forall x, In x qs -> exists y, x = inl y /\ snd (fst y) <> tag.
Proof.
  intros A ps tag nm h args. split.
  - induction ps as [|[((nm', h'), args')|r] ps IH]; cbn [pick map fst snd]; intros H; try discriminate.
    destruct (Z.eqb_spec h' tag).
    + injection H as <- <- <-. subst. split; auto. exists [], ps. split; auto. intros x [].
    + destruct (IH H) as (-> & qs & rest & -> & Q). split; auto.
      exists (inl (nm', h', args') :: qs), rest. split; auto.
      intros x [<-|I]; [exists (nm', h', args'); auto | auto].
  - intros (-> & qs & rest & -> & Q). induction qs as [|x qs IH]; cbn [app pick map fst snd].
    + rewrite Z.eqb_refl. reflexivity.
    + destruct (Q x (or_introl eq_refl)) as (((nm', h'), args') & -> & N). cbn [fst snd] in *.
      destruct (Z.eqb_spec h' tag); [lia|]. apply IH. intros y I. apply Q. right. auto.
Qed.

Lemma nat_form_range : forall bs n, nat_form bs n -> u64 n.
Proof.
  intros bs n F. unfold u64. destruct F as [x Hx|x y Hx Hy|x y z w Hx Hy Hz Hw|x y z w x' y' z' w' Hx Hy Hz Hw Hx' Hy' Hz' Hw'].
  - lia.
  - pose proof (le2_range x y Hx Hy). lia.
  - pose proof (le4_range x y z w Hx Hy Hz Hw). lia.
  - apply le8_range; auto.
Qed.

Lemma bind_eq : forall E A B (x : res E A) (f : A -> res E B) a, x = Ok a -> bind x f = f a.
Proof. intros E A B x f a ->. reflexivity. Qed.

Section Accept.
  Variable rule_size : Z.
  Local Notation dec := (dec rule_size (list Z) sread).
  Local Notation lenient := (lenient rule_size).
  Local Notation lenients := (wires rule_size nat_form int_form (fun w tag => w / 2 = tag)).

  Definition takes (d : decoder (option string * list Z)) (r : rule) : Prop :=
    forall p s v q s', bytes_ok s ->
      (d (p, s) = Ok (v, (q, s')) <-> exists bs, s = bs ++ s' /\ lenient p r v bs q).
  Definition takes_all (ds : list (decoder (option string * list Z))) (rs : list rule) : Prop :=
    forall p s vs q s', bytes_ok s ->
      (all ds (p, s) = Ok (vs, (q, s')) <-> exists bs, s = bs ++ s' /\ lenients p rs vs bs q).

  Lemma takes_seq : forall ds rs, Forall2 takes ds rs -> takes_all ds rs.
  Proof using Type.
    intros ds rs H. induction H as [|d r ds rs A F IH]; intros p s vs q s' Hok; cbn [all].
    - split.
      + intros E. injection E as <- <- <-. exists []. split; auto. constructor.
      + intros (bs & -> & W). inversion W; subst. reflexivity.
    - split.
      + intros E. apply bind_ok in E. destruct E as ((v & q1 & s1) & E1 & E2).
        apply bind_ok in E2. destruct E2 as ((ws & q2 & s2) & E2 & E3). injection E3 as <- <- <-.
        apply A in E1; auto. destruct E1 as (a & -> & W1).
        apply bytes_ok_app in Hok. apply IH in E2; [|apply Hok]. destruct E2 as (b & -> & W2).
        exists (a ++ b). split; [rewrite app_assoc; auto|]. econstructor; eauto.
      + intros (bs & -> & W). inversion W; subst.
        rewrite <- app_assoc in *. apply bytes_ok_app in Hok as Hok'.
        rewrite (proj2 (A p (a ++ b ++ s') v q0 (b ++ s') Hok)); [|eauto]. cbn [bind].
        rewrite (proj2 (IH q0 (b ++ s') vs0 q s' (proj2 Hok'))); [|eauto]. reflexivity.
  Qed.
  Lemma takes_map : forall rs, (forall r, In r rs -> takes (dec r) r) -> takes_all (map dec rs) rs.
  Proof using Type.
    intros rs H. apply takes_seq. induction rs; cbn [map]; constructor.
    - apply H. left. auto.
    - apply IHrs. intros r I. apply H. right. auto.
  Qed.
  Lemma takes_repeat : forall r n, takes (dec r) r -> takes_all (repeat (dec r) n) (repeat r n).
  Proof using Type. intros r n H. apply takes_seq. induction n; cbn [repeat]; constructor; auto. Qed.

  Ltac readb H := let x := fresh "x" in
    apply bind_ok in H; destruct H as ((x & ?) & ? & H).

  Lemma takes_unit : takes (dec RUnit) RUnit.
  Proof using Type.
    intros p s v q s' Hok. cbn [LooseSpec.dec leaf]. unfold keep, bin_read_unit. cbn [fst snd]. split.
    - intros H. apply bind_ok in H. destruct H as ((u & q1 & s1) & H & H1). injection H1 as <- <- <-.
      apply bind_ok in H. destruct H as ((u' & s2) & H & H1). injection H1 as <- <- <-.
      apply bind_ok in H. destruct H as ((b & s3) & H & H1). apply read_u8_ok in H. subst.
      destruct (Z.eqb_spec b 0); [|discriminate]. injection H1 as <- <-. subst.
      exists [0]. split; auto. constructor.
    - intros (bs & -> & W). inversion W; subst; try (intuition discriminate). cbn [app]. rewrite read_u8_cons. reflexivity.
  Qed.
  Lemma takes_char : takes (dec RChar) RChar.
  Proof using Type.
    intros p s v q s' Hok. cbn [LooseSpec.dec leaf]. unfold keep. cbn [fst snd]. split.
    - intros H. apply bind_ok in H. destruct H as ((u & q1 & s1) & H & H1). injection H1 as <- <- <-.
      apply bind_ok in H. destruct H as ((u' & s2) & H & H1). injection H1 as <- <- <-.
      apply read_u8_ok in H. subst. exists [u']. split; auto. constructor. apply bytes_ok_cons in Hok. apply Hok.
    - intros (bs & -> & W). inversion W; subst; try (intuition discriminate). cbn [app]. rewrite read_u8_cons. reflexivity.
  Qed.
  Lemma takes_bool : takes (dec RBool) RBool.
  Proof using Type.
    intros p s v q s' Hok. cbn [LooseSpec.dec leaf]. unfold keep, bin_read_bool. cbn [fst snd]. split.
    - intros H. apply bind_ok in H. destruct H as ((u & q1 & s1) & H & H1). injection H1 as <- <- <-.
      apply bind_ok in H. destruct H as ((u' & s2) & H & H1). injection H1 as <- <- <-.
      apply bind_ok in H. destruct H as ((b & s3) & H & H1). apply read_u8_ok in H. subst.
      destruct (Z.eqb_spec b 0); [|destruct (Z.eqb_spec b 1); [|discriminate]]; injection H1 as <- <-; subst.
      + exists [0]. split; auto. constructor.
      + exists [1]. split; auto. constructor.
    - intros (bs & -> & W). inversion W; subst; try (intuition discriminate); cbn [app]; rewrite read_u8_cons; reflexivity.
  Qed.
  Lemma takes_int : forall r, r = RInt \/ r = RInt32 \/ r = RInt64 \/ r = RNativeInt -> takes (dec r) r.
  Proof using Type.
    intros r Hr p s v q s' Hok.
    replace (dec r (p, s)) with (let* (z, t) := keep (list Z) _ (bin_read_integer _ sread R_i64) (p, s) in Ok (LInt z, t))
      by (destruct Hr as [->|[->|[->| ->]]]; reflexivity).
    unfold keep. cbn [fst snd]. split.
    - intros H. apply bind_ok in H. destruct H as ((u & q1 & s1) & H & H1). injection H1 as <- <- <-.
      apply bind_ok in H. destruct H as ((u' & s2) & H & H1). injection H1 as <- <- <-.
      apply read_integer_iff in H; auto. destruct H as (pre & -> & I). exists pre. split; auto. constructor; auto.
    - intros (bs & -> & W). inversion W; subst; try (intuition discriminate).
      rewrite (proj2 (read_integer_iff (bs ++ s') z s' Hok)); [reflexivity|eauto].
  Qed.
  Lemma takes_float : takes (dec RFloat) RFloat.
  Proof using Type.
    intros p s v q s' Hok. cbn [LooseSpec.dec leaf]. unfold keep. cbn [fst snd]. split.
    - intros H. apply bind_ok in H. destruct H as ((u & q1 & s1) & H & H1). injection H1 as <- <- <-.
      apply bind_ok in H. destruct H as ((u' & s2) & H & H1). injection H1 as <- <- <-.
      apply read_dword in H; auto. destruct H as (a & b & c & d & e & f & g & h & -> & H). decompose [and] H. subst.
      eexists [a; b; c; d; e; f; g; h]. split; auto. constructor; auto.
    - intros (bs & -> & W). inversion W; subst; try (intuition discriminate). cbn [app].
      rewrite read_ule_app8. reflexivity.
  Qed.
  Lemma read_bytes_iff : forall s l s', bytes_ok s ->
    (bin_read_bytes _ sread s = Ok (l, s') <->
     exists n, s = n ++ l ++ s' /\ nat_form n (Z.of_nat (List.length l)) /\ Z.of_nat (List.length l) < 2 ^ 63).
  Proof using Type.
    intros s l s' Hok. unfold bin_read_bytes. split.
    - intros H. apply bind_ok in H. destruct H as ((n & s1) & H1 & H2).
      apply read_nat0_iff in H1; auto. destruct H1 as (pre & -> & NF).
      apply bind_ok in H2. destruct H2 as ([] & H2 & H3). unfold alloc in H2.
      destruct (Z.ltb_spec n (2 ^ 63)); [|discriminate].
      assert (0 <= n).
      { apply nat_form_range in NF. unfold u64 in NF. lia. }
      apply sread_ok in H3; auto. destruct H3 as (E & L). subst.
      exists pre. auto.
    - intros (n & -> & NF & B).
      rewrite (proj2 (read_nat0_iff _ (Z.of_nat (List.length l)) (l ++ s') Hok)); [|eauto]. cbn [bind].
      unfold alloc. destruct (Z.ltb_spec (Z.of_nat (List.length l)) (2 ^ 63)); [|lia]. cbn [bind].
      apply sread_app. reflexivity.
  Qed.
  Lemma takes_string : takes (dec RString) RString.
  Proof using Type.
    intros p s v q s' Hok. cbn [LooseSpec.dec leaf]. unfold keep. cbn [fst snd]. split.
    - intros H. apply bind_ok in H. destruct H as ((u & q1 & s1) & H & H1). injection H1 as <- <- <-.
      apply bind_ok in H. destruct H as ((u' & s2) & H & H1). injection H1 as <- <- <-.
      apply read_bytes_iff in H; auto. destruct H as (n & -> & NF & B).
      exists (n ++ u'). split; [rewrite app_assoc; auto|]. constructor; auto.
      apply bytes_ok_app in Hok. destruct Hok as (_ & Hok). apply bytes_ok_app in Hok. apply Hok.
    - intros (bs & -> & W). inversion W; subst; try (intuition discriminate).
      rewrite (proj2 (read_bytes_iff ((n ++ l) ++ s') l s' Hok)); [reflexivity|].
      exists n. rewrite <- app_assoc. auto.
  Qed.

  Lemma dec_takes : forall n r, (depth r <= n)%nat -> takes (dec r) r.
  Proof using Type.
    induction n as [|n IH]; intros r Hd; [pose proof (depth_pos r); lia|].
    assert (IHl : forall rs, (list_max (map depth rs) <= n)%nat -> takes_all (map dec rs) rs).
    { intros rs L. apply takes_map. intros x I. apply IH. eapply depth_in; eauto. }
    destruct r; cbn [depth] in Hd;
      try (intros p s v q s' Hok; cbn [LooseSpec.dec leaf]; split;
           [discriminate | intros (bs & -> & W); inversion W; intuition discriminate]);
      try (apply takes_int; tauto).
    - apply takes_unit.
    - apply takes_bool.
    - apply takes_string.
    - apply takes_char.
    - apply takes_float.
    - (* option *)
      intros p s v q s' Hok. cbn [LooseSpec.dec]. unfold option_of, keep, bin_read_variant_index. cbn [fst snd]. split.
      + intros H. apply bind_ok in H. destruct H as ((u & q1 & s1) & H & H1).
        apply bind_ok in H. destruct H as ((u' & s2) & H & H2). injection H2 as <- <- <-.
        apply read_u8_ok in H. subst. destruct (Z.eqb_spec u' 0).
        * injection H1 as <- <- <-. subst. exists [0]. split; auto. constructor.
        * destruct (Z.eqb_spec u' 1); [|discriminate]. subst.
          apply bind_ok in H1. destruct H1 as ((w & q2 & s3) & H1 & H2). injection H2 as <- <- <-.
          apply (IH r) in H1; [|lia|apply bytes_ok_cons in Hok; apply Hok].
          destruct H1 as (bs & -> & W). exists (1 :: bs). split; auto. constructor. auto.
      + intros (bs & -> & W). inversion W; subst; try (intuition discriminate); cbn [app]; rewrite read_u8_cons; cbn [bind].
        * reflexivity.
        * cbn [app] in Hok. apply bytes_ok_cons in Hok.
          cbn [Z.eqb]. rewrite (proj2 (IH r ltac:(lia) p (bs0 ++ s') v0 q s' (proj2 Hok))); eauto.
    - (* record *)
      intros p s v q s' Hok. cbn [LooseSpec.dec].
      replace (map (fun f => dec (snd f)) fs) with (map dec (map snd fs)) by (rewrite map_map; reflexivity).
      assert (T : takes_all (map dec (map snd fs)) (map snd fs)) by (apply IHl; rewrite map_map; lia). split.
      + intros H. apply bind_ok in H. destruct H as ((vs & q1 & s1) & H & H1). injection H1 as <- <- <-.
        apply T in H; auto. destruct H as (bs & -> & W). exists bs. split; auto. constructor. auto.
      + intros (bs & -> & W). inversion W; subst; try (intuition discriminate).
        rewrite (proj2 (T p (bs ++ s') vs q s' Hok)); eauto.
    - (* tuple *)
      intros p s v q s' Hok. cbn [LooseSpec.dec].
      assert (T : takes_all (map dec rs) rs) by (apply IHl; lia). split.
      + intros H. apply bind_ok in H. destruct H as ((vs & q1 & s1) & H & H1). injection H1 as <- <- <-.
        apply T in H; auto. destruct H as (bs & -> & W). exists bs. split; auto. constructor. auto.
      + intros (bs & -> & W). inversion W; subst; try (intuition discriminate).
        rewrite (proj2 (T p (bs ++ s') vs q s' Hok)); eauto.
    - (* sum *)
      intros p s v q s' Hok. cbn [LooseSpec.dec]. unfold sum_of, keep, bin_read_variant_index. cbn [fst snd].
      assert (T : forall i nm ix args, nth_error ss i = Some (nm, ix, args) -> takes_all (map dec args) args).
      { intros i nm ix args E. apply IHl. apply nth_error_In in E.
        apply (list_max_in (map (fun x => list_max (map depth (snd x))) ss) n); [lia|].
        apply (in_map (fun x => list_max (map depth (snd x)))) in E. exact E. }
      split.
      + intros H. apply bind_ok in H. destruct H as ((u & q1 & s1) & H & H1).
        apply bind_ok in H. destruct H as ((u' & s2) & H & H2). injection H2 as <- <- <-.
        apply read_u8_ok in H. subst. apply bytes_ok_cons in Hok. destruct Hok as (Hu & Hok). unfold is_byte in Hu.
        rewrite nth_error_map in H1.
        destruct (nth_error ss (Z.to_nat u')) as [((nm, ix), args)|] eqn:E; cbn [option_map fst snd] in H1; [|discriminate].
        destruct ((0 <=? ix) && (ix <? 256)) eqn:EI; [|discriminate].
        apply bind_ok in H1. destruct H1 as ((vs & q2 & s3) & H1 & H2). injection H2 as <- <- <-.
        apply (T _ _ _ _ E) in H1; auto. destruct H1 as (bs & -> & W).
        exists (u' :: bs). split; auto. replace u' with (Z.of_nat (Z.to_nat u')) at 1 by lia.
        econstructor; eauto; [lia|]. unfold is_byte. lia.
      + intros (bs & -> & W). inversion W; subst; try (intuition discriminate). cbn [app]. rewrite read_u8_cons. cbn [bind].
        match goal with H : nth_error ss _ = Some _ |- _ => rename H into EN end.
        match goal with H : is_byte index |- _ => rename H into HI end.
        rewrite Nat2Z.id, nth_error_map, EN. cbn [option_map fst snd].
        unfold is_byte in HI. replace ((0 <=? index) && (index <? 256)) with true by lia.
        cbn [app] in Hok. apply bytes_ok_cons in Hok.
        rewrite (proj2 (T _ _ _ _ EN p (bs0 ++ s') vs q s' (proj2 Hok))); eauto.
    - (* polyvar *)
      intros p s v q s' Hok. cbn [LooseSpec.dec]. unfold polyvar_of, keep, bin_read_polyvar_tag. cbn [fst snd].
      assert (T : forall x args, In (inl (x, args)) ps -> takes_all (map dec args) args).
      { intros x args E. apply IHl.
        apply (list_max_in (map (fun p => match p with
          inl t => list_max (map depth (snd t)) | inr r => depth r end) ps) n); [lia|].
        apply (in_map (fun p => match p with
          inl t => list_max (map depth (snd t)) | inr r => depth r end)) in E. exact E. }
      split.
      + intros H. apply bind_ok in H. destruct H as ((u & q1 & s1) & H & H1).
        apply bind_ok in H. destruct H as ((u' & s2) & H & H2). injection H2 as <- <- <-.
        apply bind_ok in H. destruct H as ((w & s3) & H & H2). injection H2 as <- <-.
        apply read_word in H; auto. destruct H as (a & b & c & d & -> & Ha & Hb & Hc & Hd' & ->).
        rewrite Z.shiftr_div_pow2 in H1 by lia. change (2 ^ 1) with 2 in H1.
        rewrite (pick_map _ _ (map dec)) in H1.
        destruct (pick _ (le4 a b c d / 2)) as [((nm, ix), args)|e|] eqn:E; cbn [bind fst snd] in H1; try discriminate.
        apply pick_iff in E. destruct E as (-> & qs & rest & EP & Q).
        apply bind_ok in H1. destruct H1 as ((vs & q2 & s4) & H1 & H2). injection H2 as <- <- <-.
        assert (I : In (inl (nm, le4 a b c d / 2, args)) ps) by (subst ps; apply in_elt).
        apply (T _ _ I) in H1.
        2:{ do 4 (apply bytes_ok_cons in Hok; destruct Hok as (_ & Hok)). auto. }
        destruct H1 as (bs & -> & W). exists (a :: b :: c :: d :: bs). split; auto.
        econstructor; eauto.
      + intros (bs & -> & W). inversion W; subst; try (intuition discriminate). cbn [app].
        rewrite read_ule_app4. cbn [bind fst snd].
        rewrite Z.shiftr_div_pow2 by lia. change (2 ^ 1) with 2.
        rewrite (pick_map _ _ (map dec)).
        rewrite (proj2 (pick_iff _ _ (le4 a b c d / 2) name (le4 a b c d / 2) args)).
        2:{ split; auto. exists qs, rest. split; auto. }
        cbn [bind fst snd]. cbn [app] in Hok.
        do 4 (apply bytes_ok_cons in Hok; destruct Hok as (_ & Hok)).
        rewrite (proj2 (T _ _ (in_elt _ _ _) p (bs0 ++ s') vs q s' Hok)); eauto.
    - (* list *)
      intros p s v q s' Hok. cbn [LooseSpec.dec]. unfold list_of, keep. cbn [fst snd]. split.
      + intros H. apply bind_ok in H. destruct H as ((u & q1 & s1) & H & H1).
        apply bind_ok in H. destruct H as ((u' & s2) & H & H2). injection H2 as <- <- <-.
        apply read_nat0_iff in H; auto. destruct H as (pre & -> & NF).
        destruct (Z.ltb_spec (u' * rule_size) (2 ^ 63)); [|discriminate].
        apply bind_ok in H1. destruct H1 as ((vs & q2 & s3) & H1 & H2). injection H2 as <- <- <-.
        pose proof (all_length _ _ _ _ _ H1) as L. rewrite repeat_length in L.
        apply takes_repeat in H1; [|apply IH; lia|apply bytes_ok_app in Hok; apply Hok].
        destruct H1 as (bs & -> & W). exists (pre ++ bs). split; [rewrite app_assoc; auto|].
        pose proof (nat_form_range _ _ NF) as R. unfold u64 in R.
        assert (LZ : Z.of_nat (List.length vs) = u') by lia.
        constructor; rewrite ?LZ; auto. rewrite L. auto.
      + intros (bs & -> & W). inversion W; subst; try (intuition discriminate).
        rewrite <- app_assoc in *.
        rewrite (proj2 (read_nat0_iff _ (Z.of_nat (List.length vs)) (bs0 ++ s') Hok)); [|eauto]. cbn [bind fst snd].
        destruct (Z.ltb_spec (Z.of_nat (List.length vs) * rule_size) (2 ^ 63)); [|lia].
        apply bytes_ok_app in Hok. rewrite Nat2Z.id.
        assert (G : all (repeat (dec r) (List.length vs)) (p, bs0 ++ s') = Ok (vs, (q, s'))).
        { apply (takes_repeat r (List.length vs)); [apply IH; lia|apply Hok|eauto]. }
        exact (bind_eq _ _ _ _ _ _ G).
    - (* reference *)
      intros p s v q s' Hok. cbn [LooseSpec.dec snd]. rewrite (IH r ltac:(lia) (Some path) s v q s' Hok). split.
      + intros (bs & -> & W). exists bs. split; auto. constructor. auto.
      + intros (bs & -> & W). inversion W; subst; try (intuition discriminate). eauto.
    - (* custom *)
      intros p s v q s' Hok. cbn [LooseSpec.dec]. unfold custom. cbn [fst].
      destruct p as [m|].
      2:{ split; [discriminate|]. intros (bs & -> & W); inversion W; intuition discriminate. }
      destruct (vector_len m) as [len|] eqn:EV.
      + assert (NB : is_big_int m = false).
        { unfold vector_len in EV.
          repeat match type of EV with (if ?c then _ else _) = _ => destruct c eqn:? end;
            try discriminate;
            repeat match goal with H : (_ || _) = true |- _ => apply orb_true_iff in H; destruct H end;
            match goal with H : String.eqb m _ = true |- _ => apply String.eqb_eq in H; subst m end; reflexivity. }
        assert (PL : 0 <= len).
        { unfold vector_len in EV.
          repeat match type of EV with (if ?c then _ else _) = _ => destruct c end; try discriminate; injection EV as <-; lia. }
        destruct rs as [|r rs]; cbn [map].
        { split; [discriminate|]. intros (bs & -> & W); inversion W; subst; try (intuition discriminate). congruence. }
        assert (TR : takes (dec r) r) by (apply IH; cbn [map list_max fold_right] in Hd; lia).
        pose proof (takes_repeat r (Z.to_nat len) TR) as TA. split.
        * intros H. destruct (Z.ltb_spec (len * rule_size) (2 ^ 63)); [|discriminate].
          apply bind_ok in H. destruct H as ((ws & q1 & s1) & H & H1). injection H1 as <- <- <-.
          rewrite all_app in H. apply bind_ok in H. destruct H as ((vs & q2 & s2) & H1 & H).
          apply bind_ok in H. destruct H as ((us & q3 & s3) & H2 & H). injection H as <- <- <-.
          pose proof (all_length _ _ _ _ _ H1) as L. rewrite repeat_length in L.
          apply TA in H1; auto. destruct H1 as (bs & -> & W).
          cbn [all] in H2. apply bind_ok in H2. destruct H2 as ((u & q4 & s4) & H2 & H3). injection H3 as <- <- <-.
          apply bytes_ok_app in Hok.
          apply (takes_unit q2 s2 u q4 s4 (proj2 Hok)) in H2. destruct H2 as (z & -> & WU).
          inversion WU; subst; try (intuition discriminate).
          exists (bs ++ [0]). split; [rewrite <- app_assoc; auto|].
          apply W_vector with (n := Z.to_nat len); rewrite ?Z2Nat.id; auto.
        * intros (bs & -> & W). inversion W; subst; try (intuition discriminate); [|congruence].
          match goal with H : vector_len m = Some (Z.of_nat _) |- _ => rewrite EV in H; injection H as -> end. rewrite Nat2Z.id in *.
          destruct (Z.ltb_spec (Z.of_nat n0 * rule_size) (2 ^ 63)); [|lia].
          rewrite <- app_assoc in *.
          assert (G1 : all (repeat (dec r) n0) (Some m, bs0 ++ [0] ++ s') = Ok (vs, (q, [0] ++ s'))).
          { apply TA; auto. eauto. }
          apply bytes_ok_app in Hok.
          assert (G2 : dec RUnit (q, [0] ++ s') = Ok (LUnit, (q, s'))).
          { apply takes_unit; [apply Hok|]. exists [0]. split; auto. constructor. }
          assert (G : all (repeat (dec r) n0 ++ [dec RUnit]) (Some m, bs0 ++ [0] ++ s') = Ok (vs ++ [LUnit], (q, s'))).
          { rewrite all_app. rewrite (bind_eq _ _ _ _ _ _ G1). cbn [all]. rewrite G2. reflexivity. }
          exact (bind_eq _ _ _ _ _ _ G).
      + destruct (is_big_int m) eqn:EB.
        2:{ split; [discriminate|]. intros (bs & -> & W); inversion W; subst; try (intuition discriminate); congruence. }
        pose proof (takes_repeat RChar 32 takes_char) as TA.
        assert (CH : forall l p q, wires rule_size nat_form int_form (fun w tag => w / 2 = tag) p (repeat RChar (List.length l)) (map LChar l) l q <->
                       bytes_ok l /\ p = q).
        { induction l as [|c l IHl']; intros p q0; cbn [List.length repeat map].
          - split; [intros W; inversion W; subst; split; auto; constructor | intros (_ & ->); constructor].
          - split.
            + intros W. inversion W; subst.
              match goal with H : wire _ _ _ _ _ RChar _ _ _ |- _ => inversion H; subst; try (intuition discriminate) end.
              match goal with H : [?x] ++ ?y = ?x' :: ?y' |- _ => injection H as <- end.
              match goal with H : wires _ _ _ _ _ _ _ _ _ |- _ => apply IHl' in H; destruct H as (HB & <-) end.
              split; auto. apply bytes_ok_cons. auto.
            + intros (HB & <-). apply bytes_ok_cons in HB. destruct HB as (HB1 & HB2).
              change (c :: l) with ([c] ++ l). econstructor.
              * constructor. auto.
              * apply IHl'. auto. }
        assert (CV : forall k p vs bs q, wires rule_size nat_form int_form (fun w tag => w / 2 = tag) p (repeat RChar k) vs bs q ->
                       List.length bs = k /\ vs = map LChar bs /\ p = q /\ bytes_ok bs).
        { induction k as [|k IHk]; intros p vs bs q0 W; cbn [repeat] in W; inversion W; subst.
          - repeat split; auto. constructor.
          - match goal with H : wire _ _ _ _ _ RChar _ _ _ |- _ => inversion H; subst; try (intuition discriminate) end.
            match goal with H : wires _ _ _ _ _ _ _ _ _ |- _ => apply IHk in H; destruct H as (HL & -> & <- & HB) end.
            cbn [app List.length map]. repeat split; auto. apply bytes_ok_cons. auto. }
        split.
        * intros H. destruct (Z.ltb_spec (32 * rule_size) (2 ^ 63)); [|discriminate].
          apply bind_ok in H. destruct H as ((ws & q1 & s1) & H & H1). injection H1 as <- <- <-.
          apply (TA (Some m) s ws q1 s1 Hok) in H. destruct H as (bs & -> & W).
          apply CV in W. destruct W as (L & -> & <- & HB). exists bs. split; auto. constructor; auto.
        * intros (bs & -> & W). inversion W; subst; try (intuition discriminate); [congruence|].
          destruct (Z.ltb_spec (32 * rule_size) (2 ^ 63)); [|lia].
          assert (G : all (repeat (dec RChar) 32) (Some m, bs ++ s') = Ok (map LChar bs, (Some m, s'))).
          { apply TA; auto. exists bs. split; auto.
            match goal with H : List.length bs = 32%nat |- _ => rewrite <- H end. apply CH. auto. }
          exact (bind_eq _ _ _ _ _ _ G).
  Qed.
End Accept.
