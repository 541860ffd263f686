(** Further facts about the layout-driven decoder: independence of the byte
    source, truncation, freedom from panics, scoping of module paths. *)
From Coq Require Import ZArith List Bool String Lia ZifyBool ZifyNat.
From Verif Require Import Lib.Res Lib.Bytes BinProt.Prim BinProt.PrimProofs BinProt.PrimSpec
  BinProt.PrimSpecProofs BinProt.Codec BinProt.CodecProofs BinProt.FormatSpec
  Loose.Loose Loose.LooseSpec Loose.LooseProofs.
Import ListNotations.
Open Scope string_scope.
Open Scope list_scope.
Open Scope Z_scope.
Ltac Zify.zify_post_hook ::= Z.div_mod_to_equations.

(** * Simulation between two byte sources *)
Section Sim.
  Variable sz : Z.
  Variables S1 S2 : Type.
  Variable rd1 : Z -> S1 -> res err (list Z * S1).
  Variable rd2 : Z -> S2 -> res err (list Z * S2).
  Variable R : S1 -> S2 -> Prop.
  Variable tot : Prop.
  Hypothesis Hrd : forall n s1 s2, 0 <= n -> R s1 s2 -> rel S1 S2 R tot (rd1 n s1) (rd2 n s2).

  Definition RP (t1 : option string * S1) (t2 : option string * S2) : Prop :=
    fst t1 = fst t2 /\ R (snd t1) (snd t2).
  Definition relP {A} := @rel (option string * S1) (option string * S2) RP tot A.
  Definition sims (d1 : decoder (option string * S1)) (d2 : decoder (option string * S2)) : Prop :=
    forall t1 t2, RP t1 t2 -> relP (d1 t1) (d2 t2).

  Lemma sim_keep : forall A (f : S1 -> res err (A * S1)) (g : S2 -> res err (A * S2)),
    (forall s1 s2, R s1 s2 -> rel S1 S2 R tot (f s1) (g s2)) ->
    forall t1 t2, RP t1 t2 -> relP (keep S1 A f t1) (keep S2 A g t2).
  Proof using Type.
    intros A f g H (p1 & s1) (p2 & s2) (E & HR). cbn [fst snd] in *. subst p2. unfold keep. cbn [fst snd].
    specialize (H s1 s2 HR). destruct (f s1) as [(a & s1')|e|]; cbn [rel bind] in *.
    - destruct H as (s2' & -> & HR'). exists (p1, s2'). split; auto. split; auto.
    - intros T. rewrite (H T). auto.
    - unfold relP, rel. rewrite H. auto.
  Qed.
  Lemma sim_all : forall ds1 ds2, Forall2 sims ds1 ds2 -> forall t1 t2, RP t1 t2 ->
    relP (all ds1 t1) (all ds2 t2).
  Proof using Type.
    intros ds1 ds2 H. induction H as [|d1 d2 ds1 ds2 D F IH]; intros t1 t2 HR; cbn [all].
    - apply rel_ok. auto.
    - eapply rel_bind; [apply D; auto|]. intros v u1 u2 HR1.
      eapply rel_bind; [apply IH; auto|]. intros vs w1 w2 HR2. apply rel_ok; auto.
  Qed.
  Lemma sim_map : forall A (f : A -> decoder (option string * S1)) (g : A -> decoder (option string * S2)) l,
    (forall x, In x l -> sims (f x) (g x)) -> Forall2 sims (map f l) (map g l).
  Proof using Type.
    intros A f g l H. induction l; cbn [map]; constructor.
    - apply H. left. auto.
    - apply IHl. intros x I. apply H. right. auto.
  Qed.
  Lemma sim_rep : forall d1 d2 n, sims d1 d2 -> Forall2 sims (repeat d1 n) (repeat d2 n).
  Proof using Type. intros d1 d2 n H. induction n; cbn [repeat]; constructor; auto. Qed.

  Lemma sim_dec : forall n r, (depth r <= n)%nat -> sims (dec sz S1 rd1 r) (dec sz S2 rd2 r).
  Proof using Hrd.
    induction n as [|n IH]; intros r Hd; [pose proof (depth_pos r); lia|].
    assert (IHl : forall rs, (list_max (map depth rs) <= n)%nat ->
      Forall2 sims (map (dec sz S1 rd1) rs) (map (dec sz S2 rd2) rs)).
    { intros rs L. apply sim_map. intros x I. apply IH. eapply depth_in; eauto. }
    assert (Kunit : sims (dec sz S1 rd1 RUnit) (dec sz S2 rd2 RUnit)).
    { intros t1 t2 HR. cbn [dec leaf]. eapply rel_bind; [eapply sim_keep; eauto; intros; apply sim_unit; auto|].
      intros; apply rel_ok; auto. }
    assert (Kchar : sims (dec sz S1 rd1 RChar) (dec sz S2 rd2 RChar)).
    { intros t1 t2 HR. cbn [dec leaf]. eapply rel_bind; [eapply sim_keep; eauto; intros; apply sim_u8; auto|].
      intros; apply rel_ok; auto. }
    destruct r; cbn [depth] in Hd; intros t1 t2 HR; cbn [dec leaf];
      try (unfold relP, rel; auto; fail);
      try (eapply rel_bind; [eapply sim_keep; eauto; intros;
           first [ apply sim_unit | apply sim_bool | apply sim_bytes | apply sim_integer
              | apply sim_ule; try lia | apply sim_u8 ]; auto
           | intros; apply rel_ok; auto ]; fail).
    - (* option *)
      unfold option_of. eapply rel_bind; [eapply sim_keep; eauto; intros; apply sim_u8; auto|].
      intros i u1 u2 HR1. destruct (i =? 0); [apply rel_ok; auto|]. destruct (i =? 1); [|apply rel_err].
      eapply rel_bind; [apply IH; auto; lia|]. intros; apply rel_ok; auto.
    - (* record *)
      eapply rel_bind; [|intros; apply rel_ok; auto]. apply sim_all; auto. apply sim_map.
      intros x I. apply IH. apply (depth_in (map snd fs)); [rewrite map_map; lia|apply in_map; auto].
    - (* tuple *)
      eapply rel_bind; [|intros; apply rel_ok; auto]. apply sim_all; auto. apply IHl. lia.
    - (* sum *)
      unfold sum_of. eapply rel_bind; [eapply sim_keep; eauto; intros; apply sim_u8; auto|].
      intros i u1 u2 HR1. rewrite !nth_error_map.
      destruct (nth_error ss (Z.to_nat i)) as [((nm, ix), args)|] eqn:E; cbn [option_map fst snd]; [|reflexivity].
      destruct ((0 <=? ix) && (ix <? 256)); [|reflexivity].
      eapply rel_bind; [|intros; apply rel_ok; auto]. apply sim_all; auto. apply IHl.
      apply nth_error_In in E.
      apply (list_max_in (map (fun x => list_max (map depth (snd x))) ss) n); [lia|].
      apply (in_map (fun x => list_max (map depth (snd x)))) in E. exact E.
    - (* polyvar *)
      unfold polyvar_of. eapply rel_bind; [eapply sim_keep; eauto; intros; apply sim_tag; auto|].
      intros i u1 u2 HR1.
      rewrite (pick_map _ _ (map (dec sz S1 rd1))), (pick_map _ _ (map (dec sz S2 rd2))).
      destruct (pick _ i) as [((nm, ix), args)|e|] eqn:E; cbn [bind fst snd]; [|apply rel_err|reflexivity].
      apply pick_in in E.
      eapply rel_bind; [|intros; apply rel_ok; auto]. apply sim_all; auto. apply IHl.
      apply (list_max_in (map (fun p => match p with
          inl t => list_max (map depth (snd t)) | inr r => depth r end) ps) n); [lia|].
      apply (in_map (fun p => match p with
          inl t => list_max (map depth (snd t)) | inr r => depth r end)) in E. exact E.
    - (* list *)
      unfold list_of. eapply rel_bind; [eapply sim_keep; eauto; intros; apply sim_nat0; auto|].
      intros i u1 u2 HR1. destruct (i * sz <? 2 ^ 63); [|reflexivity].
      eapply rel_bind; [|intros; apply rel_ok; auto]. apply sim_all; auto. apply sim_rep. apply IH. lia.
    - (* reference *)
      apply IH; [lia|]. destruct HR. split; auto.
    - (* custom *)
      unfold custom. destruct HR as (E & HR'). rewrite <- E. assert (HR : RP t1 t2) by (split; auto).
      destruct (fst t1) as [m|]; [|apply rel_err].
      destruct (vector_len m) as [len|].
      + destruct rs as [|r rs]; cbn [map]; [reflexivity|].
        destruct (len * sz <? 2 ^ 63); [|reflexivity].
        eapply rel_bind; [|intros; apply rel_ok; auto]. apply sim_all; auto.
        apply Forall2_app; [|constructor; [|constructor]; exact Kunit].
        apply sim_rep. apply IH. cbn [map list_max fold_right] in Hd. lia.
      + destruct (is_big_int m); [|apply rel_err].
        destruct (32 * sz <? 2 ^ 63); [|reflexivity].
        eapply rel_bind; [|intros; apply rel_ok; auto]. apply sim_all; auto. apply sim_rep. exact Kchar.
  Qed.
End Sim.

Local Notation sread := slice_read_exact.

(** more input does not change a completed reading or a panic *)
Lemma dec_mono : forall sz r p s x,
  match dec sz (list Z) sread r (p, s) with
  | Ok (v, (q, s')) => dec sz (list Z) sread r (p, s ++ x) = Ok (v, (q, s' ++ x))
  | Err _ => True
  | Panic => dec sz (list Z) sread r (p, s ++ x) = Panic
  end.
Proof.
  intros sz r p s x.
  pose proof (sim_dec sz _ _ sread sread (fun a b => b = a ++ x) False (sread_mono x) (depth r) r (le_n _)
    (p, s) (p, s ++ x) (conj eq_refl eq_refl)) as H.
  unfold relP, rel, RP in H. destruct (dec sz (list Z) sread r (p, s)) as [(v & q & s')|e|]; auto.
  destruct H as ((q2 & s2) & H & E1 & E2). cbn [fst snd] in *. subst. auto.
Qed.

(** [loose_value] is the recursive decoder from an empty path *)
Lemma loose_dec : forall sz layout bs,
  loose_value sz layout bs = let* (v, t) := dec sz (list Z) sread layout (None, bs) in Ok (v, snd t).
Proof.
  intros sz layout bs. unfold loose_value, loose_state.
  rewrite (stack_dec sz (list Z) sread (depth layout) layout (depth layout)) by lia.
  unfold out. destruct (dec sz (list Z) sread layout (None, bs)) as [(v & t)|e|]; reflexivity.
Qed.

(** * Scoping *)
Section Scope.
  Variable sz : Z.
  Variable S : Type.
  Variable rd : Z -> S -> res err (list Z * S).
  Definition strip {A} (x : res err (A * (option string * S))) : res err (A * S) :=
    let* (v, t) := x in Ok (v, snd t).
  Definition same A (f : S -> res err (A * S)) := f.

  Lemma strip_bind : forall A B (x : res err (A * (option string * S))) y
    (f : A * (option string * S) -> res err (B * (option string * S))) g,
    strip x = y -> (forall v t, strip (f (v, t)) = g (v, snd t)) ->
    strip (bind x f) = bind y g.
  Proof using Type.
    intros A B x y f g <- H. destruct x as [(v & t)|e|]; cbn [bind strip]; auto.
  Qed.
  Lemma strip_keep : forall A (f : S -> res err (A * S)) t, strip (keep S A f t) = f (snd t).
  Proof using Type.
    intros A f (p & s). unfold keep, strip. cbn [fst snd]. destruct (f s) as [(a & s')|e|]; reflexivity.
  Qed.
  Definition scoped (d : decoder (option string * S)) (d' : decoder S) : Prop :=
    forall t, strip (d t) = d' (snd t).
  Lemma strip_all : forall ds ds', Forall2 scoped ds ds' -> forall t, strip (all ds t) = all ds' (snd t).
  Proof using Type.
    intros ds ds' H. induction H as [|d d' ds ds' D F IH]; intros t; cbn [all]; auto.
    eapply strip_bind; [apply D|]. intros v t1. eapply strip_bind; [apply IH|]. reflexivity.
  Qed.
  Lemma scoped_map : forall A (f : A -> decoder (option string * S)) (g : A -> decoder S) l,
    (forall x, In x l -> scoped (f x) (g x)) -> Forall2 scoped (map f l) (map g l).
  Proof using Type.
    intros A f g l H. induction l; cbn [map]; constructor.
    - apply H. left. auto.
    - apply IHl. intros x I. apply H. right. auto.
  Qed.
  Lemma scoped_rep : forall d d' n, scoped d d' -> Forall2 scoped (repeat d n) (repeat d' n).
  Proof using Type. intros d d' n H. induction n; cbn [repeat]; constructor; auto. Qed.

  Lemma scoped_unit : scoped (dec sz S rd RUnit) (sdec sz S rd RUnit None).
  Proof using Type. intros t. cbn [dec sdec leaf]. eapply strip_bind; [apply strip_keep|]. reflexivity. Qed.
  Lemma scoped_char : scoped (dec sz S rd RChar) (sdec sz S rd RChar None).
  Proof using Type. intros t. cbn [dec sdec leaf]. eapply strip_bind; [apply strip_keep|]. reflexivity. Qed.

  Lemma direct_scoped : forall n r u, (depth r <= n)%nat -> direct u r = true -> forall p p' s,
    (u = true -> p = p') -> strip (dec sz S rd r (p, s)) = sdec sz S rd r p' s.
  Proof using Type.
    induction n as [|n IH]; intros r u Hd D p p' s HP; [pose proof (depth_pos r); lia|].
    assert (IHf : forall x q, (depth x <= n)%nat -> direct false x = true ->
      scoped (dec sz S rd x) (sdec sz S rd x q)).
    { intros x q H1 H2 (q1 & s1). apply (IH x false); auto. discriminate. }
    assert (IHl : forall rs, (list_max (map depth rs) <= n)%nat -> forallb (direct false) rs = true ->
      forall q, Forall2 scoped (map (dec sz S rd) rs) (map (fun r => sdec sz S rd r q) rs)).
    { intros rs L F q. rewrite forallb_forall in F. apply scoped_map. intros x I. apply IHf; auto. eapply depth_in; eauto. }
    destruct r; cbn [depth] in Hd; cbn [direct] in D; cbn [dec sdec leaf]; try reflexivity;
      try (eapply strip_bind; [apply strip_keep|reflexivity]).
    - (* option *)
      unfold option_of. eapply strip_bind; [apply strip_keep|]. intros i t.
      destruct (i =? 0); auto. destruct (i =? 1); auto.
      eapply strip_bind; [apply IHf; auto; lia|]. reflexivity.
    - (* record *)
      eapply strip_bind; [apply strip_all|reflexivity]. apply scoped_map.
      rewrite forallb_forall in D. intros x I. apply IHf; auto.
      apply (depth_in (map snd fs)); [rewrite map_map; lia|apply in_map; auto].
    - (* tuple *)
      eapply strip_bind; [apply strip_all; apply IHl; auto; lia|reflexivity].
    - (* sum *)
      unfold sum_of. eapply strip_bind; [apply strip_keep|]. intros i t. rewrite !nth_error_map.
      destruct (nth_error ss (Z.to_nat i)) as [((nm, ix), args)|] eqn:E; cbn [option_map fst snd]; auto.
      destruct ((0 <=? ix) && (ix <? 256)); auto.
      apply nth_error_In in E.
      eapply strip_bind; [apply strip_all; apply IHl|reflexivity].
      + apply (list_max_in (map (fun x => list_max (map depth (snd x))) ss) n); [lia|].
        apply (in_map (fun x => list_max (map depth (snd x)))) in E. exact E.
      + rewrite forallb_forall in D. apply D in E. exact E.
    - (* polyvar *)
      unfold polyvar_of. eapply strip_bind; [apply strip_keep|]. intros i t.
      rewrite (pick_map _ _ (map (dec sz S rd))), (pick_map _ _ (map (fun r => sdec sz S rd r p'))).
      destruct (pick _ i) as [((nm, ix), args)|e|] eqn:E; cbn [bind fst snd]; auto.
      apply pick_in in E.
      eapply strip_bind; [apply strip_all; apply IHl|reflexivity].
      + apply (list_max_in (map (fun p => match p with
          inl t => list_max (map depth (snd t)) | inr r => depth r end) ps) n); [lia|].
        apply (in_map (fun p => match p with
          inl t => list_max (map depth (snd t)) | inr r => depth r end)) in E. exact E.
      + rewrite forallb_forall in D. apply D in E. exact E.
    - (* list *)
      unfold list_of. eapply strip_bind; [apply strip_keep|]. intros i t.
      destruct (i * sz <? 2 ^ 63); auto.
      eapply strip_bind; [apply strip_all; apply scoped_rep; apply IHf; auto; lia|reflexivity].
    - (* reference *)
      apply (IH r true); auto. lia.
    - (* custom *)
      apply andb_true_iff in D. destruct D as (-> & D). rewrite <- (HP eq_refl). unfold custom. cbn [fst].
      destruct p as [m|]; auto. destruct (vector_len m) as [len|].
      + destruct rs as [|r rs]; cbn [map]; auto. destruct (len * sz <? 2 ^ 63); auto.
        cbn [forallb] in D. apply andb_true_iff in D. destruct D as (D & _).
        eapply strip_bind; [apply strip_all|reflexivity].
        apply Forall2_app; [|constructor; [exact scoped_unit|constructor]].
        apply scoped_rep. apply IHf; auto. cbn [map list_max fold_right] in Hd. lia.
      + destruct (is_big_int m); auto. destruct (32 * sz <? 2 ^ 63); auto.
        eapply strip_bind; [apply strip_all; apply scoped_rep; exact scoped_char|reflexivity].
  Qed.
End Scope.

(** * Freedom from panics *)
Section Safe.
  Variable k : Z.
  Variable lists : bool.
  Definition good (s : list Z) : Prop :=
    Forall (fun c => 0 <= c < 256 /\ c < k /\ (lists = true -> c <> 252)) s.
  Definition safeR {A} (x : res err (A * (option string * list Z))) : Prop :=
    match x with Ok (_, (_, s')) => good s' | Err _ => True | Panic => False end.
  Definition safe1 {A} (P : A -> Prop) (x : res err (A * list Z)) : Prop :=
    match x with Ok (a, s') => good s' /\ P a | Err _ => True | Panic => False end.
  Definition safe (d : decoder (option string * list Z)) : Prop :=
    forall p s, good s -> safeR (d (p, s)).

  Lemma safe_bind : forall A B (x : res err (A * (option string * list Z))) f,
    safeR x -> (forall a p s, good s -> safeR (f (a, (p, s)))) -> @safeR B (bind x f).
  Proof using Type. intros A B x f H1 H2. destruct x as [(a & p & s)|e|]; cbn [bind safeR] in *; auto. Qed.
  Lemma safe_keep : forall A B P f g p s, @safe1 A P (f s) ->
    (forall a p s, P a -> good s -> safeR (g (a, (p, s)))) -> @safeR B (bind (keep (list Z) A f (p, s)) g).
  Proof using Type.
    intros A B P f g p s H H2. unfold keep. cbn [fst snd]. destruct (f s) as [(a & s')|e|]; cbn [bind safe1] in *; auto.
    destruct H. auto.
  Qed.
  Lemma safe1_bind : forall A B P Q (x : res err (A * list Z)) f,
    safe1 P x -> (forall a s, P a -> good s -> safe1 Q (f (a, s))) -> @safe1 B Q (bind x f).
  Proof using Type. intros A B P Q x f H1 H2. destruct x as [(a & s)|e|]; cbn [bind safe1] in *; auto. destruct H1. auto. Qed.
  Lemma good_firstn : forall n s, good s -> good (firstn n s).
  Proof using Type. unfold good. intros n s H. rewrite Forall_forall in *. intros x I. apply H. rewrite <- (firstn_skipn n s). apply in_or_app. auto. Qed.
  Lemma good_skipn : forall n s, good s -> good (skipn n s).
  Proof using Type. unfold good. intros n s H. rewrite Forall_forall in *. intros x I. apply H. rewrite <- (firstn_skipn n s). apply in_or_app. auto. Qed.
  Lemma safe_read : forall n s, 0 <= n -> good s ->
    safe1 (fun l => good l /\ List.length l = Z.to_nat n) (slice_read_exact n s).
  Proof using Type.
    intros n s Hn H. unfold slice_read_exact. destruct (Z.leb_spec n (Z.of_nat (List.length s))); cbn [safe1]; auto.
    split; [apply good_skipn; auto|split; [apply good_firstn; auto|]]. rewrite firstn_length. lia.
  Qed.
  Lemma safe_u8 : forall s, good s ->
    safe1 (fun c => 0 <= c < 256 /\ c < k /\ (lists = true -> c <> 252)) (read_u8 _ slice_read_exact s).
  Proof using Type.
    intros s H. unfold read_u8. eapply safe1_bind; [apply safe_read; auto; lia|].
    intros l s' (G & L) G'. cbn [safe1]. split; auto. destruct l as [|c [|]]; try discriminate.
    inversion G; subst. cbn [le_val]. replace (c + 256 * 0) with c by lia. auto.
  Qed.
  Lemma good_bytes : forall s, good s -> bytes_ok s.
  Proof using Type. intros s H. unfold good in H. unfold bytes_ok. eapply Forall_impl; [|exact H]. intros a Ha; cbv beta in *; try unfold byte_ok; lia. Qed.
  Lemma safe_ule : forall n s, 0 <= n -> good s ->
    safe1 (fun x => 0 <= x < 256 ^ n) (read_ule _ slice_read_exact n s).
  Proof using Type.
    intros n s Hn H. unfold read_ule. eapply safe1_bind; [apply safe_read; auto|].
    intros l s' (G & L) G'. cbn [safe1]. split; auto.
    pose proof (le_val_range l (good_bytes l G)) as R. rewrite L in R. rewrite Z2Nat.id in R by lia. exact R.
  Qed.
  Lemma safe_sle : forall n s, 0 <= n -> good s -> safe1 (fun _ => True) (read_sle _ slice_read_exact n s).
  Proof using Type.
    intros n s Hn H. unfold read_sle. eapply safe1_bind; [apply safe_read; auto|]. intros. cbn [safe1]. auto.
  Qed.
  Lemma safe_from : forall (P : Z -> Prop) r x s, P x -> good s -> safe1 P (from_prim (list Z) r x s).
  Proof using Type. intros. unfold from_prim. destruct (in_range r x); cbn [safe1]; auto. Qed.
  Lemma safe_integer : forall r s, good s -> safe1 (fun _ => True) (bin_read_integer _ slice_read_exact r s).
  Proof using Type.
    intros r s H. unfold bin_read_integer. eapply safe1_bind; [apply safe_u8; auto|].
    intros a s' _ G.
    repeat match goal with |- context [if ?b then _ else _] => destruct b end; try exact I;
    try (apply safe_from; auto);
    (eapply safe1_bind; [apply safe_sle; auto; lia|]; intros; apply safe_from; auto).
  Qed.
  Lemma safe_nat0 : lists = true -> forall s, good s ->
    safe1 (fun n => 0 <= n < 2 ^ 32) (bin_read_nat0 _ slice_read_exact R_u64 s).
  Proof using Type.
    intros T s H. unfold bin_read_nat0. eapply safe1_bind; [apply safe_u8; auto|].
    intros a s' (R & _ & N) G. specialize (N T). unfold CODE_INT16, CODE_INT32, CODE_INT64.
    destruct (a =? 254).
    { eapply safe1_bind; [apply safe_ule; auto; lia|]. intros x t Hx Gt. cbv beta in Hx.
      change (256 ^ 2) with 65536 in Hx. apply safe_from; auto. lia. }
    destruct (a =? 253).
    { eapply safe1_bind; [apply safe_ule; auto; lia|]. intros x t Hx Gt. cbv beta in Hx.
      change (256 ^ 4) with (2 ^ 32) in Hx. apply safe_from; auto. }
    destruct (Z.eqb_spec a 252); [lia|].
    destruct (128 <? a); [exact I|]. apply safe_from; auto. lia.
  Qed.
  Lemma safe_bytes : lists = true -> forall s, good s -> safe1 (fun _ => True) (bin_read_bytes _ slice_read_exact s).
  Proof using Type.
    intros T s H. unfold bin_read_bytes. eapply safe1_bind; [apply safe_nat0; auto|].
    intros n s' R G. cbv beta in R. unfold alloc. destruct (Z.ltb_spec n (2 ^ 63)); [|lia]. cbn [bind].
    pose proof (safe_read n s' ltac:(lia) G) as Q. destruct (slice_read_exact n s') as [(l & s2)|e|]; cbn [safe1] in *; tauto.
  Qed.
  Lemma safe_unit : forall s, good s -> safe1 (fun _ => True) (bin_read_unit _ slice_read_exact s).
  Proof using Type.
    intros s H. unfold bin_read_unit. eapply safe1_bind; [apply safe_u8; auto|]. intros a s' _ G.
    destruct (a =? 0); cbn [safe1]; auto.
  Qed.
  Lemma safe_bool : forall s, good s -> safe1 (fun _ => True) (bin_read_bool _ slice_read_exact s).
  Proof using Type.
    intros s H. unfold bin_read_bool. eapply safe1_bind; [apply safe_u8; auto|]. intros a s' _ G.
    destruct (a =? 0); cbn [safe1]; auto. destruct (a =? 1); cbn [safe1]; auto.
  Qed.
  Lemma safe_tag : forall s, good s -> safe1 (fun _ => True) (bin_read_polyvar_tag _ slice_read_exact s).
  Proof using Type.
    intros s H. unfold bin_read_polyvar_tag. eapply safe1_bind; [apply safe_ule; auto; lia|]. intros a s' _ G.
    cbn [safe1]; auto.
  Qed.
  Lemma safe_all : forall ds, Forall safe ds -> forall p s, good s -> safeR (all ds (p, s)).
  Proof using Type.
    intros ds H. induction H as [|d ds D F IH]; intros p s G; cbn [all]; [exact G|].
    eapply safe_bind; [apply D; auto|]. intros v q s1 G1.
    eapply safe_bind; [apply IH; auto|]. intros vs q2 s2 G2. exact G2.
  Qed.
  Lemma safe_map : forall A (f : A -> decoder (option string * list Z)) l,
    (forall x, In x l -> safe (f x)) -> Forall safe (map f l).
  Proof using Type.
    intros A f l H. apply Forall_forall. intros d I. apply in_map_iff in I. destruct I as (x & <- & I). auto.
  Qed.
  Lemma safe_rep : forall d n, safe d -> Forall safe (repeat d n).
  Proof using Type. intros d n H. induction n; cbn [repeat]; constructor; auto. Qed.

  Variable sz : Z.
  Hypothesis Hsz : 0 < sz < 2 ^ 31.
  Lemma supported_safe : forall n r, (depth r <= n)%nat -> supported k lists r = true ->
    safe (dec sz (list Z) slice_read_exact r).
  Proof using Hsz.
    induction n as [|n IH]; intros r Hd D; [pose proof (depth_pos r); lia|].
    assert (IHl : forall rs, (list_max (map depth rs) <= n)%nat -> forallb (supported k lists) rs = true ->
      Forall safe (map (dec sz (list Z) slice_read_exact) rs)).
    { intros rs L F. rewrite forallb_forall in F. apply safe_map. intros x I. apply IH; auto. eapply depth_in; eauto. }
    assert (Kunit : safe (dec sz (list Z) slice_read_exact RUnit)).
    { intros p s G. cbn [dec leaf]. eapply safe_keep; [apply safe_unit; auto|]. intros. exact H0. }
    assert (Kchar : safe (dec sz (list Z) slice_read_exact RChar)).
    { intros p s G. cbn [dec leaf]. eapply safe_keep; [apply safe_u8; auto|]. intros. exact H0. }
    destruct r; cbn [depth] in Hd; cbn [supported] in D; try discriminate; intros p s G; cbn [dec leaf];
      try (exact I);
      try (eapply safe_keep; [first [ apply safe_unit | apply safe_bool | apply safe_bytes | apply safe_integer
              | apply safe_ule; try lia | apply safe_u8 ]; auto | intros; assumption]; fail).
    - (* option *)
      unfold option_of. eapply safe_keep; [apply safe_u8; auto|]. intros i q s1 _ G1.
      destruct (i =? 0); [exact G1|]. destruct (i =? 1); [|exact I].
      eapply safe_bind; [apply IH; auto; lia|]. intros. exact H.
    - (* record *)
      eapply safe_bind; [apply safe_all; auto; apply safe_map|intros; exact H].
      rewrite forallb_forall in D. intros x I. apply IH; auto.
      apply (depth_in (map snd fs)); [rewrite map_map; lia|apply in_map; auto].
    - (* tuple *)
      eapply safe_bind; [apply safe_all; auto; apply IHl; auto; lia|intros; exact H].
    - (* sum *)
      apply andb_true_iff in D. destruct D as (DL & D). rewrite forallb_forall in D.
      unfold sum_of. eapply safe_keep; [apply safe_u8; auto|]. intros i q s1 (R & RK & _) G1. rewrite nth_error_map.
      destruct (nth_error ss (Z.to_nat i)) as [((nm, ix), args)|] eqn:E; cbn [option_map fst snd];
        [|apply nth_error_None in E; lia].
      apply nth_error_In in E. pose proof (D _ E) as DE. cbn [fst snd] in DE. apply andb_true_iff in DE.
      destruct DE as (-> & DA).
      eapply safe_bind; [apply safe_all; auto; apply IHl; auto|intros; exact H].
      apply (list_max_in (map (fun x => list_max (map depth (snd x))) ss) n); [lia|].
      apply (in_map (fun x => list_max (map depth (snd x)))) in E. exact E.
    - (* polyvar *)
      unfold polyvar_of. eapply safe_keep; [apply safe_tag; auto|]. intros i q s1 _ G1.
      rewrite (pick_map _ _ (map (dec sz (list Z) slice_read_exact))).
      rewrite forallb_forall in D.
      destruct (pick _ i) as [((nm, ix), args)|e|] eqn:E; cbn [bind fst snd]; [|exact I|].
      2:{ exfalso. clear -E D. induction ps as [|[y|y] ps IHp]; cbn [map pick] in E; try discriminate.
          - cbn [fst snd] in E. destruct (_ =? i); [discriminate|]. apply IHp; auto. intros x Ix. apply D. right; auto.
          - specialize (D _ (or_introl eq_refl)). discriminate. }
      apply pick_in in E.
      eapply safe_bind; [apply safe_all; auto; apply IHl|intros; exact H].
      + apply (list_max_in (map (fun p => match p with
          inl t => list_max (map depth (snd t)) | inr r => depth r end) ps) n); [lia|].
        apply (in_map (fun p => match p with
          inl t => list_max (map depth (snd t)) | inr r => depth r end)) in E. exact E.
      + apply D in E. exact E.
    - (* list *)
      apply andb_true_iff in D. destruct D as (DL & D).
      unfold list_of. eapply safe_keep; [apply safe_nat0; auto|]. intros i q s1 R G1. cbv beta in R.
      destruct (Z.ltb_spec (i * sz) (2 ^ 63)); [|nia].
      eapply safe_bind; [apply safe_all; auto; apply safe_rep; apply IH; auto; lia|intros; assumption].
    - (* reference *)
      apply IH; auto. lia.
    - (* custom *)
      unfold custom. cbn [fst]. destruct p as [m|]; [|exact I].
      destruct rs as [|r rs]; [discriminate|]. destruct (vector_len m) as [len|] eqn:V.
      + cbn [map]. destruct (Z.ltb_spec (len * sz) (2 ^ 63)).
        2:{ exfalso. unfold vector_len in V.
            repeat match goal with H : (if ?b then _ else _) = _ |- _ => destruct b end; try discriminate;
            injection V as <-; lia. }
        cbn [forallb] in D. apply andb_true_iff in D. destruct D as (D & _).
        eapply safe_bind; [apply safe_all; auto|intros; assumption].
        apply Forall_app. split; [|constructor; [exact Kunit|constructor]].
        apply safe_rep. apply IH; auto. cbn [map list_max fold_right] in Hd. lia.
      + destruct (is_big_int m); [|exact I]. destruct (Z.ltb_spec (32 * sz) (2 ^ 63)); [|lia].
        eapply safe_bind; [apply safe_all; auto; apply safe_rep; exact Kchar|intros; assumption].
  Qed.
End Safe.
