(** C10: the strict reader on types whose values have a bounded size. *)
From Coq Require Import ZArith List Bool String Lia ZifyBool ZifyNat.
From Verif Require Import Lib.Res Lib.Bytes BinProt.Prim BinProt.PrimProofs BinProt.PrimSpec BinProt.Codec BinProt.CodecSpec BinProt.CodecProofs
  BinProt.BufRead BinProt.BufReadProofs BinProt.CodecFacts BinProt.CodecProps BinProt.FormatSpec BinProt.AcceptProps BinProt.StrictProps.
Import ListNotations.
Open Scope list_scope.
Open Scope Z_scope.
Notation length := List.length.

(** No strings, sequences or polymorphic variants inside. *)
Fixpoint bounded (t : ty) : bool :=
  let all := fix all (ts : list ty) : bool := match ts with [] => true | t :: ts' => bounded t && all ts' end in
  match t with
  | TStr | TSeq _ | TPoly _ => false
  | TOpt t => bounded t
  | TTup ts => all ts
  | TEnum vs => (fix alls (vs : list (list ty)) : bool := match vs with [] => true | ts :: vs' => all ts && alls vs' end) vs
  | _ => true
  end.
(** The most bytes of a value. *)
Fixpoint max_size (t : ty) : nat :=
  let sum := fix sum (ts : list ty) : nat := match ts with [] => 0 | t :: ts' => max_size t + sum ts' end%nat in
  match t with
  | TUnit | TBool | TChar | TU8 => 1
  | TF32 => 4
  | TF64 => 8
  | TInt _ | TU64 => 9
  | TStr | TSeq _ | TPoly _ => 0
  | TOpt t => 1 + max_size t
  | TTup ts => sum ts
  | TEnum vs => 1 + (fix most (vs : list (list ty)) : nat := match vs with [] => 0 | ts :: vs' => Nat.max (sum ts) (most vs') end%nat) vs
  end%nat.
Fixpoint bounded_list (ts : list ty) : bool := match ts with [] => true | t :: ts' => bounded t && bounded_list ts' end.
Fixpoint max_sum (ts : list ty) : nat := match ts with [] => 0 | t :: ts' => max_size t + max_sum ts' end%nat.

Lemma bounded_enum : forall vs ts, bounded (TEnum vs) = true -> In ts vs -> bounded_list ts = true /\ (S (max_sum ts) <= max_size (TEnum vs))%nat.
Proof.
  induction vs as [|us vs IH]; intros ts B I; [contradiction|]. change (bounded (TEnum (us :: vs))) with (bounded_list us && bounded (TEnum vs)) in B.
  apply andb_true_iff in B. destruct B as (B1 & B2).
  assert (E : max_size (TEnum (us :: vs)) = S (Nat.max (max_sum us) (pred (max_size (TEnum vs))))) by reflexivity.
  assert (F : (1 <= max_size (TEnum vs))%nat) by (cbn; lia).
  destruct I as [->|I]; [split; [exact B1|lia]|]. destruct (IH ts B2 I) as (A & C). split; [exact A|lia].
Qed.

Scheme acc_both := Induction for acc Sort Prop with accs_both := Induction for accs Sort Prop.
Lemma acc_length : forall t v bs, acc t v bs -> bounded t = true -> (length bs <= max_size t)%nat.
Proof.
  apply (acc_both (fun t v bs _ => bounded t = true -> (length bs <= max_size t)%nat)
    (fun ts vs bs _ => bounded_list ts = true -> (length bs <= max_sum ts)%nat)); try (intros; cbn in *; lia).
  - intros k z bs F _ _. destruct F; cbn; lia.
  - intros z bs F _ _. destruct F; cbn; lia.
  - intros ts vs bs A IH B. exact (IH B).
  - intros vars i ts vs bs E L A IH B. apply nth_error_In in E. destruct (bounded_enum _ _ B E) as (C & D). specialize (IH C). cbn [List.length]. lia.
  - intros t ts v vs a b A IHa B IHb C. cbn [bounded_list] in C. apply andb_true_iff in C. destruct C as (C1 & C2). rewrite app_length.
    specialize (IHa C1). specialize (IHb C2). cbn [max_sum]. lia.
Qed.
(** The overflow checks of the build play no part. *)
Lemma de_flag : forall t c bs, bounded t = true -> de c _ sread t bs = de false _ sread t bs.
Proof.
  assert (L : forall ts, Forall (fun t => forall c bs, bounded t = true -> de c _ sread t bs = de false _ sread t bs) ts ->
    forall c bs, bounded_list ts = true -> de_list c _ sread ts bs = de_list false _ sread ts bs).
  { induction ts as [|t ts IH]; intros F c bs B; [reflexivity|]. cbn [bounded_list] in B. apply andb_true_iff in B. destruct B as (B1 & B2).
    inversion F as [|? ? F1 F2]; subst. cbn [de_list]. rewrite (F1 c bs B1). destruct (de false _ sread t bs) as [(v, s)|e|]; cbn [bind]; [|reflexivity|reflexivity].
    rewrite (IH F2 c s B2). reflexivity. }
  induction t using ty_ind'; intros c bs B; try reflexivity; try discriminate.
  - cbn [de]. destruct (bin_read_bool _ sread bs) as [([|], s)|e|]; cbn [bind]; try reflexivity. rewrite (IHt c s B). reflexivity.
  - rewrite !de_tup. rewrite (L ts H c bs B). reflexivity.
  - rewrite !de_enum. destruct (bin_read_variant_index _ sread bs) as [(i, s)|e|]; cbn [bind]; try reflexivity.
    destruct (nth_error vs (Z.to_nat i)) as [ts|] eqn:E; [|reflexivity]. apply nth_error_In in E.
    rewrite (L ts (proj1 (Forall_forall _ _) H ts E) c s (proj1 (bounded_enum _ _ B E))). reflexivity.
Qed.

(** C10: a byte string is accepted by the strict reader exactly if it is, as a
    whole, a value: for every type whose values are shorter than the buffer.
    (An empty slice is an input without chunks.) *)
Theorem C10_strict_bounded : forall cap checked t bs v, bounded t = true -> (1 <= min_size t)%nat -> Z.of_nat (max_size t) < cap -> bytes_ok bs ->
  from_reader_strict cap checked t match bs with [] => [] | _ => [bs] end = Ok v <-> acc t v bs.
Proof.
  intros cap checked t bs v B M W Hb. assert (Hc : 1 <= cap) by lia.
  assert (A : forall w r, from_slice checked t bs = Ok (w, r) <-> exists pre, bs = pre ++ r /\ acc t w pre).
  { intros w r. unfold from_slice. change slice_read_exact with sread. rewrite (de_flag t checked bs B). apply C64_accepted. exact Hb. }
  assert (N : forall w, from_slice checked t bs = Ok (w, []) -> acc t w bs).
  { intros w E. apply A in E. destruct E as (pre & -> & E). rewrite app_nil_r. exact E. }
  pose proof (consumes checked t bs) as K. fold (from_slice checked t bs) in K.
  split.
  - intros E. destruct bs as [|b0 bs0].
    + apply C10_strict_general_partial in E; [|exact Hc|apply Forall_nil]. destruct E as (r & E). cbn [List.concat] in E.
      pose proof (proj1 (A _ _) E) as (pre & E' & _). symmetry in E'. apply app_eq_nil in E'. destruct E' as (_ & ->). exact (N _ E).
    + pose proof (C10_strict_general_partial cap checked t [b0 :: bs0] v Hc) as G. destruct G as (r & G); [|exact E|].
      { apply Forall_cons; [discriminate|apply Forall_nil]. }
      cbn [List.concat] in G. rewrite app_nil_r in G. destruct r as [|r0 r]; [exact (N _ G)|]. exfalso.
      pose proof (proj1 (A _ _) G) as (pre & E' & P). apply acc_length in P; [|exact B]. rewrite G in K. destruct K as (K & _).
      assert (L : length (b0 :: bs0) = (length pre + length (r0 :: r))%nat) by (rewrite E'; apply app_length).
      destruct (C10_strict_short cap checked t (b0 :: bs0) v (r0 :: r) Hc G) as (_ & F); [lia|lia|].
      destruct F as (n & F); [discriminate|]. congruence.
  - intros P. assert (E : from_slice checked t bs = Ok (v, [])) by (apply A; exists bs; rewrite app_nil_r; auto).
    rewrite E in K. destruct K as (K & _). destruct bs as [|b0 bs0]; [cbn [List.length] in K; lia|].
    apply acc_length in P; [|exact B]. apply (C10_strict_short cap checked t (b0 :: bs0) v [] Hc E); cbn [List.length] in *; [lia|lia|reflexivity].
Qed.
(** The older and newer accounts are such types. *)
Example C10_bounded_ex : bounded (TTup [TU64; TOpt TBool; TEnum [[]; [TU8; TU8]]]) = true /\ min_size (TTup [TU64; TOpt TBool; TEnum [[]; [TU8; TU8]]]) = 3%nat /\
  max_size (TTup [TU64; TOpt TBool; TEnum [[]; [TU8; TU8]]]) = 14%nat /\
  from_reader_strict 20 true (TTup [TU64; TOpt TBool; TEnum [[]; [TU8; TU8]]]) [[254; 0; 1; 0; 1; 7; 8]] = Ok (VTup [VInt 256; VNone; VEnum 1 [VInt 7; VInt 8]]).
Proof. vm_compute. auto. Qed.

Print Assumptions C10_strict_bounded.
