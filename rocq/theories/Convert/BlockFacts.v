(** Lemmas for the properties of Convert/BlockProps.v. *)

From Coq Require Import String ZArith List Bool Lia ZifyBool ZifyNat.
From Verif Require Import Lib.Res Lib.Bytes BinProt.Prim BinProt.PrimProofs BinProt.PrimSpec BinProt.Codec BinProt.CodecSpec BinProt.CodecProofs BinProt.CodecFacts
  BinProt.BufRead BinProt.BufReadProofs BinProt.CodecProps BinProt.FormatSpec BinProt.AcceptProps Wire.Types Wire.WireProps Text.FieldText Hashing.ROInput Hashing.Command Hashing.CommandProps
  Hashing.State Hashing.StateParts Ledger.AccountWireSpec Ledger.AccountWireFacts Convert.Conv Convert.BlockConv Convert.ConvSpec Convert.ConvFacts Convert.View Convert.ViewSpec Convert.ViewFacts Convert.Block.
Import ListNotations.
Local Open Scope list_scope.
Local Open Scope Z_scope.
Notation length := List.length.
Notation plain := WireProps.plain.

Lemma converted_agrees : forall c t, In (c, t) converted -> agrees c t = true.
Proof. intros c t [E|[E|[E|[]]]]; injection E as <- <-; vm_compute; reflexivity. Qed.
Lemma converted_wire : forall c t, In (c, t) converted -> In t wire_types.
Proof. intros c t [E|[E|[E|[]]]]; injection E as <- <-; unfold wire_types; cbn [In]; tauto. Qed.
Lemma converted_plain : forall c t, In (c, t) converted -> plain t = true.
Proof. intros c t [E|[E|[E|[]]]]; injection E as <- <-; vm_compute; reflexivity. Qed.

(** ** The overflow checks of the build play no part *)
Lemma plain_flag : forall t c bs, plain t = true -> de c _ sread t bs = de false _ sread t bs.
Proof.
  assert (L : forall ts, Forall (fun t => forall c bs, plain t = true -> de c _ sread t bs = de false _ sread t bs) ts ->
    forall c bs, plain_list ts = true -> de_list c _ sread ts bs = de_list false _ sread ts bs).
  { induction ts as [|t ts IH]; intros F c bs B; [reflexivity|]. cbn [plain_list] in B. apply andb_true_iff in B. destruct B as (B1 & B2).
    inversion F as [|? ? F1 F2]; subst. cbn [de_list]. rewrite (F1 c bs B1). destruct (de false _ sread t bs) as [(v, s)|e|]; cbn [bind]; [|reflexivity|reflexivity].
    rewrite (IH F2 c s B2). reflexivity. }
  induction t using ty_ind'; intros c bs B; try reflexivity; try discriminate.
  - cbn [de]. destruct (bin_read_bool _ sread bs) as [([|], s)|e|]; cbn [bind]; try reflexivity. rewrite (IHt c s B). reflexivity.
  - cbn [WireProps.plain] in B. apply andb_true_iff in B. destruct B as (_ & B).
    rewrite !de_seq. destruct (bin_read_nat0 _ sread R_u64 bs) as [(n, s)|e|]; cbn [bind]; try reflexivity.
    assert (E : forall n s, de_rep c _ sread t n s = de_rep false _ sread t n s).
    { clear -IHt B. induction n as [|n IH]; intros s; [reflexivity|]. cbn [de_rep]. rewrite (IHt c s B).
      destruct (de false _ sread t s) as [(v, s')|e|]; cbn [bind]; try reflexivity. fold (de_rep c _ sread t) (de_rep false _ sread t). rewrite IH. reflexivity. }
    rewrite E. reflexivity.
  - rewrite !de_tup. rewrite (L ts H c bs B). reflexivity.
  - rewrite !de_enum. destruct (bin_read_variant_index _ sread bs) as [(i, s)|e|]; cbn [bind]; try reflexivity.
    destruct (nth_error vs (Z.to_nat i)) as [ts|] eqn:E; [|reflexivity].
    change (plain (TEnum vs)) with (Nat.leb (List.length vs) 256 && plain_vars vs) in B. apply andb_true_iff in B. destruct B as (_ & B).
    pose proof (plain_nth _ _ _ B E) as Q. apply nth_error_In in E.
    rewrite (L ts (proj1 (Forall_forall _ _) H ts E) c s Q). reflexivity.
  - rewrite !de_poly. change (plain (TPoly vs)) with (one_two (map fst vs) && plain_poly vs) in B. apply andb_true_iff in B. destruct B as (B1 & B).
    destruct (bin_read_polyvar_tag _ sread bs) as [(h, s)|e|]; cbn [bind]; try reflexivity.
    assert (E : find_variant c (map fst vs) 0 h = find_variant false (map fst vs) 0 h).
    { destruct (map fst vs) as [|a [|b [|? ?]]]; try discriminate. cbn [one_two] in B1. apply andb_true_iff in B1. destruct B1 as (Ea & Eb).
      apply String.eqb_eq in Ea, Eb. subst a b. destruct c; reflexivity. }
    rewrite E. destruct (find_variant false (map fst vs) 0 h) as [i|e|]; cbn [bind]; try reflexivity.
    destruct (nth_error vs (Z.to_nat i)) as [(nm, ts)|] eqn:Q; [|reflexivity].
    pose proof (plain_poly_nth _ _ _ _ B Q) as R. apply nth_error_In in Q.
    assert (F : Forall (fun t => forall c bs, plain t = true -> de c _ sread t bs = de false _ sread t bs) ts).
    { rewrite Forall_forall in H. apply (H (nm, ts) Q). }
    rewrite (L ts F c s R). reflexivity.
Qed.

(** ** What the strict reader returns *)
Lemma strict_sound : forall cap checked t i v, plain t = true -> 1 <= cap -> Forall (fun ch => ch <> []) i -> bytes_ok (List.concat i) ->
  from_reader_strict cap checked t i = Ok v -> rust_val t v /\ u64s_below t v.
Proof.
  intros cap checked t i v P Hc Hi Hb E. apply C10_strict_general_partial in E; [|exact Hc|exact Hi]. destruct E as (rest & E). split.
  - exact (proj1 (C61_decode_sound checked t _ v rest Hb E)).
  - unfold from_slice in E. change slice_read_exact with sread in E. rewrite (plain_flag t checked _ P) in E.
    apply (C64_accepted t _ v rest Hb) in E. destruct E as (pre & _ & A). eapply acc_small, A.
Qed.
Lemma strict_calm : forall cap checked t i, plain t = true -> 1 <= cap -> Forall (fun ch => ch <> []) i -> from_reader_strict cap checked t i <> Panic.
Proof.
  intros cap c t i P Hc Hi H. pose proof (buf_de cap Hc c t i Hi) as B.
  pose proof (C12_no_panic c t (List.concat i) (plain_no_panic c t P)) as N.
  unfold from_reader_strict in H. destruct (from_slice c t (List.concat i)) as [(v, r)|e|].
  - destruct B as ((buf, i') & E & _). rewrite E in H. cbn [bind fst] in H. destruct buf; discriminate.
  - rewrite B in H. discriminate.
  - apply N. reflexivity.
Qed.

(** ** Renumbering *)
Lemma renumbered_fun : forall t v w, renumbered t v w -> forall x, renumbered t v x -> x = w.
Proof.
  apply (renumbered_mut (fun t v w => forall x, renumbered t v x -> x = w) (fun ts vs ws => forall xs, renumbereds ts vs xs -> xs = ws)).
  - intros n x H. inversion H; subst; [reflexivity|congruence].
  - intros v x H. inversion H; reflexivity.
  - intros v x H. inversion H; reflexivity.
  - intros v x H. inversion H; reflexivity.
  - intros k v K x H. inversion H; subst; congruence.
  - intros v x H. inversion H; reflexivity.
  - intros t x H. inversion H; reflexivity.
  - intros t v w _ IH x H. inversion H; subst. f_equal. auto.
  - intros t vs ws _ IH x H. inversion H; subst. f_equal. auto.
  - intros ts vs ws _ IH x H. inversion H; subst. f_equal. auto.
  - intros vars j ts vs ws N _ IH x H. inversion H; subst. assert (ts0 = ts) by congruence. subst. f_equal. auto.
  - intros vars j nm ts vs ws N _ IH x H. inversion H; subst. assert (ts0 = ts) by congruence. subst. f_equal. auto.
  - intros xs H. inversion H. reflexivity.
  - intros t ts v vs w ws _ IH _ IHs xs H. inversion H; subst. f_equal; auto.
Qed.
Lemma renumbered_small : forall t v w, renumbered t v w -> u64s_below t v -> u64s_below t w.
Proof.
  pose (P := fun (t : ty) (v : val) => match t, v with TU64, VInt z => z < 2 ^ 63 | _, _ => True end).
  apply (renumbered_mut (fun t v w => u64s_below t v -> u64s_below t w) (fun ts vs ws => typed_list P ts vs -> typed_list P ts ws)); try tauto.
  - intros t v w _ IH (A & B). split; [exact I|]. apply IH. exact B.
  - intros t vs ws R IH H. apply CodecProofs.typed_seq in H. destruct H as (_ & us & E & H). injection E as <-. apply CodecProofs.typed_seq. split; [exact I|]. exists ws. split; [reflexivity|].
    assert (G : forall us, typed_all P t us <-> typed_list P (List.repeat t (length us)) us).
    { clear. induction us as [|u us IH]; [split; auto|]. cbn [typed_all typed_list List.repeat length]. fold (typed_all P t). fold (typed_list P). rewrite IH. reflexivity. }
    fold P in H |- *. apply G. apply G in H.
    assert (L : length ws = length vs). { assert (K : forall ts vs ws, renumbereds ts vs ws -> length ws = length vs) by (induction 1; cbn; congruence). eapply K, R. }
    rewrite L. apply IH. exact H.
  - intros ts vs ws _ IH H. apply CodecProofs.typed_tup in H. destruct H as (_ & us & E & H). injection E as <-. apply CodecProofs.typed_tup. split; [exact I|]. exists ws. auto.
  - intros vars j ts vs ws N _ IH H. apply CodecProofs.typed_enum in H. destruct H as (_ & i & us & ts' & E & N' & H). injection E as <- <-. apply CodecProofs.typed_enum. split; [exact I|].
    assert (ts' = ts) by congruence. subst. exists j, ws, ts. auto.
  - intros vars j nm ts vs ws N _ IH H. apply CodecProofs.typed_poly in H. destruct H as (_ & i & us & nm' & ts' & E & N' & H). injection E as <- <-. apply CodecProofs.typed_poly. split; [exact I|].
    assert (ts' = ts) by congruence. subst. exists j, ws, nm, ts. auto.
  - intros t ts v vs w ws _ IH _ IHs (A & B). split; [exact (IH A)|exact (IHs B)].
Qed.

(** ** Where a type occurs in another one *)
Definition same_kind (a b : ikind) : bool :=
  match a, b with I8, I8 | I16, I16 | I32, I32 | I64, I64 | U16, U16 | U32, U32 => true | _, _ => false end.
Fixpoint same_ty (a b : ty) {struct a} : bool :=
  let all := fix all (l m : list ty) : bool :=
    match l, m with [], [] => true | a :: l, b :: m => same_ty a b && all l m | _, _ => false end in
  match a, b with
  | TUnit, TUnit | TBool, TBool | TChar, TChar | TU8, TU8 | TU64, TU64 | TF32, TF32 | TF64, TF64 | TStr, TStr => true
  | TInt j, TInt k => same_kind j k
  | TOpt a, TOpt b => same_ty a b
  | TSeq a, TSeq b => same_ty a b
  | TTup l, TTup m => all l m
  | TEnum l, TEnum m =>
      (fix alls (l m : list (list ty)) : bool := match l, m with [], [] => true | a :: l, b :: m => all a b && alls l m | _, _ => false end) l m
  | TPoly l, TPoly m =>
      (fix alls (l m : list (string * list ty)) : bool :=
         match l, m with [], [] => true | (_, a) :: l, (_, b) :: m => all a b && alls l m | _, _ => false end) l m
  | _, _ => false
  end.
Lemma same_refl : forall t, same_ty t t = true.
Proof.
  assert (L : forall l, Forall (fun t => same_ty t t = true) l ->
    (fix all (l m : list ty) : bool := match l, m with [], [] => true | a :: l, b :: m => same_ty a b && all l m | _, _ => false end) l l = true).
  { induction l as [|t l IH]; intros F; [reflexivity|]. inversion F; subst. rewrite H1. exact (IH H2). }
  induction t using ty_ind'; try reflexivity.
  - destruct k; reflexivity.
  - exact IHt.
  - exact IHt.
  - exact (L ts H).
  - induction vs as [|a vs IH]; [reflexivity|]. inversion H; subst. cbn [same_ty]. rewrite (L a H2). exact (IH H3).
  - induction vs as [|(n, a) vs IH]; [reflexivity|]. inversion H; subst. cbn [same_ty]. rewrite (L a H2). exact (IH H3).
Qed.
Fixpoint occurs (u t : ty) {struct t} : bool :=
  same_ty u t ||
  match t with
  | TOpt t => occurs u t
  | TSeq t => occurs u t
  | TTup ts => existsb (occurs u) ts
  | TEnum vs => existsb (existsb (occurs u)) vs
  | TPoly vs => existsb (fun x => match x with (_, ts) => existsb (occurs u) ts end) vs
  | _ => false
  end.
Lemma inside_occurs : forall u w t v, inside u w t v -> occurs u t = true.
Proof.
  intros u w t v H. induction H as [|t v _ IH|t v vs _ _ IH|ts vs i t v T _ _ IH|vars j ts vs i t v N T _ _ IH|vars j n ts vs i t v N T _ _ IH].
  - pose proof (same_refl u) as R. destruct u; cbn [occurs]; rewrite R; reflexivity.
  - cbn [occurs]. rewrite IH. apply orb_true_r.
  - cbn [occurs]. rewrite IH. apply orb_true_r.
  - cbn [occurs]. apply orb_true_iff. right. apply existsb_exists. exists t. split; [eapply nth_error_In, T|exact IH].
  - cbn [occurs]. apply orb_true_iff. right. apply existsb_exists. exists ts. split; [eapply nth_error_In, N|].
    apply existsb_exists. exists t. split; [eapply nth_error_In, T|exact IH].
  - cbn [occurs]. apply orb_true_iff. right. apply existsb_exists. exists (n, ts). split; [eapply nth_error_In, N|].
    apply existsb_exists. exists t. split; [eapply nth_error_In, T|exact IH].
Qed.
Lemma inside_tup : forall u w ts vs, same_ty u (TTup ts) = false -> inside u w (TTup ts) (VTup vs) ->
  exists i t v, nth_error ts i = Some t /\ nth_error vs i = Some v /\ inside u w t v.
Proof.
  intros u w ts vs N H. inversion H; subst.
  - rewrite same_refl in N. discriminate.
  - eauto 10.
Qed.
Lemma inside_opt : forall u w t v, same_ty u (TOpt t) = false -> inside u w (TOpt t) v -> exists x, v = VSome x /\ inside u w t x.
Proof.
  intros u w t v N H. inversion H; subst.
  - rewrite same_refl in N. discriminate.
  - eauto.
Qed.
Lemma inside_seq : forall u w t vs, same_ty u (TSeq t) = false -> inside u w (TSeq t) (VSeq vs) -> exists x, In x vs /\ inside u w t x.
Proof.
  intros u w t v N H. inversion H; subst.
  - rewrite same_refl in N. discriminate.
  - eauto.
Qed.
Lemma inside_one : forall u w ts j vs, same_ty u (TEnum [ts]) = false -> inside u w (TEnum [ts]) (VEnum j vs) ->
  exists i t v, nth_error ts i = Some t /\ nth_error vs i = Some v /\ inside u w t v.
Proof.
  intros u w ts j vs N H. inversion H; subst.
  - rewrite same_refl in N. discriminate.
  - destruct j as [|[|j]]; try discriminate. cbn [nth_error] in *. match goal with E : Some _ = Some _ |- _ => injection E as <- end. eauto 10.
Qed.

(** ** The wire value determines what it says *)
Definition determines {A : Type} (R : val -> A -> Prop) : Prop := forall v a b, R v a -> R v b -> a = b.
Lemma det_ver : forall A (R : val -> A -> Prop), determines R -> determines (w_ver R).
Proof. intros A R D v a b (n & w & -> & _ & Ra) (m & x & E & _ & Rb). injection E as <- <-. exact (D _ _ _ Ra Rb). Qed.
Lemma det_num : forall n, determines (w_num n).
Proof. intros n v a b (-> & _) (E & _). injection E. auto. Qed.
Lemma map_int_eq : forall a b, map VInt a = map VInt b -> a = b.
Proof. induction a as [|x a IH]; intros [|y b] E; try discriminate; [reflexivity|]. injection E as <- E. f_equal. auto. Qed.
Lemma det_bytes : determines w_bytes.
Proof. intros v a b (-> & _) (E & _). injection E as E. exact (map_int_eq _ _ E). Qed.
Lemma det_vec : determines w_vec.
Proof. intros v a b (-> & _) (E & _). injection E as E. exact (map_int_eq _ _ E). Qed.
Lemma det_key : determines w_key.
Proof.
  intros v [x o] [y p] (w & l & -> & W & L & _) (w' & l' & E & W' & L' & _). injection E as <- E. cbn [pk_x pk_odd] in *.
  pose proof (det_bytes _ _ _ W W') as F. subst. reflexivity.
Qed.
Lemma det_cast : determines w_cast.
Proof.
  intros v a b (y & -> & _ & A & (p & P)) (z & E & _ & B & (q & Q)). injection E as <-.
  assert (p = q \/ p <= q - 1 \/ q <= p - 1) as [ | [ | ] ] by lia; nia.
Qed.
Lemma det_sig : determines w_sig.
Proof.
  intros v (a, b) (c, d) (x & y & k & l & -> & X & Y & K & _ & L & _) (x' & y' & k' & l' & E & X' & Y' & K' & _ & L' & _). injection E as <- <-.
  cbn [fst snd] in *. pose proof (det_bytes _ _ _ X X') as F. pose proof (det_bytes _ _ _ Y Y') as G. subst. reflexivity.
Qed.
Lemma det_n64 : determines n64.
Proof. apply det_ver, det_ver, det_num. Qed.
Lemma det_n32 : determines n32.
Proof. apply det_ver, det_ver, det_num. Qed.
Lemma det_token : determines (w_ver3 (w_num (2 ^ 64))).
Proof. apply det_ver, det_ver, det_ver, det_num. Qed.
Lemma det_key2 : determines key2.
Proof. apply det_ver, det_ver, det_key. Qed.
Lemma det_cast2 : determines (w_ver2 w_cast).
Proof. apply det_ver, det_ver, det_cast. Qed.
Ltac det := repeat match goal with
  | A : n64 ?v ?a, B : n64 ?v ?b |- _ => pose proof (det_n64 _ _ _ A B); clear B
  | A : n32 ?v ?a, B : n32 ?v ?b |- _ => pose proof (det_n32 _ _ _ A B); clear B
  | A : w_ver3 (w_num (2 ^ 64)) ?v ?a, B : w_ver3 (w_num (2 ^ 64)) ?v ?b |- _ => pose proof (det_token _ _ _ A B); clear B
  | A : key2 ?v ?a, B : key2 ?v ?b |- _ => pose proof (det_key2 _ _ _ A B); clear B
  | A : w_ver2 w_cast ?v ?a, B : w_ver2 w_cast ?v ?b |- _ => pose proof (det_cast2 _ _ _ A B); clear B
  | A : w_ver w_vec ?v ?a, B : w_ver w_vec ?v ?b |- _ => pose proof (det_ver _ _ det_vec _ _ _ A B); clear B
  end.
Lemma det_common : determines w_common.
Proof.
  intros v [a b c d e f] [a' b' c' d' e' f'] (u & w & x & y & z & t & -> & A) (u' & w' & x' & y' & z' & t' & E & B).
  injection E as <- <- <- <- <- <-. cbn [fee fee_token fee_payer_pk nonce valid_until memo] in *. decompose [and] A. decompose [and] B. det. congruence.
Qed.
Lemma det_command_body : determines w_command_body.
Proof.
  intros v [s r t a|d n] [s' r' t' a'|d' n'] A B; cbn [w_command_body] in A, B.
  - destruct A as (m & k & x1 & x2 & x3 & x4 & -> & A), B as (m' & k' & y1 & y2 & y3 & y4 & E & B). injection E as <- <- <- <- <- <-.
    decompose [and] A. decompose [and] B. det. congruence.
  - destruct A as (m & k & x1 & x2 & x3 & x4 & -> & A), B as (m' & y1 & y2 & E & B). discriminate.
  - destruct A as (m & x1 & x2 & -> & A), B as (m' & k' & y1 & y2 & y3 & y4 & E & B). discriminate.
  - destruct A as (m & x1 & x2 & -> & A), B as (m' & y1 & y2 & E & B). injection E as <- <- <-. decompose [and] A. decompose [and] B. det. congruence.
Qed.
Lemma det_payload : determines w_payload.
Proof.
  intros v [a b] [c d] (x & y & -> & A & B) (x' & y' & E & C & D). injection E as <- <-. cbn [p_common p_body] in *.
  pose proof (det_ver _ _ (det_ver _ _ (det_ver _ _ det_common)) _ _ _ A C). pose proof (det_ver _ _ (det_ver _ _ det_command_body) _ _ _ B D). congruence.
Qed.
Lemma det_command : determines w_command.
Proof.
  apply det_ver, det_ver. intros v [a b c] [d e f] (x & y & z & -> & A & B & C) (x' & y' & z' & E & D & F & G). injection E as <- <- <-.
  cbn [c_payload c_signer c_signature] in *.
  pose proof (det_ver _ _ (det_ver _ _ det_payload) _ _ _ A D). pose proof (det_ver _ _ (det_ver _ _ (det_ver _ _ det_key)) _ _ _ B F).
  pose proof (det_ver _ _ (det_ver _ _ det_sig) _ _ _ C G). congruence.
Qed.
Lemma det_hash : determines (w_ver w_bytes).
Proof. apply det_ver, det_bytes. Qed.
Lemma det_list : forall A (R : val -> A -> Prop), determines R -> determines (w_list R).
Proof.
  intros A R D v a b (vs & -> & F) (ws & E & G). injection E as <-. revert b G. induction F as [|x y l m H F IH]; intros b G; inversion G; subst; [reflexivity|].
  f_equal; [eapply D; eassumption|auto].
Qed.
Ltac members := cbn [sl_previous sl_body bodyl_genesis_state_hash bodyl_blockchain bodyl_consensus bodyl_constants k slots_per_epoch slots_per_sub_window delta genesis_state_timestamp ledger_hash aux_hash pending_coinbase_aux pending_coinbase_hash bl_staged bl_snarked_ledger_hash bl_genesis_ledger_hash bl_token bl_timestamp e_ledger_hash e_total_currency seed start_checkpoint lock_checkpoint epoch_length blockchain_length epoch_count min_window_density sub_window_densities last_vrf_output total_currency slot_number cs_slots_per_epoch global_slot_since_genesis staking_epoch_data next_epoch_data has_ancestor block_stake_winner block_creator coinbase_receiver supercharge_coinbase] in *.
Lemma det_constants : determines w_constants.
Proof.
  intros v [] [] (a & b & c & d & e & -> & A) (a' & b' & c' & d' & e' & E & B). injection E as <- <- <- <- <-. members. decompose [and] A. decompose [and] B. det. congruence.
Qed.
Lemma det_staged : determines w_staged.
Proof.
  intros v [] [] (m & a & b & c & d & -> & A & B & C & D) (m' & a' & b' & c' & d' & E & A' & B' & C' & D'). injection E as <- <- <- <- <-. members.
  pose proof (det_hash _ _ _ A A'). pose proof (det_ver _ _ det_hash _ _ _ D D'). det. congruence.
Qed.
Lemma det_blockchain : determines w_blockchain.
Proof.
  intros v [] [] (a & b & c & d & e & -> & A & B & C & D & E) (a' & b' & c' & d' & e' & Q & A' & B' & C' & D' & E'). injection Q as <- <- <- <- <-. members.
  pose proof (det_ver _ _ (det_ver _ _ det_staged) _ _ _ A A'). pose proof (det_hash _ _ _ B B'). pose proof (det_hash _ _ _ C C'). det. congruence.
Qed.
Lemma det_epoch : determines w_epoch.
Proof.
  intros v [] [] (m & n & a & b & c & d & e & f & -> & A & B & C & D & E & F) (m' & n' & a' & b' & c' & d' & e' & f' & Q & A' & B' & C' & D' & E' & F').
  injection Q as <- <- <- <- <- <- <- <-. members.
  pose proof (det_hash _ _ _ A A'). pose proof (det_hash _ _ _ C C'). pose proof (det_hash _ _ _ D D'). pose proof (det_hash _ _ _ E E'). det. congruence.
Qed.
Lemma det_consensus : determines w_consensus.
Proof.
  intros v [] [] (m & n & a & b & c & d & e & f & g1 & g2 & h & i & j & k & l & m' & o & p & -> & A)
    (m2 & n2 & a2 & b2 & c2 & d2 & e2 & f2 & g12 & g22 & h2 & i2 & j2 & k2 & l2 & m'2 & o2 & p2 & Q & B).
  injection Q as <- <- <- <- <- <- <- <- <- <- <- <- <- <- <- <- <- <-. members.
  destruct A as (A1 & A2 & A3 & A4 & A5 & A6 & A7 & A8 & A9 & A10 & A11 & A12 & A13 & A14 & A15 & A16).
  destruct B as (B1 & B2 & B3 & B4 & B5 & B6 & B7 & B8 & B9 & B10 & B11 & B12 & B13 & B14 & B15 & B16).
  pose proof (det_list _ _ det_n32 _ _ _ A4 B4). pose proof (det_ver _ _ (det_ver _ _ det_epoch) _ _ _ A10 B10).
  pose proof (det_ver _ _ (det_ver _ _ det_epoch) _ _ _ A11 B11). unfold w_bool in *.
  assert (K : forall x y, VBool x = VBool y -> x = y) by (intros x y E; injection E; auto).
  pose proof (K _ _ (eq_trans (eq_sym A12) B12)). pose proof (K _ _ (eq_trans (eq_sym A16) B16)). clear K A12 B12 A16 B16. det. subst. reflexivity.
Qed.
Lemma det_state : determines w_state.
Proof.
  apply det_ver, det_ver. intros v [] [] (a & b & -> & A & B) (a' & b' & E & A' & B'). injection E as <- <-. members.
  pose proof (det_hash _ _ _ A A'). assert (D : determines w_body).
  { clear. intros v [] [] (a & b & c & d & -> & A & B & C & D) (a' & b' & c' & d' & E & A' & B' & C' & D'). injection E as <- <- <- <-. members.
    pose proof (det_hash _ _ _ A A'). pose proof (det_ver _ _ (det_ver _ _ det_blockchain) _ _ _ B B').
    pose proof (det_ver _ _ (det_ver _ _ det_consensus) _ _ _ C C'). pose proof (det_ver _ _ (det_ver _ _ det_constants) _ _ _ D D'). congruence. }
  pose proof (det_ver _ _ (det_ver _ _ D) _ _ _ B B'). congruence.
Qed.

(** ** The commands in a block *)
Definition all_commands (t : transition (Z * Z) val val state_legacy) : list (signed_command (Z * Z)) := block_commands (Z * Z) val val state_legacy t.
Lemma inside_ver : forall u w t v n, same_ty u (V t) = false -> same_ty u (TInt U16) = false -> inside u w (V t) (VTup [VInt n; v]) -> inside u w t v.
Proof.
  intros u w t v n N M H. apply inside_tup in H; [|exact N]. destruct H as ([|[|[|i]]] & t' & v' & T & X & H); cbn [nth_error] in T, X; try discriminate.
  - injection T as <-. injection X as <-. inversion H; subst. rewrite same_refl in M. discriminate.
  - injection T as <-. injection X as <-. exact H.
Qed.
Lemma inside_ver_up : forall u w t v n, inside u w t v -> inside u w (V t) (VTup [VInt n; v]).
Proof. intros u w t v n H. apply (In_tup _ _ _ _ 1%nat t v); [reflexivity|reflexivity|exact H]. Qed.
(** [finds t R f]: the commands in a value of type [t] are those that [f] takes
    from what [R] reads. *)
Definition finds {A : Type} (t : ty) (R : val -> A -> Prop) (f : A -> list (signed_command (Z * Z))) : Prop :=
  forall v a, R v a -> (forall x, inside SignedCommandV1 x t v -> exists c, In c (f a) /\ w_command x c) /\
    (forall c, In c (f a) -> exists x, inside SignedCommandV1 x t v /\ w_command x c).
Lemma finds_ver : forall A t (R : val -> A -> Prop) f, same_ty SignedCommandV1 (V t) = false -> finds t R f -> finds (V t) (w_ver R) f.
Proof.
  intros A t R f N F v a (n & w & -> & _ & H). destruct (F w a H) as (P & Q). split.
  - intros x I. apply inside_ver in I; [auto|exact N|reflexivity].
  - intros c I. destruct (Q c I) as (x & X & W). exists x. split; [apply inside_ver_up, X|exact W].
Qed.
Definition of_with (w : with_status (Z * Z) val) : list (signed_command (Z * Z)) := [of_user _ _ w].
Lemma no_self : forall x v, inside SignedCommandV1 x SignedCommandV1 v -> (exists c, w_command v c) -> x = v.
Proof.
  intros x v H (c & m & w & -> & _ & n & y & -> & _ & a & b & d & -> & _).
  inversion H as [| | |ts vs i t v' T X I| |]; [reflexivity|].
  exfalso. destruct i as [|[|i]]; cbn [nth_error] in T, X; try discriminate.
  - injection T as <-. apply inside_occurs in I. vm_compute in I. discriminate.
  - injection T as <-. apply inside_occurs in I. vm_compute in I. discriminate.
  - destruct i; discriminate.
Qed.
Lemma finds_with : finds (TTup [UserCommandV1; TransactionStatusV1]) w_with_status of_with.
Proof.
  intros v [[c] s] (a & b & -> & W). cbn [data] in W. destruct W as (m & w & -> & _ & n & y & -> & _ & W). cbn [w_user_command_inner] in W.
  destruct W as (z & -> & W). split.
  - intros x I. apply inside_tup in I; [|vm_compute; reflexivity]. destruct I as ([|[|[|i]]] & t & v & T & X & I); cbn [nth_error] in T, X; try discriminate.
    + injection T as <-. injection X as <-. unfold UserCommandV1, V2 in I.
      apply inside_ver in I; [|vm_compute; reflexivity|reflexivity]. apply inside_ver in I; [|vm_compute; reflexivity|reflexivity].
      apply inside_one in I; [|vm_compute; reflexivity]. destruct I as ([|[|i]] & t & v & T & X & I); cbn [nth_error] in T, X; try discriminate.
      injection T as <-. injection X as <-. apply no_self in I; [|eauto]. subst x. exists c. split; [left; reflexivity|exact W].
    + injection T as <-. apply inside_occurs in I. vm_compute in I. discriminate.
  - intros c' [<-|[]]. exists z. split; [|exact W]. apply (In_tup _ _ _ _ 0%nat UserCommandV1 (VTup [VInt m; VTup [VInt n; VEnum 0 [z]]])); [reflexivity|reflexivity|].
    apply inside_ver_up, inside_ver_up. eapply (In_enum _ _ _ 0%nat _ _ 0%nat); [reflexivity|reflexivity|reflexivity|]. constructor.
Qed.
Lemma finds_with1 : finds UserCommandWithStatusV1 (w_ver w_with_status) of_with.
Proof. apply finds_ver; [vm_compute; reflexivity|exact finds_with]. Qed.
Lemma forall2_left : forall A B (P : A -> B -> Prop) l m a, Forall2 P l m -> In a l -> exists b, In b m /\ P a b.
Proof. induction 1 as [|x y l m H F IH]; intros []; [subst; exists y; split; [left|]; auto|]. destruct (IH H0) as (b & I & Q). exists b. split; [right|]; auto. Qed.
Lemma forall2_right : forall A B (P : A -> B -> Prop) l m b, Forall2 P l m -> In b m -> exists a, In a l /\ P a b.
Proof. induction 1 as [|x y l m H F IH]; intros []; [subst; exists x; split; [left|]; auto|]. destruct (IH H0) as (a & I & Q). exists a. split; [right|]; auto. Qed.
Definition of_pre (d : prediff (Z * Z) val val) : list (signed_command (Z * Z)) := map (of_user _ _) (commands _ _ _ d).
Lemma finds_pre : forall w1 w2 w3, occurs SignedCommandV1 w1 = false -> occurs SignedCommandV1 w2 = false -> occurs SignedCommandV1 w3 = false ->
  same_ty SignedCommandV1 (TTup [w1; TSeq UserCommandWithStatusV1; w2; w3]) = false ->
  finds (TTup [w1; TSeq UserCommandWithStatusV1; w2; w3]) w_prediff of_pre.
Proof.
  intros w1 w2 w3 O1 O2 O3 N v d (a & b & c & e & -> & vs & -> & F). pose proof finds_with1 as G. split.
  - intros x I. apply inside_tup in I; [|exact N]. destruct I as ([|[|[|[|[|i]]]]] & t & v & T & X & I); cbn [nth_error] in T, X; try discriminate;
      injection T as <-; injection X as <-; try (apply inside_occurs in I; congruence).
    apply inside_seq in I; [|vm_compute; reflexivity]. destruct I as (y & Y & I). destruct (forall2_left _ _ _ _ _ _ F Y) as (w & W & R).
    destruct (G _ _ R) as (P & _). destruct (P x I) as (c' & [<-|[]] & C). exists (of_user _ _ w). split; [apply in_map, W|exact C].
  - intros c' I. unfold of_pre in I. apply in_map_iff in I. destruct I as (w & <- & W). destruct (forall2_right _ _ _ _ _ _ F W) as (y & Y & R).
    destruct (G _ _ R) as (_ & Q). destruct (Q (of_user _ _ w) (or_introl eq_refl)) as (x & I & C). exists x. split; [|exact C].
    eapply (In_tup _ _ _ _ 1%nat); [reflexivity|reflexivity|]. eapply In_seq; [exact Y|exact I].
Qed.
Lemma finds_pre2 : finds StagedLedgerPreDiffV1 (w_ver2 w_prediff) of_pre.
Proof.
  unfold StagedLedgerPreDiffV1, V2. apply finds_ver; [vm_compute; reflexivity|]. apply finds_ver; [vm_compute; reflexivity|].
  apply finds_pre; vm_compute; reflexivity.
Qed.
Definition of_diff (d : diff (Z * Z) val val) : list (signed_command (Z * Z)) :=
  match diff_one _ _ _ d with Some p => of_pre p | None => [] end ++ of_pre (diff_two _ _ _ d).
Lemma finds_diff : finds (TTup [StagedLedgerDiffTupleV1]) w_diff of_diff.
Proof.
  intros v [two one] (m & a & b & -> & A & B). cbn [diff_one diff_two] in *. unfold of_diff. cbn [diff_one diff_two].
  destruct (finds_pre2 _ _ A) as (P & Q). split.
  - intros x I. apply inside_tup in I; [|vm_compute; reflexivity]. destruct I as ([|[|i]] & t & v & T & X & I); cbn [nth_error] in T, X; try discriminate.
    injection T as <-. injection X as <-. unfold StagedLedgerDiffTupleV1 in I. apply inside_ver in I; [|vm_compute; reflexivity|reflexivity].
    apply inside_tup in I; [|vm_compute; reflexivity]. destruct I as ([|[|[|i]]] & t & v & T & X & I); cbn [nth_error] in T, X; try discriminate;
      injection T as <-; injection X as <-.
    + destruct (P x I) as (c & C & W). exists c. split; [apply in_or_app; right; exact C|exact W].
    + apply inside_opt in I; [|vm_compute; reflexivity]. destruct I as (y & -> & I). destruct one as [one|]; [|discriminate].
      destruct B as (z & E & B). injection E as <-. destruct (finds_pre2 _ _ B) as (P' & _). destruct (P' x I) as (c & C & W). exists c.
      split; [apply in_or_app; left; exact C|exact W].
  - intros c I. assert (U : forall i t v x, nth_error [StagedLedgerPreDiffV1; TOpt StagedLedgerPreDiffV1] i = Some t -> nth_error [a; b] i = Some v ->
      inside SignedCommandV1 x t v -> inside SignedCommandV1 x (TTup [StagedLedgerDiffTupleV1]) (VTup [VTup [VInt m; VTup [a; b]]])).
    { intros i t v x T X J. eapply (In_tup _ _ _ _ 0%nat); [reflexivity|reflexivity|]. apply inside_ver_up. eapply In_tup; eassumption. }
    apply in_app_iff in I. destruct I as [I|I].
    + destruct one as [one|]; [|contradiction]. destruct B as (z & -> & B). destruct (finds_pre2 _ _ B) as (_ & Q'). destruct (Q' c I) as (x & J & W).
      exists x. split; [|exact W]. apply (U 1%nat (TOpt StagedLedgerPreDiffV1) (VSome z)); [reflexivity|reflexivity|]. constructor. exact J.
    + destruct (Q c I) as (x & J & W). exists x. split; [|exact W]. apply (U 0%nat StagedLedgerPreDiffV1 a); [reflexivity|reflexivity|exact J].
Qed.
(** The commands anywhere in a block are those that are verified. *)
Lemma finds_block : finds ExternalTransitionV1 w_block all_commands.
Proof.
  unfold ExternalTransitionV1. apply finds_ver; [vm_compute; reflexivity|].
  intros v [[two one] r] (a & b & c & d & e & f & g & -> & _ & C). cbn [staged_ledger_diff] in C.
  assert (F : finds StagedLedgerDiffV1 (w_ver w_diff) of_diff) by (apply finds_ver; [vm_compute; reflexivity|exact finds_diff]).
  assert (E : all_commands (mk_transition _ _ _ _ (mk_diff _ _ _ two one) r) = of_diff (mk_diff _ _ _ two one)).
  { unfold all_commands, block_commands, of_diff, of_pre. cbn [staged_ledger_diff diff_one diff_two]. rewrite map_app. destruct one; reflexivity. }
  rewrite E. destruct (F _ _ C) as (P & Q). split.
  - intros x I. apply inside_tup in I; [|vm_compute; reflexivity].
    destruct I as ([|[|[|[|[|[|[|[|i]]]]]]]] & t & v & T & X & I); cbn [nth_error] in T, X; try discriminate; injection T as <-; injection X as <-;
      try (exact (P x I)); apply inside_occurs in I; vm_compute in I; discriminate.
  - intros c' I. destruct (Q c' I) as (x & J & W). exists x. split; [|exact W]. eapply (In_tup _ _ _ _ 2%nat); [reflexivity|reflexivity|exact J].
Qed.

(** ** States that can be hashed *)
Lemma ver_ok : forall A (R : val -> A -> Prop) (P : A -> Prop), (forall v a, R v a -> P a) -> forall v a, w_ver R v a -> P a.
Proof. intros A R P H v a (n & w & _ & _ & W). exact (H _ _ W). Qed.
Lemma n32_ok : forall v z, n32 v z -> u32 z.
Proof. apply ver_ok, ver_ok. intros v z (_ & H). exact H. Qed.
Lemma n64_ok : forall v z, n64 v z -> u64 z.
Proof. apply ver_ok, ver_ok. intros v z (_ & H). exact H. Qed.
Lemma token_ok : forall v z, w_ver3 (w_num (2 ^ 64)) v z -> u64 z.
Proof. apply ver_ok, ver_ok, ver_ok. intros v z (_ & H). exact H. Qed.
Lemma hash_ok : forall v l, w_ver w_bytes v l -> bytes32 l.
Proof. apply ver_ok. intros v l (_ & H). exact H. Qed.
Lemma hash2_ok : forall v l, w_ver2 w_bytes v l -> bytes32 l.
Proof. apply ver_ok, ver_ok. intros v l (_ & H). exact H. Qed.
Lemma vec_ok : forall v l, w_ver w_vec v l -> bytes_ok l.
Proof. apply ver_ok. intros v l (_ & H & _). exact H. Qed.
Lemma epoch_ok2 : forall v e, w_ver2 w_epoch v e -> epoch_ok e.
Proof.
  apply ver_ok, ver_ok. intros v e (m & n & a & b & c & d & f & g & _ & A & B & C & D & F & G). unfold epoch_ok.
  eauto 12 using hash_ok, n64_ok, n32_ok.
Qed.
Lemma densities_ok : forall v l, w_list n32 v l -> Forall u32 l.
Proof. intros v l (vs & _ & F). induction F; constructor; eauto using n32_ok. Qed.
Lemma consensus_ok2 : forall v c, w_ver2 w_consensus v c -> consensus_ok c.
Proof.
  apply ver_ok, ver_ok. intros v s (m & n & a & b & c & d & e & f & g1 & g2 & h & i & j & k & l & m' & o & p & _ & H). decompose [and] H. unfold consensus_ok.
  repeat split; eauto using n32_ok, n64_ok, densities_ok, vec_ok; try (eapply n32_ok; eassumption); try (eapply n64_ok; eassumption).
  all: eapply epoch_ok2; eassumption.
Qed.
Lemma blockchain_ok2 : forall v b, w_ver2 w_blockchain v b -> blockchain_legacy_ok b.
Proof.
  apply ver_ok, ver_ok. intros y u (c & d & e & f & g & _ & C & D & E & F & G). split; [|split; [|split; [|split]]].
  - destruct C as (? & ? & _ & _ & ? & ? & _ & _ & m & h & i & j & k & _ & _ & _ & _ & K). exact (hash2_ok _ _ K).
  - exact (hash_ok _ _ D).
  - exact (hash_ok _ _ E).
  - exact (token_ok _ _ F).
  - exact (n64_ok _ _ G).
Qed.
Lemma constants_ok2 : forall v c, w_ver2 w_constants v c -> constants_ok c.
Proof.
  apply ver_ok, ver_ok. intros w u (c & d & e & f & g & _ & C & D & E & F & G).
  exact (conj (n32_ok _ _ C) (conj (n32_ok _ _ D) (conj (n32_ok _ _ E) (conj (n32_ok _ _ F) (n64_ok _ _ G))))).
Qed.
Lemma body_ok2 : forall v b, w_ver2 w_body v b -> body_legacy_ok b.
Proof.
  apply ver_ok, ver_ok. intros b t (x & y & z & w & _ & X & Y & Z & W).
  exact (conj (hash_ok _ _ X) (conj (blockchain_ok2 _ _ Y) (conj (consensus_ok2 _ _ Z) (constants_ok2 _ _ W)))).
Qed.
Lemma state_ok2 : forall v s, w_state v s -> bytes32 (sl_previous s) /\ body_legacy_ok (sl_body s).
Proof.
  intros v s H. split; revert v s H; apply ver_ok, ver_ok; intros v s (a & b & _ & A & B); [exact (hash_ok _ _ A)|exact (body_ok2 _ _ B)].
Qed.

(** ** Samples *)
(** A value of every wire type: bytes [b], version numbers [n], other numbers 7,
    lists of one element, the first variants. *)
Fixpoint sample (b n : Z) (t : ty) : val :=
  match t with
  | TUnit => VUnit
  | TBool => VBool true
  | TChar => VChar 0
  | TF32 | TF64 => VFloat 0
  | TStr => VStr []
  | TU8 => VInt b
  | TInt U16 => VInt n
  | TInt _ | TU64 => VInt 7
  | TOpt t => VSome (sample b n t)
  | TSeq t => VSeq [sample b n t]
  | TTup ts => VTup (map (sample b n) ts)
  | TEnum vs => VEnum 0 match vs with [] => [] | ts :: _ => map (sample b n) ts end
  | TPoly vs => VEnum 0 match vs with [] => [] | (_, ts) :: _ => map (sample b n) ts end
  end.
Fixpoint full (t : ty) : bool :=
  match t with
  | TOpt t => full t
  | TSeq t => full t
  | TTup ts => forallb full ts
  | TEnum (ts :: _) => forallb full ts
  | TPoly ((_, ts) :: _) => forallb full ts
  | TEnum [] | TPoly [] => false
  | _ => true
  end.
Lemma sample_typed : forall b n t, byte_ok b -> 0 <= n < 2 ^ 16 -> full t = true -> rust_val t (sample b n t).
Proof.
  intros b n t B N. unfold byte_ok in B.
  assert (L : forall ts, Forall (fun t => full t = true -> rust_val t (sample b n t)) ts -> forallb full ts = true ->
    typed_list rust_ok ts (map (sample b n) ts)).
  { intros ts F. induction F as [|u ts H F IH]; intros E; [exact I|]. cbn [forallb] in E. apply andb_true_iff in E.
    split; [apply H, E|apply IH, E]. }
  induction t using ty_ind'; intros F.
  1-9: try match goal with j : ikind |- _ => destruct j end; (split; [cbn; try lia; auto|exact I]).
  - repeat split. constructor.
  - split; [exact I|]. exact (IHt F).
  - apply CodecProofs.typed_seq. split; [cbn; lia|]. eexists. split; [reflexivity|]. split; [exact (IHt F)|exact I].
  - change (sample b n (TTup ts)) with (VTup (map (sample b n) ts)). apply CodecProofs.typed_tup. split; [exact I|]. eexists. split; [reflexivity|]. apply L; assumption.
  - destruct vs as [|ts vs]; [discriminate|]. apply CodecProofs.typed_enum. split; [exact I|].
    exists 0%nat, (map (sample b n) ts), ts. split; [reflexivity|]. split; [reflexivity|]. inversion H; subst. apply L; assumption.
  - destruct vs as [|(nm, ts) vs]; [discriminate|]. apply CodecProofs.typed_poly. split; [exact I|].
    exists 0%nat, (map (sample b n) ts), nm, ts. split; [reflexivity|]. split; [reflexivity|]. inversion H; subst. apply L; assumption.
Qed.
Lemma sample_small : forall b n t, full t = true -> u64s_below t (sample b n t).
Proof.
  intros b n t. unfold u64s_below. set (P := fun (t : ty) (v : val) => match t, v with TU64, VInt z => z < 2 ^ 63 | _, _ => True end).
  assert (L : forall ts, Forall (fun t => full t = true -> typed P t (sample b n t)) ts -> forallb full ts = true ->
    typed_list P ts (map (sample b n) ts)).
  { intros ts F. induction F as [|u ts H F IH]; intros E; [exact I|]. cbn [forallb] in E. apply andb_true_iff in E.
    split; [apply H, E|apply IH, E]. }
  induction t using ty_ind'; intros F.
  1-9: try match goal with j : ikind |- _ => destruct j end; (split; [cbn; try lia; auto|exact I]).
  - split; [exact I|]. exact (IHt F).
  - apply CodecProofs.typed_seq. split; [exact I|]. eexists. split; [reflexivity|]. split; [exact (IHt F)|exact I].
  - change (sample b n (TTup ts)) with (VTup (map (sample b n) ts)). apply CodecProofs.typed_tup. split; [exact I|]. eexists. split; [reflexivity|]. apply L; assumption.
  - destruct vs as [|ts vs]; [discriminate|]. apply CodecProofs.typed_enum. split; [exact I|].
    exists 0%nat, (map (sample b n) ts), ts. split; [reflexivity|]. split; [reflexivity|]. inversion H; subst. apply L; assumption.
  - destruct vs as [|(nm, ts) vs]; [discriminate|]. apply CodecProofs.typed_poly. split; [exact I|].
    exists 0%nat, (map (sample b n) ts), nm, ts. split; [reflexivity|]. split; [reflexivity|]. inversion H; subst. apply L; assumption.
Qed.
