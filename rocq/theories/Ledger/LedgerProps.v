(** Properties C55 and C98: genesis ledgers. *)

From Coq Require Import String ZArith List Bool Sorted Lia ZifyBool ZifyNat.
From Verif Require Import Merkle.TreeProofs Lib.Res Lib.Bytes Lib.Vec BinProt.Codec BinProt.CodecSpec BinProt.CodecFacts BinProt.CodecProps BinProt.BufRead BinProt.FormatSpec
  BinProt.AcceptProps BinProt.WidthProps Text.Base58 Merkle.Tree Merkle.MerkleSpec Merkle.Poseidon Merkle.MerkleProps Wire.Types Wire.WireProps
  Text.FieldText Hashing.ROInput Hashing.Command Hashing.Account Hashing.Items Hashing.AccountProps Json.JsonCrashFacts
  Ledger.AccountWire Ledger.AccountWireSpec Ledger.AccountWireFacts Ledger.AccountWireProps Ledger.Ledger Ledger.LedgerSpec Ledger.LedgerFacts.
Import ListNotations.
Local Open Scope list_scope.
Local Open Scope Z_scope.
Notation length := List.length.

Notation values_ok db := (Forall (fun e => bytes_ok (snd e)) db).
Notation kept_accounts := (kept AccountV0 account wire_account).
Notation kept_legacy := (kept AccountV1 legacy wire_legacy).

(** ** Which accounts are loaded *)
Section Load.
  Variable T : ty.
  Variable A : Type.
  Variable into : val -> res unit A.
  Variable checked : bool.
  Variable R : val -> A -> Prop.
  Variable big : val -> Prop.
  Hypothesis F : fine T into R big.
  Hypothesis T_bounded : bounded T = true.
  Hypothesis T_min : (1 <= min_size T)%nat.
  Hypothesis T_max : Z.of_nat (max_size T) < BUF_CAP.
  Hypothesis T_plain : plain T = true.

  Lemma tree_new : forall l : list A, exists t, add_batch checked (@new_tree A Z (Some MINA_LEDGER_HEIGHT)) l = Ok t /\
    map fst (leafs t) = l /\ fixed t = Some 20.
  Proof using Type.
    intros l. destruct (add_batch_ok (fun (_ : A) (_ : meta) => 0) (fun _ _ _ => Some 0) (fun _ _ _ _ => eq_refl) checked
      (new_tree (Some MINA_LEDGER_HEIGHT)) [] l (inv_new _ _ _)) as (t & E & I & Fx). exists t. split; [exact E|]. split; [exact (inv_items _ _ _ _ I)|exact Fx].
  Qed.
  Lemma tree_spec : forall db fault, ordered db -> values_ok db ->
    (forall l, (exists t, to_tree T A into checked Z db fault = Ok t /\ map fst (leafs t) = l) <-> kept T A R (seen db fault) l) /\
    (to_tree T A into checked Z db fault = Panic <-> Exists (fun e => stores_big T big (snd e)) (seen db fault)).
  Proof using F T_bounded T_min T_max T_plain.
    intros db fault O V. destruct (loaded_spec T A into checked R big F T_bounded T_min T_max T_plain db fault O V) as (S & P). unfold to_tree. split.
    - intros l. rewrite <- S. split.
      + intros (t & E & L). destruct (flatten A _) as [l'|e|]; cbn [bind] in E; try discriminate.
        destruct (tree_new l') as (t' & E' & L' & _). rewrite E' in E. injection E as ->. congruence.
      + intros ->. cbn [bind]. destruct (tree_new l) as (t & E & L & _). eauto.
    - rewrite <- P. destruct (flatten A _) as [l'|e|]; cbn [bind].
      + destruct (tree_new l') as (t' & -> & _). split; discriminate.
      + split; discriminate.
      + split; reflexivity.
  Qed.
  Lemma tree_loaded : forall db fault t, ordered db -> values_ok db -> to_tree T A into checked Z db fault = Ok t ->
    kept T A R (seen db fault) (map fst (leafs t)) /\ add_batch checked (new_tree (Some 20)) (map fst (leafs t)) = Ok t.
  Proof using F T_bounded T_min T_max T_plain.
    intros db fault t O V E. split; [apply (tree_spec db fault O V); eauto|]. unfold to_tree in E.
    destruct (flatten A _) as [l'|e|]; cbn [bind] in E; try discriminate. destruct (tree_new l') as (t' & E' & L' & _). rewrite E' in E. injection E as ->.
    rewrite L'. exact E'.
  Qed.
  (** Items of the iterator, one for each record read. *)
  Lemma items_spec : forall db fault, ordered db -> values_ok db ->
    Forall2 (fun e r => (exists a, r = Ok a /\ stores T A R (snd e) a) \/ ((exists x, r = Err (Disconnect x (fst e) (snd e))) /\ undecodable T (snd e)) \/
      (r = Panic /\ stores_big T big (snd e))) (seen db fault) (accounts T A into checked db fault).
  Proof using F T_bounded T_min T_max T_plain.
    intros db fault O V. unfold accounts. rewrite (entries_seen db fault O).
    assert (V' : values_ok (seen db fault)).
    { assert (Vr : values_ok (records db)) by (apply Forall_forall; intros e I; apply filter_In in I; exact (proj1 (Forall_forall _ _) V e (proj1 I))).
      destruct fault as [n|]; cbn [seen]; [|exact Vr]. apply Forall_forall. intros e I. apply (proj1 (Forall_forall _ _) Vr e). rewrite <- (firstn_skipn n). apply in_or_app. left. exact I. }
    induction V' as [|(k, bs) es H V' IH]; cbn [map]; constructor; [|exact IH]. cbn [fst snd] in *.
    exact (decode_cases T A into checked R big F T_bounded T_min T_max T_plain k bs H).
  Qed.
End Load.

Lemma flatten_skip : forall A l1 e l2, flatten A (l1 ++ Err e :: l2) = flatten A (l1 ++ l2).
Proof. intros A l1 e l2. induction l1 as [|[x|x|] l IH]; cbn [app flatten]; [reflexivity|rewrite IH; reflexivity|exact IH|reflexivity]. Qed.
Lemma v0_facts : bounded AccountV0 = true /\ (1 <= min_size AccountV0)%nat /\ Z.of_nat (max_size AccountV0) < BUF_CAP /\ plain AccountV0 = true.
Proof. split; [reflexivity|]. split; [vm_compute; lia|]. split; reflexivity. Qed.
Lemma v1_facts : bounded AccountV1 = true /\ (1 <= min_size AccountV1)%nat /\ Z.of_nat (max_size AccountV1) < BUF_CAP /\ plain AccountV1 = true.
Proof. split; [reflexivity|]. split; [vm_compute; lia|]. split; reflexivity. Qed.

(** ** C55 *)

(** The iterator over a ledger yields one item for each record of the database
    (up to a database error), in the order of the keys: the account stored, or
    an error with the record if it cannot be decoded; it crashes on a record with
    a key that is no field element. *)
Theorem C55_items : forall checked db fault, ordered db -> values_ok db ->
  Forall2 (fun e r => (exists a, r = Ok a /\ stores AccountV0 account wire_account (snd e) a) \/
    ((exists x, r = Err (Disconnect x (fst e) (snd e))) /\ undecodable AccountV0 (snd e)) \/
    (r = Panic /\ stores_big AccountV0 big_account (snd e)))
  (seen db fault) (accounts AccountV0 account account_of checked db fault).
Proof. intros checked. destruct v0_facts as (B & M & X & P). exact (items_spec _ _ _ checked _ _ fine_account B M X P). Qed.
(** The leaves of the ledger tree are these accounts; the errors are left out... *)
Theorem C55_leaves : forall checked db fault l, ordered db -> values_ok db ->
  (exists t, to_mina_merkle_ledger checked db fault = Ok t /\ map fst (leafs t) = l) <-> kept_accounts (seen db fault) l.
Proof. intros checked db fault l O V. destruct v0_facts as (B & M & X & P). apply (tree_spec _ _ _ checked _ _ fine_account B M X P db fault O V). Qed.
(** ... and the crash is one of the whole function. *)
Theorem C55_crashes_iff : forall checked db fault, ordered db -> values_ok db ->
  to_mina_merkle_ledger checked db fault = Panic <-> Exists (fun e => stores_big AccountV0 big_account (snd e)) (seen db fault).
Proof. intros checked db fault O V. destruct v0_facts as (B & M & X & P). apply (tree_spec _ _ _ checked _ _ fine_account B M X P db fault O V). Qed.
(** So nothing is lost if every record can be decoded and the database reports
    no error. *)
Theorem C55_complete : forall checked db, ordered db -> values_ok db ->
  Forall (fun e => exists a, stores AccountV0 account wire_account (snd e) a) (records db) ->
  exists t, to_mina_merkle_ledger checked db None = Ok t /\
    Forall2 (fun e a => stores AccountV0 account wire_account (snd e) a) (records db) (map fst (leafs t)).
Proof.
  intros checked db O V D.
  assert (X : exists l, Forall2 (fun e a => stores AccountV0 account wire_account (snd e) a) (records db) l).
  { induction D as [|e es (a & H) D (l & IH)]; [exists []; constructor|]. exists (a :: l). constructor; assumption. }
  destruct X as (l & X). assert (K : kept_accounts (seen db None) l) by (cbn [seen]; clear - X; induction X; [apply K_nil|apply K_take; assumption]).
  apply (C55_leaves checked db None l O V) in K. destruct K as (t & E & L). exists t. rewrite L. auto.
Qed.
(** A record that cannot be decoded makes no difference: no error is reported. *)
Theorem C55_refuted : forall checked db1 e db2, ordered (db1 ++ e :: db2) -> values_ok (db1 ++ e :: db2) -> undecodable AccountV0 (snd e) ->
  to_mina_merkle_ledger checked (db1 ++ e :: db2) None = to_mina_merkle_ledger checked (db1 ++ db2) None.
Proof.
  intros checked db1 (k, bs) db2 O V U.
  assert (O' : ordered (db1 ++ db2)).
  { clear V U. induction db1 as [|f db1 IH]; cbn [app] in *; [inversion O; assumption|]. inversion O as [|? ? O1 O2]; subst. constructor; [apply IH, O1|].
    apply Forall_app in O2. destruct O2 as (O2 & O3). inversion O3; subst. apply Forall_app. auto. }
  unfold to_mina_merkle_ledger, to_tree. f_equal. unfold accounts. rewrite (entries_seen _ _ O), (entries_seen _ _ O'). cbn [seen]. unfold records.
  rewrite !filter_app. cbn [filter]. destruct (is_record (k, bs)); [|reflexivity]. rewrite !map_app. cbn [map].
  apply Forall_app in V. destruct V as (_ & V). inversion V as [|? ? Vb _]; subst. cbn [snd] in *. destruct v0_facts as (B & M & X & P).
  destruct (decode_cases _ _ _ checked _ _ fine_account B M X P k bs Vb) as [(a & _ & (v & H & _))|[((e & ->) & _)|(_ & (v & H & _))]]; [destruct (U v H)| |destruct (U v H)].
  apply flatten_skip.
Qed.
(** After a database error the rest of the ledger is missing, without an error. *)
Theorem C55_fault_refuted : forall checked db n, ordered db -> 
  to_mina_merkle_ledger checked db (Some n) = to_mina_merkle_ledger checked (firstn n (records db)) None.
Proof.
  intros checked db n O. unfold to_mina_merkle_ledger, to_tree, accounts. do 3 f_equal.
  assert (O' : ordered (firstn n (records db))).
  { assert (Or : ordered (records db)).
    { clear n. unfold records. induction db as [|e db IH]; [constructor|]. cbn [filter]. inversion O as [|? ? O1 O2]; subst. specialize (IH O1).
      destruct (is_record e); [|exact IH]. constructor; [exact IH|]. apply Forall_forall. intros f I. apply filter_In in I. exact (proj1 (Forall_forall _ _) O2 f (proj1 I)). }
    revert Or. generalize (records db). clear. intros l. revert n. induction l as [|e l IH]; intros [|n] O; cbn [firstn]; try constructor; inversion O as [|? ? O1 O2]; subst.
    - apply IH, O1.
    - apply Forall_forall. intros f I. apply (proj1 (Forall_forall _ _) O2). rewrite <- (firstn_skipn n). apply in_or_app. left. exact I. }
  rewrite (entries_seen _ _ O), (entries_seen _ _ O'). cbn [seen]. f_equal. 
  assert (H : forall l, (forall e, In e l -> is_record e = true) -> records l = l).
  { induction l as [|e l IH]; intros H; [reflexivity|]. unfold records. cbn [filter]. rewrite (H e (or_introl eq_refl)). f_equal. apply IH. intros f I. apply H. right. exact I. }
  symmetry. apply H. intros e I. assert (J : In e (records db)) by (rewrite <- (firstn_skipn n); apply in_or_app; left; exact I). apply filter_In in J. exact (proj2 J).
Qed.
(** The height of the tree is 20 whatever depth the ledger says. *)
Theorem C55_depth_refuted : forall checked db fault t, to_mina_merkle_ledger checked db fault = Ok t -> height t = 20.
Proof.
  intros checked db fault t E. unfold to_mina_merkle_ledger, to_tree in E. destruct (flatten _ _) as [l|e|]; cbn [bind] in E; try discriminate.
  destruct (tree_new account checked l) as (t' & E' & _ & H). rewrite E' in E. injection E as ->. unfold height. rewrite H. reflexivity.
Qed.

(** The same for the older accounts. *)
Theorem C55_legacy_leaves : forall checked db fault l, ordered db -> values_ok db ->
  (exists t, to_mina_merkle_ledger_legacy checked db fault = Ok t /\ map fst (leafs t) = l) <-> kept_legacy (seen db fault) l.
Proof. intros checked db fault l O V. destruct v1_facts as (B & M & X & P). apply (tree_spec _ _ _ checked _ _ fine_legacy B M X P db fault O V). Qed.
Theorem C55_legacy_crashes_iff : forall checked db fault, ordered db -> values_ok db ->
  to_mina_merkle_ledger_legacy checked db fault = Panic <-> Exists (fun e => stores_big AccountV1 big_legacy (snd e)) (seen db fault).
Proof. intros checked db fault O V. destruct v1_facts as (B & M & X & P). apply (tree_spec _ _ _ checked _ _ fine_legacy B M X P db fault O V). Qed.

(** ** Roots of trees of height 20 *)
Section Tree20.
  Variable poseidon : option (list Z) -> list Z -> Z.
  Variable e0 : Z.
  Context {A : Type}.
  Variable h : A -> Z.
  Lemma root20 : forall checked t, add_batch checked (new_tree (Some 20)) (map fst (leafs t)) = Ok t -> zlen (leafs t) <= 2 ^ 20 ->
    exists t', root (poseidon_hash_item h) (poseidon_merge poseidon e0) checked t =
      Ok (t', Some (perfect_root (merge_present poseidon) e0 20 (map h (map fst (leafs t))))).
  Proof using Type.
    intros checked t E L. set (l := map fst (leafs t)) in *.
    assert (Ln : zlen l = zlen (leafs t)) by (unfold zlen, l; rewrite map_length; reflexivity).
    destruct (C20_fixed_height poseidon e0 h checked 20 [OAddBatch l] t) as (t' & R).
    - cbn [run step bind]. rewrite E. reflexivity.
    - unfold leaves_of. cbn [flat_map op_leaves]. rewrite app_nil_r, Ln. lia.
    - reflexivity.
    - unfold leaves_of. cbn [flat_map op_leaves]. rewrite app_nil_r, Ln. exact L.
    - exists t'. rewrite R. unfold leaves_of. cbn [flat_map op_leaves]. rewrite app_nil_r. unfold padded. rewrite perfect_padding. reflexivity.
  Qed.
  Lemma root20_over : forall checked t, add_batch checked (new_tree (Some 20)) (map fst (leafs t)) = Ok t -> 2 ^ 20 < zlen (leafs t) < 2 ^ 62 ->
    root (poseidon_hash_item h) (poseidon_merge poseidon e0) checked t = Panic.
  Proof using Type.
    intros checked t E L. set (l := map fst (leafs t)) in *.
    assert (Ln : zlen l = zlen (leafs t)) by (unfold zlen, l; rewrite map_length; reflexivity).
    pose proof (calculate_height_least (length l)) as K. set (k := Z.to_nat _) in K.
    apply (C18_overfull_panics _ _ (poseidon_hash_item h) (poseidon_merge poseidon e0) checked 20 [OAddBatch l] t k).
    - apply poseidon_total.
    - apply poseidon_item_depth.
    - cbn [run step bind]. rewrite E. reflexivity.
    - unfold leaves_of. cbn [flat_map op_leaves]. rewrite app_nil_r, Ln. lia.
    - unfold leaves_of. cbn [flat_map op_leaves]. rewrite app_nil_r. exact K.
    - destruct K as (K & _). destruct (Z.ltb_spec 20 (Z.of_nat k)) as [H|H]; [exact H|]. exfalso. apply Nat2Z.inj_le in K. rewrite pow2_nat in K.
      assert (Q : 2 ^ Z.of_nat k <= 2 ^ 20) by (apply Z.pow_le_mono_r; lia). unfold zlen in *. lia.
  Qed.
End Tree20.

(** ([injection] would compute the trees.) *)
Lemma ok_inj : forall E A (x y : A), @Ok E A x = Ok y -> x = y.
Proof. intros E A x y H. injection H as H. exact H. Qed.
Lemma some_inj : forall A (x y : A), Some x = Some y -> x = y.
Proof. intros A x y H. injection H as H. exact H. Qed.
Lemma legacy_roinput_ok : forall a, exists r, account_legacy_roinput a = Ok r.
Proof.
  intros a. unfold account_legacy_roinput, u64_legacy. rewrite l_new_items, !l_u64_items. cbn [l_append_all].
  rewrite l_hashable_items. cbn [bind]. rewrite l_hashable_items. eexists. reflexivity.
Qed.
Lemma bytes_okb_sound : forall l, forallb (fun b => (0 <=? b) && (b <? 256)) l = true -> bytes_ok l.
Proof. intros l H. apply Forall_forall. intros b I. apply (proj1 (forallb_forall _ _) H) in I. unfold byte_ok. lia. Qed.
Lemma wire_ok : forall v a, wire_account v a -> account_ok a.
Proof.
  intros v a (k & t & p & s & b & n & r & d & o & i & m & z & u & _ & _ & (_ & T) & _ & (_ & S) & (_ & B) & (_ & N) & (_ & R) & _ & (_ & O) & Ti & _).
  split; [exact T|]. split; [exact B|]. split; [exact N|]. split; [exact S|]. split; [exact R|]. split; [exact O|].
  destruct (a_timing a) as [|x]; [exact I|]. destruct Ti as (a1 & a2 & a3 & a4 & a5 & _ & (_ & T1) & (_ & T2) & (_ & T3) & (_ & T4) & (_ & T5)).
  split; [exact T1|]. split; [exact T2|]. split; [exact T3|]. split; [exact T4|exact T5].
Qed.
Lemma kept_ok : forall es l, kept_accounts es l -> Forall account_ok l.
Proof. intros es l K. induction K as [|e es a l (v & _ & W) K IH|e es l U K IH]; [constructor|constructor; [exact (wire_ok _ _ W)|exact IH]|exact IH]. Qed.
Lemma legacy_wire_ok : forall v l, wire_legacy v l -> u64 (al_token_id (l_account l)) /\ u64 (al_balance (l_account l)).
Proof.
  intros v l (n1 & w1 & _ & _ & n2 & w2 & _ & _ & n3 & w3 & _ & _ & W). destruct W as (k & t & p & b & n & r & d & o & i & m & u & _ & _ & T & _ & B & _).
  destruct T as (m1 & x1 & _ & _ & m2 & x2 & _ & _ & m3 & x3 & _ & _ & _ & T). destruct B as (m4 & x4 & _ & _ & m5 & x5 & _ & _ & _ & B). split; [exact T|exact B].
Qed.
Lemma kept_legacy_ok : forall es l, kept_legacy es l -> Forall (fun a => u64 (al_token_id (l_account a)) /\ u64 (al_balance (l_account a))) l.
Proof. intros es l K. induction K as [|e es a l (v & _ & W) K IH|e es l U K IH]; [constructor|constructor; [exact (legacy_wire_ok _ _ W)|exact IH]|exact IH]. Qed.

Section Roots.
  Variable poseidon : option (list Z) -> list Z -> Z.
  Variable checked : bool.
  Notation hashes a h := (account_hash (kimchi poseidon) checked a = Ok h).
  Notation nd := (merge_present poseidon).

  Lemma hash_total : forall a, account_ok a -> canonical (voting_for a) -> canonical (receipt_chain_hash a) -> exists h, hashes a h.
  Proof.
    intros a K V R. pose proof (C89_panics_iff (kimchi poseidon) checked a K) as P. destruct (account_hash (kimchi poseidon) checked a) as [h|[]|] eqn:E; [eauto| |].
    - exfalso. revert E. unfold account_hash, account_fields.
      destruct (account_eq (kimchi poseidon) checked) as (u & z & Q). rewrite (Q a K V R). cbn [bind]. destruct (roinput_total checked _ (account_items_ok u z a K)) as [r ->]. discriminate.
    - exfalso. destruct (proj1 P eq_refl); auto.
  Qed.
  Lemma hash_cases : forall a, account_ok a -> (exists h, hashes a h) \/ (account_hash (kimchi poseidon) checked a = Panic /\ (~ canonical (voting_for a) \/ ~ canonical (receipt_chain_hash a))).
  Proof.
    intros a K. pose proof (C89_panics_iff (kimchi poseidon) checked a K) as P.
    assert (D : forall h, canonical h \/ ~ canonical h) by (intros h; unfold canonical; lia).
    destruct (D (voting_for a)) as [V|V], (D (receipt_chain_hash a)) as [R|R]; [left; apply hash_total; assumption| | |]; right; (split; [apply P; tauto|tauto]).
  Qed.
  Lemma hashes_all : forall l, Forall account_ok l ->
    (forallb (hashable poseidon checked) l = true /\ Forall2 (fun a h => hashes a h) l (map (hash_or_0 poseidon checked) l)) \/
    (forallb (hashable poseidon checked) l = false /\ Exists (fun a => ~ canonical (voting_for a) \/ ~ canonical (receipt_chain_hash a)) l).
  Proof.
    intros l K. induction K as [|a l H K IH]; [left; split; [reflexivity|constructor]|]. cbn [forallb map]. unfold hashable at 1 3, hash_or_0 at 1. unfold leaf_hash.
    destruct (hash_cases a H) as [(h & E)|(E & N)]; rewrite E.
    - destruct IH as [(B & F)|(B & F)]; [left|right]; (split; [exact B|]).
      + constructor; [exact E|exact F].
      + apply Exists_cons_tl, F.
    - right. split; [reflexivity|]. apply Exists_cons_hd, N.
  Qed.
  Lemma hashes_fun : forall l hs hs', Forall2 (fun a h => hashes a h) l hs -> Forall2 (fun a h => hashes a h) l hs' -> hs = hs'.
  Proof.
    intros l hs hs' F. revert hs'. induction F as [|a h l hs E F IH]; intros hs' G; inversion G as [|? h' ? hs2 E' G']; subst; [reflexivity|].
    f_equal; [congruence|apply IH, G'].
  Qed.

  (** C55: The root is the Merkle root over the hashes of the accounts loaded,
      in their order, with the constant for missing accounts. *)
  Theorem C55_root : forall db fault t r, ordered db -> values_ok db -> to_mina_merkle_ledger checked db fault = Ok t -> zlen (leafs t) < 2 ^ 62 ->
    ledger_root poseidon checked t = Ok r <->
    zlen (leafs t) <= 2 ^ 20 /\ exists hs, Forall2 (fun a h => hashes a h) (map fst (leafs t)) hs /\ r = Some (perfect_root nd empty_kimchi_repr 20 hs).
  Proof.
    intros db fault t r O V E M. destruct v0_facts as (B & Mi & X & P). destruct (tree_loaded _ _ _ checked _ _ fine_account B Mi X P db fault t O V E) as (K & T).
    apply kept_ok in K. unfold ledger_root. replace (forallb (fun l => hashable poseidon checked (fst l)) (leafs t)) with (forallb (hashable poseidon checked) (map fst (leafs t)))
      by (clear; induction (leafs t) as [|x l IH]; [reflexivity|]; cbn [map forallb]; rewrite IH; reflexivity).
    destruct (hashes_all _ K) as [(-> & F)|(-> & F)].
    - destruct (Z.leb_spec (zlen (leafs t)) (2 ^ 20)) as [L|L].
      + destruct (root20 poseidon empty_kimchi_repr (hash_or_0 poseidon checked) checked t T L) as (t' & ->). cbn [bind]. split.
        * intros Q. apply ok_inj in Q. rewrite <- Q. split; [exact L|]. exists (map (hash_or_0 poseidon checked) (map fst (leafs t))). split; [exact F|reflexivity].
        * intros (_ & hs & F' & ->). rewrite (hashes_fun _ _ _ F F'). reflexivity.
      + rewrite (root20_over poseidon empty_kimchi_repr (hash_or_0 poseidon checked) checked t T) by lia. cbn [bind]. split; [discriminate|]. intros (Q & _). lia.
    - split; [discriminate|]. intros (_ & hs & F' & _). exfalso. clear - F F' K. induction F' as [|a h l hs E F' IH]; [inversion F|].
      inversion K as [|? ? K1 K2]; subst. inversion F as [? ? N|? ? N]; subst; [|exact (IH K2 N)].
      apply (C89_panics_iff (kimchi poseidon) checked a K1) in N. congruence.
  Qed.
  (** Computing it crashes exactly if there are more than 2^20 accounts, or one
      with a hash that is no field element. *)
  Theorem C55_root_crashes_iff : forall db fault t, ordered db -> values_ok db -> to_mina_merkle_ledger checked db fault = Ok t -> zlen (leafs t) < 2 ^ 62 ->
    ledger_root poseidon checked t = Panic <->
    2 ^ 20 < zlen (leafs t) \/ Exists (fun a => ~ canonical (voting_for a) \/ ~ canonical (receipt_chain_hash a)) (map fst (leafs t)).
  Proof.
    intros db fault t O V E M. destruct v0_facts as (B & Mi & X & P). destruct (tree_loaded _ _ _ checked _ _ fine_account B Mi X P db fault t O V E) as (K & T).
    apply kept_ok in K. unfold ledger_root. replace (forallb (fun l => hashable poseidon checked (fst l)) (leafs t)) with (forallb (hashable poseidon checked) (map fst (leafs t)))
      by (clear; induction (leafs t) as [|x l IH]; [reflexivity|]; cbn [map forallb]; rewrite IH; reflexivity).
    destruct (hashes_all _ K) as [(-> & F)|(-> & F)]; [|tauto].
    assert (N : ~ Exists (fun a => ~ canonical (voting_for a) \/ ~ canonical (receipt_chain_hash a)) (map fst (leafs t))).
    { intros Q. revert K F Q. generalize (map fst (leafs t)). intros l K F Q. induction Q as [a l Q|a l Q IH]; inversion K as [|? ? K1 K2]; subst; inversion F as [|? h ? hs E1 F1]; subst; [|auto].
      apply (C89_panics_iff (kimchi poseidon) checked a K1) in Q. congruence. }
    destruct (Z.leb_spec (zlen (leafs t)) (2 ^ 20)) as [L|L].
    - destruct (root20 poseidon empty_kimchi_repr (hash_or_0 poseidon checked) checked t T L) as (t' & ->). cbn [bind]. split; [discriminate|]. intros [Q|Q]; [lia|contradiction].
    - rewrite (root20_over poseidon empty_kimchi_repr (hash_or_0 poseidon checked) checked t T) by lia. cbn [bind]. split; [left; exact L|reflexivity].
  Qed.

  (** ** C98: the root determines the accounts, in their order and up to what
      account hashes leave out; unless the hash function has a collision or an
      account has the hash of the missing account. *)
  Theorem C98_root_binds : forall db1 f1 t1 db2 f2 t2 r, ordered db1 -> values_ok db1 -> ordered db2 -> values_ok db2 ->
    to_mina_merkle_ledger checked db1 f1 = Ok t1 -> to_mina_merkle_ledger checked db2 f2 = Ok t2 -> zlen (leafs t1) < 2 ^ 62 -> zlen (leafs t2) < 2 ^ 62 ->
    ledger_root poseidon checked t1 = Ok r -> ledger_root poseidon checked t2 = Ok r ->
    Forall2 same_account (map fst (leafs t1)) (map fst (leafs t2)) \/ collision poseidon \/
    exists a, In a (map fst (leafs t1) ++ map fst (leafs t2)) /\ hashes a empty_kimchi_repr.
  Proof.
    intros db1 f1 t1 db2 f2 t2 r O1 V1 O2 V2 E1 E2 M1 M2 R1 R2. destruct v0_facts as (B & Mi & X & P).
    destruct (tree_loaded _ _ _ checked _ _ fine_account B Mi X P db1 f1 t1 O1 V1 E1) as (K1 & _). destruct (tree_loaded _ _ _ checked _ _ fine_account B Mi X P db2 f2 t2 O2 V2 E2) as (K2 & _).
    apply kept_ok in K1, K2. apply (C55_root db1 f1 t1 r O1 V1 E1 M1) in R1. apply (C55_root db2 f2 t2 r O2 V2 E2 M2) in R2.
    destruct R1 as (L1 & hs1 & H1 & ->), R2 as (L2 & hs2 & H2 & Q). apply some_inj in Q.
    revert K1 K2 H1 H2 Q. unfold zlen in L1, L2. rewrite <- (map_length fst) in L1, L2. revert L1 L2. generalize (map fst (leafs t1)) (map fst (leafs t2)).
    intros l1 l2 L1 L2 K1 K2 H1 H2 Q.
    assert (N : forall l hs, Forall2 (fun a h => hashes a h) l hs -> length l = length hs) by (intros l hs F; induction F; cbn [List.length]; congruence).
    assert (N1 := N _ _ H1). assert (N2 := N _ _ H2). clear N.
    assert (Pw : Z.of_nat (2 ^ 20) = 2 ^ 20) by apply (pow2_nat 20).
    assert (W : forall l hs, Forall2 (fun a h => hashes a h) l hs -> In empty_kimchi_repr hs -> exists a, In a l /\ hashes a empty_kimchi_repr).
    { intros l hs F. induction F as [|a h l hs Ea F IH]; intros I; [destruct I|]. destruct I as [->|I]; [exists a; split; [left; reflexivity|exact Ea]|].
      destruct (IH I) as (b & J & Eb). exists b. split; [right; exact J|exact Eb]. }
    destruct (in_dec Z.eq_dec empty_kimchi_repr hs1) as [I1|I1].
    { right. right. destruct (W _ _ H1 I1) as (a & J & Ea). exists a. split; [apply in_or_app; left; exact J|exact Ea]. }
    destruct (in_dec Z.eq_dec empty_kimchi_repr hs2) as [I2|I2].
    { right. right. destruct (W _ _ H2 I2) as (a & J & Ea). exists a. split; [apply in_or_app; right; exact J|exact Ea]. }
    destruct (perfect_inj poseidon empty_kimchi_repr 20 hs1 hs2) as [C|C]; [lia|lia|exact Q|right; left; exact C|].
    apply (nth_all empty_kimchi_repr _ _ I1 I2) in C. subst hs2. clear L1 L2 I1 I2 W Pw N1 N2 Q.
    revert l2 K2 H2. induction H1 as [|a h l1 hs Ea H1 IH]; intros l2 K2 H2; inversion H2 as [|b ? l2' ? Eb H2']; subst; [left; constructor|].
    inversion K1 as [|? ? Ka K1']; subst. inversion K2 as [|? ? Kb K2']; subst. destruct (IH K1' l2' K2' H2') as [S|[S|(x & I & Ex)]].
    2: { right. left. exact S. }
    2: { right. right. exists x. split; [|exact Ex]. cbn [app]. right. apply in_app_or in I. apply in_or_app. destruct I as [I|I]; [left; exact I|right; right; exact I]. }
    assert (Ca : canonical (voting_for a) /\ canonical (receipt_chain_hash a)).
    { pose proof (C89_panics_iff (kimchi poseidon) checked a Ka) as Pa. unfold canonical in *. destruct (Z.ltb_spec (le_val (voting_for a)) FP_MODULUS), (Z.ltb_spec (le_val (receipt_chain_hash a)) FP_MODULUS); auto; exfalso;
        (assert (Y : account_hash (kimchi poseidon) checked a = Panic) by (apply Pa; lia)); congruence. }
    assert (Cb : canonical (voting_for b) /\ canonical (receipt_chain_hash b)).
    { pose proof (C89_panics_iff (kimchi poseidon) checked b Kb) as Pa. unfold canonical in *. destruct (Z.ltb_spec (le_val (voting_for b)) FP_MODULUS), (Z.ltb_spec (le_val (receipt_chain_hash b)) FP_MODULUS); auto; exfalso;
        (assert (Y : account_hash (kimchi poseidon) checked b = Panic) by (apply Pa; lia)); congruence. }
    unfold account_hash in Ea, Eb. pose proof (C47_iff (kimchi poseidon) checked a b Ka Kb (proj1 Ca) (proj2 Ca) (proj1 Cb) (proj2 Cb)) as G.
    destruct (account_fields (kimchi poseidon) checked a) as [fa|ea|]; cbn [bind] in Ea; try discriminate.
    destruct (account_fields (kimchi poseidon) checked b) as [fb|eb|]; cbn [bind] in Eb; try discriminate.
    destruct (list_eq_dec Z.eq_dec fa fb) as [Y|Y].
    - left. constructor; [|exact S]. apply G. rewrite Y. reflexivity.
    - right. left. exists (Some (str_bytes "CodaAccount")), fa, fb. split; [exact Y|]. unfold kimchi in Ea, Eb. congruence.
  Qed.

  (** The older ledgers. *)
  Notation same_tokens := (fun a b : legacy => al_token_id (l_account a) = al_token_id (l_account b) /\ al_balance (l_account a) = al_balance (l_account b)).
  Theorem C55_legacy_root : forall db fault t, ordered db -> values_ok db -> to_mina_merkle_ledger_legacy checked db fault = Ok t -> zlen (leafs t) < 2 ^ 62 ->
    legacy_root poseidon checked t =
    if zlen (leafs t) <=? 2 ^ 20 then Ok (Some (perfect_root nd empty_legacy_repr 20 (map (fun a => poseidon (Some (str_bytes "CodaAccount"))
      match account_legacy_roinput (l_account a) with Ok r => l_to_fields r | _ => [] end) (map fst (leafs t))))) else Panic.
  Proof.
    intros db fault t O V E M. destruct v1_facts as (B & Mi & X & P). destruct (tree_loaded _ _ _ checked _ _ fine_legacy B Mi X P db fault t O V E) as (K & T).
    assert (Hh : forall a : legacy, legacy_hash poseidon a = poseidon (Some (str_bytes "CodaAccount")) match account_legacy_roinput (l_account a) with Ok r => l_to_fields r | _ => [] end).
    { intros a. unfold legacy_hash. destruct (legacy_roinput_ok (l_account a)) as (r & ->). reflexivity. }
    unfold legacy_root. destruct (Z.leb_spec (zlen (leafs t)) (2 ^ 20)) as [L|L].
    - destruct (root20 poseidon empty_legacy_repr (legacy_hash poseidon) checked t T L) as (t' & ->). cbn [bind].
      rewrite (map_ext _ _ Hh). reflexivity.
    - rewrite (root20_over poseidon empty_legacy_repr (legacy_hash poseidon) checked t T) by lia. reflexivity.
  Qed.
  (** Their root is one of the token and the balance of each account alone, so
      ledgers that differ in keys or nonces, say, have the same root. *)
  Theorem C98_legacy_refuted : forall db1 f1 t1 db2 f2 t2, ordered db1 -> values_ok db1 -> ordered db2 -> values_ok db2 ->
    to_mina_merkle_ledger_legacy checked db1 f1 = Ok t1 -> to_mina_merkle_ledger_legacy checked db2 f2 = Ok t2 -> zlen (leafs t1) < 2 ^ 62 -> zlen (leafs t2) < 2 ^ 62 ->
    Forall2 same_tokens (map fst (leafs t1)) (map fst (leafs t2)) -> legacy_root poseidon checked t1 = legacy_root poseidon checked t2.
  Proof.
    intros db1 f1 t1 db2 f2 t2 O1 V1 O2 V2 E1 E2 M1 M2 S.
    rewrite (C55_legacy_root db1 f1 t1 O1 V1 E1 M1), (C55_legacy_root db2 f2 t2 O2 V2 E2 M2). unfold zlen. rewrite <- (map_length fst (leafs t1)), <- (map_length fst (leafs t2)).
    revert S. generalize (map fst (leafs t1)) (map fst (leafs t2)). intros l1 l2 S.
    assert (N : length l1 = length l2) by (induction S; cbn [List.length]; congruence). rewrite N.
    destruct (_ <=? _); [|reflexivity]. do 3 f_equal. clear N. induction S as [|a b l1 l2 (T & Bl) S IH]; [reflexivity|]. cbn [map]. rewrite IH. do 2 f_equal.
    assert (Q : account_legacy_roinput (l_account a) = account_legacy_roinput (l_account b)) by (unfold account_legacy_roinput; rewrite T, Bl; reflexivity).
    rewrite Q. reflexivity.
  Qed.
  Theorem C98_legacy_root_binds : forall db1 f1 t1 db2 f2 t2 r, ordered db1 -> values_ok db1 -> ordered db2 -> values_ok db2 ->
    to_mina_merkle_ledger_legacy checked db1 f1 = Ok t1 -> to_mina_merkle_ledger_legacy checked db2 f2 = Ok t2 -> zlen (leafs t1) < 2 ^ 62 -> zlen (leafs t2) < 2 ^ 62 ->
    legacy_root poseidon checked t1 = Ok r -> legacy_root poseidon checked t2 = Ok r ->
    Forall2 same_tokens (map fst (leafs t1)) (map fst (leafs t2)) \/ collision poseidon \/
    exists a, In a (map fst (leafs t1) ++ map fst (leafs t2)) /\ legacy_hash poseidon a = empty_legacy_repr.
  Proof.
    intros db1 f1 t1 db2 f2 t2 r O1 V1 O2 V2 E1 E2 M1 M2 R1 R2. destruct v1_facts as (B & Mi & X & P).
    destruct (tree_loaded _ _ _ checked _ _ fine_legacy B Mi X P db1 f1 t1 O1 V1 E1) as (K1 & _). destruct (tree_loaded _ _ _ checked _ _ fine_legacy B Mi X P db2 f2 t2 O2 V2 E2) as (K2 & _).
    apply kept_legacy_ok in K1, K2. rewrite (C55_legacy_root db1 f1 t1 O1 V1 E1 M1) in R1. rewrite (C55_legacy_root db2 f2 t2 O2 V2 E2 M2) in R2.
    destruct (Z.leb_spec (zlen (leafs t1)) (2 ^ 20)) as [L1|L1]; [|discriminate]. destruct (Z.leb_spec (zlen (leafs t2)) (2 ^ 20)) as [L2|L2]; [|discriminate].
    apply ok_inj in R1, R2. subst r. apply some_inj in R2. rename R2 into Q. symmetry in Q.
    assert (Hh : forall a : legacy, legacy_hash poseidon a = poseidon (Some (str_bytes "CodaAccount")) match account_legacy_roinput (l_account a) with Ok r => l_to_fields r | _ => [] end).
    { intros a. unfold legacy_hash. destruct (legacy_roinput_ok (l_account a)) as (r & ->). reflexivity. }
    rewrite <- (map_ext _ _ Hh (map fst (leafs t1))), <- (map_ext _ _ Hh (map fst (leafs t2))) in Q.
    unfold zlen in L1, L2. rewrite <- (map_length fst) in L1, L2. revert K1 K2 L1 L2 Q. generalize (map fst (leafs t1)) (map fst (leafs t2)). intros l1 l2 K1 K2 L1 L2 Q.
    assert (Pw : Z.of_nat (2 ^ 20) = 2 ^ 20) by apply (pow2_nat 20).
    destruct (in_dec Z.eq_dec empty_legacy_repr (map (legacy_hash poseidon) l1)) as [I1|I1].
    { right. right. apply in_map_iff in I1. destruct I1 as (a & Ea & J). exists a. split; [apply in_or_app; left; exact J|exact Ea]. }
    destruct (in_dec Z.eq_dec empty_legacy_repr (map (legacy_hash poseidon) l2)) as [I2|I2].
    { right. right. apply in_map_iff in I2. destruct I2 as (a & Ea & J). exists a. split; [apply in_or_app; right; exact J|exact Ea]. }
    destruct (perfect_inj poseidon empty_legacy_repr 20 (map (legacy_hash poseidon) l1) (map (legacy_hash poseidon) l2)) as [C|C]; [rewrite map_length; lia|rewrite map_length; lia|exact Q|right; left; exact C|].
    apply (nth_all empty_legacy_repr _ _ I1 I2) in C. clear L1 L2 I1 I2 Pw Q.
    revert l2 K2 C. induction l1 as [|a l1 IH]; intros [|b l2] K2 C; cbn [map] in C; try discriminate; [left; constructor|].
    assert (C1 := f_equal (hd 0) C). assert (C2 := f_equal (@tl Z) C). cbn [hd tl] in C1, C2. clear C.
    inversion K1 as [|? ? Ka K1']; subst. inversion K2 as [|? ? Kb K2']; subst. destruct (IH K1' l2 K2' C2) as [S|[S|(x & I & Ex)]].
    2: { right. left. exact S. }
    2: { right. right. exists x. split; [|exact Ex]. cbn [app]. right. apply in_app_or in I. apply in_or_app. destruct I as [I|I]; [left; exact I|right; right; exact I]. }
    rewrite !Hh in C1. pose proof (C47_legacy_iff (l_account a) (l_account b) (proj1 Ka) (proj2 Ka) (proj1 Kb) (proj2 Kb)) as G.
    destruct (legacy_roinput_ok (l_account a)) as (ra & Ra). destruct (legacy_roinput_ok (l_account b)) as (rb & Rb). rewrite Ra, Rb in *. cbn [rmap] in G.
    destruct (list_eq_dec Z.eq_dec (l_to_fields ra) (l_to_fields rb)) as [Y|Y].
    - left. constructor; [|exact S]. apply G. rewrite Y. reflexivity.
    - right. left. exists (Some (str_bytes "CodaAccount")), (l_to_fields ra), (l_to_fields rb). split; [exact Y|exact C1].
  Qed.
End Roots.

(** ** Cases *)
Definition bytes_v0 (a : account) : list Z := match to_bytes true AccountV0 (account_to a) with Ok bs => bs | _ => [] end.
(** Two accounts, a record that cannot be decoded between them, and other records. *)
Definition sample2 : account :=
  mk_account (mk_pk 6 false) 1 7 (NotOwned false) (repeat 66 32) 0 (repeat 0 32) None (repeat 0 32) Untimed (a_permissions sample) None None.
Definition ex_db : list entry :=
  [([1; 254], [5]); ([254; 0], bytes_v0 sample); ([254; 0; 1], [1; 2; 3]); ([254; 1], bytes_v0 sample2); ([255], [9])].
Lemma ex_ordered : ordered ex_db.
Proof.
  unfold ordered, ex_db. repeat (apply SSorted_cons; [|repeat (apply Forall_cons; [cbn [fst]|]); try apply Forall_nil]); try apply SSorted_nil;
    first [apply B_less; lia | apply B_same; first [apply B_less; lia | apply B_same, B_prefix]].
Qed.
Lemma ex_values : values_ok ex_db.
Proof. unfold ex_db. repeat (apply Forall_cons; [cbn [snd]; apply (bytes_okb_sound); vm_compute; reflexivity|]). apply Forall_nil. Qed.
Example C55_ex : ordered ex_db /\ values_ok ex_db /\
  (exists t, to_mina_merkle_ledger true ex_db None = Ok t /\ map fst (leafs t) = [sample; sample2] /\ ledger_root ex_poseidon true t <> Panic) /\
  (exists t, to_mina_merkle_ledger true ex_db (Some 2%nat) = Ok t /\ map fst (leafs t) = [sample]).
Proof.
  split; [exact ex_ordered|]. split; [exact ex_values|]. split.
  - eexists. split; [vm_compute; reflexivity|]. split; [vm_compute; reflexivity|]. vm_compute. discriminate.
  - eexists. split; [vm_compute; reflexivity|]. vm_compute. reflexivity.
Qed.
(** The program's own encoding of an account with a balance of 2^63 or more is
    such a record: the account is written and then left out when it is read. *)
Definition rich : account :=
  mk_account (mk_pk 6 false) 1 (2 ^ 63) (NotOwned false) (repeat 66 32) 0 (repeat 0 32) None (repeat 0 32) Untimed (a_permissions sample) None None.
Theorem C55_own_refuted : account_ok rich /\ key_ok (public_key rich) /\ (exists bs, to_bytes true AccountV0 (account_to rich) = Ok bs /\ undecodable AccountV0 bs) /\
  exists t, to_mina_merkle_ledger true [([254], bytes_v0 rich)] None = Ok t /\ leafs t = [].
Proof.
  split; [|split; [|split]].
  - unfold account_ok, rich, u64, u32. cbn [token_id balance a_nonce token_symbol receipt_chain_hash voting_for a_timing timing_ok].
    repeat match goal with |- _ /\ _ => split end; try lia; try (apply bytes32_repeat; lia).
  - split; [vm_compute; congruence|vm_compute; reflexivity].
  - exists (bytes_v0 rich). split; [vm_compute; reflexivity|]. destruct v0_facts as (B & M & X & P).
    intros v H. apply (strict_acc AccountV0 true B M X) in H; [|apply bytes_okb_sound; vm_compute; reflexivity]. revert H. vm_compute. discriminate.
  - eexists. split; [vm_compute; reflexivity|reflexivity].
Qed.
(** A ledger with a key that is no field element crashes. *)
Example C55_crash_ex : exists bs, to_bytes true AccountV0 big_sample = Ok bs /\ to_mina_merkle_ledger true [([254], bs)] None = Panic.
Proof. eexists. split; [vm_compute; reflexivity|]. vm_compute. reflexivity. Qed.
(** Two ledgers with the same root and different accounts: a permission that the
    account hash does not tell apart. *)
Example C98_ex : exists t1 t2 r, to_mina_merkle_ledger true [([254], bytes_v0 (with_send sample AProof))] None = Ok t1 /\
  to_mina_merkle_ledger true [([254; 7], bytes_v0 (with_send sample ABoth))] None = Ok t2 /\ leafs t1 <> leafs t2 /\
  ledger_root ex_poseidon true t1 = Ok r /\ ledger_root ex_poseidon true t2 = Ok r.
Proof.
  do 3 eexists. split; [vm_compute; reflexivity|]. split; [vm_compute; reflexivity|]. split; [vm_compute; discriminate|].
  split; [vm_compute; reflexivity|vm_compute; reflexivity].
Qed.
(** Older ledgers that differ in a key. *)
Definition old_sample (x : Z) : legacy :=
  mk_legacy (mk_account_legacy (mk_pk x true) 1 (NotOwned false) 1000 7 (repeat 3 32) (Some (mk_pk 9 false)) (repeat 4 32) (Timed (mk_timed 1 2 3 4 5)))
    (mk_perms_legacy true ANone AEither AProof ASignature ABoth AImpossible) None.
Definition bytes_v1 (a : legacy) : list Z := match to_bytes true AccountV1 (legacy_to a) with Ok bs => bs | _ => [] end.
Example C98_legacy_ex : exists t1 t2, to_mina_merkle_ledger_legacy true [([254; 1], bytes_v1 (old_sample 5))] None = Ok t1 /\ map fst (leafs t1) = [old_sample 5] /\
  to_mina_merkle_ledger_legacy true [([254; 1], bytes_v1 (old_sample 6))] None = Ok t2 /\ map fst (leafs t2) = [old_sample 6] /\
  legacy_root ex_poseidon true t1 = legacy_root ex_poseidon true t2 /\ legacy_root ex_poseidon true t1 <> Panic.
Proof.
  do 2 eexists. split; [vm_compute; reflexivity|]. split; [vm_compute; reflexivity|]. split; [vm_compute; reflexivity|]. split; [vm_compute; reflexivity|].
  split; [vm_compute; reflexivity|vm_compute; discriminate].
Qed.

Print Assumptions C55_items.
Print Assumptions C55_leaves.
Print Assumptions C55_crashes_iff.
Print Assumptions C55_complete.
Print Assumptions C55_refuted.
Print Assumptions C55_fault_refuted.
Print Assumptions C55_depth_refuted.
Print Assumptions C55_legacy_leaves.
Print Assumptions C55_legacy_crashes_iff.
Print Assumptions C55_root.
Print Assumptions C55_root_crashes_iff.
Print Assumptions C98_root_binds.
Print Assumptions C55_legacy_root.
Print Assumptions C98_legacy_refuted.
Print Assumptions C98_legacy_root_binds.
Print Assumptions C55_own_refuted.
