(** Hashing of protocol states: specification, and the parts of the inputs. *)

From Coq Require Import String ZArith List Bool Lia ZifyBool ZifyNat.
From Verif Require Import Lib.Res Lib.Bytes Text.FieldText Hashing.ROInput Hashing.ROInputProps Hashing.Items Hashing.Command Hashing.Account Hashing.State.
Import ListNotations.
Local Open Scope string_scope.
Local Open Scope list_scope.
Local Open Scope Z_scope.
Notation length := List.length.

(** ** Specification *)

Definition u32 (x : Z) : Prop := 0 <= x < 2 ^ 32.
Definition u64 (x : Z) : Prop := 0 <= x < 2 ^ 64.
Definition bytes32 (l : list Z) : Prop := length l = 32%nat /\ bytes_ok l.
(** A hash that is a field element. *)
Definition canonical (h : list Z) : Prop := le_val h < FP_MODULUS.

(** Values of the Rust types. *)
Definition constants_ok (c : constants) : Prop :=
  u32 (k c) /\ u32 (slots_per_epoch c) /\ u32 (slots_per_sub_window c) /\ u32 (delta c) /\ u64 (genesis_state_timestamp c).
Definition epoch_ok (e : epoch_data) : Prop :=
  bytes32 (e_ledger_hash e) /\ u64 (e_total_currency e) /\ bytes32 (seed e) /\ bytes32 (start_checkpoint e) /\ bytes32 (lock_checkpoint e) /\
  u32 (epoch_length e).
Definition consensus_ok (c : consensus) : Prop :=
  u32 (blockchain_length c) /\ u32 (epoch_count c) /\ u32 (min_window_density c) /\ Forall u32 (sub_window_densities c) /\
  bytes_ok (last_vrf_output c) /\ u64 (total_currency c) /\ u32 (slot_number c) /\ u32 (cs_slots_per_epoch c) /\
  u32 (global_slot_since_genesis c) /\ epoch_ok (staking_epoch_data c) /\ epoch_ok (next_epoch_data c).
Definition blockchain_legacy_ok (b : blockchain_legacy) : Prop :=
  bytes32 (pending_coinbase_hash (bl_staged b)) /\ bytes32 (bl_snarked_ledger_hash b) /\ bytes32 (bl_genesis_ledger_hash b) /\
  u64 (bl_token b) /\ u64 (bl_timestamp b).
Definition local_ok (l : local_state) : Prop :=
  bytes32 (stack_frame l) /\ bytes32 (call_stack l) /\ bytes32 (transaction_commitment l) /\ bytes32 (full_transaction_commitment l) /\
  u64 (ls_token_id l) /\ u64 (excess l) /\ bytes32 (ls_ledger l) /\ u32 (party_index l).
Definition blockchain_ok (b : blockchain) : Prop :=
  bytes32 (pending_coinbase_hash (b_staged b)) /\ bytes32 (b_genesis_ledger_hash b) /\ bytes32 (registers_ledger b) /\
  local_ok (registers_local b) /\ u64 (b_timestamp b) /\ bytes32 (body_reference b).
Definition body_legacy_ok (b : body_legacy) : Prop :=
  bytes32 (bodyl_genesis_state_hash b) /\ blockchain_legacy_ok (bodyl_blockchain b) /\ consensus_ok (bodyl_consensus b) /\ constants_ok (bodyl_constants b).
Definition body_ok (b : body) : Prop :=
  bytes32 (body_genesis_state_hash b) /\ blockchain_ok (body_blockchain b) /\ consensus_ok (body_consensus b) /\ constants_ok (body_constants b).

(** The hashes inside. *)
Definition epoch_hashes (e : epoch_data) : list (list Z) := [seed e; start_checkpoint e; e_ledger_hash e; lock_checkpoint e].
Definition consensus_hashes (c : consensus) : list (list Z) := epoch_hashes (staking_epoch_data c) ++ epoch_hashes (next_epoch_data c).
Definition blockchain_legacy_hashes (b : blockchain_legacy) : list (list Z) :=
  [pending_coinbase_hash (bl_staged b); bl_snarked_ledger_hash b; bl_genesis_ledger_hash b].
Definition blockchain_hashes (b : blockchain) : list (list Z) :=
  let l := registers_local b in
  [pending_coinbase_hash (b_staged b); b_genesis_ledger_hash b; registers_ledger b;
   stack_frame l; call_stack l; transaction_commitment l; full_transaction_commitment l; ls_ledger l].
Definition body_legacy_hashes (b : body_legacy) : list (list Z) :=
  bodyl_genesis_state_hash b :: blockchain_legacy_hashes (bodyl_blockchain b) ++ consensus_hashes (bodyl_consensus b).
Definition body_hashes (b : body) : list (list Z) :=
  body_genesis_state_hash b :: blockchain_hashes (body_blockchain b) ++ consensus_hashes (body_consensus b).

(** What is hashed of a VRF output: 32 bytes, without the three highest bits. *)
Definition trunc (v : list Z) : list Z :=
  if (length v <=? 31)%nat then v else firstn 31 v ++ [nth 31 v 0 mod 32].
Definition norm_consensus (c : consensus) : consensus :=
  mk_consensus (blockchain_length c) (epoch_count c) (min_window_density c) (sub_window_densities c) (trunc (last_vrf_output c))
    (total_currency c) (slot_number c) (cs_slots_per_epoch c) (global_slot_since_genesis c) (staking_epoch_data c) (next_epoch_data c)
    (has_ancestor c) (block_stake_winner c) (block_creator c) (coinbase_receiver c) (supercharge_coinbase c).
(** The table of failures is not hashed. *)
Definition norm_local (l : local_state) : local_state :=
  mk_local (stack_frame l) (call_stack l) (transaction_commitment l) (full_transaction_commitment l) (ls_token_id l) (excess l)
    (excess_sign l) (ls_ledger l) (success l) (party_index l) 0.
Definition same_shape (c d : consensus) : Prop :=
  length (sub_window_densities c) = length (sub_window_densities d) /\
  Nat.min 32 (length (last_vrf_output c)) = Nat.min 32 (length (last_vrf_output d)).

(** ** Parts: items, and hashes that may not be field elements *)

Inductive part : Set := Hs (h : list Z) | It (i : item).
Definition goodb (p : part) : bool := match p with Hs h => le_val h <? FP_MODULUS | It _ => true end.
Definition part_item (p : part) : item := match p with Hs h => F (le_val h) | It i => i end.
Definition part_ok (p : part) : Prop := match p with Hs h => bytes32 h | It i => item_ok i end.
Definition cpart (l : list part) : res unit croi := if forallb goodb l then Ok (citems (map part_item l)) else Panic.
Definition lpart (l : list part) : res unit lroi := if forallb goodb l then Ok (litems (map part_item l)) else Panic.

Lemma cpart_bind : forall a b, (let* x := cpart a in c_append_chunked x (cpart b)) = cpart (a ++ b).
Proof.
  intros a b. unfold cpart. rewrite forallb_app, map_app. destruct (forallb goodb a); cbn [bind andb]; [|reflexivity].
  destruct (forallb goodb b); [|reflexivity]. rewrite c_chunked_items. reflexivity.
Qed.
Lemma lpart_bind : forall a b, (let* x := lpart a in l_append_hashable x (lpart b)) = lpart (a ++ b).
Proof.
  intros a b. unfold lpart. rewrite forallb_app, map_app. destruct (forallb goodb a); cbn [bind andb]; [|reflexivity].
  destruct (forallb goodb b); [|reflexivity]. rewrite l_hashable_items. reflexivity.
Qed.
Lemma cpart_all : forall ls a, (let* x := cpart a in append_all x (map cpart ls)) = cpart (a ++ concat ls).
Proof.
  induction ls as [|m ls IH]; intros a; cbn [map append_all concat].
  - rewrite app_nil_r. destruct (cpart a); reflexivity.
  - rewrite app_assoc, <- IH, <- cpart_bind, bind_assoc. reflexivity.
Qed.
Lemma lpart_all : forall ls a, (let* x := lpart a in l_append_all x (map lpart ls)) = lpart (a ++ concat ls).
Proof.
  induction ls as [|m ls IH]; intros a; cbn [map l_append_all concat].
  - rewrite app_nil_r. destruct (lpart a); reflexivity.
  - rewrite app_assoc, <- IH, <- lpart_bind, bind_assoc. reflexivity.
Qed.
Lemma cpart_new : forall ls, append_all c_new (map cpart ls) = cpart (concat ls).
Proof. intros. rewrite <- (app_nil_l (concat ls)), <- cpart_all. reflexivity. Qed.
Lemma lpart_new : forall ls, l_append_all l_new (map lpart ls) = lpart (concat ls).
Proof. intros. rewrite <- (app_nil_l (concat ls)), <- lpart_all. reflexivity. Qed.
Lemma cpart_bool : forall a b, (let* x := cpart a in c_append_bool x b) = cpart (a ++ [It (B b)]).
Proof.
  intros a b. unfold cpart. rewrite forallb_app, map_app. destruct (forallb goodb a); cbn [bind andb forallb goodb]; [|reflexivity].
  rewrite c_bool_items. reflexivity.
Qed.
Lemma lpart_bool : forall a b, (let* x := lpart a in Ok (l_append_bool x b)) = lpart (a ++ [It (B b)]).
Proof.
  intros a b. unfold lpart. rewrite forallb_app, map_app. destruct (forallb goodb a); cbn [bind andb forallb goodb]; [|reflexivity].
  rewrite l_bool_items. reflexivity.
Qed.
Lemma lpart_field : forall a b, (let* x := lpart a in Ok (l_append_field x b)) = lpart (a ++ [It (F b)]).
Proof.
  intros a b. unfold lpart. rewrite forallb_app, map_app. destruct (forallb goodb a); cbn [bind andb forallb goodb]; [|reflexivity].
  rewrite l_field_items. reflexivity.
Qed.
Ltac unmapc l := lazymatch l with
  | nil => constr:(@nil (list part))
  | cons (cpart ?x) ?r => let r' := unmapc r in constr:(cons x r')
  end.
Ltac unmapl l := lazymatch l with
  | nil => constr:(@nil (list part))
  | cons (lpart ?x) ?r => let r' := unmapl r in constr:(cons x r')
  end.
Ltac cparts := match goal with |- context [append_all c_new ?l] =>
  let m := unmapc l in change (append_all c_new l) with (append_all c_new (map cpart m)); rewrite cpart_new; cbn [concat app] end.
Ltac lparts := match goal with |- context [l_append_all l_new ?l] =>
  let m := unmapl l in change (l_append_all l_new l) with (l_append_all l_new (map lpart m)); rewrite lpart_new; cbn [concat app] end.

Lemma u32_c : forall x, u32 x -> u32_chunked x = cpart [It (W32 x)].
Proof. intros x X. unfold u32_chunked. rewrite c_new_items, c_u32_items by exact X. reflexivity. Qed.
Lemma u64_c : forall x, u64 x -> u64_chunked x = cpart [It (W64 x)].
Proof. intros x X. unfold u64_chunked. rewrite c_new_items, c_u64_items by exact X. reflexivity. Qed.
Lemma u32_l : forall x, u32_legacy x = lpart [It (W32 x)].
Proof. intros x. unfold u32_legacy. rewrite l_new_items, l_u32_items. reflexivity. Qed.
Lemma u64_l : forall x, u64_legacy x = lpart [It (W64 x)].
Proof. intros x. unfold u64_legacy. rewrite l_new_items, l_u64_items. reflexivity. Qed.
Lemma hash_c : forall h, hash_chunked h = cpart [Hs h].
Proof.
  intros h. unfold hash_chunked, fp_from_bytes, cpart. cbn [forallb goodb]. rewrite andb_true_r.
  destruct (le_val h <? FP_MODULUS); [|reflexivity]. cbn [expect bind]. rewrite c_new_items, c_field_items. reflexivity.
Qed.
Lemma hash_l : forall h, hash_legacy h = lpart [Hs h].
Proof.
  intros h. unfold hash_legacy, fp_from_bytes, lpart. cbn [forallb goodb]. rewrite andb_true_r.
  destruct (le_val h <? FP_MODULUS); [|reflexivity]. cbn [expect bind]. rewrite l_new_items, l_field_items. reflexivity.
Qed.
Lemma key_c : forall x, pubkey_chunked x = cpart [It (F (pk_x x)); It (B (pk_odd x))].
Proof. intros x. unfold pubkey_chunked. rewrite c_new_items, c_field_items, c_bool_items. reflexivity. Qed.
Lemma bytes_c : forall l, c_append_bytes c_new l = cpart [It (Bs l)].
Proof. intros l. rewrite c_new_items, c_bytes_items. reflexivity. Qed.
Lemma token_c : forall t, token_id_chunked t = cpart [It (F t)].
Proof. intros t. unfold token_id_chunked. rewrite c_new_items, c_field_items. reflexivity. Qed.

(** ** The parts of a state *)

Definition constants_parts (c : constants) : list part :=
  [It (W32 (k c)); It (W32 (delta c)); It (W32 (slots_per_epoch c)); It (W32 (slots_per_sub_window c)); It (W64 (genesis_state_timestamp c))].
Lemma constants_c : forall c, constants_ok c -> constants_chunked c = cpart (constants_parts c).
Proof. intros c (A & A1 & A2 & A3 & A4). unfold constants_chunked. rewrite !u32_c, u64_c by assumption. cparts. reflexivity. Qed.
Lemma constants_l : forall c, constants_legacy c = lpart (constants_parts c).
Proof. intros c. unfold constants_legacy. rewrite !u32_l, u64_l. lparts. reflexivity. Qed.

Definition vrf_parts (v : list Z) : list part :=
  if (length v <=? 31)%nat then [It (Bs v)]
  else It (Bs (firstn 31 v)) :: map (fun i => It (B (Z.testbit (nth 31 v 0) i))) [0; 1; 2; 3; 4].
Lemma vrf_c : forall v, vrf_chunked v = cpart (vrf_parts v).
Proof.
  intros v. unfold vrf_chunked, vrf_parts. destruct (length v <=? 31)%nat eqn:L; [apply bytes_c|].
  replace (31 <? length v)%nat with true by lia. rewrite bytes_c. 
  change (cpart [It (Bs (firstn 31 v))]) with (@Ok unit croi (citems [Bs (firstn 31 v)])). cbn [bind].
  do 4 (rewrite c_bool_items; cbn [bind]). rewrite c_bool_items. reflexivity.
Qed.
Lemma vrf_l : forall v, vrf_legacy v = lpart (vrf_parts v).
Proof.
  intros v. unfold vrf_legacy, vrf_parts. rewrite l_new_items. destruct (length v <=? 31)%nat eqn:L; [rewrite l_bytes_items; reflexivity|].
  replace (31 <? length v)%nat with true by lia. rewrite l_bytes_items, !l_bool_items. reflexivity.
Qed.

Definition epoch_parts (e : epoch_data) : list part :=
  [Hs (seed e); Hs (start_checkpoint e); It (W32 (epoch_length e)); Hs (e_ledger_hash e); It (W64 (e_total_currency e)); Hs (lock_checkpoint e)].
Lemma epoch_c : forall e, epoch_ok e -> epoch_chunked e = cpart (epoch_parts e).
Proof.
  intros e (A & A1 & A2 & A3 & A4 & A5). unfold epoch_chunked, epoch_ledger_chunked. rewrite !hash_c, u32_c, u64_c by assumption. cparts. cparts. reflexivity.
Qed.
Lemma epoch_l : forall e, epoch_legacy e = lpart (epoch_parts e).
Proof. intros e. unfold epoch_legacy, epoch_ledger_legacy. rewrite !hash_l, u32_l, u64_l. lparts. lparts. reflexivity. Qed.

Definition key_parts (x : pubkey) : list part := [It (F (pk_x x)); It (B (pk_odd x))].
Definition dens_parts (l : list Z) : list part := map (fun d => It (W32 d)) l.
Definition consensus_parts (c : consensus) : list part :=
  [It (W32 (blockchain_length c)); It (W32 (epoch_count c)); It (W32 (min_window_density c))] ++
  dens_parts (sub_window_densities c) ++ vrf_parts (last_vrf_output c) ++
  [It (W64 (total_currency c)); It (W32 (slot_number c)); It (W32 (cs_slots_per_epoch c)); It (W32 (global_slot_since_genesis c));
   It (B (has_ancestor c)); It (B (supercharge_coinbase c))] ++
  epoch_parts (staking_epoch_data c) ++ epoch_parts (next_epoch_data c) ++
  key_parts (block_stake_winner c) ++ key_parts (block_creator c) ++ key_parts (coinbase_receiver c).
Lemma dens_c : forall l, Forall u32 l -> map u32_chunked l = map cpart (map (fun d => [It (W32 d)]) l).
Proof. intros l K. rewrite map_map. apply map_ext_in. intros x I. apply u32_c. rewrite Forall_forall in K. apply K, I. Qed.
Lemma dens_l : forall l, map u32_legacy l = map lpart (map (fun d => [It (W32 d)]) l).
Proof. intros l. rewrite map_map. apply map_ext. intros x. apply u32_l. Qed.
Lemma dens_concat : forall l, concat (map (fun d => [It (W32 d)]) l) = dens_parts l.
Proof. induction l as [|x l IH]; [reflexivity|]. cbn [map concat dens_parts]. rewrite IH. reflexivity. Qed.

Lemma consensus_c : forall c, consensus_ok c -> consensus_chunked c = cpart (consensus_parts c).
Proof.
  intros c (A & A1 & A2 & A3 & A4 & A5 & A6 & A7 & A8 & A9 & A10). unfold consensus_chunked, slot_chunked.
  rewrite !u32_c, u64_c, dens_c, vrf_c, !epoch_c, !key_c by assumption. cparts.
  match goal with |- context [append_all c_new ?l] => let m := unmapc l in change (append_all c_new l) with (append_all c_new (map cpart m)); rewrite cpart_new; cbn [concat app] end.
  rewrite <- bind_assoc, cpart_all, dens_concat.
  rewrite <- bind_assoc.
  match goal with |- context [append_all _ [cpart ?a; cpart ?b; cpart ?d; cpart ?e]] =>
    change [cpart a; cpart b; cpart d; cpart e] with (map cpart [a; b; d; e]) end.
  rewrite cpart_all. rewrite <- bind_assoc, cpart_bool. rewrite <- bind_assoc, cpart_bool.
  match goal with |- context [append_all _ ?l] => let m := unmapc l in change l with (map cpart m) end.
  rewrite cpart_all. apply f_equal. unfold consensus_parts, key_parts. cbn [concat app]. repeat rewrite <- app_assoc. cbn [app]. reflexivity.
Qed.
Lemma consensus_l : forall c, consensus_legacy c = lpart (consensus_parts c).
Proof.
  intros c. unfold consensus_legacy, slot_legacy.
  rewrite !u32_l, u64_l, dens_l, vrf_l, !epoch_l. lparts.
  match goal with |- context [l_append_all l_new ?l] => let m := unmapl l in change (l_append_all l_new l) with (l_append_all l_new (map lpart m)); rewrite lpart_new; cbn [concat app] end.
  rewrite <- bind_assoc, lpart_all, dens_concat. rewrite <- bind_assoc.
  match goal with |- context [l_append_all _ [lpart ?a; lpart ?b; lpart ?d; lpart ?e]] =>
    change [lpart a; lpart b; lpart d; lpart e] with (map lpart [a; b; d; e]) end.
  rewrite lpart_all.
  match goal with |- context [l_append_all _ [lpart ?a; lpart ?b]] => change [lpart a; lpart b] with (map lpart [a; b]) end.
  transitivity (let* roi := (let* roi := (let* roi := lpart
     (([It (W32 (blockchain_length c)); It (W32 (epoch_count c)); It (W32 (min_window_density c))] ++ dens_parts (sub_window_densities c)) ++
       concat [vrf_parts (last_vrf_output c); [It (W64 (total_currency c))]; [It (W32 (slot_number c)); It (W32 (cs_slots_per_epoch c))];
               [It (W32 (global_slot_since_genesis c))]]) in Ok (l_append_bool roi (has_ancestor c))) in Ok (l_append_bool roi (supercharge_coinbase c))) in
     let* roi := l_append_all roi (map lpart [epoch_parts (staking_epoch_data c); epoch_parts (next_epoch_data c)]) in
     let* roi := Ok (l_append_field roi (pk_x (block_stake_winner c))) in
     let* roi := Ok (l_append_bool roi (pk_odd (block_stake_winner c))) in
     let* roi := Ok (l_append_field roi (pk_x (block_creator c))) in
     let* roi := Ok (l_append_bool roi (pk_odd (block_creator c))) in
     let* roi := Ok (l_append_field roi (pk_x (coinbase_receiver c))) in
     Ok (l_append_bool roi (pk_odd (coinbase_receiver c)))).
  { rewrite !bind_assoc. reflexivity. }
  rewrite !lpart_bool. rewrite <- bind_assoc, lpart_all.
  rewrite <- bind_assoc, lpart_field. rewrite <- bind_assoc, lpart_bool. rewrite <- bind_assoc, lpart_field. rewrite <- bind_assoc, lpart_bool.
  rewrite <- bind_assoc, lpart_field. rewrite lpart_bool.
  apply f_equal. unfold consensus_parts, key_parts. cbn [concat app]. repeat rewrite <- app_assoc. cbn [app]. reflexivity.
Qed.

Definition local_parts (l : local_state) : list part :=
  [Hs (stack_frame l); Hs (call_stack l); Hs (transaction_commitment l); Hs (full_transaction_commitment l); It (F (ls_token_id l));
   It (W64 (excess l)); It (B (excess_sign l)); Hs (ls_ledger l); It (W32 (party_index l)); It (B (success l))].
Lemma local_c : forall l, local_ok l -> local_chunked l = cpart (local_parts l).
Proof.
  intros l (A & A1 & A2 & A3 & A4 & A5 & A6 & A7). unfold local_chunked. rewrite !hash_c, token_c, u32_c, u64_c, cpart_bool by assumption.
  cparts. rewrite cpart_bool. reflexivity.
Qed.

Section Hash.
  Variable sha256 : list Z -> list Z.
  Variables legacy kimchi : string -> list Z -> Z.
  Variable checked : bool.
  Notation digest := (digest sha256).

  Definition blockchain_legacy_parts (b : blockchain_legacy) : list part :=
    [It (Bs (digest (bl_staged b))); Hs (pending_coinbase_hash (bl_staged b)); Hs (bl_snarked_ledger_hash b); Hs (bl_genesis_ledger_hash b);
     It (W64 (bl_token b)); It (W64 (bl_timestamp b))].
  Lemma blockchain_l : forall b, blockchain_legacy_roinput sha256 b = lpart (blockchain_legacy_parts b).
  Proof.
    intros b. unfold blockchain_legacy_roinput, staged_legacy. rewrite !hash_l, !u64_l.
    replace (@Ok unit lroi (l_append_bytes l_new (digest (bl_staged b)))) with (lpart [It (Bs (digest (bl_staged b)))])
      by (rewrite l_new_items, l_bytes_items; reflexivity).
    lparts. lparts. reflexivity.
  Qed.
  Definition blockchain_parts (b : blockchain) : list part :=
    [It (Bs (digest (b_staged b))); Hs (pending_coinbase_hash (b_staged b)); Hs (b_genesis_ledger_hash b); Hs (registers_ledger b)] ++
    local_parts (registers_local b) ++ [It (W64 (b_timestamp b)); It (Bs (body_reference b))].
  Lemma blockchain_c : forall b, blockchain_ok b -> blockchain_chunked sha256 b = cpart (blockchain_parts b).
  Proof.
    intros b (A & A1 & A2 & A3 & A4 & A5). unfold blockchain_chunked, staged_chunked, registers_chunked.
    rewrite !hash_c, u64_c, local_c, !bytes_c by assumption. cparts. cparts. cparts. reflexivity.
  Qed.
  Definition body_legacy_parts (b : body_legacy) : list part :=
    constants_parts (bodyl_constants b) ++ [Hs (bodyl_genesis_state_hash b)] ++ blockchain_legacy_parts (bodyl_blockchain b) ++ consensus_parts (bodyl_consensus b).
  Lemma body_l : forall b, body_legacy_roinput sha256 b = lpart (body_legacy_parts b).
  Proof.
    intros b. unfold body_legacy_roinput. rewrite constants_l, hash_l, blockchain_l, consensus_l.
    match goal with |- context [l_append_all l_new ?l] => let m := unmapl l in change l with (map lpart m) end.
    rewrite lpart_new. cbn [concat]. rewrite app_nil_r. reflexivity.
  Qed.
  Definition body_parts (b : body) : list part :=
    constants_parts (body_constants b) ++ [Hs (body_genesis_state_hash b)] ++ blockchain_parts (body_blockchain b) ++ consensus_parts (body_consensus b).
  Lemma body_c : forall b, body_ok b -> body_chunked sha256 b = cpart (body_parts b).
  Proof.
    intros b (A & A1 & A2 & A3). unfold body_chunked. rewrite constants_c, hash_c, blockchain_c, consensus_c by assumption.
    match goal with |- context [append_all c_new ?l] => let m := unmapc l in change l with (map cpart m) end.
    rewrite cpart_new. cbn [concat]. rewrite app_nil_r. reflexivity.
  Qed.
End Hash.
