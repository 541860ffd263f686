(** Account hashing: theorems. *)

From Coq Require Import String ZArith List Bool Lia ZifyBool ZifyNat.
From Verif Require Import Lib.Res Lib.Bytes Text.FieldText Hashing.ROInput Hashing.ROInputProps Hashing.Items Hashing.Command Hashing.Account.
Import ListNotations.
Local Open Scope string_scope.
Local Open Scope list_scope.
Local Open Scope Z_scope.
Notation length := List.length.

(** ** Specification *)

Definition u32 (x : Z) : Prop := 0 <= x < 2 ^ 32.
Definition u64 (x : Z) : Prop := 0 <= x < 2 ^ 64.
Definition bytes32 (l : list Z) : Prop := length l = 32%nat /\ bytes_ok l.
Definition timed_ok (t : timed_data) : Prop :=
  u64 (initial_minimum_balance t) /\ u64 (cliff_time t) /\ u64 (cliff_amount t) /\ u64 (vesting_period t) /\ u64 (vesting_increment t).
Definition timing_ok (t : timing) : Prop := match t with Untimed => True | Timed d => timed_ok d end.
(** Values of the Rust types. *)
Definition account_ok (a : account) : Prop :=
  u64 (token_id a) /\ u64 (balance a) /\ u32 (a_nonce a) /\ bytes32 (token_symbol a) /\ bytes32 (receipt_chain_hash a) /\
  bytes32 (voting_for a) /\ timing_ok (a_timing a).
(** A hash that is a field element. *)
Definition canonical (h : list Z) : Prop := le_val h < FP_MODULUS.

(** Authorisations the input does not tell apart. *)
Definition same_auth (x y : auth) : Prop := x = y \/ (x = AProof /\ y = ABoth) \/ (x = ABoth /\ y = AProof).
Definition same_permissions (p q : permissions) : Prop :=
  same_auth (edit_state p) (edit_state q) /\ same_auth (send p) (send q) /\ same_auth (receive p) (receive q) /\
  same_auth (set_delegate p) (set_delegate q) /\ same_auth (set_permissions p) (set_permissions q) /\
  same_auth (set_verification_key p) (set_verification_key q) /\ same_auth (set_zkapp_uri p) (set_zkapp_uri q) /\
  same_auth (edit_sequence_state p) (edit_sequence_state q) /\ same_auth (set_token_symbol p) (set_token_symbol q) /\
  same_auth (increment_nonce p) (increment_nonce q) /\ same_auth (set_voting_for p) (set_voting_for q).
Definition same_timing (t u : timing) : Prop :=
  match t, u with
  | Untimed, Untimed => True
  | Timed d, Timed e =>
      initial_minimum_balance d = initial_minimum_balance e /\ cliff_amount d = cliff_amount e /\ vesting_increment d = vesting_increment e /\
      cliff_time d mod 2 ^ 32 = cliff_time e mod 2 ^ 32 /\ vesting_period d mod 2 ^ 32 = vesting_period e mod 2 ^ 32
  | _, _ => False
  end.
Definition same_delegate (x y : option pubkey) : Prop :=
  x = y \/ (x = None /\ y = Some (mk_pk 0 false)) \/ (x = Some (mk_pk 0 false) /\ y = None).
Definition same_account (a b : account) : Prop :=
  public_key a = public_key b /\ token_id a = token_id b /\ balance a = balance b /\
  a_token_permissions a = a_token_permissions b /\ firstn 6 (token_symbol a) = firstn 6 (token_symbol b) /\
  a_nonce a = a_nonce b /\ receipt_chain_hash a = receipt_chain_hash b /\ same_delegate (delegate a) (delegate b) /\
  voting_for a = voting_for b /\ same_timing (a_timing a) (a_timing b) /\ same_permissions (a_permissions a) (a_permissions b).

(** ** The items of an account *)

Definition bit (b : bool) : item := P (Z.b2z b) 1.
Definition auth_items (a : auth) : list item :=
  [bit (match a with AImpossible | ANone => true | _ => false end);
   bit (match a with AImpossible | ASignature => true | _ => false end);
   bit (match a with AEither | ASignature | ANone => true | _ => false end)].
Definition permissions_items (p : permissions) : list item :=
  auth_items (edit_state p) ++ auth_items (send p) ++ auth_items (receive p) ++ auth_items (set_delegate p) ++
  auth_items (set_permissions p) ++ auth_items (set_verification_key p) ++ auth_items (set_zkapp_uri p) ++
  auth_items (edit_sequence_state p) ++ auth_items (set_token_symbol p) ++ auth_items (increment_nonce p) ++ auth_items (set_voting_for p).
Definition timed_items (t : timed_data) : list item :=
  [W64 (initial_minimum_balance t); W32 (cliff_time t mod 2 ^ 32); W64 (cliff_amount t); W32 (vesting_period t mod 2 ^ 32);
   W64 (vesting_increment t)].
Definition timing_items (t : timing) : list item :=
  match t with Untimed => P 0 1 :: timed_items (mk_timed 0 0 0 1 0) | Timed d => P 1 1 :: timed_items d end.
Definition key_items (k : pubkey) : list item := [F (pk_x k); B (pk_odd k)].
Definition delegate_items (o : option pubkey) : list item := key_items (match o with Some k => k | None => mk_pk 0 false end).
Definition token_permissions_items (t : token_permissions) : list item :=
  [P (match t with NotOwned b => 2 * Z.b2z b | TokenOwned b => 1 + 2 * Z.b2z b end) 2].
Definition account_items (u z : Z) (a : account) : list item :=
  [F u] ++ [F z] ++ permissions_items (a_permissions a) ++ timing_items (a_timing a) ++ [F (le_val (voting_for a))] ++
  delegate_items (delegate a) ++ [F (le_val (receipt_chain_hash a))] ++ [W32 (a_nonce a)] ++ [W64 (balance a)] ++
  [P (le_val (firstn 6 (token_symbol a))) 48] ++ token_permissions_items (a_token_permissions a) ++ [F (token_id a)] ++
  key_items (public_key a).

Lemma auth_eq : forall a, auth_chunked a = Ok (citems (auth_items a)).
Proof. destruct a; vm_compute; reflexivity. Qed.
Lemma append_all_items : forall l a, append_all (citems a) (map (fun m => Ok (citems m)) l) = Ok (citems (a ++ concat l)).
Proof.
  induction l as [|m l IH]; intros a; cbn [map append_all concat]; [rewrite app_nil_r; reflexivity|].
  rewrite c_chunked_items. cbn [bind]. rewrite IH, app_assoc. reflexivity.
Qed.
Lemma permissions_eq : forall p, permissions_chunked p = Ok (citems (permissions_items p)).
Proof.
  intros p. unfold permissions_chunked. rewrite !auth_eq.
  match goal with |- append_all c_new ?l = _ =>
    change l with (map (fun m => @Ok unit croi (citems m)) [auth_items (edit_state p); auth_items (send p); auth_items (receive p); auth_items (set_delegate p);
      auth_items (set_permissions p); auth_items (set_verification_key p); auth_items (set_zkapp_uri p);
      auth_items (edit_sequence_state p); auth_items (set_token_symbol p); auth_items (increment_nonce p); auth_items (set_voting_for p)]) end.
  rewrite c_new_items, append_all_items. reflexivity.
Qed.
Lemma u32_eq : forall x, u32 x -> u32_chunked x = Ok (citems [W32 x]).
Proof. intros x X. unfold u32_chunked. rewrite c_new_items, c_u32_items by exact X. reflexivity. Qed.
Lemma u64_eq : forall x, u64 x -> u64_chunked x = Ok (citems [W64 x]).
Proof. intros x X. unfold u64_chunked. rewrite c_new_items, c_u64_items by exact X. reflexivity. Qed.
Lemma timed_eq : forall t, timed_ok t -> timed_chunked t = Ok (citems (timed_items t)).
Proof.
  intros t (A & A1 & A2 & A3 & A4). unfold timed_chunked. rewrite !u64_eq by assumption.
  rewrite c_new_items, c_chunked_items. cbn [bind]. rewrite c_u32_items by (unfold wrapu; apply Z.mod_pos_bound; lia). cbn [bind].
  rewrite c_chunked_items. cbn [bind]. rewrite c_u32_items by (unfold wrapu; apply Z.mod_pos_bound; lia). cbn [bind].
  rewrite c_chunked_items. reflexivity.
Qed.
Lemma timing_eq : forall t, timing_ok t -> timing_chunked t = Ok (citems (timing_items t)).
Proof.
  intros [|d] T; cbn [timing_chunked timing_ok] in *; rewrite c_new_items, c_packed_items.
  - rewrite timed_eq by (unfold timed_ok, u64; cbn; lia). rewrite c_chunked_items. reflexivity.
  - rewrite timed_eq by assumption. rewrite c_chunked_items. reflexivity.
Qed.
Lemma key_eq : forall k, pubkey_chunked k = Ok (citems (key_items k)).
Proof. intros k. unfold pubkey_chunked. rewrite c_new_items, c_field_items, c_bool_items. reflexivity. Qed.
Lemma delegate_eq : forall o, pubkey_option_chunked o = Ok (citems (delegate_items o)).
Proof. intros [k|]; apply key_eq. Qed.
Lemma hash_eq : forall h, canonical h -> hash_chunked h = Ok (citems [F (le_val h)]).
Proof.
  intros h C. unfold hash_chunked, fp_from_bytes. unfold canonical in C. destruct (Z.ltb_spec (le_val h) FP_MODULUS); [|lia].
  cbn [expect bind]. rewrite c_new_items, c_field_items. reflexivity.
Qed.
Lemma hash_panic : forall h, ~ canonical h -> hash_chunked h = Panic.
Proof.
  intros h C. unfold hash_chunked, fp_from_bytes. unfold canonical in C. destruct (Z.ltb_spec (le_val h) FP_MODULUS); [lia|]. reflexivity.
Qed.
Lemma le_val_zeros : forall l n, le_val (l ++ repeat 0 n) = le_val l.
Proof.
  induction l as [|x l IH]; intros n; cbn [app le_val]; [|rewrite IH; reflexivity].
  induction n as [|n IH]; [reflexivity|]. cbn [repeat le_val]. rewrite IH. reflexivity.
Qed.
Lemma firstn_ok : forall n l, bytes_ok l -> bytes_ok (firstn n l).
Proof. intros n l H. rewrite <- (firstn_skipn n l) in H. apply bytes_ok_app in H. apply H. Qed.
Lemma symbol_range : forall s, bytes32 s -> 0 <= le_val (firstn 6 s) < 2 ^ 48.
Proof.
  intros s [L K]. pose proof (le_val_range (firstn 6 s) (firstn_ok 6 s K)) as R. rewrite firstn_length, L in R. exact R.
Qed.
Lemma symbol_eq : forall s, bytes32 s -> symbol_chunked s = Ok (citems [P (le_val (firstn 6 s)) 48]).
Proof.
  intros s S. pose proof (symbol_range s S) as R. unfold symbol_chunked, SYMBOL_LEN, fp_from_bytes. rewrite le_val_zeros.
  assert (M : 2 ^ 48 < FP_MODULUS) by reflexivity.
  destruct (Z.ltb_spec (le_val (firstn 6 s)) FP_MODULUS); [|lia]. cbn [expect bind]. rewrite c_new_items, c_packed_items. reflexivity.
Qed.
Lemma token_permissions_eq : forall t, token_permissions_chunked t = Ok (citems (token_permissions_items t)).
Proof. intros [[]|[]]; vm_compute; reflexivity. Qed.

Section Hash.
  Variable kimchi : string -> list Z -> Z.
  Variable checked : bool.
  Notation account_chunked := (account_chunked kimchi checked).
  Notation account_fields := (account_fields kimchi checked).

  Lemma uri_eq : exists u, forall o, zkapp_uri_option_chunked kimchi checked o = Ok (citems [F u]).
  Proof.
    unfold zkapp_uri_option_chunked, roinput_of_chunked.
    destruct (C49_total checked zkapp_uri_chunked) as [r E]; [vm_compute; repeat constructor; intros; discriminate|].
    exists (kimchi "MinaZkappUri" (l_to_fields (mk_lroi r []))). intros [[]|]; rewrite E; reflexivity.
  Qed.
  Lemma zkapp_eq : exists z, forall o, zkapp_option_chunked kimchi checked o = Ok (citems [F z]).
  Proof.
    unfold zkapp_option_chunked, roinput_of_chunked.
    destruct (C49_total checked zkapp_chunked) as [r E]; [vm_compute; repeat constructor; intros; discriminate|].
    exists (kimchi "CodaZkappAccount" (l_to_fields (mk_lroi r []))). intros [[]|]; rewrite E; reflexivity.
  Qed.
  Lemma account_eq : exists u z, forall a, account_ok a -> canonical (voting_for a) -> canonical (receipt_chain_hash a) ->
    account_chunked a = Ok (citems (account_items u z a)).
  Proof.
    destruct uri_eq as [u U], zkapp_eq as [z Z0]. exists u, z. intros a (A1 & A2 & A3 & A4 & A5 & A6 & A7) V R.
    unfold Account.account_chunked. rewrite U, Z0, permissions_eq, timing_eq, !hash_eq, delegate_eq, u32_eq, u64_eq, symbol_eq, token_permissions_eq, key_eq by assumption.
    replace (token_id_chunked (token_id a)) with (@Ok unit croi (citems [F (token_id a)])) by (unfold token_id_chunked; rewrite c_new_items, c_field_items; reflexivity).
    match goal with |- append_all c_new ?l = _ =>
      change l with (map (fun m => @Ok unit croi (citems m)) [[F u]; [F z]; permissions_items (a_permissions a); timing_items (a_timing a);
        [F (le_val (voting_for a))]; delegate_items (delegate a); [F (le_val (receipt_chain_hash a))]; [W32 (a_nonce a)]; [W64 (balance a)];
        [P (le_val (firstn 6 (token_symbol a))) 48]; token_permissions_items (a_token_permissions a); [F (token_id a)]; key_items (public_key a)]) end.
    rewrite c_new_items, append_all_items. unfold account_items. cbn [concat]. rewrite app_nil_r. reflexivity.
  Qed.

  Lemma auth_items_ok : forall a, Forall item_ok (auth_items a).
  Proof. intros a. unfold auth_items, bit. destruct a; repeat (apply Forall_cons; [cbn; lia|]); apply Forall_nil. Qed.
  Lemma timed_items_ok : forall t, timed_ok t -> Forall item_ok (timed_items t).
  Proof.
    intros t (A & A1 & A2 & A3 & A4). unfold timed_items.
    assert (M : forall x, 0 <= x mod 2 ^ 32 < 2 ^ 32) by (intros; apply Z.mod_pos_bound; lia).
    repeat (apply Forall_cons; [first [assumption|apply M]|]). apply Forall_nil.
  Qed.
  Lemma account_items_ok : forall u z a, account_ok a -> Forall item_ok (account_items u z a).
  Proof.
    intros u z a (A1 & A2 & A3 & A4 & A5 & A6 & A7). unfold account_items, permissions_items.
    repeat rewrite Forall_app. repeat split; try apply auth_items_ok; try (apply Forall_cons; [exact I|apply Forall_nil]).
    - unfold timing_items. destruct (a_timing a) as [|d]; (apply Forall_cons; [cbn; lia|]); apply timed_items_ok.
      + unfold timed_ok, u64. cbn. lia.
      + exact A7.
    - unfold delegate_items, key_items. repeat (apply Forall_cons; [exact I|]). apply Forall_nil.
    - apply Forall_cons; [exact A3|apply Forall_nil].
    - apply Forall_cons; [exact A2|apply Forall_nil].
    - apply Forall_cons; [|apply Forall_nil]. cbn [item_ok]. pose proof (symbol_range _ A4). lia.
    - unfold token_permissions_items. apply Forall_cons; [|apply Forall_nil]. cbn [item_ok]. destruct (a_token_permissions a) as [[]|[]]; cbn; lia.
    - unfold key_items. repeat (apply Forall_cons; [exact I|]). apply Forall_nil.
  Qed.
  Lemma account_kinds : forall u z a b, map kind_of (account_items u z a) = map kind_of (account_items u z b).
  Proof.
    intros. unfold account_items, permissions_items, auth_items, timing_items, timed_items. rewrite !map_app.
    destruct (a_timing a), (a_timing b); reflexivity.
  Qed.
  Lemma bit_inj : forall x y, bit x = bit y -> x = y.
  Proof. intros [] [] E; try reflexivity; discriminate. Qed.
  Lemma auth_inj : forall x y, auth_items x = auth_items y <-> same_auth x y.
  Proof.
    intros x y. unfold same_auth. split.
    - intros E. destruct x, y; try discriminate; auto.
    - intros [->|[[-> ->]|[-> ->]]]; reflexivity.
  Qed.
  Lemma timing_inj : forall t u, timing_items t = timing_items u <-> same_timing t u.
  Proof.
    intros [|d] [|e]; cbn [timing_items same_timing]; split; try reflexivity; try discriminate; try tauto.
    - unfold timed_items. intros E. injection E as E1 E2 E3 E4 E5. auto.
    - unfold timed_items. intros (E1 & E2 & E3 & E4 & E5). congruence.
  Qed.
  Lemma delegate_inj : forall x y, delegate_items x = delegate_items y <-> same_delegate x y.
  Proof.
    intros x y. unfold same_delegate, delegate_items, key_items. split.
    - intros E. destruct x as [[x o]|], y as [[y p]|]; cbn [pk_x pk_odd] in E; inversion E; subst; auto.
    - intros [->|[[-> ->]|[-> ->]]]; reflexivity.
  Qed.
  Lemma token_permissions_inj : forall x y, token_permissions_items x = token_permissions_items y <-> x = y.
  Proof. intros [[]|[]] [[]|[]]; split; intros E; try reflexivity; discriminate. Qed.
  Lemma le_inj : forall x y, bytes_ok x -> bytes_ok y -> length x = length y -> le_val x = le_val y -> x = y.
  Proof. intros x y X Y L E. rewrite <- (le_bytes_le_val x X), <- (le_bytes_le_val y Y), L, E. reflexivity. Qed.
  Lemma P_inj : forall x y n m, [P x n] = [P y m] -> x = y.
  Proof. intros x y n m E. injection E as E _. exact E. Qed.
  Lemma items_same : forall u z a b, account_ok a -> account_ok b -> account_items u z a = account_items u z b <-> same_account a b.
  Proof.
    intros u z a b (A1 & A2 & A3 & A4 & A5 & A6 & A7) (B1 & B2 & B3 & B4 & B5 & B6 & B7). unfold account_items, permissions_items, same_account, same_permissions. split.
    - intros E. repeat rewrite <- app_assoc in E.
      apply app_split in E; [|reflexivity]. destruct E as [_ E]. apply app_split in E; [|reflexivity]. destruct E as [_ E].
      do 11 (apply app_split in E; [|reflexivity]; let X := fresh "P" in destruct E as [X E]; apply auth_inj in X).
      apply app_split in E; [|destruct (a_timing a), (a_timing b); reflexivity]. destruct E as [T E]. apply timing_inj in T.
      apply app_split in E; [|reflexivity]. destruct E as [V E]. injection V as V.
      apply app_split in E; [|reflexivity]. destruct E as [D E]. apply delegate_inj in D.
      apply app_split in E; [|reflexivity]. destruct E as [R E]. injection R as R.
      apply app_split in E; [|reflexivity]. destruct E as [N E]. injection N as N.
      apply app_split in E; [|reflexivity]. destruct E as [Bl E]. injection Bl as Bl.
      apply app_split in E; [|reflexivity]. destruct E as [Sy E]. apply P_inj in Sy.
      apply app_split in E; [|reflexivity]. destruct E as [Tp E]. apply token_permissions_inj in Tp.
      apply app_split in E; [|reflexivity]. destruct E as [Ti E]. injection Ti as Ti.
      unfold key_items in E. injection E as K1 K2.
      assert (K : public_key a = public_key b) by (destruct (public_key a), (public_key b); cbn in *; congruence).
      destruct A4 as [L4 O4], A5 as [L5 O5], A6 as [L6 O6], B4 as [M4 Q4], B5 as [M5 Q5], B6 as [M6 Q6].
      apply le_inj in V; [|assumption|assumption|congruence]. apply le_inj in R; [|assumption|assumption|congruence].
      apply le_inj in Sy; [|apply firstn_ok; assumption|apply firstn_ok; assumption|rewrite !firstn_length; congruence].
      repeat (split; [assumption|]). assumption.
    - intros (K & Ti & Bl & Tp & Sy & N & R & D & V & T & P1 & P2 & P3 & P4 & P5 & P6 & P7 & P8 & P9 & P10 & P11).
      apply auth_inj in P1, P2, P3, P4, P5, P6, P7, P8, P9, P10, P11. apply timing_inj in T. apply delegate_inj in D.
      rewrite P1, P2, P3, P4, P5, P6, P7, P8, P9, P10, P11, T, D, K, Ti, Bl, Tp, Sy, N, R, V. reflexivity.
  Qed.

  (** ** C47 *)

  (** Two accounts are hashed from the same fields exactly when they agree up
      to what the input leaves out. *)
  Theorem C47_iff : forall a b, account_ok a -> account_ok b ->
    canonical (voting_for a) -> canonical (receipt_chain_hash a) -> canonical (voting_for b) -> canonical (receipt_chain_hash b) ->
    account_fields a = account_fields b <-> same_account a b.
  Proof.
    intros a b A Bk V1 R1 V2 R2. destruct account_eq as (u & z & E). unfold Account.account_fields. rewrite (E a A V1 R1), (E b Bk V2 R2). cbn [bind].
    pose proof (account_items_ok u z a A) as Ia. pose proof (account_items_ok u z b Bk) as Ib.
    destruct (roinput_total checked _ Ia) as [r Ra], (roinput_total checked _ Ib) as [s Sb]. rewrite Ra, Sb. cbn [bind]. split.
    - intros H. injection H as H. apply (items_same u z a b A Bk).
      exact (chunked_fields_inj checked _ _ r s Ia Ib (account_kinds u z a b) Ra Sb H).
    - intros H. apply (items_same u z a b A Bk) in H. rewrite H, Sb in Ra. injection Ra as ->. reflexivity.
  Qed.
  (** Proof and Both are hashed alike, here for sending. *)
  Definition with_send (a : account) (x : auth) : account :=
    let p := a_permissions a in
    mk_account (public_key a) (token_id a) (balance a) (a_token_permissions a) (token_symbol a) (a_nonce a) (receipt_chain_hash a)
      (delegate a) (voting_for a) (a_timing a)
      (mk_perms (edit_state p) x (receive p) (set_delegate p) (set_permissions p) (set_verification_key p) (set_zkapp_uri p)
         (edit_sequence_state p) (set_token_symbol p) (increment_nonce p) (set_voting_for p)) (zkapp a) (zkapp_uri a).
  Theorem C47_refuted : forall a, with_send a AProof <> with_send a ABoth /\
    account_hash kimchi checked (with_send a AProof) = account_hash kimchi checked (with_send a ABoth).
  Proof.
    intros a. split; [unfold with_send; congruence|]. reflexivity.
  Qed.
  (** Times that differ by 2^32 slots are hashed alike. *)
  Definition with_timing (a : account) (t : timing) : account :=
    mk_account (public_key a) (token_id a) (balance a) (a_token_permissions a) (token_symbol a) (a_nonce a) (receipt_chain_hash a)
      (delegate a) (voting_for a) t (a_permissions a) (zkapp a) (zkapp_uri a).
  Theorem C47_timing_refuted : forall a m c ca v vi, 
    account_hash kimchi checked (with_timing a (Timed (mk_timed m c ca v vi))) =
    account_hash kimchi checked (with_timing a (Timed (mk_timed m (c + 2 ^ 32) ca v vi))).
  Proof.
    intros. unfold account_hash, Account.account_fields, Account.account_chunked, with_timing. cbn [zkapp_uri zkapp a_permissions a_timing].
    replace (timing_chunked (Timed (mk_timed m (c + 2 ^ 32) ca v vi))) with (timing_chunked (Timed (mk_timed m c ca v vi))); [reflexivity|].
    unfold timing_chunked, timed_chunked. cbn [cliff_time]. unfold wrapu. replace ((c + 2 ^ 32) mod 2 ^ 32) with (c mod 2 ^ 32); [reflexivity|].
    rewrite <- (Z.mul_1_l (2 ^ 32)) at 2. rewrite Z.mod_add by lia. reflexivity.
  Qed.

  (** ** C89: hashing an account panics exactly on hashes that are not field
      elements. *)
  Theorem C89_panics_iff : forall a, account_ok a ->
    account_hash kimchi checked a = Panic <-> (~ canonical (voting_for a) \/ ~ canonical (receipt_chain_hash a)).
  Proof.
    intros a A. unfold account_hash, Account.account_fields.
    assert (D : forall h, canonical h \/ ~ canonical h) by (intros h; unfold canonical; lia).
    destruct (D (voting_for a)) as [V|V], (D (receipt_chain_hash a)) as [R|R].
    - destruct account_eq as (u & z & E). rewrite (E a A V R). cbn [bind]. destruct (roinput_total checked _ (account_items_ok u z a A)) as [r ->].
      cbn [bind]. split; [discriminate|tauto].
    - split; [tauto|]. intros _. replace (account_chunked a) with (@Panic unit croi); [reflexivity|]. symmetry.
      destruct uri_eq as [u U], zkapp_eq as [z Z0]. unfold Account.account_chunked. destruct A as (A1 & A2 & A3 & A4 & A5 & A6 & A7).
      rewrite U, Z0, permissions_eq, timing_eq, (hash_eq _ V), (hash_panic _ R), delegate_eq by assumption. reflexivity.
    - split; [tauto|]. intros _. replace (account_chunked a) with (@Panic unit croi); [reflexivity|]. symmetry.
      destruct uri_eq as [u U], zkapp_eq as [z Z0]. unfold Account.account_chunked. destruct A as (A1 & A2 & A3 & A4 & A5 & A6 & A7).
      rewrite U, Z0, permissions_eq, timing_eq, (hash_panic _ V) by assumption. reflexivity.
    - split; [tauto|]. intros _. replace (account_chunked a) with (@Panic unit croi); [reflexivity|]. symmetry.
      destruct uri_eq as [u U], zkapp_eq as [z Z0]. unfold Account.account_chunked. destruct A as (A1 & A2 & A3 & A4 & A5 & A6 & A7).
      rewrite U, Z0, permissions_eq, timing_eq, (hash_panic _ V) by assumption. reflexivity.
  Qed.
  Theorem C89_refuted : exists a, account_ok a /\ account_hash kimchi checked a = Panic.
  Proof.
    set (p := mk_perms ANone ANone ANone ANone ANone ANone ANone ANone ANone ANone ANone).
    exists (mk_account (mk_pk 1 true) 1 5 (NotOwned false) (repeat 0 32) 0 (repeat 255 32) None (repeat 0 32) Untimed p None None).
    assert (K : account_ok (mk_account (mk_pk 1 true) 1 5 (NotOwned false) (repeat 0 32) 0 (repeat 255 32) None (repeat 0 32) Untimed p None None)).
    { unfold account_ok, u64, u32, bytes32. cbn [token_id balance a_nonce token_symbol receipt_chain_hash voting_for a_timing timing_ok].
      split; [lia|]. split; [lia|]. split; [lia|].
      assert (Z0 : bytes_ok (repeat 0 32)) by (apply Forall_forall; intros x I; apply repeat_spec in I; subst; unfold byte_ok; lia).
      assert (F0 : bytes_ok (repeat 255 32)) by (apply Forall_forall; intros x I; apply repeat_spec in I; subst; unfold byte_ok; lia).
      split; [split; [reflexivity|exact Z0]|]. split; [split; [reflexivity|exact F0]|]. split; [split; [reflexivity|exact Z0]|exact I]. }
    split; [exact K|]. apply (C89_panics_iff _ K). right. cbn [receipt_chain_hash]. unfold canonical. vm_compute. congruence.
  Qed.
End Hash.

(** The legacy accounts are hashed from their token and balance only. *)
Theorem C47_legacy_refuted : forall k1 t p1 b n1 r1 d1 v1 ti1 k2 p2 n2 r2 d2 v2 ti2,
  account_legacy_roinput (mk_account_legacy k1 t p1 b n1 r1 d1 v1 ti1) = account_legacy_roinput (mk_account_legacy k2 t p2 b n2 r2 d2 v2 ti2).
Proof. reflexivity. Qed.
Theorem C47_legacy_iff : forall a b, u64 (al_token_id a) -> u64 (al_balance a) -> u64 (al_token_id b) -> u64 (al_balance b) ->
  rmap l_to_fields (account_legacy_roinput a) = rmap l_to_fields (account_legacy_roinput b) <->
  al_token_id a = al_token_id b /\ al_balance a = al_balance b.
Proof.
  intros a b A1 A2 B1 B2.
  assert (E : forall x, account_legacy_roinput x = Ok (litems [W64 (al_token_id x); W64 (al_balance x)])).
  { intros x. unfold account_legacy_roinput, u64_legacy. rewrite l_new_items, !l_u64_items. cbn [l_append_all].
    rewrite l_hashable_items. cbn [bind]. rewrite l_hashable_items. reflexivity. }
  rewrite !E. cbn [rmap]. split.
  - intros H. assert (H' : l_to_fields (litems [W64 (al_token_id a); W64 (al_balance a)]) = l_to_fields (litems [W64 (al_token_id b); W64 (al_balance b)])) by congruence.
    apply legacy_fields_inj in H'; [|repeat (apply Forall_cons; [assumption|]); apply Forall_nil|repeat (apply Forall_cons; [assumption|]); apply Forall_nil|reflexivity].
    injection H' as H1 H2. auto.
  - intros [-> ->]. reflexivity.
Qed.

Example C47_ex : let p := mk_perms ASignature ASignature ANone ASignature ASignature ASignature ASignature ASignature ASignature ASignature ASignature in
  let a := mk_account (mk_pk 12345 true) 1 1000 (NotOwned false) (repeat 77 32) 3 (repeat 9 32) None (repeat 1 32)
             (Timed (mk_timed 100 200 50 2 1)) p None None in
  account_ok a /\ canonical (voting_for a) /\ canonical (receipt_chain_hash a) /\ ~ same_account a (with_send a AEither).
Proof.
  cbv zeta. split; [|split; [reflexivity|split; [reflexivity|]]].
  - unfold account_ok, u64, u32, bytes32. cbn [token_id balance a_nonce token_symbol receipt_chain_hash voting_for a_timing timing_ok].
    split; [lia|]. split; [lia|]. split; [lia|].
    assert (Z0 : forall x, 0 <= x < 256 -> bytes_ok (repeat x 32)) by (intros x X; apply Forall_forall; intros y I; apply repeat_spec in I; subst; exact X).
    split; [split; [reflexivity|apply Z0; lia]|]. split; [split; [reflexivity|apply Z0; lia]|]. split; [split; [reflexivity|apply Z0; lia]|].
    unfold timed_ok, u64. cbn. lia.
  - intros (_ & _ & _ & _ & _ & _ & _ & _ & _ & _ & _ & [H|[[H _]|[H _]]] & _); discriminate.
Qed.

Print Assumptions C47_iff.
Print Assumptions C47_refuted.
Print Assumptions C47_timing_refuted.
Print Assumptions C89_panics_iff.
Print Assumptions C89_refuted.
Print Assumptions C47_legacy_refuted.
Print Assumptions C47_legacy_iff.
