(** What a wire value says about an account, member by member.  Models no code. *)

From Coq Require Import String ZArith List Bool.
From Verif Require Import Lib.Bytes BinProt.Codec Text.FieldText Hashing.Command Hashing.Account Ledger.AccountWire.
Import ListNotations.
Local Open Scope list_scope.
Local Open Scope Z_scope.

(** 32 bytes *)
Definition w_bytes (v : val) (l : list Z) : Prop := v = VTup (map VInt l) /\ List.length l = 32%nat /\ bytes_ok l.
(** a number below [b] *)
Definition w_num (b : Z) (v : val) (z : Z) : Prop := v = VInt z /\ 0 <= z < b.
(** a compressed key: 32 bytes, the least significant first, of a field element,
    and the parity *)
Definition w_key (v : val) (k : pubkey) : Prop :=
  exists x l, v = VTup [x; VBool (pk_odd k)] /\ w_bytes x l /\ le_val l = pk_x k /\ pk_x k < FP_MODULUS.
Definition w_option {A : Type} (R : val -> A -> Prop) (v : val) (o : option A) : Prop :=
  match o with None => v = VNone | Some a => exists w, v = VSome w /\ R w a end.
Definition w_unit (v : val) (u : unit) : Prop := v = VUnit.
Definition w_token_permissions (v : val) (t : token_permissions) : Prop :=
  match t with NotOwned b => v = VEnum 0 [VBool b] | TokenOwned b => v = VEnum 1 [VBool b] end.
Definition w_auth (v : val) (a : auth) : Prop :=
  v = VEnum match a with ANone => 0 | AEither => 1 | AProof => 2 | ASignature => 3 | ABoth => 4 | AImpossible => 5 end [].
Definition w_permissions (v : val) (p : permissions) : Prop :=
  exists a b c d e f g h i j k, v = VTup [a; b; c; d; e; f; g; h; i; j; k] /\
    w_auth a (edit_state p) /\ w_auth b (send p) /\ w_auth c (receive p) /\ w_auth d (set_delegate p) /\ w_auth e (set_permissions p) /\
    w_auth f (set_verification_key p) /\ w_auth g (set_zkapp_uri p) /\ w_auth h (edit_sequence_state p) /\ w_auth i (set_token_symbol p) /\
    w_auth j (increment_nonce p) /\ w_auth k (set_voting_for p).
Definition w_timing (v : val) (t : timing) : Prop :=
  match t with
  | Untimed => v = VEnum 0 []
  | Timed d => exists a b c e f, v = VEnum 1 [VTup [a; b; c; e; f]] /\ w_num (2 ^ 64) a (initial_minimum_balance d) /\
      w_num (2 ^ 64) b (cliff_time d) /\ w_num (2 ^ 64) c (cliff_amount d) /\ w_num (2 ^ 64) e (vesting_period d) /\
      w_num (2 ^ 64) f (vesting_increment d)
  end.
Definition wire_account (v : val) (a : account) : Prop :=
  exists k t p s b n r d o i m z u, v = VTup [k; t; p; s; b; n; r; d; o; i; m; z; u] /\
    w_key k (public_key a) /\ w_num (2 ^ 64) t (token_id a) /\ w_token_permissions p (a_token_permissions a) /\
    w_bytes s (token_symbol a) /\ w_num (2 ^ 64) b (balance a) /\ w_num (2 ^ 32) n (a_nonce a) /\
    w_bytes r (receipt_chain_hash a) /\ w_option w_key d (delegate a) /\ w_bytes o (voting_for a) /\ w_timing i (a_timing a) /\
    w_permissions m (a_permissions a) /\ w_option w_unit z (zkapp a) /\ w_option w_unit u (zkapp_uri a).

(** The older accounts; [w_ver] is a version number, any, in front. *)
Definition w_ver {A : Type} (R : val -> A -> Prop) (v : val) (a : A) : Prop :=
  exists n w, v = VTup [VInt n; w] /\ 0 <= n < 2 ^ 16 /\ R w a.
Definition w_legacy_permissions (v : val) (p : permissions_legacy) : Prop :=
  exists a b c d e f, v = VTup [VBool (lp_stake p); a; b; c; d; e; f] /\
    w_ver w_auth a (lp_edit_state p) /\ w_ver w_auth b (lp_send p) /\ w_ver w_auth c (lp_receive p) /\
    w_ver w_auth d (lp_set_delegate p) /\ w_ver w_auth e (lp_set_permissions p) /\ w_ver w_auth f (lp_set_verification_key p).
Definition w_num64v2 : val -> Z -> Prop := w_ver (w_ver (w_num (2 ^ 64))).
Definition w_timed (v : val) (d : timed_data) : Prop :=
  exists a b c e f, v = VTup [a; b; c; e; f] /\ w_num64v2 a (initial_minimum_balance d) /\ w_num64v2 b (cliff_time d) /\
    w_num64v2 c (cliff_amount d) /\ w_num64v2 e (vesting_increment d) /\ w_num64v2 f (vesting_period d).
Definition w_legacy_timing (v : val) (t : timing) : Prop :=
  match t with
  | Untimed => v = VEnum 0 []
  | Timed d => exists w, v = VEnum 1 [w] /\ w_ver w_timed w d
  end.
Definition wire_legacy_body (v : val) (l : legacy) : Prop :=
  let a := l_account l in
  exists k t p b n r d o i m u, v = VTup [k; t; p; b; n; r; d; o; i; m; u] /\
    w_ver (w_ver (w_ver w_key)) k (al_public_key a) /\ w_ver (w_ver (w_ver (w_num (2 ^ 64)))) t (al_token_id a) /\
    w_ver (w_ver w_token_permissions) p (al_token_permissions a) /\ w_num64v2 b (al_balance a) /\
    w_ver (w_ver (w_num (2 ^ 32))) n (al_nonce a) /\ w_ver w_bytes r (al_receipt_chain_hash a) /\
    w_option (w_ver (w_ver w_key)) d (al_delegate a) /\ w_ver w_bytes o (al_voting_for a) /\
    w_ver (w_ver w_legacy_timing) i (al_timing a) /\ w_ver (w_ver w_legacy_permissions) m (l_permissions l) /\
    w_option w_unit u (l_snapp l).
Definition wire_legacy : val -> legacy -> Prop := w_ver (w_ver (w_ver wire_legacy_body)).

(** Values of the Rust types. *)
Definition key_ok (k : pubkey) : Prop := 0 <= pk_x k < FP_MODULUS.
Definition option_ok {A : Type} (P : A -> Prop) (o : option A) : Prop := match o with Some a => P a | None => True end.

(** Values with a key that is no field element.  A key whose 32 bytes are none: *)
Definition big_key (v : val) : Prop := exists x l o, v = VTup [x; VBool o] /\ w_bytes x l /\ FP_MODULUS <= le_val l.
Definition big_option (big : val -> Prop) (v : val) : Prop := exists w, v = VSome w /\ big w.
(** the public key of an account, or its delegate *)
Definition big_account (v : val) : Prop :=
  exists l, v = VTup l /\ ((exists k, nth_error l 0 = Some k /\ big_key k) \/ (exists d, nth_error l 7 = Some d /\ big_option big_key d)).
Definition big_legacy_body (v : val) : Prop :=
  exists l, v = VTup l /\ ((exists k, nth_error l 0 = Some k /\ big_key (unver3 k)) \/
    (exists d, nth_error l 6 = Some d /\ big_option (fun k => big_key (unver2 k)) d)).
Definition big_legacy (v : val) : Prop := big_legacy_body (unver3 v).
