(** The hash input of an account.
    /repo/base/src/account/mod.rs, permissions.rs, timing.rs,
    token_permissions.rs, token_symbol.rs, zkapp.rs, /repo/base/src/common.rs
    18-50, numbers.rs 21-186, /repo/crypto/src/hash/types.rs 65-115, 202-220,
    272-290.

    The Poseidon hash (kimchi parameters) is a parameter: it takes the domain
    string and the fields of the input. *)

From Coq Require Import ZArith List Bool String.
From Verif Require Import Lib.Res Lib.Bytes Text.FieldText Hashing.ROInput Hashing.Command.
Import ListNotations.
Local Open Scope string_scope.
Local Open Scope list_scope.
Local Open Scope Z_scope.

(** A chain of [.append_chunked(..)], and of [.append_hashable(..)]. *)
Fixpoint append_all (a : croi) (l : list (res unit croi)) : res unit croi :=
  match l with
  | [] => Ok a
  | o :: l' => let* a' := c_append_chunked a o in append_all a' l'
  end.
Fixpoint l_append_all (a : lroi) (l : list (res unit lroi)) : res unit lroi :=
  match l with
  | [] => Ok a
  | o :: l' => let* a' := l_append_hashable a o in l_append_all a' l'
  end.

(** crypto/src/hash/types.rs 69-90, and the same code at 35-42; the other
    hash types delegate to it (202-218, 245-261, 272-288, 321-333, 348-360). *)
Definition hash_chunked (h : list Z) : res unit croi :=
  let* f := expect (fp_from_bytes h) in Ok (c_append_field c_new f).
Definition hash_legacy (h : list Z) : res unit lroi :=
  let* f := expect (fp_from_bytes h) in Ok (l_append_field l_new f).

(** base/src/numbers.rs 33-37: a field *)
Definition token_id_chunked (t : Z) : res unit croi := Ok (c_append_field c_new t).
(** 55-59, 119-123, 172-176, 187-201, 242-246 *)
Definition u32_chunked (x : Z) : res unit croi := c_append_u32 c_new x.
Definition u64_chunked (x : Z) : res unit croi := c_append_u64 c_new x.
(** 21-31, 43-53, 107-117, 160-170, 214-240 *)
Definition u32_legacy (x : Z) : res unit lroi := Ok (l_append_u32 l_new x).
Definition u64_legacy (x : Z) : res unit lroi := Ok (l_append_u64 l_new x).

(** base/src/common.rs 28-34; 21-26 with [CompressedPubKey::empty]; 40-49 *)
Definition pubkey_chunked (k : pubkey) : res unit croi := c_append_bool (c_append_field c_new (pk_x k)) (pk_odd k).
Definition empty_pubkey : pubkey := mk_pk 0 false.
Definition pubkey_option_chunked (o : option pubkey) : res unit croi :=
  match o with Some k => pubkey_chunked k | None => pubkey_chunked empty_pubkey end.

(** permissions.rs 15-28; 30-44 *)
Inductive auth : Set := ANone | AEither | AProof | ASignature | ABoth | AImpossible.
Definition auth_chunked (a : auth) : res unit croi :=
  let constant := match a with AImpossible | ANone => true | _ => false end in
  let signature_necessary := match a with AImpossible | ASignature => true | _ => false end in
  let signature_sufficient := match a with AEither | ASignature | ANone => true | _ => false end in
  (fix loop (roi : croi) (l : list bool) : res unit croi :=
     match l with
     | [] => Ok roi
     | b :: l' => let* f := bits_to_fp_unsafe [b] in loop (c_append_packed roi f 1) l'
     end) c_new [constant; signature_necessary; signature_sufficient].

(** 67-91; 93-108 *)
Record permissions : Set := mk_perms {
  edit_state : auth; send : auth; receive : auth; set_delegate : auth; set_permissions : auth;
  set_verification_key : auth; set_zkapp_uri : auth; edit_sequence_state : auth; set_token_symbol : auth;
  increment_nonce : auth; set_voting_for : auth }.
Definition permissions_chunked (p : permissions) : res unit croi :=
  append_all c_new
    [auth_chunked (edit_state p); auth_chunked (send p); auth_chunked (receive p); auth_chunked (set_delegate p);
     auth_chunked (set_permissions p); auth_chunked (set_verification_key p); auth_chunked (set_zkapp_uri p);
     auth_chunked (edit_sequence_state p); auth_chunked (set_token_symbol p); auth_chunked (increment_nonce p);
     auth_chunked (set_voting_for p)].

(** timing.rs 18-31; 33-43; 45-54, with [x as u32] *)
Record timed_data : Set := mk_timed {
  initial_minimum_balance : Z; cliff_time : Z; cliff_amount : Z; vesting_period : Z; vesting_increment : Z }.
Definition timed_default : timed_data := mk_timed 0 0 0 1 0.
Definition timed_chunked (t : timed_data) : res unit croi :=
  let* r := c_append_chunked c_new (u64_chunked (initial_minimum_balance t)) in
  let* r := c_append_u32 r (wrapu 32 (cliff_time t)) in
  let* r := c_append_chunked r (u64_chunked (cliff_amount t)) in
  let* r := c_append_u32 r (wrapu 32 (vesting_period t)) in
  c_append_chunked r (u64_chunked (vesting_increment t)).
(** 83-92; 106-117 *)
Inductive timing : Set := Untimed | Timed (t : timed_data).
Definition timing_chunked (t : timing) : res unit croi :=
  match t with
  | Untimed => c_append_chunked (c_append_packed c_new 0 1) (timed_chunked timed_default)
  | Timed d => c_append_chunked (c_append_packed c_new 1 1) (timed_chunked d)
  end.

(** token_permissions.rs 10-23; 25-43 *)
Inductive token_permissions : Set :=
| NotOwned (account_disabled : bool) | TokenOwned (disable_new_accounts : bool).
Definition token_permissions_chunked (t : token_permissions) : res unit croi :=
  let bits := match t with NotOwned b => [false; b] | TokenOwned b => [true; b] end in
  let* f := bits_to_fp_unsafe bits in
  Ok (c_append_packed c_new f (Z.of_nat (List.length bits))).

(** token_symbol.rs 12-22; 26-34: six of the 32 bytes.  [Fp::read] reads a
    canonical representative. *)
Definition SYMBOL_LEN : nat := 6.
Definition symbol_chunked (s : list Z) : res unit croi :=
  let bytes := firstn SYMBOL_LEN s ++ repeat 0 (32 - SYMBOL_LEN) in
  let* f := expect (fp_from_bytes bytes) in
  Ok (c_append_packed c_new f (8 * Z.of_nat SYMBOL_LEN)).

(** zkapp.rs 26-64 and 106-111.  The values are unit structs. *)
Definition ZK1 : Z := 12935064460869035604753254773225484359407575580289870070671311469994328713165.
Definition ZK2 : Z := 15836741414052211301983886193856353162526040956490609761139212467629447291325.
Definition zkapp_chunked : croi :=
  let r := c_append_field (c_append_field (c_append_field (c_append_field (c_append_field c_new ZK1) ZK1) ZK1) ZK1) ZK1 in
  let r := fold_left c_append_field (ZK2 :: repeat 0 8) r in
  c_append_packed (c_append_packed (c_append_packed r 0 1) 0 32) 0 32.
Definition zkapp_uri_chunked : croi := c_append_packed c_new 1 1.

Section Hash.
  (** [create_kimchi(()).hash(..)]: the domain string, and the fields of the
      input *)
  Variable kimchi : string -> list Z -> Z.
  Variable checked : bool.

  (** zkapp.rs 68-92 and 117-141: the hash of the value, or of the default
      value, which is the same. *)
  Definition zkapp_option_chunked (o : option unit) : res unit croi :=
    let v := match o with Some tt => zkapp_chunked | None => zkapp_chunked end in
    let* r := roinput_of_chunked checked v in
    Ok (c_append_field c_new (kimchi "CodaZkappAccount" (l_to_fields r))).
  Definition zkapp_uri_option_chunked (o : option unit) : res unit croi :=
    let v := match o with Some tt => zkapp_uri_chunked | None => zkapp_uri_chunked end in
    let* r := roinput_of_chunked checked v in
    Ok (c_append_field c_new (kimchi "MinaZkappUri" (l_to_fields r))).

  (** account/mod.rs 93-122 *)
  Record account : Set := mk_account {
    public_key : pubkey; token_id : Z; balance : Z; a_token_permissions : token_permissions; token_symbol : list Z;
    a_nonce : Z; receipt_chain_hash : list Z; delegate : option pubkey; voting_for : list Z; a_timing : timing;
    a_permissions : permissions; zkapp : option unit; zkapp_uri : option unit }.
  (** 136-153 *)
  Definition account_chunked (a : account) : res unit croi :=
    append_all c_new
      [zkapp_uri_option_chunked (zkapp_uri a);
       zkapp_option_chunked (zkapp a);
       permissions_chunked (a_permissions a);
       timing_chunked (a_timing a);
       hash_chunked (voting_for a);
       pubkey_option_chunked (delegate a);
       hash_chunked (receipt_chain_hash a);
       u32_chunked (a_nonce a);
       u64_chunked (balance a);
       symbol_chunked (token_symbol a);
       token_permissions_chunked (a_token_permissions a);
       token_id_chunked (token_id a);
       pubkey_chunked (public_key a)].
  (** 124-134, and the fields fed to the hash *)
  Definition account_fields (a : account) : res unit (list Z) :=
    let* c := account_chunked a in
    let* r := roinput_of_chunked checked c in
    Ok (l_to_fields r).
  Definition account_hash (a : account) : res unit Z :=
    let* fs := account_fields a in Ok (kimchi "CodaAccount" fs).
End Hash.

(** 33-60; only two fields are hashed: 66-89 *)
Record account_legacy : Set := mk_account_legacy {
  al_public_key : pubkey; al_token_id : Z; al_token_permissions : token_permissions; al_balance : Z; al_nonce : Z;
  al_receipt_chain_hash : list Z; al_delegate : option pubkey; al_voting_for : list Z; al_timing : timing }.
Definition account_legacy_roinput (a : account_legacy) : res unit lroi :=
  l_append_all l_new [u64_legacy (al_token_id a); u64_legacy (al_balance a)].
