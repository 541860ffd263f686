(** Accounts on the wire and in the base crate: the conversions that
    [AutoFrom] derives (/repo/protocol/serialization-types-macros/src/
    auto_from.rs 28-91) for /repo/base/src/account, field by field by name.

    A wire value is a [val] of the type descriptor in Wire/Types.v.  The decoder
    only returns values of the descriptor (C61_decode_sound), so other values
    do not occur here; they are mapped to 0, [false], [[]] or [Panic]. *)

From Coq Require Import String ZArith List Bool.
From Verif Require Import Lib.Res Lib.Bytes BinProt.Codec Hashing.ROInput Hashing.Command Hashing.Account.
Import ListNotations.
Local Open Scope list_scope.
Local Open Scope Z_scope.

Definition int_of (v : val) : Z := match v with VInt z => z | _ => 0 end.
Definition bool_of (v : val) : bool := match v with VBool b => b | _ => false end.
(** [[u8; 32]] *)
Definition bytes_of (v : val) : list Z := match v with VTup l => map int_of l | _ => [] end.

(** protocol/serialization-types/src/signatures.rs 115-125: only canonical
    representatives are converted, others panic *)
Definition pubkey_of (v : val) : res unit pubkey :=
  match v with
  | VTup [x; o] => let* f := expect (fp_from_bytes (bytes_of x)) in Ok (mk_pk f (bool_of o))
  | _ => Panic
  end.
(** auto_from.rs 83: [item.delegate.map(Into::into)] *)
Definition option_of {A : Type} (f : val -> res unit A) (v : val) : res unit (option A) :=
  match v with VNone => Ok None | VSome w => let* a := f w in Ok (Some a) | _ => Panic end.
(** [()] and the unit structs of account/zkapp.rs 15-16, 95-96 *)
Definition unit_of (v : val) : res unit unit := match v with VUnit => Ok tt | _ => Panic end.

(** account/token_permissions.rs 10-23 *)
Definition token_permissions_of (v : val) : res unit token_permissions :=
  match v with
  | VEnum O [b] => Ok (NotOwned (bool_of b))
  | VEnum (S O) [b] => Ok (TokenOwned (bool_of b))
  | _ => Panic
  end.
(** account/permissions.rs 13-28: both enums list the variants in this order *)
Definition AUTHS : list auth := [ANone; AEither; AProof; ASignature; ABoth; AImpossible].
Definition auth_of (v : val) : res unit auth :=
  match v with
  | VEnum i [] => match nth_error AUTHS i with Some a => Ok a | None => Panic end
  | _ => Panic
  end.
(** 67-91; the wire type is account.rs 117-140 *)
Definition permissions_of (v : val) : res unit permissions :=
  match v with
  | VTup [a; b; c; d; e; f; g; h; i; j; k] =>
      let* a := auth_of a in let* b := auth_of b in let* c := auth_of c in let* d := auth_of d in
      let* e := auth_of e in let* f := auth_of f in let* g := auth_of g in let* h := auth_of h in
      let* i := auth_of i in let* j := auth_of j in let* k := auth_of k in
      Ok (mk_perms a b c d e f g h i j k)
  | _ => Panic
  end.
(** account/timing.rs 15-31, 83-92; the wire types are account.rs 178-183 and
    203-214, with the fields in the same order *)
Definition timing_of (v : val) : res unit timing :=
  match v with
  | VEnum O [] => Ok Untimed
  | VEnum (S O) [VTup [m; ct; ca; vp; vi]] =>
      Ok (Timed (mk_timed (int_of m) (int_of ct) (int_of ca) (int_of vp) (int_of vi)))
  | _ => Panic
  end.

(** account/mod.rs 91-122 from account.rs 48-76: symbol and balance have other
    places *)
Definition account_of (v : val) : res unit account :=
  match v with
  | VTup [pk; tid; tp; sym; bal; non; rch; del; vot; tim; per; zk; zu] =>
      let* pk := pubkey_of pk in
      let* tp := token_permissions_of tp in
      let* del := option_of pubkey_of del in
      let* tim := timing_of tim in
      let* per := permissions_of per in
      let* zk := option_of unit_of zk in
      let* zu := option_of unit_of zu in
      Ok (mk_account pk (int_of tid) (int_of bal) tp (bytes_of sym) (int_of non) (bytes_of rch) del (bytes_of vot) tim per zk zu)
  | _ => Panic
  end.

(** The other direction.  [Fp::to_bytes] gives 32 bytes, so signatures.rs
    130-141 does not panic. *)
Definition bytes_to (l : list Z) : val := VTup (map VInt l).
Definition pubkey_to (k : pubkey) : val := VTup [bytes_to (le_bytes 32 (pk_x k)); VBool (pk_odd k)].
Definition option_to {A : Type} (f : A -> val) (o : option A) : val :=
  match o with Some a => VSome (f a) | None => VNone end.
Definition token_permissions_to (t : token_permissions) : val :=
  match t with NotOwned b => VEnum 0 [VBool b] | TokenOwned b => VEnum 1 [VBool b] end.
Definition auth_index (a : auth) : nat :=
  match a with ANone => 0 | AEither => 1 | AProof => 2 | ASignature => 3 | ABoth => 4 | AImpossible => 5 end.
Definition auth_to (a : auth) : val := VEnum (auth_index a) [].
Definition permissions_to (p : permissions) : val :=
  VTup (map auth_to [edit_state p; send p; receive p; set_delegate p; set_permissions p; set_verification_key p;
                     set_zkapp_uri p; edit_sequence_state p; set_token_symbol p; increment_nonce p; set_voting_for p]).
Definition timing_to (t : timing) : val :=
  match t with
  | Untimed => VEnum 0 []
  | Timed d => VEnum 1 [VTup [VInt (initial_minimum_balance d); VInt (cliff_time d); VInt (cliff_amount d);
                              VInt (vesting_period d); VInt (vesting_increment d)]]
  end.
Definition account_to (a : account) : val :=
  VTup [pubkey_to (public_key a); VInt (token_id a); token_permissions_to (a_token_permissions a); bytes_to (token_symbol a);
        VInt (balance a); VInt (a_nonce a); bytes_to (receipt_chain_hash a); option_to pubkey_to (delegate a);
        bytes_to (voting_for a); timing_to (a_timing a); permissions_to (a_permissions a);
        option_to (fun _ => VUnit) (zkapp a); option_to (fun _ => VUnit) (zkapp_uri a)].

(** ** The older accounts *)

(** permissions.rs 47-64 *)
Record permissions_legacy : Set := mk_perms_legacy {
  lp_stake : bool; lp_edit_state : auth; lp_send : auth; lp_receive : auth; lp_set_delegate : auth; lp_set_permissions : auth;
  lp_set_verification_key : auth }.
(** account/mod.rs 33-60: the hashed part of Hashing/Account.v and the rest *)
Record legacy : Set := mk_legacy { l_account : account_legacy; l_permissions : permissions_legacy; l_snapp : option unit }.

(** [Versioned] values: the version number is dropped, and written as 1
    (protocol/versioned/src/lib.rs 40-120, macros.rs 32-46). *)
Definition unver (v : val) : val := match v with VTup [_; w] => w | _ => VUnit end.
Definition unver2 (v : val) : val := unver (unver v).
Definition unver3 (v : val) : val := unver (unver (unver v)).
Definition ver (v : val) : val := VTup [VInt 1; v].
Definition ver2 (v : val) : val := ver (ver v).
Definition ver3 (v : val) : val := ver (ver (ver v)).

Definition legacy_permissions_of (v : val) : res unit permissions_legacy :=
  match v with
  | VTup [s; a; b; c; d; e; f] =>
      let* a := auth_of (unver a) in let* b := auth_of (unver b) in let* c := auth_of (unver c) in
      let* d := auth_of (unver d) in let* e := auth_of (unver e) in let* f := auth_of (unver f) in
      Ok (mk_perms_legacy (bool_of s) a b c d e f)
  | _ => Panic
  end.
(** The wire type is account.rs 169-174, 188-199: the vesting increment comes
    before the period. *)
Definition legacy_timing_of (v : val) : res unit timing :=
  match v with
  | VEnum O [] => Ok Untimed
  | VEnum (S O) [w] =>
      match unver w with
      | VTup [m; ct; ca; vi; vp] =>
          Ok (Timed (mk_timed (int_of (unver2 m)) (int_of (unver2 ct)) (int_of (unver2 ca)) (int_of (unver2 vp)) (int_of (unver2 vi))))
      | _ => Panic
      end
  | _ => Panic
  end.
(** account/mod.rs 31-60 from account.rs 17-44 *)
Definition legacy_of (v : val) : res unit legacy :=
  match unver3 v with
  | VTup [pk; tid; tp; bal; non; rch; del; vot; tim; per; sn] =>
      let* pk := pubkey_of (unver3 pk) in
      let* tp := token_permissions_of (unver2 tp) in
      let* del := option_of (fun d => pubkey_of (unver2 d)) del in
      let* tim := legacy_timing_of (unver2 tim) in
      let* per := legacy_permissions_of (unver2 per) in
      let* sn := option_of unit_of sn in
      Ok (mk_legacy (mk_account_legacy pk (int_of (unver3 tid)) tp (int_of (unver2 bal)) (int_of (unver2 non)) (bytes_of (unver rch)) del
                       (bytes_of (unver vot)) tim) per sn)
  | _ => Panic
  end.

Definition legacy_permissions_to (p : permissions_legacy) : val :=
  VTup (VBool (lp_stake p) :: map (fun a => ver (auth_to a))
          [lp_edit_state p; lp_send p; lp_receive p; lp_set_delegate p; lp_set_permissions p; lp_set_verification_key p]).
Definition legacy_timing_to (t : timing) : val :=
  match t with
  | Untimed => VEnum 0 []
  | Timed d => VEnum 1 [ver (VTup [ver2 (VInt (initial_minimum_balance d)); ver2 (VInt (cliff_time d)); ver2 (VInt (cliff_amount d));
                                   ver2 (VInt (vesting_increment d)); ver2 (VInt (vesting_period d))])]
  end.
Definition legacy_to (l : legacy) : val :=
  let a := l_account l in
  ver3 (VTup [ver3 (pubkey_to (al_public_key a)); ver3 (VInt (al_token_id a)); ver2 (token_permissions_to (al_token_permissions a));
              ver2 (VInt (al_balance a)); ver2 (VInt (al_nonce a)); ver (bytes_to (al_receipt_chain_hash a));
              option_to (fun k => ver2 (pubkey_to k)) (al_delegate a); ver (bytes_to (al_voting_for a));
              ver2 (legacy_timing_to (al_timing a)); ver2 (legacy_permissions_to (l_permissions l));
              option_to (fun _ => VUnit) (l_snapp l)]).
