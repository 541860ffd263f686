(** Signed commands: what is signed, and the verification of a block.
    /repo/base/src/user_commands/signed_command/mod.rs, builder.rs,
    user_commands/mod.rs, staged_ledger_diff.rs 22-82, external_transition.rs
    48-58.

    The signature scheme of the mina-signer crate is a parameter.  Its legacy
    signer hashes, under the domain string of the payload's type, the fields
    of the payload's input extended by the public key and the signature's
    [rx].  A verification context keeps no state that matters between calls. *)

From Coq Require Import ZArith List Bool String.
From Verif Require Import Lib.Res Lib.Bytes Hashing.ROInput.
Import ListNotations.
Local Open Scope Z_scope.

(** [mina_signer::CompressedPubKey] *)
Record pubkey : Set := mk_pk { pk_x : Z; pk_odd : bool }.

(** signed_command/mod.rs 150-163 *)
Record common : Set := mk_common {
  fee : Z; fee_token : Z; fee_payer_pk : pubkey; nonce : Z; valid_until : Z; memo : list Z }.
(** payment.rs 14-23, signed_command/mod.rs 168-188.  [StakeDelegation] has one
    variant, [SetDelegate]. *)
Inductive body : Set :=
| Payment (source_pk receiver_pk : pubkey) (token_id amount : Z)
| SetDelegate (delegator new_delegate : pubkey).
(** 67-72 *)
Record payload : Set := mk_payload { p_common : common; p_body : body }.

(** 18-19 *)
Definition PAYMENT_TX_TAG : list bool := [false; false; false].
Definition DELEGATION_TX_TAG : list bool := [false; false; true].
Definition l_append_bools (a : lroi) (l : list bool) : lroi := fold_left l_append_bool l a.

(** 84-137 *)
Definition to_roinput (p : payload) : lroi :=
  let c := p_common p in
  match p_body p with
  | Payment source receiver token amount =>
      let roi := l_append_field l_new (pk_x (fee_payer_pk c)) in
      let roi := l_append_field roi (pk_x source) in
      let roi := l_append_field roi (pk_x receiver) in
      let roi := l_append_u64 roi (fee c) in
      let roi := l_append_u64 roi (fee_token c) in
      let roi := l_append_bool roi (pk_odd (fee_payer_pk c)) in
      let roi := l_append_u32 roi (nonce c) in
      let roi := l_append_u32 roi (valid_until c) in
      let roi := l_append_bytes roi (memo c) in
      let roi := l_append_bools roi PAYMENT_TX_TAG in
      let roi := l_append_bool roi (pk_odd source) in
      let roi := l_append_bool roi (pk_odd receiver) in
      let roi := l_append_u64 roi token in
      let roi := l_append_u64 roi amount in
      l_append_bool roi false
  | SetDelegate delegator new_delegate =>
      let roi := l_append_field l_new (pk_x (fee_payer_pk c)) in
      let roi := l_append_field roi (pk_x delegator) in
      let roi := l_append_field roi (pk_x new_delegate) in
      let roi := l_append_u64 roi (fee c) in
      let roi := l_append_u64 roi (fee_token c) in
      let roi := l_append_bool roi (pk_odd (fee_payer_pk c)) in
      let roi := l_append_u32 roi (nonce c) in
      let roi := l_append_u32 roi (valid_until c) in
      let roi := l_append_bytes roi (memo c) in
      let roi := l_append_bools roi DELEGATION_TX_TAG in
      let roi := l_append_bool roi (pk_odd delegator) in
      let roi := l_append_bool roi (pk_odd new_delegate) in
      let roi := l_append_u64 roi 1 in
      let roi := l_append_u64 roi 0 in
      l_append_bool roi false
  end.

(** [mina_signer::NetworkId]; 139-146 *)
Inductive network : Set := MAINNET | TESTNET.
Definition domain_string (n : network) : string :=
  match n with MAINNET => "MinaSignatureMainnet" | TESTNET => "CodaSignature" end.

Section Scheme.
  (** Uncompressed public keys, signatures and keypairs of mina-signer. *)
  Variables PubKey Sig Keypair : Type.
  Variable point : PubKey -> Z * Z.
  Variable rx : Sig -> Z.
  Variable public : Keypair -> PubKey.
  (** [PubKey::into_compressed] *)
  Variable compress : PubKey -> pubkey.
  (** [PubKey::from_address(pk.into_address())]: finds the curve point; [None]
      when there is no point with this coordinate *)
  Variable decompress : pubkey -> option PubKey.
  (** The signature check for a hash input given by its fields, and signing. *)
  Variable check : string -> list Z -> PubKey -> Sig -> bool.
  Variable make_sig : string -> lroi -> Keypair -> Sig.

  (** The fields hashed by the legacy signer for a message. *)
  Definition message (p : payload) (pk : PubKey) (s : Sig) : list Z :=
    let roi := to_roinput p in
    let roi := l_append_field roi (fst (point pk)) in
    let roi := l_append_field roi (snd (point pk)) in
    let roi := l_append_field roi (rx s) in
    l_to_fields roi.
  (** [ctx.verify(..)] for a context created for the network *)
  Definition ctx_verify (net : network) (s : Sig) (pk : PubKey) (p : payload) : bool :=
    check (domain_string net) (message p pk s) pk s.

  (** signed_command/mod.rs 24-31 *)
  Record signed_command : Type := mk_command { c_payload : payload; c_signer : pubkey; c_signature : Sig }.
  (** 35-49, and 76-78 *)
  Definition from_payload (p : payload) (kp : Keypair) (net : network) : signed_command :=
    mk_command p (compress (public kp)) (make_sig (domain_string net) (to_roinput p) kp).
  (** 56-61 *)
  Definition command_verify (net : network) (c : signed_command) : res unit bool :=
    match decompress (c_signer c) with
    | None => Panic
    | Some pk => Ok (ctx_verify net (c_signature c) pk (c_payload c))
    end.

  (** user_commands/mod.rs 28-32; 44-49 *)
  Inductive user_command : Type := SignedCommand (c : signed_command).
  Definition user_command_verify (net : network) (u : user_command) : res unit bool :=
    match u with SignedCommand c => command_verify net c end.

  (** Everything in a block that verification does not look at. *)
  Variables Status Works Rest : Type.

  (** staged_ledger_diff.rs 86-89; 64-69 *)
  Record with_status : Type := mk_ws { data : user_command; status : Status }.
  Record prediff : Type := mk_prediff { commands : list with_status; works : Works }.
  (** [Iterator::all]: stops at the first [false] *)
  Fixpoint all_verify (net : network) (l : list with_status) : res unit bool :=
    match l with
    | [] => Ok true
    | c :: l' => let* b := user_command_verify net (data c) in if b then all_verify net l' else Ok false
    end.
  (** 77-81 *)
  Definition prediff_verify (net : network) (d : prediff) : res unit bool := all_verify net (commands d).
  (** 47-60: the first component is [diff_two] *)
  Record diff : Type := mk_diff { diff_two : prediff; diff_one : option prediff }.
  (** 36-42 *)
  Definition diff_verify (net : network) (d : diff) : res unit bool :=
    match diff_one d with
    | Some one => let* b := prediff_verify net one in if b then prediff_verify net (diff_two d) else Ok false
    | None => prediff_verify net (diff_two d)
    end.
  (** external_transition.rs 17-32; 55-57 *)
  Record transition : Type := mk_transition { staged_ledger_diff : diff; rest : Rest }.
  Definition transition_verify (net : network) (t : transition) : res unit bool := diff_verify net (staged_ledger_diff t).
End Scheme.

(** ** The payment builder: builder.rs *)

(** 16-27 *)
Record builder : Set := mk_builder {
  b_to : pubkey; b_from : pubkey; b_amount : Z; b_transfer_token : Z; b_fee_token : Z; b_fee : Z; b_nonce : Z;
  b_memo : list Z; b_fee_payer : pubkey; b_valid_until : Z }.
(** 31-50; the default memo is the empty vector (memo.rs 12-15) *)
Definition builder_new (from to : pubkey) (amount fee nonce : Z) : builder :=
  mk_builder to from amount 1 1 fee nonce [] from (2 ^ 32 - 1).
(** 53-87 *)
Inductive setter : Set :=
| SetTransferToken (t : Z) | SetFeeToken (t : Z) | SetFeePayer (p : pubkey) | SetMemo (m : list Z) | SetValidUntil (v : Z).
Definition set (b : builder) (s : setter) : builder :=
  let (to, from, am, tt, ft, f, n, m, fp, vu) := b in
  match s with
  | SetTransferToken t => mk_builder to from am t ft f n m fp vu
  | SetFeeToken t => mk_builder to from am tt t f n m fp vu
  | SetFeePayer p => mk_builder to from am tt ft f n m p vu
  | SetMemo m' => mk_builder to from am tt ft f n m' fp vu
  | SetValidUntil v => mk_builder to from am tt ft f n m fp v
  end.
(** 90-108 *)
Definition build (b : builder) : payload :=
  mk_payload (mk_common (b_fee b) (b_fee_token b) (b_fee_payer b) (b_nonce b) (b_valid_until b) (b_memo b))
             (Payment (b_from b) (b_to b) (b_transfer_token b) (b_amount b)).
