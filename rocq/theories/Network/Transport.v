(** Model of the transport builder: /repo/network/src/p2p/{config,builder}.rs.

    The hash Blake2b-256, the peer id of a key pair and the signed noise keys are
    parameters.  A transport is the record of what libp2p is given; [connect]
    says when two of them can talk, as libp2p documents the three layers: the
    private network cipher, the noise handshake and the choice of the
    multiplexer by name.  Sockets, DNS and the clock are left out. *)

From Coq Require Import String ZArith List Bool.
From Verif Require Import Lib.Res Lib.Bytes Hashing.ROInput.
Import ListNotations.
Local Open Scope string_scope.
Local Open Scope list_scope.
Local Open Scope Z_scope.

Section Transport.
Variable blake2b256 : list Z -> list Z.
Variables keypair peer_id noise_keys : Type.
Variable peer_of : keypair -> peer_id.                      (* [PeerId::from(keypair.public())] *)
Variable authentic : Z -> keypair -> res unit noise_keys.   (* fresh X25519 keys from a seed, signed *)

(** config.rs 16-23 *)
Record config := { rendezvous_string : list Z; mplex_protocol_name : list Z }.
(** config.rs 44-51 *)
Definition default_config : config := {| rendezvous_string := []; mplex_protocol_name := str_bytes "/coda/mplex/1.0.0" |}.
(** config.rs 7-14 *)
Definition MAINNET_CONFIG : config :=
  {| rendezvous_string := str_bytes "/coda/0.0.1/5f704cc0c82e0ed70e873f0893d7e06f148524e3f0bdae2afb02e7819a0c24d1";
     mplex_protocol_name := mplex_protocol_name default_config |}.
(** config.rs 27-34: [copy_from_slice] panics if the lengths differ *)
Definition get_shared_key (c : config) : res unit (list Z) :=
  let hash := blake2b256 (rendezvous_string c) in
  if Nat.eqb (length hash) 32 then Ok hash else Panic.
(** config.rs 37-41 *)
Definition get_mplex_config (c : config) : list Z := mplex_protocol_name c.

(** builder.rs 22-28; seconds *)
Record builder := { pnet_config : list Z; mplex_config : list Z; noise : noise_keys; timeout : Z; id : peer_id }.
(** builder.rs 43-58 *)
Definition new_with_key_and_config (seed : Z) (k : keypair) (c : config) : res unit builder :=
  let* shared_key := get_shared_key c in
  let* n := match authentic seed k with Ok n => Ok n | _ => Panic end in
  Ok {| pnet_config := shared_key; mplex_config := get_mplex_config c; noise := n; timeout := 60; id := peer_of k |}.
(** builder.rs 38-40 *)
Definition new_with_key (seed : Z) (k : keypair) : res unit builder := new_with_key_and_config seed k default_config.
(** builder.rs 61-66 *)
Definition with_config (b : builder) (c : config) : res unit builder :=
  let* shared_key := get_shared_key c in
  Ok {| pnet_config := shared_key; mplex_config := get_mplex_config c; noise := noise b; timeout := timeout b; id := id b |}.
(** builder.rs 69-71 *)
Definition with_mainnet_config (b : builder) : res unit builder := with_config b MAINNET_CONFIG.
(** builder.rs 74-77 *)
Definition with_timeout (b : builder) (t : Z) : builder :=
  {| pnet_config := pnet_config b; mplex_config := mplex_config b; noise := noise b; timeout := t; id := id b |}.
(** builder.rs 80-117: [DnsConfig::system] may fail.  The transport has the
    builder's members. *)
Definition build (dns_ok : bool) (b : builder) : res unit (builder * peer_id) :=
  if dns_ok then Ok (b, id b) else Err tt.

(** a chain of calls on a builder *)
Inductive call := Config (c : config) | Mainnet | Timeout (t : Z).
Definition do_call (b : builder) (x : call) : res unit builder :=
  match x with
  | Config c => with_config b c
  | Mainnet => with_mainnet_config b
  | Timeout t => Ok (with_timeout b t)
  end.
Fixpoint do_calls (b : builder) (l : list call) : res unit builder :=
  match l with [] => Ok b | x :: l' => let* b' := do_call b x in do_calls b' l' end.

(** multistream-select takes only names that begin with a slash *)
Definition name_ok (n : list Z) : bool := match n with x :: _ => x =? 47 | [] => false end.
Fixpoint same (a b : list Z) : bool :=
  match a, b with [] , [] => true | x :: a', y :: b' => (x =? y) && same a' b' | _, _ => false end.
(** the peer ids each side sees, if the connection comes about *)
Definition connect (a b : builder) : option (peer_id * peer_id) :=
  if same (pnet_config a) (pnet_config b) && name_ok (mplex_config a) && same (mplex_config a) (mplex_config b)
  then Some (id b, id a) else None.
End Transport.
