(** Base58 texts: /repo/protocol/serialization-types/src/common.rs 247-451,
    consensus_state.rs 54-84, staged_ledger_diff.rs 244-274, signatures.rs
    78-108 and version_bytes.rs.

    The bs58 crate is modelled by its algorithm (Lib/Radix.v) with the Bitcoin
    alphabet, and its check mode by a function [checksum] from data to 4 bytes
    that stands for the first 4 bytes of SHA-256 applied twice.  Nothing but
    the length of a checksum is assumed about it, and that only where a
    theorem says so. *)

From Coq Require Import String ZArith List Bool.
From Verif Require Import Lib.Res Lib.Bytes Lib.Radix BinProt.Prim BinProt.Codec BinProt.BufRead Wire.Types.
Import ListNotations.
Local Open Scope Z_scope.
Notation length := List.length.

Inductive berr : Set :=
| BNonAscii | BInvalidCharacter | BNoChecksum | BInvalidChecksum | BInvalidVersion (ver expected : Z)
| BBinProt (e : err).

(** The Bitcoin alphabet, in digit order. *)
Definition alphabet : list Z := str_bytes "123456789ABCDEFGHJKLMNPQRSTUVWXYZabcdefghijkmnopqrstuvwxyz".
Definition char_of (d : Z) : Z := nth (Z.to_nat d) alphabet 0.
Fixpoint index_of (c : Z) (l : list Z) (i : Z) : option Z :=
  match l with
  | [] => None
  | x :: l' => if x =? c then Some i else index_of c l' (i + 1)
  end.
Definition digit_of (c : Z) : res berr Z :=
  if 127 <? c then Err BNonAscii
  else match index_of c alphabet 0 with Some d => Ok d | None => Err BInvalidCharacter end.

Fixpoint digits_of (s : list Z) : res berr (list Z) :=
  match s with
  | [] => Ok []
  | c :: s' => let* d := digit_of c in let* ds := digits_of s' in Ok (d :: ds)
  end.

(** [bs58::encode(data).into_string()] and [bs58::decode(s).into_vec()].  The
    output buffer of the decoder has the length of the text, which suffices
    (Base58Props.decode_fits). *)
Definition b58_encode (data : list Z) : list Z := map char_of (convert 256 58 data).
Definition b58_decode (s : list Z) : res berr (list Z) :=
  let* ds := digits_of s in Ok (convert 58 256 ds).

Definition CHECKSUM_LEN : nat := 4.

Section Check.
  Variable checksum : list Z -> list Z.

  (** [bs58::encode(data).with_check_version(ver).into_string()] *)
  Definition b58c_encode (ver : Z) (data : list Z) : list Z :=
    b58_encode (ver :: data ++ checksum (ver :: data)).

  Definition list_eqb (a b : list Z) : bool := if list_eq_dec Z.eq_dec a b then true else false.

  (** [bs58::decode(s).with_check(Some(ver)).into_vec()]: the data without the
      checksum, the version byte still in front.  The version is compared with
      the first byte of the buffer, which in the absence of data is the first
      byte of the checksum. *)
  Definition b58c_decode (ver : Z) (s : list Z) : res berr (list Z) :=
    let* out := b58_decode s in
    if Nat.ltb (length out) CHECKSUM_LEN then Err BNoChecksum
    else
      let n := (length out - CHECKSUM_LEN)%nat in
      if list_eqb (checksum (firstn n out)) (skipn n out) then
        if nth 0 out 0 =? ver then Ok (firstn n out) else Err (BInvalidVersion (nth 0 out 0) ver)
      else Err BInvalidChecksum.

  (** ** common.rs 249-283: Base58EncodableType with [T = Vec<u8>] *)

  (** common.rs 271-282 *)
  Definition to_base58_string (ver : Z) (data : list Z) : list Z := b58c_encode ver data.
  (** common.rs 256-266; [bytes.len() - 1] and [bytes[1..]] panic on empty
      bytes: the subtraction in a build with overflow checks, the slice in any
      build *)
  Definition from_base58 (ver : Z) (s : list Z) : res berr (list Z) :=
    let* bytes := b58c_decode ver s in
    match bytes with [] => Panic | _ :: v => Ok v end.

  (** ** common.rs 321-358: Base58EncodableVersionedType *)

  Definition lift_bin {A : Type} (r : res err A) : res berr A :=
    match r with Ok a => Ok a | Err e => Err (BBinProt e) | Panic => Panic end.
  Definition chunks_of (b : list Z) : list (list Z) := match b with [] => [] | _ => [b] end.
  (** the capacity of [BufReader::new] *)
  Definition BUF_CAP : Z := 8192.

  (** common.rs 343-357; signatures.rs 84-90 with version 0x9a *)
  Definition to_base58_versioned (checked : bool) (ver : Z) (t : ty) (v : val) : res berr (list Z) :=
    let* buf := lift_bin (to_bytes checked t v) in Ok (b58c_encode ver buf).
  (** common.rs 328-337; signatures.rs 98-106 with version 0x9a *)
  Definition from_base58_versioned (checked : bool) (ver : Z) (t : ty) (s : list Z) : res berr val :=
    let* bytes := b58c_decode ver s in
    match bytes with
    | [] => Panic
    | _ :: b => lift_bin (from_reader_strict BUF_CAP checked t (chunks_of b))
    end.

  (** ** staged_ledger_diff.rs 248-273: memos *)
  Definition USER_COMMAND_MEMO : Z := 0x14.
  Definition memo_json_ser (m : list Z) : list Z := b58c_encode USER_COMMAND_MEMO m.
  (** [decoded.into_iter().skip(1)] *)
  Definition memo_json_de (s : list Z) : res berr (list Z) :=
    let* decoded := b58c_decode USER_COMMAND_MEMO s in Ok (skipn 1 decoded).

  (** ** consensus_state.rs 59-84: VRF outputs *)
  Definition VRF_TRUNCATED_OUTPUT : Z := 0x15.
  (** the length as one byte in front *)
  Definition vrf58_ser (v : list Z) : list Z :=
    b58c_encode VRF_TRUNCATED_OUTPUT (wrapu 8 (Z.of_nat (length v)) :: v).
  (** [decoded.into_iter().skip(2)] *)
  Definition vrf58_de (s : list Z) : res berr (list Z) :=
    let* decoded := b58c_decode VRF_TRUNCATED_OUTPUT s in Ok (skipn 2 decoded).
End Check.

(** version_bytes.rs *)
Definition LEDGER_HASH : Z := 0x05.
Definition COINBASE_HASH : Z := 0x0c.
Definition EPOCH_SEED : Z := 0x0d.
Definition STATE_HASH : Z := 0x10.
Definition STATE_BODY_HASH : Z := 0x11.
Definition STAGED_LEDGER_HASH_AUX_HASH : Z := 0x0e.
Definition STAGED_LEDGER_HASH_PENDING_COINBASE_AUX : Z := 0x0f.
Definition SIGNATURE : Z := 0x9a.
Definition COINBASE_STACK_DATA : Z := 0x17.
Definition COINBASE_STACK_HASH : Z := 0x18.

(** common.rs 420-447: the kinds of hash texts.  The chain hash is an alias of
    the ledger hash (common.rs 423). *)
Definition hash_kinds : list (string * Z) :=
  [("LedgerHash"%string, LEDGER_HASH); ("CoinBaseHash"%string, COINBASE_HASH); ("EpochSeedHash"%string, EPOCH_SEED);
   ("StateHash"%string, STATE_HASH); ("StateBodyHash"%string, STATE_BODY_HASH);
   ("CoinBaseStackData"%string, COINBASE_STACK_DATA); ("CoinBaseStackHash"%string, COINBASE_STACK_HASH);
   ("VrfOutputHash"%string, VRF_TRUNCATED_OUTPUT); ("AuxHash"%string, STAGED_LEDGER_HASH_AUX_HASH);
   ("PendingCoinbaseAuxHash"%string, STAGED_LEDGER_HASH_PENDING_COINBASE_AUX);
   ("Memo"%string, USER_COMMAND_MEMO); ("Signature"%string, SIGNATURE)].

(** signatures.rs 79: the payload of a signature text *)
Definition SignatureJsonTy : ty := V (TTup [FieldElement; InnerCurveScalar]).
