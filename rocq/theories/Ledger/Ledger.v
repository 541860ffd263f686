(** Genesis ledgers in a RocksDB database.
    /repo/ledger/src/rocksdb_genesis_ledger.rs, genesis_ledger.rs.

    The database is the list of its entries in the order of iteration.  Without
    a prefix extractor (none is configured) [prefix_iterator] of rocksdb 0.19
    goes to the first key that is not before the prefix and then through all
    the following entries; a read error ends the iteration and is its last
    item. *)

From Coq Require Import ZArith List Bool String.
From Verif Require Import Lib.Res Lib.Bytes Lib.Vec BinProt.Prim BinProt.Codec BinProt.BufRead Wire.Types Text.Base58 Merkle.Tree
  Merkle.Poseidon Hashing.ROInput Hashing.Command Hashing.Account Ledger.AccountWire.
Import ListNotations.
Local Open Scope list_scope.
Local Open Scope Z_scope.
Notation length := List.length.

Definition entry : Type := (list Z * list Z)%type.

(** The default order of keys, bytewise. *)
Fixpoint key_ltb (a b : list Z) : bool :=
  match a, b with
  | _, [] => false
  | [], _ :: _ => true
  | x :: a', y :: b' => (x <? y) || ((x =? y) && key_ltb a' b')
  end.
Fixpoint seek (p : list Z) (db : list entry) : list entry :=
  match db with
  | [] => []
  | e :: db' => if key_ltb (fst e) p then seek p db' else db
  end.
(** rocksdb_genesis_ledger.rs 19, 32-39; [fault = Some n]: reading the entry after [n]
    entries fails. *)
Inductive lerr : Type := Disconnect (e : err) (k v : list Z) | RocksDBError.
Definition items (db : list entry) (fault : option nat) : list (res lerr entry) :=
  match fault with
  | None => map Ok db
  | Some n => map Ok (firstn n db) ++ [Err RocksDBError]
  end.

(** 15-17 *)
Definition ACCOUNT_PREFIX : Z := 0xfe.
Fixpoint take_while {A : Type} (p : A -> bool) (l : list A) : list A :=
  match l with
  | [] => []
  | x :: l' => if p x then x :: take_while p l' else []
  end.
(** 79-85 *)
Definition prefixed (r : res lerr entry) : bool :=
  match r with Ok (x :: _, _) => x =? ACCOUNT_PREFIX | _ => false end.

Section Load.
  (** [Account::T], [Account], and [From<Account::T> for Account] *)
  Variable T : ty.
  Variable A : Type.
  Variable into : val -> res unit A.
  Variable checked : bool.

  (** 53-60 *)
  Definition decode_account_from_kv (r : res lerr entry) : res lerr A :=
    let* (k, v) := r in
    let* w := (match from_reader_strict BUF_CAP checked T (chunks_of v) with
               | Ok w => Ok w
               | Err e => Err (Disconnect e k v)
               | Panic => Panic
               end) in
    match into w with Ok a => Ok a | _ => Panic end.
  (** 68-88: the items of the iterator.  It is lazy: an item that panics
      panics where the iterator is advanced to it. *)
  Definition accounts (db : list entry) (fault : option nat) : list (res lerr A) :=
    map decode_account_from_kv (take_while prefixed (items (seek [ACCOUNT_PREFIX] db) fault)).
  (** genesis_ledger.rs 67 and 77: [.flatten()] of results drops errors *)
  Fixpoint flatten (l : list (res lerr A)) : res merkle_error (list A) :=
    match l with
    | [] => Ok []
    | Ok a :: l' => let* r := flatten l' in Ok (a :: r)
    | Err _ :: l' => flatten l'
    | Panic :: _ => Panic
    end.
  (** genesis_ledger.rs 61-79 *)
  Definition MINA_LEDGER_HEIGHT : Z := 20.
  Definition to_tree (Hash : Type) (db : list entry) (fault : option nat) : res merkle_error (tree A Hash) :=
    let* l := flatten (accounts db fault) in
    add_batch checked (new_tree (Some MINA_LEDGER_HEIGHT)) l.
  (** 51-54 *)
  Definition depth (DEPTH : Z) : Z := DEPTH.
End Load.

Section Root.
  (** The hash function: the domain string and the fields of the input. *)
  Variable poseidon : option (list Z) -> list Z -> Z.
  Variable checked : bool.

  (** The hash of an account, and of its two inner values, with domains as in
      Hashing/Account.v. *)
  Definition kimchi (d : string) (fs : list Z) : Z := poseidon (Some (str_bytes d)) fs.
  Definition leaf_hash (a : account) : res unit Z := account_hash kimchi checked a.
  (** genesis_ledger.rs 71-79 *)
  Definition to_mina_merkle_ledger (db : list entry) (fault : option nat) : res merkle_error (tree account Z) :=
    to_tree AccountV0 account account_of checked Z db fault.
  (** [tree.root()] of a new tree.  It hashes every leaf; if one of these hashes
      panics it panics. *)
  Definition hash_or_0 (a : account) : Z := match leaf_hash a with Ok h => h | _ => 0 end.
  Definition hashable (a : account) : bool := match leaf_hash a with Ok _ => true | _ => false end.
  Definition ledger_root (t : tree account Z) : res merkle_error (option Z) :=
    if forallb (fun l => hashable (fst l)) (leafs t) then
      let* (_, h) := root (poseidon_hash_item hash_or_0) (poseidon_merge poseidon empty_kimchi_repr) checked t in Ok h
    else Panic.

  (** 61-69 with the older accounts and the older hash.  Their input has no
      panic (account/mod.rs 72-84). *)
  Definition legacy_hash (l : legacy) : Z :=
    match account_legacy_roinput (l_account l) with
    | Ok r => poseidon (Some (str_bytes "CodaAccount")) (l_to_fields r)
    | _ => 0
    end.
  Definition to_mina_merkle_ledger_legacy (db : list entry) (fault : option nat) : res merkle_error (tree legacy Z) :=
    to_tree AccountV1 legacy legacy_of checked Z db fault.
  Definition legacy_root (t : tree legacy Z) : res merkle_error (option Z) :=
    let* (_, h) := root (poseidon_hash_item legacy_hash) (poseidon_merge poseidon empty_legacy_repr) checked t in Ok h.
End Root.
