(** SHA-256 (FIPS 180-4), the hash of the [sha2] crate behind the checksums of
    base58 texts ([bs58] with the feature "check") and the digests of
    /repo/crypto/src/hash/types.rs 401-410 and /repo/base/src/memo.rs.

    The crate is an external dependency: this is written from the standard and
    tied to the crate by nothing but the test vectors below.  Theorems take the
    function as a parameter; the instances for the real function are in
    Text/ChecksumProps.v. *)

From Coq Require Import ZArith List.
From Verif Require Import Lib.Bytes.
Import ListNotations.
Local Open Scope Z_scope.

Definition mask : Z := 0xffffffff.
Definition add32 (a b : Z) : Z := Z.land (a + b) mask.
Definition rotr (n x : Z) : Z := Z.lor (Z.shiftr x n) (Z.land (Z.shiftl x (32 - n)) mask).
Definition xor3 (a b c : Z) : Z := Z.lxor a (Z.lxor b c).
Definition not32 (x : Z) : Z := Z.lxor x mask.

(** Section 4.1.2 *)
Definition Ch (x y z : Z) : Z := Z.lxor (Z.land x y) (Z.land (not32 x) z).
Definition Maj (x y z : Z) : Z := xor3 (Z.land x y) (Z.land x z) (Z.land y z).
Definition Sigma0 (x : Z) : Z := xor3 (rotr 2 x) (rotr 13 x) (rotr 22 x).
Definition Sigma1 (x : Z) : Z := xor3 (rotr 6 x) (rotr 11 x) (rotr 25 x).
Definition sigma0 (x : Z) : Z := xor3 (rotr 7 x) (rotr 18 x) (Z.shiftr x 3).
Definition sigma1 (x : Z) : Z := xor3 (rotr 17 x) (rotr 19 x) (Z.shiftr x 10).
(** Section 4.2.2 *)
Definition K256 : list Z :=
  [0x428a2f98; 0x71374491; 0xb5c0fbcf; 0xe9b5dba5; 0x3956c25b; 0x59f111f1; 0x923f82a4; 0xab1c5ed5;
   0xd807aa98; 0x12835b01; 0x243185be; 0x550c7dc3; 0x72be5d74; 0x80deb1fe; 0x9bdc06a7; 0xc19bf174;
   0xe49b69c1; 0xefbe4786; 0x0fc19dc6; 0x240ca1cc; 0x2de92c6f; 0x4a7484aa; 0x5cb0a9dc; 0x76f988da;
   0x983e5152; 0xa831c66d; 0xb00327c8; 0xbf597fc7; 0xc6e00bf3; 0xd5a79147; 0x06ca6351; 0x14292967;
   0x27b70a85; 0x2e1b2138; 0x4d2c6dfc; 0x53380d13; 0x650a7354; 0x766a0abb; 0x81c2c92e; 0x92722c85;
   0xa2bfe8a1; 0xa81a664b; 0xc24b8b70; 0xc76c51a3; 0xd192e819; 0xd6990624; 0xf40e3585; 0x106aa070;
   0x19a4c116; 0x1e376c08; 0x2748774c; 0x34b0bcb5; 0x391c0cb3; 0x4ed8aa4a; 0x5b9cca4f; 0x682e6ff3;
   0x748f82ee; 0x78a5636f; 0x84c87814; 0x8cc70208; 0x90befffa; 0xa4506ceb; 0xbef9a3f7; 0xc67178f2].

(** Section 5: padding, blocks, initial value *)
Definition be_bytes (n : nat) (x : Z) : list Z := rev (le_bytes n x).
Definition pad (m : list Z) : list Z :=
  let n := length m in
  m ++ [0x80] ++ repeat 0 (Z.to_nat ((55 - Z.of_nat n) mod 64)) ++ be_bytes 8 (8 * Z.of_nat n).
Fixpoint words (l : list Z) : list Z :=
  match l with
  | a :: b :: c :: d :: l' => a * 2 ^ 24 + b * 2 ^ 16 + c * 2 ^ 8 + d :: words l'
  | _ => []
  end.
Record hstate : Set := mk_h { ha : Z; hb : Z; hc : Z; hd : Z; he : Z; hf : Z; hg : Z; hh : Z }.
Definition H0 : hstate :=
  mk_h 0x6a09e667 0xbb67ae85 0x3c6ef372 0xa54ff53a 0x510e527f 0x9b05688c 0x1f83d9ab 0x5be0cd19.

(** Section 6.2.2: the schedule, latest word first *)
Fixpoint schedule (n : nat) (r : list Z) : list Z :=
  match n with
  | O => r
  | S n' =>
    schedule n' (add32 (add32 (sigma1 (nth 1 r 0)) (nth 6 r 0)) (add32 (sigma0 (nth 14 r 0)) (nth 15 r 0)) :: r)
  end.
Definition round (s : hstate) (kw : Z * Z) : hstate :=
  let t1 := add32 (add32 (hh s) (Sigma1 (he s))) (add32 (Ch (he s) (hf s) (hg s)) (add32 (fst kw) (snd kw))) in
  let t2 := add32 (Sigma0 (ha s)) (Maj (ha s) (hb s) (hc s)) in
  mk_h (add32 t1 t2) (ha s) (hb s) (hc s) (add32 (hd s) t1) (he s) (hf s) (hg s).
Definition compress (s : hstate) (block : list Z) : hstate :=
  let w := rev (schedule 48 (rev block)) in
  let t := fold_left round (combine K256 w) s in
  mk_h (add32 (ha s) (ha t)) (add32 (hb s) (hb t)) (add32 (hc s) (hc t)) (add32 (hd s) (hd t))
    (add32 (he s) (he t)) (add32 (hf s) (hf t)) (add32 (hg s) (hg t)) (add32 (hh s) (hh t)).
Fixpoint blocks (n : nat) (s : hstate) (ws : list Z) : hstate :=
  match n with
  | O => s
  | S n' => blocks n' (compress s (firstn 16 ws)) (skipn 16 ws)
  end.
Definition sha256 (m : list Z) : list Z :=
  let ws := words (pad m) in
  let s := blocks (length ws / 16)%nat H0 ws in
  flat_map (be_bytes 4) [ha s; hb s; hc s; hd s; he s; hf s; hg s; hh s].

Lemma be_bytes_len : forall n x, length (be_bytes n x) = n.
Proof. intros n x. unfold be_bytes. rewrite rev_length. apply le_bytes_length. Qed.
Lemma sha256_len : forall m, length (sha256 m) = 32%nat.
Proof. intros m. unfold sha256. cbn [flat_map]. rewrite !app_length, !be_bytes_len. reflexivity. Qed.
Lemma sha256_bytes : forall m, bytes_ok (sha256 m).
Proof.
  intros m. unfold sha256. apply Forall_forall. intros b I. apply in_flat_map in I. destruct I as (x & _ & I).
  unfold be_bytes in I. apply in_rev in I. pose proof (le_bytes_ok 4 x) as B. unfold bytes_ok in B.
  rewrite Forall_forall in B. exact (B b I).
Qed.

(** The vectors of the standard, of lengths 0, 3 and 56. *)
Example sha256_empty : sha256 [] =
  [0xe3; 0xb0; 0xc4; 0x42; 0x98; 0xfc; 0x1c; 0x14; 0x9a; 0xfb; 0xf4; 0xc8; 0x99; 0x6f; 0xb9; 0x24;
   0x27; 0xae; 0x41; 0xe4; 0x64; 0x9b; 0x93; 0x4c; 0xa4; 0x95; 0x99; 0x1b; 0x78; 0x52; 0xb8; 0x55].
Proof. vm_compute. reflexivity. Qed.
Example sha256_abc : sha256 [97; 98; 99] =
  [0xba; 0x78; 0x16; 0xbf; 0x8f; 0x01; 0xcf; 0xea; 0x41; 0x41; 0x40; 0xde; 0x5d; 0xae; 0x22; 0x23;
   0xb0; 0x03; 0x61; 0xa3; 0x96; 0x17; 0x7a; 0x9c; 0xb4; 0x10; 0xff; 0x61; 0xf2; 0x00; 0x15; 0xad].
Proof. vm_compute. reflexivity. Qed.
Example sha256_two_blocks : sha256 (flat_map (fun i => [97 + i; 98 + i; 99 + i; 100 + i]) [0; 1; 2; 3; 4; 5; 6; 7; 8; 9; 10; 11; 12; 13]) =
  [0x24; 0x8d; 0x6a; 0x61; 0xd2; 0x06; 0x38; 0xb8; 0xe5; 0xc0; 0x26; 0x93; 0x0c; 0x3e; 0x60; 0x39;
   0xa3; 0x3c; 0xe4; 0x59; 0x64; 0xff; 0x21; 0x67; 0xf6; 0xec; 0xed; 0xd4; 0x19; 0xdb; 0x06; 0xc1].
Proof. vm_compute. reflexivity. Qed.
