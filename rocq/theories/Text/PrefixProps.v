(** C129: how the texts of hashes and keys begin. *)

From Coq Require Import String ZArith List Bool Lia ZifyBool ZifyNat.
From Verif Require Import Lib.Res Lib.Bytes Lib.Radix Lib.Sha256 BinProt.Prim BinProt.Codec Wire.Types.
From Verif Require Import Text.Base58 Text.Base58Props Text.FieldText Text.Checksum Text.ChecksumProps.
From Verif Require Import Text.Base64Spec Text.Base64SpecProps Text.Base58Spec Text.Base58SpecProps.
Import ListNotations.
Local Open Scope string_scope.
Local Open Scope list_scope.
Local Open Scope Z_scope.
Notation length := List.length.
Notation hd := List.hd.

Lemma number_app : forall b l l', 0 <= b -> number b (l ++ l') = number b l * b ^ Z.of_nat (length l') + number b l'.
Proof.
  intros b l l' B. induction l as [|d l IH]; [cbn; lia|]. cbn [app number]. rewrite IH, app_length, Nat2Z.inj_add, Z.pow_add_r by lia. ring.
Qed.
Lemma number_low : forall b l, 2 <= b -> in_base b l -> l <> [] -> hd 1 l <> 0 -> b ^ (Z.of_nat (length l) - 1) <= number b l.
Proof.
  intros b l B I N H. destruct l as [|d l]; [easy|]. inversion I as [|? ? D I']; subst. cbn [List.hd] in H.
  pose proof (number_range b l ltac:(lia) I') as R. cbn [number length].
  replace (Z.of_nat (S (length l)) - 1) with (Z.of_nat (length l)) by lia. pose proof (Z.pow_nonneg b (Z.of_nat (length l)) ltac:(lia)). nia.
Qed.
(** The digits of a number between [c b^m] and [(c + 1) b^m] begin with those of [c]. *)
Lemma number_prefix : forall b p m ds, 2 <= b -> in_base b p -> p <> [] -> hd 1 p <> 0 -> in_base b ds -> hd 1 ds <> 0 ->
  number b p * b ^ Z.of_nat m <= number b ds < (number b p + 1) * b ^ Z.of_nat m -> exists t, ds = p ++ t /\ length t = m.
Proof.
  intros b p m ds B P NP HP D HD R. pose proof (number_low b p B P NP HP) as L. pose proof (number_range b p ltac:(lia) P) as U.
  pose proof (number_range b ds ltac:(lia) D) as UD. assert (M : 0 < b ^ Z.of_nat m) by (apply Z.pow_pos_nonneg; lia).
  assert (LP : (0 < length p)%nat) by (destruct p; [easy|cbn; lia]).
  assert (L0 : 0 < b ^ (Z.of_nat (length p) - 1)) by (apply Z.pow_pos_nonneg; lia).
  assert (ND : ds <> []) by (intros ->; cbn [number] in R; nia). pose proof (number_low b ds B D ND HD) as LD.
  assert (LN : (0 < length ds)%nat) by (destruct ds; [easy|cbn; lia]).
  assert (A1 : Z.of_nat (length p) - 1 + Z.of_nat m < Z.of_nat (length ds)).
  { apply (Z.pow_lt_mono_r_iff b); [lia|lia|]. rewrite Z.pow_add_r by lia. nia. }
  assert (A2 : Z.of_nat (length ds) - 1 < Z.of_nat (length p) + Z.of_nat m).
  { apply (Z.pow_lt_mono_r_iff b); [lia|lia|]. rewrite Z.pow_add_r by lia. nia. }
  assert (LL : length ds = (length p + m)%nat) by lia.
  exists (skipn (length p) ds). assert (LS : length (skipn (length p) ds) = m) by (rewrite skipn_length; lia). split; [|exact LS].
  rewrite <- (firstn_skipn (length p) ds) at 1. f_equal. rewrite <- (firstn_skipn (length p) ds) in D, R.
  apply Forall_app in D. destruct D as [D1 D2]. rewrite number_app, LS in R by lia. pose proof (number_range b _ ltac:(lia) D2) as RS. rewrite LS in RS.
  apply (number_inj b); [lia|exact D1|exact P|rewrite firstn_length; lia|]. nia.
Qed.

Lemma text58_prefix : forall s bs front rest p pre m, text58 s bs -> bytes_ok bs -> bs = front ++ rest -> hd 0 front <> 0 ->
  Forall2 rank pre p -> p <> [] -> hd 1 p <> 0 ->
  number 58 p * 58 ^ Z.of_nat m <= number 256 front * 256 ^ Z.of_nat (length rest) ->
  (number 256 front + 1) * 256 ^ Z.of_nat (length rest) <= (number 58 p + 1) * 58 ^ Z.of_nat m ->
  exists t, s = pre ++ t /\ length t = m.
Proof.
  intros s bs front rest p pre m (n & ds & r & E & _ & HD & F & N) B -> HF P NP HP Lo Hi.
  destruct n as [|n]; [|destruct front as [|x front]; cbn in HF, E; [easy|injection E as -> _; easy]]. cbn [repeat app] in *. subst r.
  apply ranks_chars in F. destruct F as [I ->]. apply ranks_chars in P. destruct P as [IP ->].
  apply Forall_app in B. destruct B as [_ BR]. pose proof (number_range 256 rest ltac:(lia) BR) as R.
  rewrite number_app in N by lia.
  destruct (number_prefix 58 p m ds ltac:(lia) IP NP HP I HD) as (t & -> & L); [lia|]. exists (map char_of t). rewrite map_app, map_length. auto.
Qed.

(** ** Addresses *)

(** Every address that is read has 55 characters and begins with B62q. *)
Theorem C129_address : forall s x odd, from_address sha_checksum s = Some (x, odd) ->
  exists t, s = str_bytes "B62q" ++ t /\ length s = 55%nat.
Proof.
  intros s x odd H. apply C53_address_iff in H. destruct H as (B & L & _ & payload & -> & T).
  assert (P : bytes_ok ([203; 1; 1] ++ x ++ [if odd then 1 else 0])).
  { unfold bytes_ok, byte_ok in *. do 3 (constructor; [lia|]). apply Forall_app. split; [exact B|]. constructor; [destruct odd; lia|constructor]. }
  pose proof (checked_bytes _ P) as P'. set (sum := firstn 4 (sha256 (sha256 ([203; 1; 1] ++ x ++ [if odd then 1 else 0])))) in *.
  assert (LS : length sum = 4%nat) by apply (sha_checksum_len ([203; 1; 1] ++ x ++ [if odd then 1 else 0])).
  assert (LR : length ((x ++ [if odd then 1 else 0]) ++ sum) = 37%nat) by (rewrite !app_length, L, LS; reflexivity).
  destruct (text58_prefix s _ [203; 1; 1] ((x ++ [if odd then 1 else 0]) ++ sum) [10; 5; 1; 48] (str_bytes "B62q") 51 T P') as (t & -> & Lt).
  - reflexivity.
  - discriminate.
  - apply (chars_rank [10; 5; 1; 48]). unfold in_base. repeat constructor; lia.
  - discriminate.
  - discriminate.
  - rewrite LR. apply Z.leb_le. vm_compute. reflexivity.
  - rewrite LR. apply Z.leb_le. vm_compute. reflexivity.
  - exists t. split; [reflexivity|]. rewrite app_length, Lt. reflexivity.
Qed.

(** ** Hashes, signatures and memos *)

Lemma written_prefix : forall ver x data s p pre m n, to_base58_string sha_checksum ver (x :: data) = s -> byte_ok ver -> bytes_ok (x :: data) ->
  ver <> 0 -> length data = n -> map char_of p = pre -> in_base 58 p -> p <> [] -> hd 1 p <> 0 ->
  number 58 p * 58 ^ Z.of_nat m <= number 256 [ver; x] * 256 ^ Z.of_nat (n + 4) ->
  (number 256 [ver; x] + 1) * 256 ^ Z.of_nat (n + 4) <= (number 58 p + 1) * 58 ^ Z.of_nat m ->
  exists t, s = pre ++ t /\ length t = m.
Proof.
  intros ver x data s p pre m n E V B N L <- I NP HP Lo Hi. apply C53_hash_text_iff in E; [|exact V|exact B].
  assert (B' : bytes_ok (ver :: x :: data)) by (constructor; assumption). pose proof (checked_bytes _ B') as B2.
  pose proof (sha_checksum_len (ver :: x :: data)) as LS. unfold sha_checksum in LS.
  apply (text58_prefix s _ [ver; x] (data ++ firstn 4 (sha256 (sha256 (ver :: x :: data)))) p (map char_of p) m E B2); auto.
  - apply chars_rank, I.
  - rewrite app_length, LS, L. exact Lo.
  - rewrite app_length, LS, L. exact Hi.
Qed.

Lemma ser_u8s : forall checked h, ser_list checked (repeat TU8 (length h)) (map VInt h) = Ok h.
Proof. intros c h. induction h as [|b h IH]; [reflexivity|]. cbn [length repeat map ser_list ser bind]. rewrite IH. reflexivity. Qed.
Lemma ser_bytes32 : forall checked h, length h = 32%nat -> ser checked Bytes32 (VTup (map VInt h)) = Ok h.
Proof. intros c h L. pose proof (ser_u8s c h) as E. rewrite L in E. exact E. Qed.
Lemma ser_hash : forall checked h, length h = 32%nat -> to_bytes checked HashV1 (VTup [VInt 1; VTup (map VInt h)]) = Ok (1 :: h).
Proof.
  intros c h L. unfold to_bytes, HashV1, V. change (ser c (TTup [TInt U16; Bytes32]) (VTup [VInt 1; VTup (map VInt h)]))
    with (let* b := (let* a := ser c Bytes32 (VTup (map VInt h)) in Ok (a ++ [])) in Ok ([1] ++ b)).
  rewrite ser_bytes32 by exact L. cbn [bind]. rewrite app_nil_r. reflexivity.
Qed.
Lemma ser_signature : forall checked a b, length a = 32%nat -> length b = 32%nat ->
  to_bytes checked SignatureJsonTy (VTup [VInt 1; VTup [VTup (map VInt a); VTup (map VInt b)]]) = Ok (1 :: a ++ b).
Proof.
  intros c a b La Lb. unfold to_bytes, SignatureJsonTy, V, FieldElement, InnerCurveScalar, BigInt256.
  change (ser c (TTup [TInt U16; TTup [Bytes32; Bytes32]]) (VTup [VInt 1; VTup [VTup (map VInt a); VTup (map VInt b)]]))
    with (let* z := (let* x := (let* p := ser c Bytes32 (VTup (map VInt a)) in let* q := (let* r := ser c Bytes32 (VTup (map VInt b)) in Ok (r ++ [])) in Ok (p ++ q)) in Ok (x ++ [])) in Ok ([1] ++ z)).
  rewrite !ser_bytes32 by assumption. cbn [bind]. rewrite !app_nil_r. reflexivity.
Qed.

(** How the texts of the kinds of hashes begin and how long they are. *)
Definition forms : list (string * string * nat) :=
  [("LedgerHash", "j", 51%nat); ("CoinBaseHash", "2", 52%nat); ("EpochSeedHash", "2v", 52%nat); ("StateHash", "3N", 52%nat);
   ("StateBodyHash", "3W", 52%nat); ("CoinBaseStackData", "4Q", 52%nat); ("CoinBaseStackHash", "4Y", 52%nat)].

Theorem C129_hash : forall checked kind ver pre n h, In (kind, ver) hash_kinds -> In (kind, pre, n) forms -> bytes_ok h -> length h = 32%nat ->
  exists s t, to_base58_versioned sha_checksum checked ver HashV1 (VTup [VInt 1; VTup (map VInt h)]) = Ok s /\ s = str_bytes pre ++ t /\ length s = n.
Proof.
  intros c kind ver pre n h K F B L. unfold to_base58_versioned. rewrite ser_hash by exact L. cbn [lift_bin bind].
  change (b58c_encode sha_checksum ver (1 :: h)) with (to_base58_string sha_checksum ver (1 :: h)).
  remember (to_base58_string sha_checksum ver (1 :: h)) as s eqn:E. symmetry in E. exists s.
  assert (B1 : bytes_ok (1 :: h)) by (constructor; [unfold byte_ok; lia|exact B]).
  assert (X : forall p m, byte_ok ver -> ver <> 0 -> map char_of p = str_bytes pre -> in_base 58 p -> p <> [] -> hd 1 p <> 0 ->
    (number 58 p * 58 ^ Z.of_nat m <=? number 256 [ver; 1] * 256 ^ Z.of_nat 36) = true ->
    ((number 256 [ver; 1] + 1) * 256 ^ Z.of_nat 36 <=? (number 58 p + 1) * 58 ^ Z.of_nat m) = true -> n = (length (str_bytes pre) + m)%nat ->
    exists t, Ok s = @Ok berr _ s /\ s = str_bytes pre ++ t /\ length s = n).
  { intros p m V N C I NP HP Lo Hi ->. destruct (written_prefix ver 1 h s p (str_bytes pre) m 32 E V B1 N L C I NP HP) as (t & -> & Lt); [apply Z.leb_le, Lo|apply Z.leb_le, Hi|].
    exists t. rewrite app_length, Lt. auto. }
  cbn [In forms] in F.
  repeat (destruct F as [F|F]; [injection F as <- <- <-; cbn [In hash_kinds] in K;
    repeat (destruct K as [K|K]; [try discriminate K; injection K as <-|]); try contradiction|]); try contradiction;
  [apply (X [42] 50%nat)|apply (X [1] 51%nat)|apply (X [1; 53] 50%nat)|apply (X [2; 21] 50%nat)|apply (X [2; 29] 50%nat)|apply (X [3; 23] 50%nat)|apply (X [3; 31] 50%nat)];
  solve [unfold byte_ok; vm_compute; split; [discriminate|reflexivity]|discriminate|reflexivity|unfold in_base; repeat constructor; lia|vm_compute; reflexivity].
Qed.

Theorem C129_signature : forall checked a b, bytes_ok a -> bytes_ok b -> length a = 32%nat -> length b = 32%nat ->
  exists s t, to_base58_versioned sha_checksum checked SIGNATURE SignatureJsonTy (VTup [VInt 1; VTup [VTup (map VInt a); VTup (map VInt b)]]) = Ok s /\
    s = str_bytes "7m" ++ t /\ length s = 96%nat.
Proof.
  intros c a b A B La Lb. unfold to_base58_versioned. rewrite ser_signature by assumption. cbn [lift_bin bind].
  change (b58c_encode sha_checksum SIGNATURE (1 :: a ++ b)) with (to_base58_string sha_checksum SIGNATURE (1 :: a ++ b)).
  remember (to_base58_string sha_checksum SIGNATURE (1 :: a ++ b)) as s eqn:E. symmetry in E. exists s.
  assert (B1 : bytes_ok (1 :: a ++ b)) by (constructor; [unfold byte_ok; lia|apply Forall_app; split; assumption]).
  destruct (written_prefix SIGNATURE 1 (a ++ b) s [6; 44] (str_bytes "7m") 94 64 E) as (t & -> & Lt).
  - unfold byte_ok, SIGNATURE. lia.
  - exact B1.
  - discriminate.
  - rewrite app_length. lia.
  - reflexivity.
  - unfold in_base. repeat constructor; lia.
  - discriminate.
  - discriminate.
  - apply Z.leb_le. vm_compute. reflexivity.
  - apply Z.leb_le. vm_compute. reflexivity.
  - exists t. rewrite app_length, Lt. auto.
Qed.

(** Memos of bytes: a one in front, the length and 32 bytes. *)
Theorem C129_memo : forall m, bytes_ok (1 :: m) -> length m = 33%nat ->
  exists t, memo_json_ser sha_checksum (1 :: m) = str_bytes "E4" ++ t /\ length (memo_json_ser sha_checksum (1 :: m)) = 53%nat.
Proof.
  intros m B L. remember (memo_json_ser sha_checksum (1 :: m)) as s eqn:E. symmetry in E.
  destruct (written_prefix USER_COMMAND_MEMO 1 m s [13; 3] (str_bytes "E4") 51 33 E) as (t & -> & Lt).
  - unfold byte_ok, USER_COMMAND_MEMO. lia.
  - exact B.
  - discriminate.
  - exact L.
  - reflexivity.
  - unfold in_base. repeat constructor; lia.
  - discriminate.
  - discriminate.
  - apply Z.leb_le. vm_compute. reflexivity.
  - apply Z.leb_le. vm_compute. reflexivity.
  - exists t. rewrite app_length, Lt. auto.
Qed.

(** Not every text that is read as a state hash begins so: the number of the
    version inside is not looked at. *)
Theorem C129_read_refuted : forall checked, exists s v, from_base58_versioned sha_checksum checked STATE_HASH HashV1 s = Ok v /\
  ~ (exists t, s = str_bytes "3N" ++ t).
Proof.
  intros checked. pose (v := VTup [VInt 100; VTup (repeat (VInt 7) 32)]).
  destruct (C53_versioned_round_trip sha_checksum sha_checksum_len sha_checksum_bytes checked STATE_HASH HashV1 v) as (s & W & R).
  - unfold byte_ok, STATE_HASH. lia.
  - cbn. unfold byte_ok. repeat split; lia.
  - exists s. unfold to_base58_versioned in W.
    change (to_bytes checked HashV1 v) with (@Ok err (list Z) (100 :: repeat 7 32)) in W. cbn [lift_bin bind] in W.
    assert (W' : b58c_encode sha_checksum STATE_HASH (100 :: repeat 7 32) = s) by congruence. clear W.
    destruct (written_prefix STATE_HASH 100 (repeat 7 32) s [2; 24] (str_bytes "3R") 50 32 W') as (t & -> & Lt).
    + unfold byte_ok, STATE_HASH. lia.
    + unfold bytes_ok, byte_ok. cbn [repeat]. repeat constructor; lia.
    + discriminate.
    + reflexivity.
    + reflexivity.
    + unfold in_base. repeat constructor; lia.
    + discriminate.
    + discriminate.
    + apply Z.leb_le. vm_compute. reflexivity.
    + apply Z.leb_le. vm_compute. reflexivity.
    + exists v. split; [exact R|]. intros [t' E]. discriminate E.
Qed.

(** ** Examples *)

Example C129_ex_hash : exists s t, to_base58_versioned sha_checksum true STATE_HASH HashV1 (VTup [VInt 1; VTup (map VInt (repeat 200 32))]) = Ok s /\
  s = str_bytes "3N" ++ t /\ length s = 52%nat.
Proof.
  apply (C129_hash true "StateHash" STATE_HASH "3N" 52 (repeat 200 32)).
  - cbn. auto 6.
  - cbn. auto 6.
  - unfold bytes_ok, byte_ok. cbn [repeat]. repeat constructor; lia.
  - reflexivity.
Qed.
Example C129_ex_address : exists x, from_address sha_checksum (str_bytes "B62qiy32p8kAKnny8ZFwoMhYpBppM1DWVCqAPBYNcXnsAHhnfAAuXgg") = Some (x, false).
Proof. destruct C53_address_case as (x & H & _). exists x. exact H. Qed.
Example C129_ex_memo : bytes_ok (1 :: 2 :: 104 :: 105 :: repeat 0 30) /\ length (2 :: 104 :: 105 :: repeat 0 30) = 33%nat.
Proof. split; [|reflexivity]. unfold bytes_ok, byte_ok. cbn [repeat]. repeat constructor; lia. Qed.

Print Assumptions C129_address.
Print Assumptions C129_hash.
Print Assumptions C129_signature.
Print Assumptions C129_memo.
Print Assumptions C129_read_refuted.
