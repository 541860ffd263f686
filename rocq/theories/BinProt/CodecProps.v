(** Properties C04-C07, C09, C10, C12-C14, C61, C62: the typed codec. *)
From Coq Require Import ZArith List Bool String Ascii Lia ZifyBool ZifyNat.
From Verif Require Import Lib.Res Lib.Bytes BinProt.Prim BinProt.PrimProofs BinProt.PrimSpec
  BinProt.PrimSpecProofs BinProt.Codec BinProt.CodecSpec BinProt.CodecProofs BinProt.CodecFacts
  BinProt.BufRead BinProt.BufReadProofs.
Import ListNotations.
Open Scope string_scope.
Open Scope list_scope.
Open Scope Z_scope.
Ltac Zify.zify_post_hook ::= Z.div_mod_to_equations.

(** A type and a value used as witnesses below: a record of a u64, an optional
    string, a list of pairs, an enum and a polymorphic variant. *)
Definition ex_ty : ty :=
  TTup [TU64; TOpt TStr; TSeq (TTup [TBool; TInt I32]);
        TEnum [[]; [TChar; TF64]]; TPoly [("One", [TU8]); ("Two", [TU8; TU8])]].
Definition ex_val : val :=
  VTup [VInt 1000000000; VSome (VStr [104; 105]);
        VSeq [VTup [VBool true; VInt (-7)]; VTup [VBool false; VInt 70000]];
        VEnum 1 [VChar 65; VFloat 4607182418800017408]; VEnum 1 [VInt 3; VInt 4]].
Lemma ascii_names : forall nm, is_ascii nm = true -> Forall (fun b => b < 128) (str_bytes nm).
Proof.
  intros nm H. unfold is_ascii in H. rewrite forallb_forall in H. apply Forall_forall.
  intros x Hx. apply H in Hx. lia.
Qed.
Lemma str2_poly_ok : forall c, poly_ok c ["One"; "Two"] 1.
Proof.
  intros c. split; [lia|]. exists "Two". split; [reflexivity|]. split; [vm_compute; reflexivity|].
  intros [|[|j]] nm Hj E; [| |lia]; injection E as <-.
  - split; [apply ascii_names; reflexivity|split; [intros; vm_compute; reflexivity|intros; vm_compute; discriminate]].
  - split; [apply ascii_names; reflexivity|split; [intros; vm_compute; reflexivity|lia]].
Qed.
Lemma ex_fits : forall c, fits c ex_ty ex_val.
Proof.
  intros c. unfold fits, ex_ty, ex_val. cbn -[poly_ok Z.pow].
  repeat split; try exact (str2_poly_ok c); try lia.
  all: try (repeat constructor; unfold byte_ok; lia).
  exact (proj2 (str2_poly_ok c)).
Qed.

(** ** C04 *)
Theorem C04_typed_round_trip : forall checked t v, fits checked t v ->
  exists bs, to_bytes checked t v = Ok bs /\ bytes_ok bs /\
    forall rest, from_slice checked t (bs ++ rest) = Ok (v, rest).
Proof. exact round_trip. Qed.
Example C04_ex : exists bs, to_bytes true ex_ty ex_val = Ok bs /\ List.length bs = 35%nat /\
  from_slice true ex_ty (bs ++ [9; 9]) = Ok (ex_val, [9; 9]).
Proof. eexists. repeat split; reflexivity. Qed.
Example C04_ex_fits : fits true ex_ty ex_val.
Proof. exact (ex_fits true). Qed.
(** Dropping the proviso on chars is not possible: a char above 255 does not
    survive. *)
Theorem C04_char_refuted : exists v, rust_val TChar v /\ forall bs,
  to_bytes false TChar v = Ok bs -> from_slice false TChar bs <> Ok (v, []).
Proof.
  exists (VChar 0x3b1). split; [split; [cbn; lia|exact I]|].
  intros bs H. injection H as <-. vm_compute. discriminate.
Qed.
(** Nor is dropping the proviso on the number of variants: variant 256 is
    written as a polymorphic tag and read as another variant. *)
Theorem C04_many_variants_refuted : exists vars v w bs rest, rust_val (TEnum vars) v /\
  to_bytes false (TEnum vars) v = Ok bs /\
  from_slice false (TEnum vars) bs = Ok (w, rest) /\ w <> v.
Proof.
  exists (List.repeat [] 257), (VEnum 256 []), (VEnum 1 []), [1; 2; 0; 0], [2; 0; 0].
  split; [apply typed_enum; split; [exact I|]; exists 256%nat, [], []; repeat split|].
  split; [reflexivity|]. split; [vm_compute; reflexivity|discriminate].
Qed.

(** ** C05 *)
Theorem C05_truncated_rejected : forall checked t v bs n,
  fits checked t v -> to_bytes checked t v = Ok bs -> (n < List.length bs)%nat ->
  is_err (from_slice checked t (firstn n bs)).
Proof. exact truncated. Qed.
Example C05_ex : exists bs, to_bytes true ex_ty ex_val = Ok bs /\ (20 < List.length bs)%nat /\
  from_slice true ex_ty (firstn 20 bs) = Err EIo.
Proof. eexists. split; [reflexivity|]. split; [cbn; lia|reflexivity]. Qed.

(** ** C06 *)
Theorem C06_prefix_unique : forall checked t v w a b x,
  fits checked t v -> fits checked t w ->
  to_bytes checked t v = Ok a -> to_bytes checked t w = Ok b -> b = a ++ x ->
  v = w /\ x = [].
Proof. exact prefix_unique. Qed.
(** A stream of messages determines the messages, if messages are not empty. *)
Theorem C06_stream_unique : forall checked t vs ws a b,
  Forall (fits checked t) vs -> Forall (fits checked t) ws ->
  (forall v, fits checked t v -> to_bytes checked t v <> Ok []) ->
  ser_all checked t vs = Ok a -> ser_all checked t ws = Ok b -> a = b -> vs = ws.
Proof. exact stream_unique. Qed.
Example C06_ex : (forall v, fits true TU64 v -> to_bytes true TU64 v <> Ok []) /\
  ser_all true TU64 [VInt 5; VInt 500] = Ok [5; 254; 244; 1].
Proof.
  split; [|reflexivity]. intros v (_ & K) E. destruct v; try contradiction.
  injection E as E. unfold bin_write_integer in E.
  repeat match type of E with context [if ?b then _ else _] => destruct b end; discriminate.
Qed.

(** ** C07 *)
(** [wraps 64] is the cast [u64 as i64] of ser.rs:138-146. *)
Lemma u64_read_iff : forall n rest, u64 n ->
  (bin_read_integer (list Z) slice_read_exact R_u64 (bin_write_integer (wraps 64 n) ++ rest) = Ok (n, rest) <-> n < 2 ^ 63).
Proof.
  intros n rest H. unfold u64 in H. split.
  - intros E. destruct (Z.lt_ge_cases n (2 ^ 63)) as [|G]; auto. exfalso.
    assert (W : wraps 64 n = n - 2 ^ 64).
    { unfold wraps, signed. rewrite Z.mod_small by lia.
      change (64 - 1) with 63. destruct (Z.ltb_spec n (2 ^ 63)); lia. }
    pose proof (bin_integer_roundtrip R_i64 (wraps 64 n) rest ltac:(lia)
      ltac:(unfold in_range, R_i64; cbn [lo hi]; lia)) as R.
    unfold bin_read_integer in *.
    destruct (read_u8 (list Z) slice_read_exact (bin_write_integer (wraps 64 n) ++ rest)) as [(b, s)|e|];
      cbn [bind] in *; try discriminate.
    assert (K : forall x s, from_prim (list Z) R_u64 x s = Ok (n, rest) ->
                            from_prim (list Z) R_i64 x s = Ok (wraps 64 n, rest) -> False).
    { intros x s' H1 H2. apply from_prim_inv in H1, H2. lia. }
    repeat match type of E with
      | context [if ?b then _ else _] => destruct b
      end; try discriminate; eauto;
      match type of E with bind ?r _ = _ => destruct r as [(x, s')|e|]; cbn [bind] in *; try discriminate; eauto end.
  - intros L. rewrite wraps_id by (change (64 - 1) with 63; lia).
    apply bin_integer_roundtrip; [lia|unfold in_range, R_u64; cbn [lo hi]; lia].
Qed.
Lemma u64_read_large : forall n rest, 2 ^ 63 <= n < 2 ^ 64 ->
  bin_read_integer (list Z) slice_read_exact R_u64 (bin_write_integer (wraps 64 n) ++ rest) = Err EDestinationIntegerOverflow.
Proof.
  intros n rest H.
  assert (W : wraps 64 n = n - 2 ^ 64).
  { unfold wraps, signed. rewrite Z.mod_small by lia.
    change (64 - 1) with 63. destruct (Z.ltb_spec n (2 ^ 63)); lia. }
  rewrite W. pose proof (bin_integer_roundtrip R_i64 (n - 2 ^ 64) rest ltac:(lia)
      ltac:(unfold in_range, R_i64; cbn [lo hi]; lia)) as R.
  unfold bin_read_integer in *.
  destruct (read_u8 (list Z) slice_read_exact (bin_write_integer (n - 2 ^ 64) ++ rest)) as [(b, s)|e|];
    cbn [bind] in *; try discriminate.
  assert (K : forall x s, from_prim (list Z) R_i64 x s = Ok (n - 2 ^ 64, rest) ->
                          from_prim (list Z) R_u64 x s = Err EDestinationIntegerOverflow).
  { intros x s' H1. apply from_prim_inv in H1. destruct H1 as (<- & _ & _).
    unfold from_prim, in_range, R_u64; cbn [lo hi]. destruct (Z.leb_spec 0 (n - 2 ^ 64)); [lia|reflexivity]. }
  repeat match type of R with
    | context [if ?b then _ else _] => destruct b
    end; try discriminate; eauto;
    match type of R with bind ?r _ = _ => destruct r as [(x, s')|e|]; cbn [bind] in *; try discriminate; eauto end.
Qed.
(** A u64 survives exactly when it is below 2^63. *)
Theorem C07_u64_round_trip_iff : forall checked n rest, u64 n ->
  exists bs, to_bytes checked TU64 (VInt n) = Ok bs /\
    (from_slice checked TU64 (bs ++ rest) = Ok (VInt n, rest) <-> n < 2 ^ 63).
Proof.
  intros checked n rest H. eexists. split; [reflexivity|].
  rewrite <- (u64_read_iff n rest H). unfold from_slice. cbn [de].
  destruct (bin_read_integer (list Z) slice_read_exact R_u64 _) as [(z, s)|e|]; cbn [bind];
    split; intros E; try discriminate; congruence.
Qed.
(** Above, the decoder rejects what the encoder wrote. *)
Theorem C07_u64_large_rejected : forall checked n rest, 2 ^ 63 <= n < 2 ^ 64 ->
  exists bs, to_bytes checked TU64 (VInt n) = Ok bs /\
    from_slice checked TU64 (bs ++ rest) = Err EDestinationIntegerOverflow.
Proof.
  intros checked n rest H. eexists. split; [reflexivity|]. unfold from_slice. cbn [de].
  rewrite u64_read_large by lia. reflexivity.
Qed.
Theorem C07_refuted : exists v bs, rust_val TU64 v /\ to_bytes false TU64 v = Ok bs /\
  from_slice false TU64 bs <> Ok (v, []).
Proof.
  exists (VInt (2 ^ 63)). eexists. split; [split; [cbn; lia|exact I]|]. split; [reflexivity|].
  vm_compute. discriminate.
Qed.
Example C07_ex : u64 (2 ^ 63 - 1) /\
  to_bytes true TU64 (VInt (2 ^ 63 - 1)) = Ok [252; 255; 255; 255; 255; 255; 255; 255; 127] /\
  to_bytes true TU64 (VInt (2 ^ 64 - 1)) = Ok [255; 255].
Proof. split; [unfold u64; lia|]. split; reflexivity. Qed.

(** ** C09.  [Versioned<T, V>] is a record of a u16 and the payload
    (versioned/src/lib.rs:20-26). *)
Definition Versioned (t : ty) : ty := TTup [TInt U16; t].
(** The version number on the wire is not looked at: with any other version the
    same payload is accepted, and the other version is reported. *)
Theorem C09_version_ignored : forall checked t v ver bs rest,
  0 <= ver < 2 ^ 16 -> from_slice checked t bs = Ok (v, rest) ->
  from_slice checked (Versioned t) (bin_write_integer ver ++ bs) =
    Ok (VTup [VInt ver; v], rest).
Proof.
  intros checked t v ver bs rest Hv H. unfold from_slice, Versioned in *.
  rewrite de_tup. cbn [de_list]. cbn [de].
  rewrite bin_integer_roundtrip by (unfold in_range; cbn [irange R_u16 lo hi]; lia).
  cbn [bind]. rewrite H. reflexivity.
Qed.
Theorem C09_refuted : exists t declared wire v bs, declared <> wire /\
  0 <= wire < 2 ^ 16 /\
  from_slice false (Versioned t) bs = Ok (VTup [VInt wire; v], []) /\
  to_bytes false (Versioned t) (VTup [VInt declared; v]) <> Ok bs.
Proof.
  exists TBool, 1, 7, (VBool true), [7; 1]. repeat split; try lia; try reflexivity. discriminate.
Qed.
Example C09_ex : from_slice true TBool [1] = Ok (VBool true, []) /\ 0 <= 7 < 2 ^ 16.
Proof. split; [reflexivity|lia]. Qed.

(** ** C10 *)
(** The value read does not depend on how the input is chunked nor on the
    buffer capacity. *)
Theorem C10_chunking_irrelevant : forall cap checked t i,
  1 <= cap -> Forall (fun ch => ch <> []) i ->
  from_reader cap checked t i = let* (v, _) := from_slice checked t (List.concat i) in Ok v.
Proof.
  intros cap checked t i Hc Hi. unfold from_reader. pose proof (buf_de cap Hc checked t i Hi) as H.
  destruct (from_slice checked t (List.concat i)) as [(v, r)|e|].
  - destruct H as (s & -> & _). reflexivity.
  - rewrite H. reflexivity.
  - rewrite H. reflexivity.
Qed.
(** On a slice that fits the buffer the strict reader succeeds exactly when the
    whole slice is one value, for every type whose values take at least one
    byte. *)
Theorem C10_strict_small : forall cap checked t bs v,
  1 <= cap -> (1 <= min_size t)%nat -> bs <> [] -> Z.of_nat (List.length bs) <= cap ->
  (from_reader_strict cap checked t [bs] = Ok v <-> from_slice checked t bs = Ok (v, [])).
Proof.
  intros cap checked t bs v Hc Hm Hne Hl. unfold from_reader_strict.
  pose proof (buf_de1 cap Hc checked t bs Hl Hne) as H.
  pose proof (consumes checked t bs) as M. fold (from_slice checked t bs) in M.
  destruct (from_slice checked t bs) as [(w, r)|e|].
  - destruct H as ((buf, i) & -> & C & J). cbn [bind fst snd] in *. unfold content in C. cbn in C.
    destruct buf as [|b buf].
    + assert (R : r = []).
      { destruct J as [-> | J]; [rewrite <- C; reflexivity|]. exfalso.
        injection J as ->. rewrite <- C in M. cbn in M. rewrite app_nil_r in M. lia. }
      rewrite R. split; intros E; injection E as <-; reflexivity.
    + split; [discriminate|]. destruct J as [-> | J]; [|discriminate].
      cbn in C. intros E; injection E as _ E2. subst r. discriminate.
  - rewrite H. split; discriminate.
  - rewrite H. split; discriminate.
Qed.
(** When it reports unread bytes, a value was read and bytes were left; any
    chunking. *)
Theorem C10_strict_error : forall cap checked t i n,
  1 <= cap -> Forall (fun ch => ch <> []) i ->
  from_reader_strict cap checked t i = Err (EStreamNotFullyConsumed n) ->
  from_slice checked t (List.concat i) = Err (EStreamNotFullyConsumed n) \/
  exists v rest, from_slice checked t (List.concat i) = Ok (v, rest) /\ 0 < n <= Z.of_nat (List.length rest).
Proof.
  intros cap checked t i n Hc Hi H. unfold from_reader_strict in H.
  pose proof (buf_de cap Hc checked t i Hi) as B.
  destruct (from_slice checked t (List.concat i)) as [(v, r)|e|].
  - destruct B as ((buf, i') & E & C & J). rewrite E in H. cbn [bind fst] in H.
    destruct buf as [|b buf]; [discriminate|]. injection H as <-. right. exists v, r.
    split; auto. rewrite <- C. unfold content. cbn [fst snd]. rewrite app_length. cbn [List.length]. lia.
  - rewrite B in H. left. cbn [bind] in H. injection H as ->. reflexivity.
  - rewrite B in H. discriminate.
Qed.
(** An accepted input was decoded, but bytes may be left in the inner reader. *)
Theorem C10_strict_general_partial : forall cap checked t i v,
  1 <= cap -> Forall (fun ch => ch <> []) i ->
  from_reader_strict cap checked t i = Ok v ->
  exists rest, from_slice checked t (List.concat i) = Ok (v, rest).
Proof.
  intros cap checked t i v Hc Hi H. unfold from_reader_strict in H.
  pose proof (buf_de cap Hc checked t i Hi) as B.
  destruct (from_slice checked t (List.concat i)) as [(w, r)|e|].
  - destruct B as ((buf, i') & E & C & J). rewrite E in H. cbn [bind fst] in H.
    destruct buf; [|discriminate]. injection H as <-. eauto.
  - rewrite B in H. discriminate.
  - rewrite B in H. discriminate.
Qed.
(** For every capacity, whatever follows a value that ends at the buffer's end
    is not noticed. *)
Theorem C10_strict_boundary : forall cap checked bs junk,
  1 <= cap -> Z.of_nat (List.length bs) = cap ->
  from_reader_strict cap checked (TTup (map (fun _ => TU8) bs)) [bs ++ junk] = Ok (VTup (map VInt bs)).
Proof.
  intros cap checked [|b l] junk Hc HL; [cbn in HL; lia|].
  apply strict_boundary; auto.
Qed.
Theorem C10_refuted : exists t bs v rest, rest <> [] /\ bytes_ok bs /\
  from_slice false t bs = Ok (v, rest) /\
  from_reader_strict DEFAULT_CAP false t [bs] = Ok v.
Proof.
  set (l := List.repeat 7 (Z.to_nat 8192)).
  assert (L : Z.of_nat (List.length l) = 8192) by (unfold l; rewrite repeat_length; lia).
  exists (TTup (map (fun _ => TU8) l)), (l ++ [1; 2; 3]), (VTup (map VInt l)), [1; 2; 3].
  split; [discriminate|]. split.
  { apply bytes_ok_app. split; [|repeat constructor; unfold byte_ok; lia].
    apply Forall_forall. intros x Hx. apply repeat_spec in Hx. subst. unfold byte_ok. lia. }
  split; [|apply C10_strict_boundary; auto; unfold DEFAULT_CAP; lia].
  unfold from_slice. rewrite de_tup.
  assert (G : forall l rest, de_list false (list Z) slice_read_exact (map (fun _ => TU8) l) (l ++ rest) = Ok (map VInt l, rest)).
  { clear. induction l as [|b l IH]; intros rest; [reflexivity|].
    cbn [map de_list de app]. rewrite read_u8_cons. cbn [bind]. rewrite IH. reflexivity. }
  rewrite G. reflexivity.
Qed.
(** A reader that delivers chunks hides everything after the first chunk. *)
Theorem C10_chunk_refuted : exists t i v rest, Forall (fun ch => ch <> []) i /\ rest <> [] /\
  from_slice false t (List.concat i) = Ok (v, rest) /\
  from_reader_strict DEFAULT_CAP false t i = Ok v.
Proof.
  exists TBool, [[1]; [2; 3]], (VBool true), [2; 3].
  split; [repeat constructor; discriminate|]. split; [discriminate|]. split; reflexivity.
Qed.
Example C10_ex : (1 <= min_size ex_ty)%nat /\
  from_reader_strict DEFAULT_CAP false (TSeq TBool) [[2; 1; 0]] = Ok (VSeq [VBool true; VBool false]) /\
  from_reader_strict DEFAULT_CAP false (TSeq TBool) [[2; 1; 0; 9]] = Err (EStreamNotFullyConsumed 1) /\
  from_reader 2 false (TTup [TInt I32; TStr]) [[253; 1]; [0; 0]; [0; 3; 97]; [98; 99]]
    = Ok (VTup [VInt 1; VStr [97; 98; 99]]).
Proof. split; [cbn; lia|]. repeat split; reflexivity. Qed.

(** ** C12 *)
(** Without strings, and with variant names whose hash does not overflow (no
    condition in a release build), no input makes the decoder panic. *)
Theorem C12_no_panic : forall checked t bs,
  no_panic_ty checked t -> from_slice checked t bs <> Panic.
Proof.
  intros checked t bs H. apply no_panic; auto. apply sread_no_panic.
Qed.
Example C12_ex : no_panic_ty false (TTup [TU64; TPoly [("Three", [TU8])]; TSeq (TEnum [[]; [TF64]])]).
Proof. cbn. repeat split; discriminate. Qed.
(** A string whose length prefix is 2^63 or more panics in the allocation. *)
Theorem C12_string_refuted : forall checked,
  from_slice checked TStr [252; 255; 255; 255; 255; 255; 255; 255; 255] = Panic.
Proof. intros []; reflexivity. Qed.
(** In a build with overflow checks a polymorphic variant with a name of five
    letters panics on every tag. *)
Theorem C12_polyvar_refuted : forall bs, (4 <= List.length bs)%nat ->
  from_slice true (TPoly [("Three", [])]) bs = Panic.
Proof.
  intros bs H. destruct bs as [|a [|b [|c [|d bs]]]]; cbn [List.length] in H; try lia.
  unfold from_slice. rewrite de_poly. unfold bin_read_polyvar_tag.
  change (a :: b :: c :: d :: bs) with ([a; b; c; d] ++ bs).
  rewrite (read_ule_app 4) by reflexivity. reflexivity.
Qed.

(** ** C13 *)
Theorem C13_variant_selected : forall checked vars i nm ts vs,
  nth_error vars i = Some (nm, ts) -> poly_ok checked (map fst vars) i ->
  typed_list (fun t v => rust_ok t v /\ wire_ok checked t v) ts vs ->
  exists bs, to_bytes checked (TPoly vars) (VEnum i vs) = Ok bs /\
    forall rest, from_slice checked (TPoly vars) (bs ++ rest) = Ok (VEnum i vs, rest).
Proof.
  intros checked vars i nm ts vs N HP HT.
  destruct (round_trip checked (TPoly vars) (VEnum i vs)) as (bs & S & _ & D).
  - apply typed_poly. split; [split; [exact I|exact HP]|]. exists i, vs, nm, ts. auto.
  - exists bs. auto.
Qed.
Example C13_ex : poly_ok true ["One"; "Two"] 1 /\
  to_bytes true (TPoly [("One", [TU8]); ("Two", [TU8; TU8])]) (VEnum 1 [VInt 3; VInt 4])
    = Ok [217; 74; 128; 0; 3; 4].
Proof. split; [exact (str2_poly_ok true)|reflexivity]. Qed.
(** Without the bound on hashes a single well-formed variant is rejected by
    its own reader in a release build. *)
Theorem C13_large_hash_refuted : exists vars v bs,
  rust_val (TPoly vars) v /\ to_bytes false (TPoly vars) v = Ok bs /\
  from_slice false (TPoly vars) bs <> Ok (v, []).
Proof.
  exists [("Payment", [TBool])], (VEnum 0 [VBool true]). eexists.
  split; [apply typed_poly; split; [exact I|]; exists 0%nat, [VBool true], "Payment", [TBool]; repeat split|].
  split; [vm_compute; reflexivity|]. vm_compute. discriminate.
Qed.
(** Every name whose 32-bit hash is 2^31 or more is affected. *)
Theorem C13_large_hash_rejected : forall nm ts vs bs rest,
  2 ^ 31 <= name_hash32 nm ->
  to_bytes false (TPoly [(nm, ts)]) (VEnum 0 vs) = Ok bs ->
  from_slice false (TPoly [(nm, ts)]) (bs ++ rest) = Err (EUnknownPolyvarTag (name_hash32 nm - 2 ^ 31)).
Proof.
  intros nm ts vs bs rest Hh Hs. unfold to_bytes in Hs. rewrite ser_poly in Hs. cbn [nth_error] in Hs.
  unfold write_variant_index_or_tag in Hs. rewrite caml_hash_spec in Hs. cbn [andb bind] in Hs.
  apply bind_ok in Hs. destruct Hs as (body & _ & Hs).
  assert (Hs' : bs = bin_write_polyvar_tag (name_hash32 nm) ++ body) by congruence. subst bs.
  assert (R : 0 <= name_hash32 nm < 2 ^ 32) by (unfold name_hash32; lia).
  assert (Tag : bin_write_polyvar_tag (name_hash32 nm) = bin_write_polyvar_tag (name_hash32 nm - 2 ^ 31)).
  { unfold bin_write_polyvar_tag. f_equal. f_equal. unfold wrapu. lia. }
  rewrite Tag. unfold from_slice. rewrite de_poly, <- app_assoc.
  rewrite bin_polyvar_roundtrip by lia. cbn [bind map fst find_variant].
  destruct (is_ascii nm); [|reflexivity].
  rewrite caml_hash_spec. cbn [andb bind].
  destruct (Z.eqb_spec (name_hash32 nm) (name_hash32 nm - 2 ^ 31)); [lia|]. reflexivity.
Qed.
(** A name that is not ASCII shifts the selection: another variant is
    returned. *)
Definition alpha : string := String (ascii_of_nat 206) (String (ascii_of_nat 177) EmptyString).
Theorem C13_nonascii_refuted : exists vars v w bs, rust_val (TPoly vars) v /\ w <> v /\
  to_bytes false (TPoly vars) v = Ok bs /\ from_slice false (TPoly vars) bs = Ok (w, []).
Proof.
  exists [(alpha, []); ("One", []); ("Two", [])], (VEnum 2 []), (VEnum 1 []). eexists.
  split; [apply typed_poly; split; [exact I|]; exists 2%nat, [], "Two", []; repeat split|].
  split; [discriminate|]. split; [vm_compute; reflexivity|vm_compute; reflexivity].
Qed.

(** ** C14 *)
(** In a release build the tag written is OCaml's for every name. *)
Lemma tag_word : forall nm, wrapu 32 (2 * name_hash32 nm) + 1 = ocaml_tag nm.
Proof.
  intros nm. unfold wrapu, ocaml_tag, ocaml_hash, name_hash32.
  generalize (name_value nm). intros x. cbv zeta.
  destruct (Z.ltb_spec (x mod 2 ^ 31) (2 ^ 30)); lia.
Qed.
Theorem C14_tag_is_ocaml : forall nm ts vs bs,
  to_bytes false (TPoly [(nm, ts)]) (VEnum 0 vs) = Ok bs ->
  exists body, bs = le_bytes 4 (ocaml_tag nm) ++ body.
Proof.
  intros nm ts vs bs H. unfold to_bytes in H. rewrite ser_poly in H. cbn [nth_error] in H.
  unfold write_variant_index_or_tag in H. rewrite caml_hash_spec in H. cbn [andb bind] in H.
  apply bind_ok in H. destruct H as (body & _ & H).
  assert (H' : bs = bin_write_polyvar_tag (name_hash32 nm) ++ body) by congruence. subst bs.
  exists body.
  f_equal. unfold bin_write_polyvar_tag. f_equal. rewrite <- tag_word.
  assert (E : forall y, 0 <= y -> Z.lor (2 * y) 1 = 2 * y + 1).
  { intros y Hy. destruct y; [reflexivity|reflexivity|lia]. }
  unfold wrapu. generalize (name_hash32 nm). intros y.
  replace ((2 * y) mod 2 ^ 32) with (2 * (y mod 2 ^ 31)) by lia. apply E. lia.
Qed.
(** With overflow checks: the same, or a panic. *)
Theorem C14_checked : forall nm,
  (name_value nm < 2 ^ 32 -> caml_hash_variant true nm = Ok (name_value nm)) /\
  (2 ^ 32 <= name_value nm -> caml_hash_variant true nm = Panic).
Proof.
  intros nm. rewrite caml_hash_spec. cbn [andb]. unfold name_hash32.
  assert (0 <= name_value nm) by (apply name_poly_ge; [apply str_bytes_ok|lia]).
  split; intros H1; destruct (Z.leb_spec (2 ^ 32) (name_value nm)); try lia; auto.
  rewrite Z.mod_small by lia. reflexivity.
Qed.
(** The hash itself is not OCaml's signed 31-bit hash once a name has five
    letters. *)
Theorem C14_hash_refuted : exists nm, caml_hash_variant true nm = Panic /\
  exists h, caml_hash_variant false nm = Ok h /\ h <> ocaml_hash nm.
Proof. exists "Three". split; [reflexivity|]. eexists. split; [reflexivity|]. vm_compute. discriminate. Qed.
Example C14_ex : to_bytes false (TPoly [("Three", [])]) (VEnum 0 []) = Ok (le_bytes 4 (ocaml_tag "Three")).
Proof. reflexivity. Qed.

(** ** C61: decoding yields values of the type, and leaves a suffix of the
    input *)
Theorem C61_decode_sound : forall checked t bs v rest,
  bytes_ok bs -> from_slice checked t bs = Ok (v, rest) ->
  rust_val t v /\ exists pre, bs = pre ++ rest.
Proof.
  intros checked t bs v rest Hb H. pose proof (decode_sound checked t bs Hb) as G.
  fold (from_slice checked t bs) in G. rewrite H in G. exact G.
Qed.
Example C61_ex : bytes_ok [254; 244; 1; 7] /\
  from_slice true (TInt U16) [254; 244; 1; 7] = Ok (VInt 500, [7]).
Proof. split; [repeat constructor; unfold byte_ok; lia|reflexivity]. Qed.

(** ** C62: a decoded value is not longer than its input *)
Theorem C62_growth : forall checked t bs v rest,
  seq_elems_nonempty t -> from_slice checked t bs = Ok (v, rest) ->
  (longest v <= List.length bs)%nat /\ (min_size t + List.length rest <= List.length bs)%nat.
Proof.
  intros checked t bs v rest Hn H. pose proof (growth checked t Hn bs) as G.
  fold (from_slice checked t bs) in G. rewrite H in G. cbn in G. tauto.
Qed.
Example C62_ex : seq_elems_nonempty ex_ty /\ (min_size ex_ty >= 8)%nat.
Proof. cbn. repeat split; lia. Qed.
(** For element types of size zero the condition is needed. *)
Theorem C62_empty_elements_refuted : exists t bs v, 
  from_slice false (TSeq t) bs = Ok (v, []) /\ (List.length bs < longest v)%nat.
Proof.
  exists (TTup []), [100]. eexists. split; [vm_compute; reflexivity|]. vm_compute. lia.
Qed.

Print Assumptions C04_typed_round_trip.
Print Assumptions C04_char_refuted.
Print Assumptions C04_many_variants_refuted.
Print Assumptions C05_truncated_rejected.
Print Assumptions C06_prefix_unique.
Print Assumptions C06_stream_unique.
Print Assumptions C07_u64_round_trip_iff.
Print Assumptions C07_u64_large_rejected.
Print Assumptions C07_refuted.
Print Assumptions C09_version_ignored.
Print Assumptions C09_refuted.
Print Assumptions C10_chunking_irrelevant.
Print Assumptions C10_strict_small.
Print Assumptions C10_strict_error.
Print Assumptions C10_strict_general_partial.
Print Assumptions C10_strict_boundary.
Print Assumptions C10_refuted.
Print Assumptions C10_chunk_refuted.
Print Assumptions C12_no_panic.
Print Assumptions C12_string_refuted.
Print Assumptions C12_polyvar_refuted.
Print Assumptions C13_variant_selected.
Print Assumptions C13_large_hash_refuted.
Print Assumptions C13_large_hash_rejected.
Print Assumptions C13_nonascii_refuted.
Print Assumptions C14_tag_is_ocaml.
Print Assumptions C14_checked.
Print Assumptions C14_hash_refuted.
Print Assumptions C61_decode_sound.
Print Assumptions C62_growth.
Print Assumptions C62_empty_elements_refuted.
