(** Properties C15–C17, C77–C79: the layout-driven decoder. *)
From Coq Require Import ZArith List Bool String Lia ZifyBool ZifyNat.
From Verif Require Import Lib.Res Lib.Bytes BinProt.Prim BinProt.PrimProofs BinProt.PrimSpec
  BinProt.PrimSpecProofs BinProt.Codec BinProt.CodecSpec BinProt.CodecProofs BinProt.BufRead
  BinProt.BufReadProofs BinProt.FormatSpec
  Loose.Loose Loose.LooseSpec Loose.LooseProofs Loose.LooseWire Loose.LooseFacts.
Import ListNotations.
Open Scope string_scope.
Open Scope list_scope.
Open Scope Z_scope.
Ltac Zify.zify_post_hook ::= Z.div_mod_to_equations.

(** The example layout: a record with an option, a list of sums, a polymorphic
    variant and a hash known by its module path. *)
Definition ex_layout : rule :=
  RRecord [("a", ROption RInt);
           ("b", RList (RSum [("A", 0, []); ("B", 1, [RChar; RBool])]));
           ("c", RPolyvar [inl ("One", 3953222, [RString]); inl ("Two", 4203884, [])]);
           ("d", RResolved "State_hash" (RCustom []))].
Definition ex_hash : list Z := repeat 7 32.
Definition ex_bytes : list Z :=
  [1; 254; 44; 1] ++ [2; 0; 1; 65; 1] ++ [141; 164; 120; 0; 2; 104; 105] ++ ex_hash.
Definition ex_value : value :=
  LRecord [("a", LOption (Some (LInt 300)));
           ("b", LList [LSum "A" 0 (LTuple []); LSum "B" 1 (LTuple [LChar 65; LBool true])]);
           ("c", LPolyvar "One" 3953222 (LTuple [LList [LChar 104; LChar 105]]));
           ("d", LTuple (map LChar ex_hash))].
Lemma ex_decodes : forall x, loose_value 200 ex_layout (ex_bytes ++ x) = Ok (ex_value, x).
Proof.
  intros x. rewrite loose_dec.
  pose proof (dec_mono 200 ex_layout None ex_bytes x) as H.
  assert (E : dec 200 (list Z) slice_read_exact ex_layout (None, ex_bytes) = Ok (ex_value, (Some "State_hash", [])))
    by (vm_compute; reflexivity).
  rewrite E in H. rewrite H. reflexivity.
Qed.

(** ** C15

    Reading back what was read.  A value is written in the bytes it was read
    from exactly when these bytes are in canonical form: shortest integers and
    lengths, low bit of tags set. *)
Theorem C15_exact : forall sz layout bs v rest, numbered layout = true -> bytes_ok bs ->
  loose_value sz layout bs = Ok (v, rest) ->
  exists used q, bs = used ++ rest /\ lenient sz None layout v used q /\
    (vser v = used <-> canonical sz None layout v used q).
Proof.
  intros sz layout bs v rest N B H. rewrite loose_dec in H. apply bind_ok in H.
  destruct H as ((w & q & s') & H & E). cbn [snd] in E. injection E as -> ->.
  apply (dec_takes sz (depth layout) layout (le_n _) None bs v q rest B) in H.
  destruct H as (used & -> & W). exists used, q. split; [auto|]. split; [auto|]. split.
  - intros <-. pose proof W as W'. apply (proj1 (lenient_canonical sz)) in W'. destruct W' as (bs' & C).
    pose proof (proj1 (canonical_written sz) _ _ _ _ _ C N) as E. rewrite E. exact C.
  - intros C. apply (proj1 (canonical_written sz) _ _ _ _ _ C N).
Qed.
(** Every value of the layout, in canonical form, decodes to itself and is
    written back as it was. *)
Theorem C15_encoded : forall sz layout v used q rest, numbered layout = true -> bytes_ok rest ->
  canonical sz None layout v used q ->
  loose_value sz layout (used ++ rest) = Ok (v, rest) /\ vser v = used.
Proof.
  intros sz layout v used q rest N B C. split; [|apply (proj1 (canonical_written sz) _ _ _ _ _ C N)].
  pose proof (proj1 (canonical_lenient sz) _ _ _ _ _ C) as W.
  assert (G : dec sz (list Z) slice_read_exact layout (None, used ++ rest) = Ok (v, (q, rest))).
  { apply (dec_takes sz (depth layout) layout (le_n _)).
    - apply bytes_ok_app. split; auto. apply (proj1 (lenient_ok sz)) in W. auto.
    - exists used. auto. }
  rewrite loose_dec, G. reflexivity.
Qed.
(** What is written after a decoding is read back as the same value, and is
    written in the same bytes again. *)
Theorem C15_normal : forall sz layout bs v rest x, numbered layout = true -> bytes_ok bs -> bytes_ok x ->
  loose_value sz layout bs = Ok (v, rest) -> loose_value sz layout (vser v ++ x) = Ok (v, x).
Proof.
  intros sz layout bs v rest x N B X H.
  destruct (C15_exact sz layout bs v rest N B H) as (used & q & _ & W & _).
  apply (proj1 (lenient_canonical sz)) in W. destruct W as (bs' & C).
  pose proof (C15_encoded sz layout v bs' q x N X C) as (E & <-). exact E.
Qed.
Example C15_ex : numbered ex_layout = true /\ bytes_ok ex_bytes /\
  loose_value 200 ex_layout (ex_bytes ++ [9]) = Ok (ex_value, [9]) /\ vser ex_value = ex_bytes.
Proof.
  split; [reflexivity|]. split; [|split; [apply ex_decodes|vm_compute; reflexivity]].
  unfold bytes_ok. apply Forall_forall. intros y I. apply (proj1 (forallb_forall (fun c => (0 <=? c) && (c <? 256)) ex_bytes) eq_refl) in I.
  unfold byte_ok. lia.
Qed.
(** As stated the property is false: a long form of an integer or of a length,
    or a tag with its low bit clear, is accepted and written differently. *)
Theorem C15_refuted :
  (exists v, loose_value 200 RInt [254; 5; 0] = Ok (v, []) /\ vser v = [5]) /\
  (exists v, loose_value 200 RString [253; 1; 0; 0; 0; 65] = Ok (v, []) /\ vser v = [1; 65]) /\
  (exists v, numbered (RPolyvar [inl ("One", 3953222, [])]) = true /\
     loose_value 200 (RPolyvar [inl ("One", 3953222, [])]) [140; 164; 120; 0] = Ok (v, []) /\
     vser v = [141; 164; 120; 0]).
Proof.
  split; [exists (LInt 5); split; vm_compute; reflexivity|].
  split; [exists (LList [LChar 65]); split; vm_compute; reflexivity|].
  exists (LPolyvar "One" 3953222 (LTuple [])). split; [reflexivity|split; vm_compute; reflexivity].
Qed.
(** Neither proviso can be dropped. *)
Theorem C15_provisos_needed :
  (exists layout bs v used q, canonical 200 None layout v used q /\
     loose_value 200 layout used = Ok (v, []) /\ vser v = bs /\ bs <> used /\
     layout = RSum [("A", 5, [])]) /\
  (exists layout bs v used q, canonical 200 None layout v used q /\
     loose_value 200 layout used = Ok (v, []) /\ vser v = bs /\ bs <> used /\
     layout = RPolyvar [inl ("A", 65, [])]).
Proof.
  split.
  - exists (RSum [("A", 5, [])]), [5], (LSum "A" 5 (LTuple [])), [0], None.
    split; [|split; [vm_compute; reflexivity|split; [reflexivity|split; [discriminate|reflexivity]]]].
    apply (W_sum 200 _ _ _ None [("A", 5, [])] 0 "A" 5 []); try reflexivity; [lia|unfold is_byte; lia|constructor].
  - exists (RPolyvar [inl ("A", 65, [])]), [65], (LPolyvar "A" 65 (LTuple [])), [131; 0; 0; 0], None.
    split; [|split; [vm_compute; reflexivity|split; [reflexivity|split; [discriminate|reflexivity]]]].
    apply (W_polyvar 200 _ _ _ None [inl ("A", 65, [])] [] "A" 65 [] []); try reflexivity;
      try (unfold is_byte; lia); [intros x []|constructor].
Qed.

(** ** C16 *)
(** Truncated input: every proper prefix of an accepted byte string is an error,
    never a panic and never another value. *)
Theorem C16_truncated : forall sz layout v used q n, bytes_ok used ->
  lenient sz None layout v used q -> (n < List.length used)%nat ->
  is_err (loose_value sz layout (firstn n used)).
Proof.
  intros sz layout v used q n B W L.
  assert (G : forall x, bytes_ok x -> dec sz (list Z) slice_read_exact layout (None, used ++ x) = Ok (v, (q, x))).
  { intros x Hx. apply (dec_takes sz (depth layout) layout (le_n _)); [apply bytes_ok_app; auto|eauto]. }
  specialize (G [] ltac:(constructor)). rewrite app_nil_r in G.
  rewrite loose_dec. pose proof (dec_mono sz layout None (firstn n used) (skipn n used)) as M.
  rewrite firstn_skipn in M.
  destruct (dec sz (list Z) slice_read_exact layout (None, firstn n used)) as [(w & q' & s')|e|]; cbn [bind is_err].
  - rewrite G in M. injection M as -> -> E. apply (f_equal (@List.length Z)) in E.
    rewrite app_length, skipn_length in E. cbn [List.length] in E. lia.
  - exists e. reflexivity.
  - congruence.
Qed.
(** No panic on layouts of implemented rules, if the sums have a summand for
    every byte of the input, and if the input has no 64-bit length marker (0xFC)
    in case the layout has strings or lists. *)
Theorem C16_no_panic : forall sz k lists layout bs, 0 < sz < 2 ^ 31 ->
  supported k lists layout = true ->
  Forall (fun c => 0 <= c < 256 /\ c < k /\ (lists = true -> c <> 252)) bs ->
  loose_value sz layout bs <> Panic.
Proof.
  intros sz k lists layout bs Hsz D G. rewrite loose_dec.
  pose proof (supported_safe k lists sz Hsz (depth layout) layout (le_n _) D None bs G) as H.
  destruct (dec sz (list Z) slice_read_exact layout (None, bs)) as [(v & q & s')|e|]; cbn [bind safeR] in *;
    try discriminate. contradiction.
Qed.
(** In particular a layout without sums, strings and lists never panics. *)
Theorem C16_no_panic_fixed : forall sz layout bs, 0 < sz < 2 ^ 31 ->
  supported 256 false layout = true -> bytes_ok bs -> loose_value sz layout bs <> Panic.
Proof.
  intros sz layout bs Hsz D G. apply (C16_no_panic sz 256 false); auto.
  eapply Forall_impl; [|exact G]. unfold byte_ok. intros a Ha. split; [lia|]. split; [lia|]. discriminate.
Qed.
Example C16_ex :
  supported 256 false (RRecord [("a", ROption RFloat); ("d", RResolved "State_hash" (RCustom [RChar]))]) = true /\
  supported 2 true (RSum [("A", 0, [RString]); ("B", 1, [RList RInt])]) = true /\
  loose_value 200 (RSum [("A", 0, [RString]); ("B", 1, [RList RInt])]) [1; 1; 1] =
    Ok (LSum "B" 1 (LTuple [LList [LInt 1]]), []) /\
  is_err (loose_value 200 ex_layout (firstn 20 ex_bytes)).
Proof. split; [reflexivity|]. split; [reflexivity|]. split; [vm_compute; reflexivity|].
  exists EIo. vm_compute. reflexivity. Qed.
(** A sum whose index byte names no summand panics, for every such byte, in every
    layout that starts with a sum. *)
Theorem C16_sum_refuted : forall sz ss i rest, Z.of_nat (List.length ss) <= i < 256 ->
  loose_value sz (RSum ss) (i :: rest) = Panic.
Proof.
  intros sz ss i rest H. rewrite loose_dec. cbn [dec]. unfold sum_of, keep, bin_read_variant_index, read_u8, slice_read_exact.
  cbn [fst snd]. destruct (Z.leb_spec 1 (Z.of_nat (List.length (i :: rest)))); [|cbn [List.length] in *; lia].
  change (Z.to_nat 1) with 1%nat. cbn [firstn skipn bind le_val fst snd].
  replace (i + 256 * 0) with i by lia. rewrite nth_error_map.
  destruct (nth_error ss (Z.to_nat i)) eqn:E; [|reflexivity].
  assert (X : nth_error ss (Z.to_nat i) <> None) by congruence. apply nth_error_Some in X. lia.
Qed.
(** So do an announced list that cannot be allocated, and a string of 2^63 bytes. *)
Theorem C16_length_refuted : forall sz r n rest, 0 < sz -> 2 ^ 63 <= n * sz -> 0 <= n < 2 ^ 64 ->
  loose_value sz (RList r) (252 :: le_bytes 8 n ++ rest) = Panic.
Proof.
  intros sz r n rest Hsz H R. rewrite loose_dec. cbn [dec]. unfold list_of, keep. cbn [fst snd].
  assert (E : bin_read_nat0 (list Z) slice_read_exact R_u64 (252 :: le_bytes 8 n ++ rest) = Ok (n, rest)).
  { unfold bin_read_nat0, read_u8, read_ule.
    change (252 :: le_bytes 8 n ++ rest) with ([252] ++ le_bytes 8 n ++ rest).
    rewrite (sread_app [252]) by reflexivity. cbn [bind le_val].
    change (252 + 256 * 0 =? CODE_INT16) with false. change (252 + 256 * 0 =? CODE_INT32) with false.
    change (252 + 256 * 0 =? CODE_INT64) with true. cbv iota.
    rewrite (sread_app (le_bytes 8 n)) by (rewrite le_bytes_length; reflexivity). cbn [bind].
    rewrite le_val_le_bytes. change (256 ^ Z.of_nat 8) with (2 ^ 64). rewrite Z.mod_small by lia.
    unfold from_prim, in_range, R_u64. cbn [lo hi].
    replace ((0 <=? n) && (n <=? 18446744073709551615)) with true by lia. reflexivity. }
  rewrite E. cbn [bind fst snd]. destruct (Z.ltb_spec (n * sz) (2 ^ 63)); [lia|reflexivity].
Qed.
Lemma panics_more : forall sz layout bs x, loose_value sz layout bs = Panic -> loose_value sz layout (bs ++ x) = Panic.
Proof.
  intros sz layout bs x H. rewrite loose_dec in *. pose proof (dec_mono sz layout None bs x) as M.
  destruct (dec sz (list Z) slice_read_exact layout (None, bs)) as [(w & q' & s')|e|]; cbn [bind] in H; try discriminate.
  rewrite M. reflexivity.
Qed.
Theorem C16_rules_refuted : forall bs,
  loose_value 200 RString ([252; 0; 0; 0; 0; 0; 0; 0; 128] ++ bs) = Panic /\
  loose_value 200 (RSum [("A", 256, [])]) ([0] ++ bs) = Panic /\
  loose_value 200 (RPolyvar [inr RUnit]) ([0; 0; 0; 0] ++ bs) = Panic /\
  loose_value 200 (RResolved "Pickles_types.Vector.Vector2" (RCustom [])) bs = Panic /\
  Forall (fun r => loose_value 200 r bs = Panic)
     [RHashtable RUnit RUnit; RVec 1 RUnit; RBigstring; RUnresolved; RTypeVar "a"; RSelfReference [];
      RTypeAbstraction ["a"] RUnit; RTypeClosure [] RUnit; RCustomForPath "m" []] /\
  Forall (fun r => is_err (loose_value 200 r bs)) [RNat0; RCustom []].
Proof.
  intros bs.
  split; [apply panics_more; vm_compute; reflexivity|].
  split; [apply panics_more; vm_compute; reflexivity|].
  split; [apply panics_more; vm_compute; reflexivity|].
  split; [apply (panics_more 200 _ []); vm_compute; reflexivity|].
  split.
  - assert (G : forall r, loose_value 200 r [] = Panic -> loose_value 200 r bs = Panic)
      by (intros r; apply (panics_more 200 r [])).
    repeat (constructor; [apply G; reflexivity|]). constructor.
  - constructor; [eexists; reflexivity|]. constructor; [eexists; reflexivity|constructor].
Qed.

(** ** C17

    The rule stack.  Whatever lies below the rule on the stack, decoding it is
    decoding by recursion, and leaves the stack below as it was. *)
Theorem C17_stack : forall sz S read r fuel rest p (s : S), (depth r <= fuel)%nat ->
  loose sz S read fuel ((r :: rest, p), s) =
    let* (v, t) := dec sz S read r (p, s) in Ok (v, ((rest, fst t), snd t)).
Proof. intros sz S read r fuel rest p s H. apply (stack_dec sz S read (depth r)); auto. Qed.
(** The bound on the recursion never shows. *)
Theorem C17_fuel : forall sz S read r fuel rest p (s : S), (depth r <= fuel)%nat ->
  loose sz S read fuel ((r :: rest, p), s) = loose sz S read (depth r) ((r :: rest, p), s).
Proof. intros. rewrite !C17_stack by auto. reflexivity. Qed.
(** After one value of the layout the stack is empty and a further value is
    refused. *)
Theorem C17_end : forall sz layout bs v st, loose_state sz layout bs = Ok (v, st) ->
  fst (fst st) = [] /\
  forall fuel, (1 <= fuel)%nat -> loose sz (list Z) slice_read_exact fuel st = Err EUnexpectedEndOfLayout.
Proof.
  intros sz layout bs v st H. unfold loose_state in H. rewrite C17_stack in H by auto.
  apply bind_ok in H. destruct H as ((w & t) & _ & E). injection E as <- <-. cbn [fst]. split; [reflexivity|].
  intros fuel L. destruct fuel; [lia|]. reflexivity.
Qed.
Example C17_ex : (depth ex_layout <= 9)%nat /\
  loose 200 (list Z) slice_read_exact 9 (([ex_layout; RBool; RUnit], None), ex_bytes ++ [1; 0]) =
    Ok (ex_value, (([RBool; RUnit], Some "State_hash"), [1; 0])).
Proof. split; [cbn; lia|vm_compute; reflexivity]. Qed.
(** Module paths are lexically scoped in layouts where every custom type is
    directly inside its reference. *)
Theorem C17_scoped : forall sz S read r p (s : S), direct false r = true ->
  (let* (v, t) := dec sz S read r (p, s) in Ok (v, snd t)) = sdec sz S read r None s.
Proof.
  intros sz S read r p s D. apply (direct_scoped sz S read (depth r) r false); auto. discriminate.
Qed.
Example C17_ex_direct : direct false ex_layout = true.
Proof. reflexivity. Qed.
(** In others the path of a sibling leaks: here the field [b] belongs to
    [Ledger_hash0] but is looked up under [Foo]. *)
Definition ex_leak : rule :=
  RResolved "Ledger_hash0" (RRecord [("a", RResolved "Foo" RBool); ("b", RCustom [])]).
Theorem C17_scope_refuted : exists v,
  sdec 200 (list Z) slice_read_exact ex_leak None (1 :: ex_hash) = Ok (v, []) /\
  loose_value 200 ex_leak (1 :: ex_hash) = Err EUnknownCustomType /\
  loose_value 200 (RResolved "Ledger_hash0" (RRecord [("b", RCustom []); ("a", RResolved "Foo" RBool)]))
    (ex_hash ++ [1]) <> Err EUnknownCustomType.
Proof.
  exists (LRecord [("a", LBool true); ("b", LTuple (map LChar ex_hash))]).
  split; [vm_compute; reflexivity|]. split; [vm_compute; reflexivity|]. vm_compute. discriminate.
Qed.

(** The custom types known by their module path: vectors of 2, 4, 8, 17 and 18
    elements closed by a unit, and field elements of 32 bytes; no other. *)
Definition vectors : list (string * nat) :=
  [("Pickles_type.Vector.Vector2", 2%nat); ("Pickles_types.Vector.Vector2", 2%nat);
   ("Pickles_types.Vector.Vector4", 4%nat); ("Pickles_types.Vector.Vector8", 8%nat);
   ("Pickles_types.Vector.Vector17", 17%nat); ("Pickles_types.Vector.Vector18", 18%nat)].
Definition fields : list string :=
  ["Ledger_hash0"; "State_hash"; "State_body_hash"; "Epoch_seed";
   "Pending_coinbase.Stack_hash"; "Pending_coinbase.Hash_builder"; "Pending_coinbase.Coinbase_stack";
   "Snark_params.Make_inner_curve_scalar"; "Snark_params.Tick";
   "Zexe_backend.Zexe_backend_common.Stable.Field"].
Theorem C17_custom_types :
  (forall m n bs x, In (m, n) vectors -> bytes_ok bs -> bytes_ok x -> List.length bs = n ->
     loose_value 200 (RResolved m (RCustom [RChar])) (bs ++ [0] ++ x) = Ok (LTuple (map LChar bs ++ [LUnit]), x)) /\
  (forall m bs x, In m fields -> bytes_ok bs -> bytes_ok x -> List.length bs = 32%nat ->
     loose_value 200 (RResolved m (RCustom [])) (bs ++ x) = Ok (LTuple (map LChar bs), x)) /\
  (forall m rs bs, (forall n, ~ In (m, n) vectors) -> ~ In m fields ->
     loose_value 200 (RResolved m (RCustom rs)) bs = Err EUnknownCustomType).
Proof.
  assert (D : forall r v used q x, bytes_ok used -> bytes_ok x -> lenient 200 None r v used q ->
    loose_value 200 r (used ++ x) = Ok (v, x)).
  { intros r v used q x B X W. rewrite loose_dec.
    assert (G : dec 200 (list Z) slice_read_exact r (None, used ++ x) = Ok (v, (q, x))).
    { apply (dec_takes 200 (depth r) r (le_n _)); [apply bytes_ok_app; auto|eauto]. }
    rewrite G. reflexivity. }
  assert (CH : forall p bs, bytes_ok bs -> wires 200 nat_form int_form (fun w tag => w / 2 = tag) p
    (repeat RChar (List.length bs)) (map LChar bs) bs p).
  { intros p. induction bs as [|c l IH]; intros B; cbn [List.length repeat map]; [constructor|].
    apply bytes_ok_cons in B. destruct B as (B1 & B2). change (c :: l) with ([c] ++ l). econstructor; [|apply IH; auto].
    constructor. auto. }
  split; [|split].
  - intros m n bs x I B X L. rewrite app_assoc. apply (D _ _ _ (Some m)); auto.
    + apply bytes_ok_app. split; auto. apply bytes_ok_cons. split; [unfold is_byte; lia|constructor].
    + constructor. apply (W_vector 200 _ _ _ m n).
      * cbn [vectors In] in I. repeat destruct I as [I|I]; try contradiction; injection I as <- <-; reflexivity.
      * cbn [vectors In] in I. repeat destruct I as [I|I]; try contradiction; injection I as <- <-; reflexivity.
      * rewrite <- L. apply CH. auto.
  - intros m bs x I B X L. apply (D _ _ _ (Some m)); auto. constructor. apply W_big_int; auto; [|lia].
    cbn [fields In] in I. repeat destruct I as [I|I]; try contradiction; subst m; reflexivity.
  - intros m rs bs NV NF. rewrite loose_dec. cbn [dec]. unfold custom. cbn [fst snd].
    assert (V : vector_len m = None).
    { unfold vector_len.
      repeat match goal with |- context [String.eqb m ?k] => destruct (String.eqb_spec m k);
        [exfalso; subst m; eapply NV; cbn [vectors In]; intuition reflexivity|] end. reflexivity. }
    assert (F : is_big_int m = false).
    { apply not_true_is_false. intros T. unfold is_big_int in T. apply existsb_exists in T.
      destruct T as (k & I & T). apply String.eqb_eq in T. subst k. apply NF.
      cbn [big_ints In] in I. cbn [fields In]. tauto. }
    rewrite V, F. reflexivity.
Qed.
Example C17_ex_custom : In ("Pickles_types.Vector.Vector4", 4%nat) vectors /\ In "Snark_params.Tick" fields /\
  (forall n, ~ In ("Foo", n) vectors) /\ ~ In "Foo" fields /\
  loose_value 200 (RResolved "Pickles_types.Vector.Vector4" (RCustom [RChar])) [1; 2; 3; 4; 0; 9] =
    Ok (LTuple [LChar 1; LChar 2; LChar 3; LChar 4; LUnit], [9]).
Proof.
  split; [cbn; tauto|]. split; [cbn; tauto|].
  split; [intros n; cbn; intuition discriminate|]. split; [cbn; intuition discriminate|vm_compute; reflexivity].
Qed.

(** ** C77

    loose_deserializer.rs:176-200: what [variant_seed] (223-245) hands to the
    visitor through an in-memory encoding. *)
Definition EnumData : ty := TEnum [[TU8; TStr; TU64]; [TU8; TInt U32; TStr; TU64]].
Definition sum_data (index : Z) (name : list Z) (len : Z) : val := VEnum 0 [VInt index; VStr name; VInt len].
Definition polyvar_data (index tag : Z) (name : list Z) (len : Z) : val :=
  VEnum 1 [VInt index; VInt tag; VStr name; VInt len].
Theorem C77_hand_over : forall checked index tag name len,
  0 <= index < 256 -> 0 <= tag < 2 ^ 32 -> rust_ok TStr (VStr name) -> 0 <= len < 2 ^ 63 ->
  (exists bs, to_bytes checked EnumData (sum_data index name len) = Ok bs /\
     from_slice checked EnumData bs = Ok (sum_data index name len, [])) /\
  (exists bs, to_bytes checked EnumData (polyvar_data index tag name len) = Ok bs /\
     from_slice checked EnumData bs = Ok (polyvar_data index tag name len, [])).
Proof.
  intros checked index tag name len Hi Ht Hn Hl.
  assert (R : forall v, fits checked EnumData v -> exists bs, to_bytes checked EnumData v = Ok bs /\
    from_slice checked EnumData bs = Ok (v, [])).
  { intros v F. destruct (round_trip checked EnumData v F) as (bs & E & _ & D). exists bs. split; auto.
    specialize (D []). rewrite app_nil_r in D. exact D. }
  unfold rust_ok in Hn. destruct Hn as (N1 & N2 & N3).
  split; apply R; unfold EnumData, sum_data, polyvar_data, fits; cbn -[Z.pow Z.of_nat];
    repeat match goal with |- _ /\ _ => split end; auto; lia.
Qed.
Example C77_ex : rust_ok TStr (VStr (str_bytes "Signed_command")) /\
  to_bytes true EnumData (sum_data 1 [65] 2) = Ok [0; 1; 1; 65; 2] /\
  to_bytes true EnumData (polyvar_data 0 3953222 [65] 2) = Ok [1; 0; 253; 70; 82; 60; 0; 1; 65; 2].
Proof.
  split; [split; [apply str_bytes_ok|split; [reflexivity|cbn; lia]]|]. split; vm_compute; reflexivity.
Qed.

(** ** C78

    The source of the bytes does not matter: through a [BufReader] of any
    capacity, with the input arriving in any chunks, the result is that of the
    slice. *)
Theorem C78_chunking_irrelevant : forall cap sz layout i,
  1 <= cap -> Forall (fun ch => ch <> []) i ->
  (let* (v, _) := loose sz bufr (buf_read_exact cap) (depth layout) (([layout], None), ([], i)) in Ok v) =
  (let* (v, _) := loose_value sz layout (List.concat i) in Ok v).
Proof.
  intros cap sz layout i Hc Hi. rewrite C17_stack by auto. rewrite loose_dec.
  pose proof (sim_dec sz _ _ (buf_read_exact cap) slice_read_exact _ True (buf_sim cap Hc) (depth layout) layout (le_n _)
    (None, ([], i)) (None, List.concat i) (conj eq_refl (conj eq_refl Hi))) as H.
  unfold relP, rel in H.
  destruct (dec sz bufr (buf_read_exact cap) layout (None, ([], i))) as [(v & t)|e|]; cbn [bind].
  - destruct H as (t2 & -> & _). reflexivity.
  - rewrite (H I). reflexivity.
  - rewrite H. reflexivity.
Qed.
Example C78_ex : Forall (fun ch => ch <> []) [[1; 254]; [44]; [1]] /\
  (let* (v, _) := loose 200 bufr (buf_read_exact 2) 2 (([ROption RInt], None), ([], [[1; 254]; [44]; [1]])) in Ok v)
  = Ok (LOption (Some (LInt 300))).
Proof. split; [repeat constructor; discriminate|vm_compute; reflexivity]. Qed.

(** ** C79

    A decoded value never holds a [Nat0] or a [String]: the two value kinds that
    the writer would encode differently from the wire. *)
Inductive plain : value -> Prop :=
| P_unit : plain LUnit
| P_bool : forall b, plain (LBool b)
| P_char : forall c, 0 <= c < 256 -> plain (LChar c)
| P_int : forall z, - 2 ^ 63 <= z < 2 ^ 63 -> plain (LInt z)
| P_float : forall b, 0 <= b < 2 ^ 64 -> plain (LFloat b)
| P_none : plain (LOption None)
| P_some : forall v, plain v -> plain (LOption (Some v))
| P_record : forall fs, Forall (fun f => plain (snd f)) fs -> plain (LRecord fs)
| P_tuple : forall vs, Forall plain vs -> plain (LTuple vs)
| P_sum : forall nm i vs, 0 <= i < 256 -> Forall plain vs -> plain (LSum nm i (LTuple vs))
| P_polyvar : forall nm t vs, 0 <= t < 2 ^ 31 -> Forall plain vs -> plain (LPolyvar nm t (LTuple vs))
| P_list : forall vs, Forall plain vs -> plain (LList vs).
Lemma lenient_plain : forall sz,
  (forall p r v bs q, lenient sz p r v bs q -> plain v) /\
  (forall p rs vs bs q, wires sz nat_form int_form (fun w tag => w / 2 = tag) p rs vs bs q -> Forall plain vs).
Proof.
  assert (C : forall l, bytes_ok l -> Forall plain (map LChar l)).
  { intros l B. apply Forall_map. eapply Forall_impl; [|exact B]. intros a Ha. constructor. exact Ha. }
  intros sz. unfold lenient. apply wire_both; intros; try assumption; try (constructor; auto; fail).
  - constructor. unfold is_byte in *. lia.
  - constructor. eapply int_form_i64; eauto.
  - constructor. apply le8_range; auto.
  - constructor. apply Forall_forall. intros (k, w) I. apply in_combine_r in I. rewrite Forall_forall in *. cbn [snd]. auto.
  - constructor; auto. unfold is_byte in *. lia.
  - constructor; auto. pose proof (le4_range a b c d). lia.
  - constructor. apply Forall_app. split; auto. constructor; [constructor|constructor].
Qed.
Theorem C79_plain : forall sz layout bs v rest, bytes_ok bs ->
  loose_value sz layout bs = Ok (v, rest) -> plain v.
Proof.
  intros sz layout bs v rest B H. rewrite loose_dec in H. apply bind_ok in H.
  destruct H as ((w & q & s') & H & E). cbn [snd] in E. injection E as -> ->.
  apply (dec_takes sz (depth layout) layout (le_n _) None bs v q rest B) in H.
  destruct H as (used & _ & W). eapply (proj1 (lenient_plain sz)); eauto.
Qed.
Example C79_ex : plain ex_value.
Proof. apply (C79_plain 200 ex_layout (ex_bytes ++ []) ex_value []); [|apply ex_decodes]. rewrite app_nil_r. apply C15_ex. Qed.
(** A [Nat0] built by hand is written as a signed integer; from 0x8000 on, and
    between 2^15 and 2^16 or 2^31 and 2^32 in particular, this is not the format
    of a length. *)
Theorem C79_nat0_refuted : forall n, 2 ^ 15 <= n < 2 ^ 16 \/ 2 ^ 31 <= n < 2 ^ 32 ->
  vser (LNat0 n) <> bin_write_nat0 n.
Proof.
  intros n H. cbn [vser]. unfold bin_write_integer, bin_write_nat0.
  destruct (Z.leb_spec 0 n); [|lia]. destruct (Z.ltb_spec n 0x80); [lia|].
  destruct (Z.ltb_spec n 0x8000); [lia|]. destruct (Z.ltb_spec n 0x80000000).
  - destruct (Z.ltb_spec n 0x10000); [discriminate|lia].
  - destruct (Z.ltb_spec n 0x10000); [lia|]. destruct (Z.ltb_spec n 0x100000000); [discriminate|lia].
Qed.
Example C79_nat0_ex : vser (LNat0 40000) = [253; 64; 156; 0; 0] /\ bin_write_nat0 40000 = [254; 64; 156].
Proof. split; vm_compute; reflexivity. Qed.

Print Assumptions C15_exact.
Print Assumptions C15_encoded.
Print Assumptions C15_normal.
Print Assumptions C15_refuted.
Print Assumptions C15_provisos_needed.
Print Assumptions C16_truncated.
Print Assumptions C16_no_panic.
Print Assumptions C16_no_panic_fixed.
Print Assumptions C16_sum_refuted.
Print Assumptions C16_length_refuted.
Print Assumptions C16_rules_refuted.
Print Assumptions C17_stack.
Print Assumptions C17_fuel.
Print Assumptions C17_end.
Print Assumptions C17_scoped.
Print Assumptions C17_scope_refuted.
Print Assumptions C17_custom_types.
Print Assumptions C77_hand_over.
Print Assumptions C78_chunking_irrelevant.
Print Assumptions C79_plain.
Print Assumptions C79_nat0_refuted.
