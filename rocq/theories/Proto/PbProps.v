(** C112: messages between the wasm module and the page. *)

From Coq Require Import ZArith List Bool Lia ZifyBool ZifyNat.
From Verif Require Import Lib.Res Lib.Bytes.
From Verif Require Import Proto.Pb Proto.PbSpec Proto.PbFacts Proto.TextFacts Proto.LongFacts.
Import ListNotations.
Local Open Scope Z_scope.

(** What a field of a kind means to the page. *)
Inductive means : kind -> wire -> fval -> Prop :=
| means_bool : forall b : bool, means KBool (WVarint (if b then 1 else 0)) (FBool b)
| means_text : forall cs, text_ok cs -> means KText (WBytes (utf8 cs)) (FText (utf16 cs))
| means_long : forall v lo hi, - 2 ^ 63 <= v < 2 ^ 63 -> half lo -> half hi -> long_value lo hi = v ->
    means KLong (WVarint (v mod 2 ^ 64)) (FLong lo hi).
(** The assignments that a sequence of fields makes, the last first.  Fields
    that are not in the table make none. *)
Inductive assigns (table : list (Z * kind)) : list (Z * wire) -> msg -> msg -> Prop :=
| as_nil : forall m, assigns table [] m m
| as_known : forall n w k v fs m m', 1 <= n < 2 ^ 29 -> find n table = Some k -> means k w v ->
    assigns table fs ((n, v) :: m) m' -> assigns table ((n, w) :: fs) m m'
| as_unknown : forall n w fs m m', 1 <= n < 2 ^ 29 -> find n table = None -> wire_ok w ->
    assigns table fs m m' -> assigns table ((n, w) :: fs) m m'.

Lemma varint_some : forall n, 0 < len (varint n).
Proof.
  intros n. unfold varint. cbn [varint_n]. destruct (n <? 128); rewrite len_cons.
  - pose proof (len_nonneg []). lia.
  - match goal with |- context [len ?l] => pose proof (len_nonneg l) end. lia.
Qed.
Lemma size_len : forall l, size l = len l.
Proof. reflexivity. Qed.
Lemma halves_unique : forall lo hi lo' hi', half lo -> half hi -> half lo' -> half hi' ->
  long_value lo hi = long_value lo' hi' -> lo = lo' /\ hi = hi'.
Proof.
  intros lo hi lo' hi' A B C D E. unfold long_value, half in *.
  pose proof (Z.mod_pos_bound lo (2 ^ 32) ltac:(lia)). pose proof (Z.mod_pos_bound lo' (2 ^ 32) ltac:(lia)).
  assert (F : hi = hi') by lia. split; [|exact F].
  assert (G : lo mod 2 ^ 32 = lo' mod 2 ^ 32) by lia.
  pose proof (Z.div_mod lo (2 ^ 32) ltac:(lia)). pose proof (Z.div_mod lo' (2 ^ 32) ltac:(lia)). lia.
Qed.

Lemma read_known : forall k w v pre post, means k w v ->
  read_field k (pre ++ wire_payload w ++ post) (len pre) = Ok (v, len pre + len (wire_payload w)).
Proof.
  intros k w v pre post M. destruct M as [b|cs T|z lo hi Z0 L H E]; cbn [read_field wire_payload].
  - replace (varint (if b then 1 else 0)) with [if b then 1 else 0] by (destruct b; reflexivity).
    cbn [app]. rewrite read_byte_at. cbn [bind]. destruct b; reflexivity.
  - destruct T as (S & L). pose proof (len_nonneg (utf8 cs)).
    rewrite <- app_assoc. rewrite read_varint32 by lia. cbn [bind]. rewrite i32_id by (apply half_small; lia).
    unfold readString, advance. rewrite ?size_app, ?len_app.
    pose proof (len_nonneg post). replace (_ <? _) with false by lia. cbn [bind].
    rewrite <- (len_app pre), app_assoc, slice_app, read_text by exact S. cbn [bind]. f_equal. f_equal. rewrite ?len_app. lia.
  - destruct (read_varint64 pre z post Z0) as (lo' & hi' & R & L' & H' & E').
    rewrite R. cbn [bind]. destruct (halves_unique lo hi lo' hi' L H L' H' ltac:(congruence)) as (-> & ->). reflexivity.
Qed.
Lemma skip_varint : forall k n post o, (0 < k)%nat -> 0 <= n < 128 ^ Z.of_nat k ->
  skip_varint_loop (varint_n k n ++ post) o = Ok (o + len (varint_n k n)).
Proof.
  induction k; intros n post o K N; [lia|]. rewrite pow128_S in N. cbn [varint_n].
  pose proof (Z.mod_pos_bound n 128 ltac:(lia)). pose proof (Z.div_mod n 128 ltac:(lia)).
  destruct (n <? 128) eqn:E; cbn [app skip_varint_loop].
  - rewrite hi_bit, E by lia. reflexivity.
  - rewrite hi_bit by lia. replace (_ <? 128) with false by lia. cbn [negb].
    rewrite IHk; [rewrite len_cons; f_equal; lia|destruct k; [cbn in N; lia|lia]|lia].
Qed.
Lemma skip_unknown : forall w pre post, wire_ok w ->
  skipUnknownField (pre ++ wire_payload w ++ post) (len pre) (wire_type w) = Ok (len pre + len (wire_payload w)).
Proof.
  intros w pre post W. pose proof (len_nonneg pre). pose proof (len_nonneg post).
  unfold skipUnknownField. destruct w as [v|b|b|b]; cbn [wire_type wire_payload wire_ok Z.eqb Pos.eqb] in *.
  - replace (_ <? 0) with false by lia. rewrite skipn_len. apply skip_varint; [lia|].
    change (128 ^ Z.of_nat 10) with (2 ^ 70). lia.
  - unfold advance. rewrite ?size_app, ?len_app. replace (_ <? _) with false by lia. f_equal. lia.
  - pose proof (len_nonneg b). rewrite <- app_assoc, read_varint32 by lia. cbn [bind]. rewrite i32_id by (apply half_small; lia).
    unfold advance. rewrite ?size_app, ?len_app. replace (_ <? _) with false by lia. f_equal. lia.
  - unfold advance. rewrite ?size_app, ?len_app. replace (_ <? _) with false by lia. f_equal. lia.
Qed.
Lemma tag_field : forall n w, 1 <= n < 2 ^ 29 -> ushr (i32 (8 * n + wire_type w)) 3 = n /\ jand (i32 (8 * n + wire_type w)) 7 = wire_type w.
Proof.
  intros n w N. assert (T : 0 <= wire_type w < 8) by (destruct w; cbn; lia). split.
  - rewrite ushr_div, mod_i32 by lia. change (2 ^ 3) with 8. rewrite Z.mod_small by lia.
    rewrite Z.add_comm, Z.mul_comm, Z.div_add, Z.div_small by lia. lia.
  - etransitivity; [apply (jand_mask _ 3); [lia|apply i32_half]|]. destruct (i32_eqm (8 * n + wire_type w)) as (k & ->).
    replace (8 * n + wire_type w + k * 2 ^ 32) with (wire_type w + (n + k * 2 ^ 29) * 2 ^ 3) by lia.
    rewrite Z_mod_plus_full. apply Z.mod_small. lia.
Qed.

Lemma decode_run : forall table fs m m', assigns table fs m m' -> forall pre,
  decode_loop table (pre ++ wire_bytes fs) (S (length fs)) (len pre) m = Some (Ok m').
Proof.
  induction 1 as [m|n w k v fs m m' N F M _ IH|n w fs m m' N F W _ IH]; intros pre.
  - cbn [wire_bytes flat_map length decode_loop]. rewrite app_nil_r, size_len. replace (_ <=? _) with true by lia. reflexivity.
  - cbn [length]. remember (S (length fs)) as fuel. cbn [decode_loop].
    unfold wire_bytes. cbn [flat_map]. fold (wire_bytes fs). unfold field_bytes at 1 2 3 4 5 6. cbn [fst snd].
    assert (T : 0 <= wire_type w < 8) by (destruct w; cbn; lia).
    rewrite ?size_app, ?len_app. pose proof (varint_some (8 * n + wire_type w)).
    pose proof (len_nonneg (wire_payload w)). pose proof (len_nonneg (wire_bytes fs)).
    replace (_ <=? _) with false by lia.
    rewrite <- !app_assoc. rewrite read_varint32 by lia.
    destruct (tag_field n w N) as (E1 & E2). rewrite E1. replace (n =? 0) with false by lia. rewrite F.
    rewrite (app_assoc pre). rewrite <- len_app. rewrite read_known with (1 := M).
    rewrite (app_assoc _ (wire_payload w)). rewrite <- len_app. apply IH.
  - cbn [length]. remember (S (length fs)) as fuel. cbn [decode_loop].
    unfold wire_bytes. cbn [flat_map]. fold (wire_bytes fs). unfold field_bytes at 1 2 3 4 5 6. cbn [fst snd].
    assert (T : 0 <= wire_type w < 8) by (destruct w; cbn; lia).
    rewrite ?size_app, ?len_app. pose proof (varint_some (8 * n + wire_type w)).
    pose proof (len_nonneg (wire_payload w)). pose proof (len_nonneg (wire_bytes fs)).
    replace (_ <=? _) with false by lia.
    rewrite <- !app_assoc. rewrite read_varint32 by lia.
    destruct (tag_field n w N) as (E1 & E2). rewrite E1, E2. replace (n =? 0) with false by lia. rewrite F.
    rewrite (app_assoc pre). rewrite <- len_app. rewrite skip_unknown by exact W.
    rewrite (app_assoc _ (wire_payload w)). rewrite <- len_app. apply IH.
Qed.
(** More rounds change nothing. *)
Lemma decode_more : forall table bs fuel o m r, decode_loop table bs fuel o m = Some r ->
  decode_loop table bs (S fuel) o m = Some r.
Proof.
  intros table bs. induction fuel; intros o m r H; [discriminate|].
  remember (S fuel) as f eqn:E. cbn [decode_loop]. rewrite E in H. cbn [decode_loop] in H.
  destruct (size bs <=? o); [exact H|]. destruct (readVarint32 bs o) as [[tag o1]| |]; try exact H.
  destruct (ushr tag 3 =? 0); [exact H|]. destruct (find (ushr tag 3) table) as [k|].
  - destruct (read_field k bs o1) as [[v o2]| |]; try exact H. apply IHfuel. exact H.
  - destruct (skipUnknownField bs o1 (jand tag 7)) as [o2| |]; try exact H. apply IHfuel. exact H.
Qed.
Lemma decode_enough : forall table bs k fuel o m r, decode_loop table bs fuel o m = Some r ->
  decode_loop table bs (k + fuel) o m = Some r.
Proof. induction k; intros; [assumption|]. apply decode_more, IHk. assumption. Qed.

(** Reading any message, with fields in any order, repeated or unknown: every
    property has the value of the last field with its number.  However long the
    decoder is run, it ends with this. *)
Theorem C112_decode : forall table fs m, assigns table fs [] m ->
  forall fuel, (length fs < fuel)%nat -> decode table (wire_bytes fs) fuel = Some (Ok m).
Proof.
  intros table fs m H fuel L. pose proof (decode_run table fs [] m H []) as R. cbn [app] in R. change (len []) with 0 in R.
  unfold decode. replace fuel with ((fuel - S (length fs)) + S (length fs))%nat by lia. apply decode_enough. exact R.
Qed.
(** not in the table, then a text and the same text field again *)
Example C112_decode_example : exists m,
  assigns PeerStatus [(9, WFixed32 [1; 2; 3; 4]); (2, WBytes (utf8 [97])); (2, WBytes (utf8 [0x20AC]))] [] m /\
  find 2 m = Some (FText [0x20AC]).
Proof.
  eexists. split.
  - eapply as_unknown; [lia|reflexivity|reflexivity|].
    eapply as_known; [lia|reflexivity|apply means_text|].
    { split; [constructor; [left; lia|constructor]|reflexivity]. }
    eapply as_known; [lia|reflexivity|apply means_text|apply as_nil].
    split; [constructor; [left; lia|constructor]|reflexivity].
  - reflexivity.
Qed.

(** ** The status of a peer *)

(** What the page sees of a status.  A default value is not sent; its property
    is [undefined]. *)
Definition shown_text (cs : list Z) (t : option (list Z)) : Prop :=
  match cs with [] => t = None | _ => t = Some (utf16 cs) end.
Definition shows (s : status) (p : peer_status) : Prop :=
  connected p = (if st_connected s then Some true else None) /\
  shown_text (st_peer s) (peer_id p) /\ shown_text (st_sync s) (sync_status p) /\
  shown_text (st_hash s) (protocol_state_hash p) /\ shown_text (st_commit s) (git_commit p) /\
  match uptime_minutes p with
  | None => st_uptime s = 0
  | Some (lo, hi) => st_uptime s <> 0 /\ half lo /\ half hi /\ long_value lo hi = st_uptime s
  end.

Lemma utf8_nil : forall cs, utf8 cs = [] -> cs = [].
Proof.
  intros [|c cs] H; [reflexivity|]. unfold utf8 in H. cbn [flat_map] in H. apply app_eq_nil in H. destruct H as (H & _).
  unfold utf8_point in H. destruct (c <? 128), (c <? 2048), (c <? 65536); discriminate.
Qed.
Definition text_fields (n : Z) (cs : list Z) : list (Z * wire) := match cs with [] => [] | _ => [(n, WBytes (utf8 cs))] end.
Lemma pb_text_fields : forall n cs, pb_text n (utf8 cs) = wire_bytes (text_fields n cs).
Proof.
  intros n [|c cs]; [reflexivity|]. unfold pb_text, text_fields. destruct (utf8 (c :: cs)) as [|b l] eqn:E.
  - apply utf8_nil in E. discriminate.
  - unfold wire_bytes. cbn [flat_map]. rewrite app_nil_r. reflexivity.
Qed.
Definition bool_fields (n : Z) (b : bool) : list (Z * wire) := if b then [(n, WVarint 1)] else [].
Lemma pb_bool_fields : forall n b, pb_bool n b = wire_bytes (bool_fields n b).
Proof.
  intros n [|]; [|reflexivity]. unfold pb_bool, bool_fields, wire_bytes. cbn [flat_map]. rewrite app_nil_r.
  unfold field_bytes. cbn [fst snd wire_type wire_payload]. rewrite Z.add_0_r. reflexivity.
Qed.
Definition int_fields (n : Z) (v : Z) : list (Z * wire) := if v =? 0 then [] else [(n, WVarint (v mod 2 ^ 64))].
Lemma pb_int_fields : forall n v, pb_int64 n v = wire_bytes (int_fields n v).
Proof.
  intros n v. unfold pb_int64, int_fields. destruct (v =? 0); [reflexivity|]. unfold wire_bytes. cbn [flat_map]. rewrite app_nil_r.
  unfold field_bytes. cbn [fst snd wire_type wire_payload]. rewrite Z.add_0_r. reflexivity.
Qed.
Lemma wire_bytes_app : forall a b, wire_bytes (a ++ b) = wire_bytes a ++ wire_bytes b.
Proof. intros. apply flat_map_app. Qed.
Lemma assigns_app : forall table fs1 fs2 m1 m2 m3, assigns table fs1 m1 m2 -> assigns table fs2 m2 m3 -> assigns table (fs1 ++ fs2) m1 m3.
Proof.
  intros table fs1 fs2 m1 m2 m3 A B. induction A; cbn [app]; [exact B| |].
  - eapply as_known; eauto.
  - eapply as_unknown; eauto.
Qed.
Lemma text_assigns : forall table n cs m, 1 <= n < 2 ^ 29 -> find n table = Some KText -> text_ok cs ->
  assigns table (text_fields n cs) m (match cs with [] => m | _ => (n, FText (utf16 cs)) :: m end).
Proof.
  intros table n [|c cs] m N F T; [apply as_nil|]. eapply as_known; [exact N|exact F|apply means_text; exact T|apply as_nil].
Qed.
Lemma halves_exist : forall v, - 2 ^ 63 <= v < 2 ^ 63 -> exists lo hi, half lo /\ half hi /\ long_value lo hi = v.
Proof. intros v V. destruct (read_varint64 [] v [] V) as (lo & hi & _ & A & B & C). eauto. Qed.

(** A status sent by the wasm module arrives at the page. *)
Theorem C112_status : forall s, status_ok s ->
  exists m, (forall fuel, (6 < fuel)%nat -> decode PeerStatus (pb_status s) fuel = Some (Ok m)) /\ shows s (peer_status_of m).
Proof.
  intros s (T1 & T2 & T3 & T4 & U). destruct (halves_exist (st_uptime s) U) as (lo & hi & L & H & E).
  set (m0 := if st_connected s then [(1, FBool true)] else [] : msg).
  set (m1 := match st_peer s with [] => m0 | _ => (2, FText (utf16 (st_peer s))) :: m0 end).
  set (m2 := match st_sync s with [] => m1 | _ => (3, FText (utf16 (st_sync s))) :: m1 end).
  set (m3 := match st_hash s with [] => m2 | _ => (4, FText (utf16 (st_hash s))) :: m2 end).
  set (m4 := match st_commit s with [] => m3 | _ => (5, FText (utf16 (st_commit s))) :: m3 end).
  set (m5 := if st_uptime s =? 0 then m4 else (6, FLong lo hi) :: m4).
  set (fs := bool_fields 1 (st_connected s) ++ text_fields 2 (st_peer s) ++ text_fields 3 (st_sync s)
    ++ text_fields 4 (st_hash s) ++ text_fields 5 (st_commit s) ++ int_fields 6 (st_uptime s)).
  assert (A : assigns PeerStatus fs [] m5).
  { subst fs. eapply assigns_app with (m2 := m0).
    { subst m0. destruct (st_connected s); [|apply as_nil].
      eapply as_known; [lia|reflexivity|apply (means_bool true)|apply as_nil]. }
    eapply assigns_app; [apply text_assigns; [lia|reflexivity|exact T1]|].
    eapply assigns_app; [apply text_assigns; [lia|reflexivity|exact T2]|].
    eapply assigns_app; [apply text_assigns; [lia|reflexivity|exact T3]|].
    eapply assigns_app; [apply text_assigns; [lia|reflexivity|exact T4]|].
    fold m1. fold m2. fold m3. fold m4. subst m5. unfold int_fields. destruct (st_uptime s =? 0); [apply as_nil|].
    eapply as_known; [lia|reflexivity|apply (means_long _ lo hi); assumption|apply as_nil]. }
  exists m5. split.
  - intros fuel F. replace (pb_status s) with (wire_bytes fs).
    + apply C112_decode; [exact A|]. subst fs. rewrite !app_length. unfold bool_fields, text_fields, int_fields.
      destruct (st_connected s), (st_peer s), (st_sync s), (st_hash s), (st_commit s), (st_uptime s =? 0); cbn [length]; lia.
    + subst fs. unfold pb_status. rewrite pb_bool_fields, !pb_text_fields, pb_int_fields, !wire_bytes_app. reflexivity.
  - clear A fs T1 T2 T3 T4. unfold shows, peer_status_of, shown_text. subst m5 m4 m3 m2 m1 m0.
    destruct (st_connected s), (st_peer s), (st_sync s), (st_hash s), (st_commit s), (st_uptime s =? 0) eqn:Z0;
      cbn [connected peer_id sync_status protocol_state_hash git_commit uptime_minutes find Z.eqb Pos.eqb];
      unfold half in *; repeat split; lia.
Qed.
Example C112_status_example :
  status_ok {| st_connected := true; st_peer := [49; 50; 68]; st_sync := []; st_hash := [0x1F600]; st_commit := [97]; st_uptime := -5 |} /\
  decode PeerStatus (pb_status {| st_connected := true; st_peer := [49; 50; 68]; st_sync := []; st_hash := [0x1F600]; st_commit := [97]; st_uptime := -5 |}) 7
  = Some (Ok [(6, FLong (-5) (-1)); (5, FText [97]); (4, FText [0xD83D; 0xDE00]); (2, FText [49; 50; 68]); (1, FBool true)]).
Proof.
  split; [|vm_compute; reflexivity]. unfold status_ok, text_ok. cbn [st_peer st_sync st_hash st_commit st_uptime].
  repeat match goal with |- _ /\ _ => split end; try lia; try (vm_compute; reflexivity);
    repeat (apply Forall_cons || apply Forall_nil); unfold scalar; lia.
Qed.

(** ** Requests and responses *)
(** A request written by the page is what the protobuf format prescribes, and
    is read back as it was. *)
Theorem C112_request : forall cs, text_ok cs -> cs <> [] ->
  encodeConnectRequest (Some (utf16 cs)) = pb_request cs /\
  forall fuel, (1 < fuel)%nat -> decode ConnectRequest (encodeConnectRequest (Some (utf16 cs))) fuel = Some (Ok [(1, FText (utf16 cs))]).
Proof.
  intros cs T N. assert (E : encodeConnectRequest (Some (utf16 cs)) = wire_bytes (text_fields 1 cs)).
  { unfold encodeConnectRequest, write_opt. rewrite write_text by exact T. destruct cs; [congruence|].
    unfold text_fields, wire_bytes. cbn [flat_map]. rewrite app_nil_r. reflexivity. }
  split; [rewrite E; symmetry; apply pb_text_fields|]. intros fuel F. rewrite E. apply C112_decode.
  - pose proof (text_assigns ConnectRequest 1 cs [] ltac:(lia) eq_refl T) as A. destruct cs; [congruence|exact A].
  - destruct cs; cbn [text_fields length]; lia.
Qed.
Example C112_request_example : text_ok [47; 105; 112; 52] /\ encodeConnectRequest (Some [47; 105; 112; 52]) = [10; 4; 47; 105; 112; 52].
Proof. split; [split; [repeat (apply Forall_cons || apply Forall_nil); unfold scalar; lia|reflexivity]|reflexivity]. Qed.

Theorem C112_response : forall ok cs, text_ok cs ->
  exists m, (forall fuel, (2 < fuel)%nat -> decode CommonResponse (pb_response ok cs) fuel = Some (Ok m)) /\
    find 1 m = (if ok then Some (FBool true) else None) /\
    find 2 m = (match cs with [] => None | _ => Some (FText (utf16 cs)) end).
Proof.
  intros ok cs T. set (m0 := if ok then [(1, FBool true)] else [] : msg).
  exists (match cs with [] => m0 | _ => (2, FText (utf16 cs)) :: m0 end). split.
  - intros fuel F. replace (pb_response ok cs) with (wire_bytes (bool_fields 1 ok ++ text_fields 2 cs)).
    + apply C112_decode.
      * eapply assigns_app with (m2 := m0); [|apply text_assigns; [lia|reflexivity|exact T]].
        subst m0. destruct ok; [|apply as_nil]. eapply as_known; [lia|reflexivity|apply (means_bool true)|apply as_nil].
      * rewrite app_length. unfold bool_fields, text_fields. destruct ok, cs; cbn [length]; lia.
    + unfold pb_response. rewrite wire_bytes_app, pb_bool_fields, pb_text_fields. reflexivity.
  - subst m0. destruct ok, cs; split; reflexivity.
Qed.

(** ** The page's own writer *)
Definition text_wf (t : option (list Z)) : Prop := forall u, t = Some u -> exists cs, text_ok cs /\ u = utf16 cs.
Definition peer_status_wf (p : peer_status) : Prop :=
  text_wf (peer_id p) /\ text_wf (sync_status p) /\ text_wf (protocol_state_hash p) /\ text_wf (git_commit p) /\
  (forall lo hi, uptime_minutes p = Some (lo, hi) -> half lo /\ half hi).

Lemma opt_text : forall table n t m, 1 <= n < 2 ^ 28 -> find n table = Some KText -> text_wf t ->
  exists fs, write_opt (8 * n + 2) writeString t = wire_bytes fs /\ (length fs <= 1)%nat /\
    assigns table fs m (match t with Some u => (n, FText u) :: m | None => m end).
Proof.
  intros table n [u|] m N F W; [|exists []; split; [reflexivity|split; [cbn; lia|apply as_nil]]].
  destruct (W u eq_refl) as (cs & T & ->). exists [(n, WBytes (utf8 cs))]. split; [|split; [cbn; lia|]].
  - cbn [write_opt]. rewrite write32, write_text by (assumption || lia). unfold wire_bytes. cbn [flat_map]. rewrite app_nil_r. reflexivity.
  - eapply as_known; [lia|exact F|apply means_text; exact T|apply as_nil].
Qed.
(** What the page writes it reads back, default values included. *)
Theorem C112_own : forall p, peer_status_wf p ->
  exists m, (forall fuel, (6 < fuel)%nat -> decode PeerStatus (encodePeerStatus p) fuel = Some (Ok m)) /\ peer_status_of m = p.
Proof.
  intros p (W1 & W2 & W3 & W4 & WU).
  set (m0 := match connected p with Some b => [(1, FBool b)] | None => [] end : msg).
  destruct (opt_text PeerStatus 2 (peer_id p) m0 ltac:(lia) eq_refl W1) as (f1 & E1 & L1 & A1).
  set (m1 := match peer_id p with Some u => (2, FText u) :: m0 | None => m0 end) in *.
  destruct (opt_text PeerStatus 3 (sync_status p) m1 ltac:(lia) eq_refl W2) as (f2 & E2 & L2 & A2).
  set (m2 := match sync_status p with Some u => (3, FText u) :: m1 | None => m1 end) in *.
  destruct (opt_text PeerStatus 4 (protocol_state_hash p) m2 ltac:(lia) eq_refl W3) as (f3 & E3 & L3 & A3).
  set (m3 := match protocol_state_hash p with Some u => (4, FText u) :: m2 | None => m2 end) in *.
  destruct (opt_text PeerStatus 5 (git_commit p) m3 ltac:(lia) eq_refl W4) as (f4 & E4 & L4 & A4).
  set (m4 := match git_commit p with Some u => (5, FText u) :: m3 | None => m3 end) in *.
  set (m5 := match uptime_minutes p with Some (lo, hi) => (6, FLong lo hi) :: m4 | None => m4 end).
  assert (A0 : exists f0, write_opt 8 (fun b : bool => writeByte (if b then 1 else 0)) (connected p) = wire_bytes f0 /\
    (length f0 <= 1)%nat /\ assigns PeerStatus f0 [] m0).
  { subst m0. destruct (connected p) as [b|]; [|exists []; split; [reflexivity|split; [cbn; lia|apply as_nil]]].
    exists [(1, WVarint (if b then 1 else 0))]. split; [destruct b; reflexivity|]. split; [cbn; lia|].
    eapply as_known; [lia|reflexivity|apply means_bool|apply as_nil]. }
  destruct A0 as (f0 & E0 & L0 & A0).
  assert (A5 : exists f5, write_opt 48 (fun p => writeVarint64 (fst p) (snd p)) (uptime_minutes p) = wire_bytes f5 /\
    (length f5 <= 1)%nat /\ assigns PeerStatus f5 m4 m5).
  { subst m5. destruct (uptime_minutes p) as [[lo hi]|]; [|exists []; split; [reflexivity|split; [cbn; lia|apply as_nil]]].
    destruct (WU lo hi eq_refl) as (L & H). exists [(6, WVarint (long_value lo hi mod 2 ^ 64))]. split; [|split; [cbn; lia|]].
    - cbn [write_opt fst snd]. rewrite write64 by assumption. unfold wire_bytes. cbn [flat_map]. rewrite app_nil_r. reflexivity.
    - eapply as_known; [lia|reflexivity|apply (means_long _ lo hi); try assumption; try reflexivity|apply as_nil].
      unfold long_value, half in *. pose proof (Z.mod_pos_bound lo (2 ^ 32) ltac:(lia)). lia. }
  destruct A5 as (f5 & E5 & L5 & A5).
  exists m5. split.
  - intros fuel F. replace (encodePeerStatus p) with (wire_bytes (f0 ++ f1 ++ f2 ++ f3 ++ f4 ++ f5)).
    + apply C112_decode.
      * repeat (eapply assigns_app; [eassumption|]). exact A5.
      * rewrite !app_length. lia.
    + rewrite !wire_bytes_app. unfold encodePeerStatus. rewrite E0, E5. f_equal.
      change 18 with (8 * 2 + 2). change 26 with (8 * 3 + 2). change 34 with (8 * 4 + 2). change 42 with (8 * 5 + 2).
      rewrite E1, E2, E3, E4. reflexivity.
  - clear. subst m5 m4 m3 m2 m1 m0. destruct p as [c t1 t2 t3 t4 u]. unfold peer_status_of.
    cbn [connected peer_id sync_status protocol_state_hash git_commit uptime_minutes].
    destruct c, t1, t2, t3, t4, u as [[lo hi]|]; reflexivity.
Qed.
Example C112_own_example : peer_status_wf
  {| connected := Some false; peer_id := Some [0xD83D; 0xDE00]; sync_status := None; protocol_state_hash := Some [];
     git_commit := None; uptime_minutes := Some (-1, 2147483647) |}.
Proof.
  repeat split; cbn [peer_id sync_status protocol_state_hash git_commit uptime_minutes].
  - intros u E. inversion E; subst. exists [0x1F600]. split; [split; [repeat (apply Forall_cons || apply Forall_nil); unfold scalar; lia|reflexivity]|reflexivity].
  - intros u E. discriminate.
  - intros u E. inversion E; subst. exists []. split; [split; [constructor|reflexivity]|reflexivity].
  - intros u E. discriminate.
  - inversion H; subst; lia.
  - inversion H; subst; lia.
  - inversion H; subst; lia.
  - inversion H; subst; lia.
Qed.

(** ** Any bytes *)
Lemma masked : forall b k, 0 <= b < 256 -> 0 <= k <= 30 -> jand b (2 ^ k - 1) = b mod 2 ^ k.
Proof. intros b k B K. apply jand_mask; [exact K|apply half_small; lia]. Qed.
Lemma six_low : forall b x k, 0 <= b < 256 -> 6 <= k <= 18 -> 0 <= x < 2 ^ (24 - k) -> jor (x * 2 ^ k) (b mod 64) = x * 2 ^ k + b mod 64.
Proof.
  intros b x k B K X. pose proof (Z.mod_pos_bound b 64 ltac:(lia)).
  assert (2 ^ 6 <= 2 ^ k) by (apply Z.pow_le_mono_r; lia).
  assert (x * 2 ^ k < 2 ^ 24) by (replace (2 ^ 24) with (2 ^ (24 - k) * 2 ^ k) by (rewrite <- Z.pow_add_r by lia; f_equal; lia); nia).
  apply jor_low; nia.
Qed.
Lemma shl_mod : forall b j k, 0 <= b < 256 -> 0 <= j <= 8 -> 0 <= k <= 18 -> shl (b mod 2 ^ j) k = b mod 2 ^ j * 2 ^ k.
Proof.
  intros b j k B J K. assert (0 < 2 ^ j) by (apply Z.pow_pos_nonneg; lia). assert (2 ^ j <= 2 ^ 8) by (apply Z.pow_le_mono_r; lia).
  assert (2 ^ k <= 2 ^ 18) by (apply Z.pow_le_mono_r; lia). assert (0 < 2 ^ k) by (apply Z.pow_pos_nonneg; lia).
  pose proof (Z.mod_pos_bound b (2 ^ j) ltac:(lia)). apply shl_small; [lia|apply half_small; lia|apply half_small; nia].
Qed.
Lemma join2 : forall c1 c2, byte_ok c1 -> byte_ok c2 ->
  jor (shl (jand c1 0x1F) 6) (jand c2 0x3F) = c1 mod 32 * 64 + c2 mod 64.
Proof.
  unfold byte_ok. intros c1 c2 A B. change 0x1F with (2 ^ 5 - 1). change 0x3F with (2 ^ 6 - 1). rewrite !masked by lia.
  rewrite (shl_mod c1 5 6) by lia. change (2 ^ 6) with 64 at 2. pose proof (Z.mod_pos_bound c1 (2 ^ 5) ltac:(lia)).
  rewrite (six_low c2 _ 6) by lia. reflexivity.
Qed.
Lemma join3 : forall c1 c2 c3, byte_ok c1 -> byte_ok c2 -> byte_ok c3 ->
  jor (jor (shl (jand c1 0x0F) 12) (shl (jand c2 0x3F) 6)) (jand c3 0x3F) = c1 mod 16 * 4096 + c2 mod 64 * 64 + c3 mod 64.
Proof.
  unfold byte_ok. intros c1 c2 c3 A B C. change 0x0F with (2 ^ 4 - 1). change 0x3F with (2 ^ 6 - 1). rewrite !masked by lia.
  rewrite (shl_mod c1 4 12), (shl_mod c2 6 6) by lia.
  pose proof (Z.mod_pos_bound c1 (2 ^ 4) ltac:(lia)). pose proof (Z.mod_pos_bound c2 (2 ^ 6) ltac:(lia)).
  rewrite jor_low by lia.
  replace (c1 mod 2 ^ 4 * 2 ^ 12 + c2 mod 2 ^ 6 * 2 ^ 6) with ((c1 mod 2 ^ 4 * 64 + c2 mod 2 ^ 6) * 2 ^ 6) by ring.
  change (c3 mod 2 ^ 6) with (c3 mod 64). rewrite (six_low c3 _ 6) by lia. change (2 ^ 6) with 64. change (2 ^ 4) with 16. ring.
Qed.
Lemma join4 : forall c1 c2 c3 c4, byte_ok c1 -> byte_ok c2 -> byte_ok c3 -> byte_ok c4 ->
  0 <= jor (jor (jor (shl (jand c1 0x07) 0x12) (shl (jand c2 0x3F) 0x0C)) (shl (jand c3 0x3F) 0x06)) (jand c4 0x3F) < 2 ^ 31.
Proof.
  unfold byte_ok. intros c1 c2 c3 c4 A B C D. change 0x07 with (2 ^ 3 - 1). change 0x3F with (2 ^ 6 - 1). rewrite !masked by lia.
  rewrite (shl_mod c1 3 18), (shl_mod c2 6 12), (shl_mod c3 6 6) by lia.
  pose proof (Z.mod_pos_bound c1 (2 ^ 3) ltac:(lia)). pose proof (Z.mod_pos_bound c2 (2 ^ 6) ltac:(lia)).
  pose proof (Z.mod_pos_bound c3 (2 ^ 6) ltac:(lia)). pose proof (Z.mod_pos_bound c4 (2 ^ 6) ltac:(lia)).
  rewrite (jor_low (c1 mod 2 ^ 3)) by lia.
  replace (c1 mod 2 ^ 3 * 2 ^ 18 + c2 mod 2 ^ 6 * 2 ^ 12) with ((c1 mod 2 ^ 3 * 64 + c2 mod 2 ^ 6) * 2 ^ 12) by ring.
  rewrite (jor_low (c1 mod 2 ^ 3 * 64 + c2 mod 2 ^ 6)) by lia.
  replace ((c1 mod 2 ^ 3 * 64 + c2 mod 2 ^ 6) * 2 ^ 12 + c3 mod 2 ^ 6 * 2 ^ 6)
    with (((c1 mod 2 ^ 3 * 64 + c2 mod 2 ^ 6) * 64 + c3 mod 2 ^ 6) * 2 ^ 6) by ring.
  rewrite jor_low by lia. lia.
Qed.
(** Whatever the bytes, the text that is read is well formed: it has no half of a
    surrogate pair. *)
Theorem C112_any_bytes : forall l, bytes_ok l -> exists cs, Forall scalar cs /\ read_units l = utf16 cs.
Proof.
  assert (G : forall n l, (length l <= n)%nat -> bytes_ok l -> exists cs, Forall scalar cs /\ read_units l = utf16 cs).
  { induction n; intros l L B; [destruct l; [exists []; split; [constructor|reflexivity]|cbn in L; lia]|].
    destruct l as [|c1 r1]; [exists []; split; [constructor|reflexivity]|].
    inversion B as [|? ? B1 Br1]; subst. cbn [length] in L.
    assert (ONE : forall c r, (length r <= n)%nat -> bytes_ok r -> scalar c -> c < 0x10000 ->
      exists cs, Forall scalar cs /\ c :: read_units r = utf16 cs).
    { intros c r Lr Br S C. destruct (IHn r Lr Br) as (cs & F & E). exists (c :: cs). split; [constructor; assumption|].
      unfold utf16. cbn [flat_map]. unfold utf16_point at 1. replace (c <? 0x10000) with true by lia. rewrite E. reflexivity. }
    assert (BAD : exists cs, Forall scalar cs /\ INVALID :: read_units r1 = utf16 cs).
    { apply ONE; [lia|exact Br1|unfold scalar, INVALID; lia|unfold INVALID; lia]. }
    cbn [read_units]. rewrite hi_bit by exact B1. destruct (c1 <? 128) eqn:E1.
    { apply ONE; [lia|exact Br1|unfold scalar, byte_ok in *; lia|lia]. }
    destruct (jand c1 224 =? 192).
    { destruct r1 as [|c2 r2]; [exact BAD|]. destruct (negb _); [exact BAD|]. inversion Br1 as [|? ? B2 Br2]; subst.
      rewrite join2 by assumption. destruct (c1 mod 32 * 64 + c2 mod 64 <? 128) eqn:E; [exact BAD|]. cbn [length] in L.
      pose proof (Z.mod_pos_bound c1 32 ltac:(lia)). pose proof (Z.mod_pos_bound c2 64 ltac:(lia)).
      apply ONE; [lia|exact Br2|unfold scalar; lia|lia]. }
    destruct (jand c1 240 =? 224).
    { destruct r1 as [|c2 [|c3 r3]]; [exact BAD|exact BAD|]. destruct (negb _); [exact BAD|].
      inversion Br1 as [|? ? B2 Br2]; subst. inversion Br2 as [|? ? B3 Br3]; subst.
      rewrite join3 by assumption. destruct (_ || _) eqn:E; [exact BAD|]. cbn [length] in L.
      pose proof (Z.mod_pos_bound c1 16 ltac:(lia)). pose proof (Z.mod_pos_bound c2 64 ltac:(lia)). pose proof (Z.mod_pos_bound c3 64 ltac:(lia)).
      apply ONE; [lia|exact Br3|unfold scalar; lia|lia]. }
    destruct (jand c1 248 =? 240); [|exact BAD].
    destruct r1 as [|c2 [|c3 [|c4 r4]]]; [exact BAD|exact BAD|exact BAD|]. destruct (negb _); [exact BAD|].
    inversion Br1 as [|? ? B2 Br2]; subst. inversion Br2 as [|? ? B3 Br3]; subst. inversion Br3 as [|? ? B4 Br4]; subst.
    pose proof (join4 c1 c2 c3 c4 B1 B2 B3 B4) as J.
    set (c := jor (jor (jor _ _) _) _) in *. clearbody c.
    destruct (_ || _) eqn:E; [exact BAD|]. cbn [length] in L.
    destruct (IHn r4 ltac:(lia) Br4) as (cs & F & R). exists (c :: cs). split; [constructor; [unfold scalar; lia|exact F]|].
    unfold utf16. cbn [flat_map]. unfold utf16_point at 1. replace (c <? 0x10000) with false by lia.
    rewrite shr_div by (try apply half_small; lia).
    replace (jand (c - 65536) 1023) with ((c - 65536) mod 2 ^ 10) by (symmetry; apply (jand_mask _ 10); [lia|apply half_small; lia]).
    rewrite (Z.add_comm (_ / _)), (Z.add_comm (_ mod _)), R. reflexivity. }
  intros l. apply (G (length l)). lia.
Qed.
(** a tail byte alone, an overlong form, half of a pair, and a cut form *)
Example C112_any_bytes_example : read_units [0x80; 0xC0; 0xAF; 0xED; 0xA0; 0x80; 65; 0xE2; 0x82] =
  [0xFFFD; 0xFFFD; 0xFFFD; 0xFFFD; 0xFFFD; 0xFFFD; 65; 0xFFFD; 0xFFFD].
Proof. vm_compute. reflexivity. Qed.

(** ** Expected, and not so *)

(** A length of 2 ^ 32 - 6 is read as -6 and moves back to the beginning: the
    decoder never ends. *)
Lemma hang_step : forall fuel m, decode_loop PeerStatus [18; 0xFA; 0xFF; 0xFF; 0xFF; 0x0F] fuel 0 m = None.
Proof.
  induction fuel; intros m; [reflexivity|]. cbn [decode_loop].
  replace (size [18; 0xFA; 0xFF; 0xFF; 0xFF; 0x0F] <=? 0) with false by reflexivity.
  replace (readVarint32 [18; 0xFA; 0xFF; 0xFF; 0xFF; 0x0F] 0) with (@Ok unit _ (18, 1)) by reflexivity.
  replace (ushr 18 3) with 2 by reflexivity. cbn [Z.eqb]. replace (find 2 PeerStatus) with (Some KText) by reflexivity.
  replace (read_field KText [18; 0xFA; 0xFF; 0xFF; 0xFF; 0x0F] 1) with (@Ok unit _ (FText [], 0)) by (vm_compute; reflexivity).
  apply IHfuel.
Qed.
Theorem C112_hang_refuted : ~ (forall bs, bytes_ok bs -> exists fuel r, decode PeerStatus bs fuel = Some r).
Proof.
  intros H. destruct (H [18; 0xFA; 0xFF; 0xFF; 0xFF; 0x0F]) as (fuel & r & E).
  - repeat constructor; unfold byte_ok; lia.
  - unfold decode in E. rewrite hang_step in E. discriminate.
Qed.
(** A text with half of a surrogate pair arrives as another text. *)
Theorem C112_text_refuted : ~ (forall u fuel m, Forall (fun c => 0 <= c < 0x10000) u ->
  decode ConnectRequest (encodeConnectRequest (Some u)) fuel = Some (Ok m) -> find 1 m = Some (FText u)).
Proof.
  intros H. specialize (H [0xD800; 65] 2%nat [(1, FText [0x2441])]).
  assert (E : find 1 [(1, FText [0x2441])] = Some (FText [0xD800; 65])).
  { apply H; [repeat constructor; lia|vm_compute; reflexivity]. }
  discriminate E.
Qed.

Print Assumptions C112_decode.
Print Assumptions C112_status.
Print Assumptions C112_request.
Print Assumptions C112_response.
Print Assumptions C112_own.
Print Assumptions C112_any_bytes.
Print Assumptions C112_hang_refuted.
Print Assumptions C112_text_refuted.
