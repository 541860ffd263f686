(** C106: the tool that reads a binary by a layout. *)
From Coq Require Import String ZArith List Bool Lia ZifyBool ZifyNat.
From Verif Require Import Lib.Res Lib.Bytes BinProt.Prim BinProt.PrimProofs BinProt.PrimSpec BinProt.FormatSpec
  Json.Json Text.Hex Text.HexSpec Text.HexProps
  Loose.Loose Loose.LooseSpec Loose.LooseProofs Loose.LooseWire Loose.LooseFacts Loose.LooseProps Loose.IndexProps
  Layout.LayoutJson Layout.LayoutSpec Layout.LayoutProps Layout.Reader.
Import ListNotations.
Local Open Scope string_scope.
Local Open Scope list_scope.
Local Open Scope Z_scope.

(** What the file stands for, as the README says: hex digits, or the bytes
    themselves. *)
Inductive stands_for (file : list Z) : list Z -> Prop :=
| F_hex : forall bs, hexes file bs -> stands_for file bs
| F_raw : (forall bs, ~ hexes file bs) -> stands_for file file.
Lemma contents_iff : forall file bs, contents file = bs <-> stands_for file bs.
Proof.
  intros file bs. unfold contents. split.
  - intros <-. destruct (hex_decode file) as [b|e|] eqn:E.
    + apply F_hex, hex_decode_ok, E.
    + apply F_raw. intros b H. apply hex_decode_ok in H. congruence.
    + exfalso. exact (hex_decode_no_panic _ E).
  - intros [b H|H].
    + apply hex_decode_ok in H. rewrite H. reflexivity.
    + destruct (hex_decode file) as [b|e|] eqn:E; auto. exfalso. eapply H, hex_decode_ok, E.
Qed.
Lemma contents_bytes : forall file, bytes_ok file -> bytes_ok (contents file).
Proof.
  intros file B. unfold contents. destruct (hex_decode file) as [b|e|] eqn:E; auto. apply hex_decode_ok in E. eapply hexes_bytes; eauto.
Qed.

(** Without the flag the tool shows the value at the beginning of the binary. *)
Theorem C106_shows : forall sz doc file v, texts_ok doc -> bytes_ok file ->
  (tool sz (Some doc) file false = Ok v <->
   exists r bs used rest q, document doc r /\ stands_for file bs /\ bs = used ++ rest /\ lenient sz None r v used q).
Proof.
  intros sz doc file v T B. cbn [tool]. split.
  - destruct (layout_of_json doc) as [r|] eqn:L; [|discriminate]. destruct (loose_value sz r (contents file)) as [(w & rest)|e|] eqn:E; try discriminate.
    intros H. injection H as ->. destruct (decoded_wire _ _ _ _ _ (contents_bytes _ B) E) as (used & q & Eb & W).
    exists r, (contents file), used, rest, q. split; [apply C104_document; auto|]. split; [apply contents_iff; reflexivity|]. auto.
  - intros (r & bs & used & rest & q & D & F & Eb & W). apply C104_document in D; auto. rewrite D. apply contents_iff in F. subst bs.
    pose proof (contents_bytes _ B) as B'. rewrite loose_dec.
    rewrite (proj2 (dec_takes sz (depth r) r (le_n _) None (contents file) v q rest B')) by eauto. reflexivity.
Qed.
(** With the flag: exactly the canonical encodings, with nothing behind, *)
Theorem C106_roundtrip : forall sz doc r file v, texts_ok doc -> bytes_ok file -> document doc r -> numbered r = true ->
  (tool sz (Some doc) file true = Ok v <-> exists bs q, stands_for file bs /\ canonical sz None r v bs q).
Proof.
  intros sz doc r file v T B D N. apply C104_document in D; auto. cbn [tool]. rewrite D. split.
  - destruct (loose_value sz r (contents file)) as [(w & rest)|e|] eqn:E; try discriminate.
    destruct (list_eq_dec Z.eq_dec (contents file) (vser w)) as [Ev|]; [|discriminate]. intros H. injection H as ->.
    pose proof (C15_normal sz r _ _ _ [] N (contents_bytes _ B) (Forall_nil _) E) as E2. rewrite app_nil_r, <- Ev, E in E2.
    injection E2 as ->. destruct (C15_exact sz r _ _ _ N (contents_bytes _ B) E) as (used & q & Eu & _ & C).
    rewrite app_nil_r in Eu. subst used. exists (contents file), q. split; [apply contents_iff; reflexivity|]. apply C. auto.
  - intros (bs & q & F & C). apply contents_iff in F. subst bs.
    destruct (C15_encoded sz r v (contents file) q [] N (Forall_nil _) C) as (E & Ev). rewrite app_nil_r in E. rewrite E, Ev.
    destruct (list_eq_dec Z.eq_dec (contents file) (contents file)); [reflexivity|contradiction].
Qed.
(** and what is shown without the flag is shown with it, or the tool panics. *)
Theorem C106_flag : forall sz doc file v, tool sz doc file false = Ok v ->
  tool sz doc file true = Ok v \/ tool sz doc file true = Panic.
Proof.
  intros sz [doc|] file v; [|discriminate]. cbn [tool]. destruct (layout_of_json doc) as [r|]; [|discriminate].
  destruct (loose_value sz r (contents file)) as [(w & rest)|e|]; try discriminate. intros H. injection H as ->.
  destruct (list_eq_dec Z.eq_dec (contents file) (vser v)); auto.
Qed.
(** Bytes behind the value: not noticed, or a panic *)
Definition no_hex (c : Z) : Prop := forall d, ~ hex_digit c d.
Lemma raw_file : forall file c, In c file -> no_hex c -> stands_for file file.
Proof.
  intros file c I N. apply F_raw. intros bs H. induction H as [|c1 c2 d1 d2 s bs H1 H2 H IH]; [contradiction|].
  destruct I as [<-|[<-|I]]; [eapply N; eauto..|auto].
Qed.
Theorem C106_behind_refuted : forall sz doc r used q v x, texts_ok doc -> document doc r -> numbered r = true ->
  bytes_ok used -> bytes_ok x -> canonical sz None r v used q -> (exists c, In c used /\ no_hex c) -> x <> [] ->
  tool sz (Some doc) (used ++ x) false = Ok v /\ tool sz (Some doc) (used ++ x) true = Panic.
Proof.
  intros sz doc r used q v x T D N B X C (c & I & NH) NE.
  assert (F : stands_for (used ++ x) (used ++ x)) by (apply (raw_file _ c); auto; apply in_or_app; auto).
  apply contents_iff in F. apply C104_document in D; auto. cbn [tool]. rewrite D, F.
  destruct (C15_encoded sz r v used q x N X C) as (E & Ev). rewrite E. split; [reflexivity|]. rewrite Ev.
  destruct (list_eq_dec Z.eq_dec (used ++ x) used) as [E2|]; auto. exfalso. apply NE.
  rewrite <- (app_nil_r used) in E2 at 2. apply app_inv_head in E2. exact E2.
Qed.
(** Hex digits, in either case, are taken for what they denote, *)
Theorem C106_hex : forall sz doc file bs flag, hexes file bs -> (exists c, In c bs /\ no_hex c) ->
  tool sz doc file flag = tool sz doc bs flag.
Proof.
  intros sz doc file bs flag H (c & I & N). assert (E1 : contents file = bs) by (apply contents_iff, F_hex; auto).
  assert (E2 : contents bs = bs) by (apply contents_iff, (raw_file _ c); auto).
  unfold tool. rewrite E1, E2. reflexivity.
Qed.
(** but not with a line end behind, or a prefix before: then the characters are
    the binary. *)
Theorem C106_line_end_refuted : forall s, stands_for (s ++ [10]) (s ++ [10]).
Proof. intros s. apply (raw_file _ 10); [apply in_or_app; right; left; reflexivity|]. intros d H. unfold hex_digit in H. lia. Qed.
Theorem C106_prefix_refuted : forall s, stands_for (48 :: 120 :: s) (48 :: 120 :: s).
Proof. intros s. apply (raw_file _ 120); [right; left; reflexivity|]. intros d H. unfold hex_digit in H. lia. Qed.

(** ** Cases *)
Definition doc_of (j : json) : json := JObj (map (fun x => (str_bytes (fst x), snd x))
  [("layout_loc", jstr ""); ("version_opt", JNull); ("type_decl", jstr "type t"); ("bin_io_derived", JBool true); ("bin_prot_rule", j)]).
Definition ex_text : json := doc_of (JArr [jstr "String"]).
Lemma doc_ok : forall r, writable r -> texts_ok (doc_of (yojson (fun _ => "") r)) /\ document (doc_of (yojson (fun _ => "") r)) r.
Proof.
  intros r W. assert (T : texts_ok (doc_of (yojson (fun _ => "") r))).
  { cbn [doc_of map texts_ok fold_right fst snd]. repeat split; try exact I; try (apply bytes_ok_str). eapply printed_texts; eauto. }
  split; auto. apply C104_document; auto. unfold doc_of. cbn [map fst snd].
  change (layout_of_json _) with (rule_of_json (yojson (fun _ => "") r)). apply C104_printed. auto.
Qed.
Example C106_ex_document : texts_ok ex_text /\ document ex_text RString.
Proof. apply (doc_ok RString). exact I. Qed.
(** "Hi!" as bytes, as hex digits, with something behind, with a line end *)
Example C106_ex : tool 200 (Some ex_text) [3; 72; 105; 33] true = Ok (LList (map LChar [72; 105; 33])) /\
  tool 200 (Some ex_text) (str_bytes "03486921") true = Ok (LList (map LChar [72; 105; 33])) /\
  tool 200 (Some ex_text) [3; 72; 105; 33; 0] false = Ok (LList (map LChar [72; 105; 33])) /\
  tool 200 (Some ex_text) [3; 72; 105; 33; 0] true = Panic /\
  tool 200 (Some ex_text) (str_bytes "03486921" ++ [10]) false = Err (RBinary EIo) /\
  tool 200 (Some JNull) [3; 72; 105; 33] false = Err RLayout.
Proof. repeat split; vm_compute; reflexivity. Qed.
Example C106_ex_canonical : numbered RString = true /\ canonical 200 None RString (LList (map LChar [72; 105; 33])) [3; 72; 105; 33] None /\
  no_hex 3 /\ hexes (str_bytes "03486921") [3; 72; 105; 33].
Proof.
  assert (B : bytes_ok [3; 72; 105; 33]) by (repeat constructor; unfold byte_ok; lia). split; [reflexivity|]. split; [|split].
  - pose proof (W_string 200 canon_nat canon_int (fun w tag => w = 2 * tag + 1) None [3] [72; 105; 33]) as W.
    apply W; [split; [apply NF_1; cbn; lia|reflexivity]|inversion B; auto|cbn; lia].
  - intros d H. unfold hex_digit in H. lia.
  - apply hex_decode_ok. vm_compute. reflexivity.
Qed.
(** Bytes that happen to be hex digits are taken for hex: a text of 49 characters
    and, read by the tool, one of 24; both times nothing is left over and the
    round trip succeeds. *)
Definition ex_digits : list Z := str_bytes "18" ++ repeat 48 48.
Theorem C106_digits_refuted : exists v w q,
  canonical 200 None RString v ex_digits q /\ tool 200 (Some ex_text) ex_digits true = Ok w /\ v <> w.
Proof.
  exists (LList (map LChar (56 :: repeat 48 48))), (LList (map LChar (repeat 0 24))), None. split; [|split].
  - pose proof (W_string 200 canon_nat canon_int (fun w tag => w = 2 * tag + 1) None [49] (56 :: repeat 48 48)) as W.
    apply W; [split; [apply (NF_1 49); lia|reflexivity]|repeat constructor; unfold byte_ok; lia|cbn; lia].
  - vm_compute. reflexivity.
  - intros H. apply (f_equal (fun v => match v with LList l => List.length l | _ => O end)) in H. vm_compute in H. discriminate.
Qed.

Print Assumptions C106_shows.
Print Assumptions C106_roundtrip.
Print Assumptions C106_flag.
Print Assumptions C106_behind_refuted.
Print Assumptions C106_hex.
Print Assumptions C106_line_end_refuted.
Print Assumptions C106_prefix_refuted.
Print Assumptions C106_digits_refuted.
