(** C124: what a JSON document says is what is read, and what is written says
    what was meant, member by member. *)

From Coq Require Import String ZArith List Bool Lia ZifyBool ZifyNat.
From Verif Require Import Lib.Res Lib.Bytes Lib.Text BinProt.Prim BinProt.PrimSpec BinProt.Codec BinProt.CodecSpec BinProt.CodecProofs BinProt.BufRead Wire.Types
  Text.FieldText Text.Base58 Text.Base58Props Text.Checksum Text.ChecksumProps Text.NumbersSpec Text.NumbersProps Ledger.AccountWireSpec
  Json.Json Json.JsonTypes Json.JsonSpec Json.JsonFacts Json.JsonReadFacts Json.JsonProps GraphQL.GraphQLSpec Hashing.Command Hashing.State
  Convert.Conv Convert.BlockConv Convert.ConvSpec Convert.ConvFacts Convert.View Convert.ViewSpec Convert.ViewFacts Convert.Block Convert.BlockFacts Convert.BlockProps
  Convert.JsonBlock Convert.JsonBlockSpec Convert.JsonBlockFacts Convert.JsonBlockProps.
From Verif Require Import Convert.JsonViewSpec Convert.JsonViewFacts Convert.JsonViewLeaf Convert.JsonViewTypes.
Import ListNotations.
Local Open Scope string_scope.
Local Open Scope list_scope.
Local Open Scope Z_scope.

(** ** Where signatures are *)
Definition sig_parts (ts : list ty) : bool := match ts with [TInt U16; TTup [TInt U16; TTup [TTup (TU8 :: _); TTup (TU8 :: _)]]] => true | _ => false end.
Fixpoint has_sig (t : ty) : bool :=
  match t with
  | TOpt t | TSeq t => has_sig t
  | TTup ts => sig_parts ts || existsb has_sig ts
  | TEnum vs => existsb (existsb has_sig) vs
  | TPoly vs => existsb (fun p => existsb has_sig (snd p)) vs
  | _ => false
  end.
Lemma inside_sig : forall s t v, inside SignatureV1 s t v -> has_sig t = true.
Proof.
  assert (X : forall ts i t, nth_error ts i = Some t -> has_sig t = true -> existsb has_sig ts = true).
  { intros ts i t N H. apply existsb_exists. exists t. split; [eapply nth_error_In; eassumption|exact H]. }
  intros s t v H. induction H; cbn [has_sig]; auto.
  - rewrite (X _ _ _ H IHinside). apply orb_true_r.
  - apply existsb_exists. exists ts. split; [eapply nth_error_In; eassumption|]. eapply X; eassumption.
  - apply existsb_exists. exists (n, ts). split; [eapply nth_error_In; eassumption|]. eapply X; eassumption.
Qed.
Lemma state_unsigned : forall v, ~ bad_signature ProtocolStateV1 v.
Proof. intros v (s & I & _). apply inside_sig in I. vm_compute in I. discriminate. Qed.
Lemma inside_tup : forall u w ts vs, inside u w (TTup ts) (VTup vs) ->
  (u = TTup ts /\ w = VTup vs) \/ exists i t v, nth_error ts i = Some t /\ nth_error vs i = Some v /\ inside u w t v.
Proof. intros u w ts vs H. inversion H; subst; [left; auto|]. right. eauto 8. Qed.
Lemma command_signed : forall v c, wv (wv (sW m_command)) v c -> ~ bad_signature SignedCommandV1 v.
Proof.
  intros v c (m & w & -> & n & x & -> & vs & ts & -> & F) (s & I & B). unfold m_command in F.
  apply f2_cons in F. destruct F as (a & vs1 & -> & _ & F). apply f2_cons in F. destruct F as (b & vs2 & -> & _ & F).
  apply f2_cons in F. destruct F as (d & vs3 & -> & W & F). apply f2_nil in F. subst vs3. cbn [m_W m_p] in W.
  apply inside_tup in I. destruct I as [(I & _)|(i & t & v & T & V & I)]; [discriminate|].
  destruct i as [|[|[|i]]]; try discriminate; injection T as <-; injection V as <-; [apply inside_sig in I; discriminate|].
  apply inside_tup in I. destruct I as [(I & _)|(i & t & v & T & V & I)]; [discriminate|].
  destruct i as [|[|[|i]]]; try discriminate; injection T as <-; injection V as <-; [apply inside_sig in I; discriminate|].
  apply inside_tup in I. destruct I as [(I & _)|(i & t & v & T & V & I)]; [discriminate|].
  destruct i as [|[|[|[|i]]]]; try discriminate; injection T as <-; injection V as <-; try (apply inside_sig in I; vm_compute in I; discriminate).
  assert (s = d).
  { destruct W as (m0 & w0 & -> & _). apply inside_tup in I. destruct I as [(_ & ->)|(i & t & v & T & V & I)]; [reflexivity|]. exfalso.
    destruct i as [|[|[|i]]]; try discriminate; injection T as <-; apply inside_sig in I; vm_compute in I; discriminate. }
  subst s. destruct B as (m' & n' & r & s & k & l & -> & K & L & O). destruct W as (m0 & w0 & [= -> <-] & n0 & w1 & [= -> <-] & _ & r' & s' & k' & l' & [= <- <-] & K' & L' & E & Q & E' & Q').
  destruct K as (E1 & B1 & _), K' as (E2 & B2 & _), L as (E3 & B3 & _), L' as (E4 & B4 & _). 
  assert (k = k') by (rewrite E1 in E2; injection E2 as E2; revert E2; clear; revert k'; induction k as [|x k IH]; intros [|y k'] E; try discriminate; [reflexivity|]; injection E as -> E; f_equal; auto).
  assert (l = l') by (rewrite E3 in E4; injection E4 as E4; revert E4; clear; revert l'; induction l as [|x k IH]; intros [|y k'] E; try discriminate; [reflexivity|]; injection E as -> E; f_equal; auto).
  subst. lia.
Qed.

(** ** Every member is written once *)
Section Once.
  Variable checked : bool.
  Variable checksum : list Z -> list Z.
  Variable addr : list Z -> bool -> list Z.
  Notation write := (jser checked checksum addr).
  Notation fwrite := (jser_flds checked checksum addr).
  Notation vwrite := (jser_vars checked checksum addr).
  Notation alls := (Forall distinct).
  Lemma arr_distinct : forall l, alls l -> distinct (JArr l).
  Proof using Type. intros l H. induction H; [exact I|]. cbn [distinct]. split; assumption. Qed.
  Lemma obj_distinct : forall m, NoDup (map fst m) -> alls (map snd m) -> distinct (JObj m).
  Proof using Type.
    intros m N H. cbn [distinct]. split; [exact N|]. clear N. induction m as [|(k, j) m IH]; [exact I|]. cbn [map snd] in H. inversion H; subst. split; [assumption|apply IH; assumption].
  Qed.
  Lemma one_distinct : forall k j, distinct j -> distinct (JObj [(k, j)]).
  Proof using Type. intros k j D. apply obj_distinct; [repeat constructor; intros []|repeat constructor; exact D]. Qed.
  Lemma tag_distinct : forall tg e j, distinct e -> tag_ser tg e = Ok j -> distinct j.
  Proof using Type.
    intros [|x] e j D E; cbn [tag_ser] in E; [injection E as <-; exact D|]. destruct e as [| | | |s|l|m]; try (injection E as <-; exact D).
    - injection E as <-. apply arr_distinct. repeat constructor.
    - destruct m as [|(k, v) [|]]; try discriminate. apply distinct_obj in D. destruct D as (_ & D). inversion D; subst. cbn [snd] in H1.
      assert (X : distinct (JArr [JStr k; v])) by (apply arr_distinct; constructor; [exact I|constructor; [exact H1|constructor]]).
      destruct x; [|injection E as <-; exact X]. destruct v; injection E as <-; try exact X. apply arr_distinct. constructor; [exact I|]. apply distinct_arr. exact H1.
  Qed.
  Lemma once_all : (forall d v j, jwf d = true -> write d v = Ok j -> distinct j) /\
    (forall fs vs m, jwf_flds fs = true -> fwrite fs vs = Ok m -> map fst m = keys fs /\ alls (map snd m)) /\
    (forall ws tg i vs j, jwf_vars tg ws = true -> vwrite ws i vs = Ok j -> distinct j).
  Proof using Type.
    apply json_ind; try (intros; discriminate).
    - intros l v j _ E. cbn [jser] in E. apply rmap_ok in E. destruct E as (s & _ & ->). exact I.
    - intros v j _ E. destruct v; try discriminate. injection E as <-. exact I.
    - intros v j _ E. destruct v; try discriminate. injection E as <-. exact I.
    - intros v j _ E. destruct v; try discriminate. injection E as <-. exact I.
    - intros d IH v j W E. destruct v as [| | | | | | | | |[|a [|w [|]]]|]; try discriminate; destruct a; try discriminate. exact (IH _ _ W E).
    - intros d IH v j W E. cbn [jwf] in W. apply andb_true_iff in W. destruct v; try discriminate; [injection E as <-; exact I|]. exact (IH _ _ (proj2 W) E).
    - intros d IH v j W E. destruct v; try discriminate. cbn [jser] in E. apply rmap_ok in E. destruct E as (l & E & ->). apply arr_distinct.
      revert l E. induction vs as [|v vs IHs]; intros l E; cbn [mapM] in E; [injection E as <-; constructor|]. apply bind_ok in E. destruct E as (a & A & E).
      apply bind_ok in E. destruct E as (l' & L & E). injection E as <-. constructor; [exact (IH _ _ W A)|auto].
    - intros fs IH v j W E. destruct v; try discriminate. cbn [jser] in E. apply rmap_ok in E. destruct E as (m & E & ->). apply arr_distinct. apply (IH _ _ W E).
    - intros fs IH v j W E. cbn [jwf] in W. apply andb_true_iff in W. destruct W as (N & W). destruct v; try discriminate. cbn [jser] in E. apply rmap_ok in E.
      destruct E as (m & E & ->). destruct (IH _ _ W E) as (K & A). apply obj_distinct; [rewrite K; apply nodupb_iff; exact N|exact A].
    - intros tg p ws IH v j W E. cbn [jwf] in W. apply andb_true_iff in W. destruct W as (N & W). destruct v; try discriminate. cbn [jser] in E. apply bind_ok in E.
      destruct E as (e & E & T). exact (tag_distinct _ _ _ (IH _ _ _ _ W E) T).
    - intros vs m _ E. destruct vs; try discriminate. injection E as <-. split; [reflexivity|constructor].
    - intros nm sk d IHd fs IH vs m W E. cbn [jwf_flds] in W. apply andb_true_iff in W. destruct W as (Wd & W). destruct sk as [x|]; destruct vs as [|v vs]; try discriminate; cbn [jser_flds] in E.
      + exact (IH _ _ W E).
      + apply bind_ok in E. destruct E as (j & J & E). apply bind_ok in E. destruct E as (m' & M & E). injection E as <-. destruct (IH _ _ W M) as (K & A).
        split; [cbn [map fst keys]; rewrite K; reflexivity|constructor; [exact (IHd _ _ Wd J)|exact A]].
    - intros nm sh fs IHf ws IH tg i vs j W E. cbn [jwf_vars] in W. apply andb_true_iff in W. destruct W as (W & Ww). apply andb_true_iff in W. destruct W as (S & Wf).
      destruct i; cbn [jser_vars] in E; [|exact (IH tg _ _ _ Ww E)]. apply bind_ok in E. destruct E as (m & M & E). destruct (IHf _ _ Wf M) as (K & A).
      destruct sh.
      + injection E as <-. exact I.
      + destruct m as [|(k, x) [|]]; try discriminate. injection E as <-. apply one_distinct. cbn [map snd] in A. inversion A; assumption.
      + injection E as <-. apply one_distinct, arr_distinct, A.
      + injection E as <-. apply one_distinct, obj_distinct; [|exact A]. rewrite K. apply nodupb_iff. exact S.
  Qed.
End Once.

Section Props.
  Variable checked : bool.
  Notation sha := sha_checksum.
  Notation into d c b := (try_into_json checked sha (into_address sha) d c b).
  Notation from d c j := (try_from_json checked sha (from_address sha) d c j).
  Notation read := (jde checked sha (from_address sha)).

  Lemma from_inv : forall d c t j b, In (d, c, t) json_forms -> json_ok j -> from d c j = Ok b ->
    exists v, read d j = Ok v /\ rust_val t v /\ down c v = Ok b.
  Proof using Type.
    intros d c t j b F J H. destruct (forms_ok d c t F) as (T & I). unfold try_from_json in H.
    destruct (read d j) as [v|e|] eqn:E; try discriminate. cbn [bind] in H. exists v. split; [reflexivity|].
    split; [eapply (C84_read_sound checked sha (from_address sha) sha_unaddr_ok d t j v T J E)|].
    destruct (down c v); try discriminate. injection H as ->. reflexivity.
  Qed.
  Lemma from_ok : forall d c t j v, In (d, c, t) json_forms -> json_ok j -> read d j = Ok v -> ~ bad_signature t v -> exists b, from d c j = Ok b.
  Proof using Type.
    intros d c t j v F J E N. pose proof (C123_crashes_iff checked d c t j F J) as C. destruct (from d c j) as [b|e|] eqn:X; [eauto| |].
    - exfalso. unfold try_from_json in X. rewrite E in X. cbn [bind] in X. destruct (down c v); discriminate.
    - exfalso. destruct (proj1 C eq_refl) as [P|(w & P & B)]; [congruence|]. rewrite E in P. injection P as <-. auto.
  Qed.
  Lemma into_inv : forall d c t b j, In (d, c, t) json_forms -> base_val c t b -> into d c b = Ok j ->
    jser checked sha (into_address sha) d (up c b) = Ok j /\ rust_val t (up c b) /\ down c (up c b) = Ok b.
  Proof using Type. intros d c t b j F B E. split; [exact E|]. destruct (forms_ok d c t F) as (_ & I). exact (C99_back c t b I B). Qed.
  Notation f_block := (or_introl eq_refl : In (jExternalTransition, C_block, ExternalTransitionV1) json_forms).
  Notation f_state := (or_intror (or_introl eq_refl) : In (jProtocolState, C_state, ProtocolStateV1) json_forms).
  Notation f_command := (or_intror (or_intror (or_introl eq_refl)) : In (jSignedCommand, C_command, SignedCommandV1) json_forms).

  (** Every object that is written has every member once. *)
  Theorem C124_once : forall d c t b j, In (d, c, t) json_forms -> into d c b = Ok j -> distinct j.
  Proof using Type. intros d c t b j F E. destruct (forms_ok d c t F) as (T & _). exact (proj1 (once_all checked sha (into_address sha)) d _ j (json_type_wf d t T) E). Qed.
  (** A document is read as a protocol state exactly if it says one. *)
  Theorem C124_state : forall j s, json_ok j -> distinct j ->
    ((exists b, from jProtocolState C_state j = Ok b /\ state_of b = s) <-> d_state sha true j s).
  Proof using Type.
    intros j s J D. destruct (s_pstate checked) as (R & _ & C & U). split.
    - intros (b & E & <-). destruct (from_inv _ _ _ _ _ f_state J E) as (v & V & T & W). exact (R j v _ V (uw_state _ _ (reads_state v b T W))).
    - intros X. destruct (C j s (conj J D) X) as (v & V & S). destruct (from_ok _ _ _ _ _ f_state J V (state_unsigned v)) as (b & E). exists b. split; [exact E|].
      destruct (from_inv _ _ _ _ _ f_state J E) as (v' & V' & T & W). rewrite V in V'. injection V' as <-. exact (U v _ _ (uw_state _ _ (reads_state v b T W)) S).
  Qed.
  (** A state that is written is what the document says. *)
  Theorem C124_state_written : forall b j, base_val C_state ProtocolStateV1 b -> into jProtocolState C_state b = Ok j -> d_state sha false j (state_of b).
  Proof using Type.
    intros b j B E. destruct (s_pstate checked) as (_ & R & _). destruct (into_inv _ _ _ _ _ f_state B E) as (S & T & W).
    exact (R j _ _ S (uw_state _ _ (reads_state _ b T W))).
  Qed.
  (** Commands: the same but for the texts of fees, which are understood if
      they are decimal numbers with at most nine digits behind the point. *)
  Theorem C124_command_read : forall j b, json_ok j -> from jSignedCommand C_command j = Ok b -> d_command sha sane_amount true j (command_of b).
  Proof using Type.
    intros j b J E. destruct (s_command checked) as (R & _). destruct (from_inv _ _ _ _ _ f_command J E) as (v & V & T & W).
    exact (R j v _ V (uw_command _ _ (reads_command v b T W))).
  Qed.
  Theorem C124_command : forall j c, json_ok j -> distinct j -> d_command sha plain_amount true j c ->
    exists b, from jSignedCommand C_command j = Ok b /\ command_of b = c.
  Proof using Type.
    intros j c J D X. destruct (s_command checked) as (R & _ & C & U). destruct (C j c (conj J D) X) as (v & V & S).
    destruct (from_ok _ _ _ _ _ f_command J V (command_signed v c S)) as (b & E). exists b. split; [exact E|].
    destruct (from_inv _ _ _ _ _ f_command J E) as (v' & V' & T & W). rewrite V in V'. injection V' as <-. exact (U v _ _ (uw_command _ _ (reads_command v b T W)) S).
  Qed.
  Theorem C124_command_written : forall b j, base_val C_command SignedCommandV1 b -> into jSignedCommand C_command b = Ok j ->
    d_command sha plain_amount false j (command_of b).
  Proof using Type.
    intros b j B E. destruct (s_command checked) as (_ & R & _). destruct (into_inv _ _ _ _ _ f_command B E) as (S & T & W).
    exact (R j _ _ S (uw_command _ _ (reads_command _ b T W))).
  Qed.
  (** Blocks: the protocol state and the commands, in order. *)
  Theorem C124_block_read : forall j b, json_ok j -> from jExternalTransition C_block j = Ok b -> d_block sha sane_amount true j (block_of b).
  Proof using Type.
    intros j b J E. destruct (r_block checked) as (R & _). destruct (from_inv _ _ _ _ _ f_block J E) as (v & V & T & W).
    exact (R j v _ V (uw_block _ _ (reads_block v b T W))).
  Qed.
  Theorem C124_block_written : forall b j, base_val C_block ExternalTransitionV1 b -> into jExternalTransition C_block b = Ok j ->
    d_block sha plain_amount false j (block_of b).
  Proof using Type.
    intros b j B E. destruct (r_block checked) as (_ & R). destruct (into_inv _ _ _ _ _ f_block B E) as (S & T & W).
    exact (R j _ _ S (uw_block _ _ (reads_block _ b T W))).
  Qed.
End Props.

(** ** Cases and counterexamples *)

Definition text (s : string) : json := JStr (str_bytes s).
Definition object (l : list (string * json)) : json := JObj (map (fun p => (str_bytes (fst p), snd p)) l).
(** the document of [a_command 1500] with a text for the fee *)
Definition a_document (fee : string) : json :=
  object
    [("payload", object
       [("common", object
          [("fee", text fee); ("fee_token", text "1");
           ("fee_payer_pk", text "B62qigw2U1sVRR29odR5Fb4KN2KsCwK8NGfVoniT2hnTMvCAfz4vDAf");
           ("nonce", text "3"); ("valid_until", text "4294967295");
           ("memo", text "E4YRiPpkpbcWzDofM8ofr8x9F3PYuKqG2PXcscd4dommdiYMYu3AP")]);
        ("body", JArr
          [text "Payment"; object
             [("source_pk", text "B62qigw2U1sVRR29odR5Fb4KN2KsCwK8NGfVoniT2hnTMvCAfz4vDAf");
              ("receiver_pk", text "B62qiismeFKXGqhNwSznAAgKKLve83vr1yWNbRnZGrUMMaCZAawrNAP");
              ("token_id", text "1"); ("amount", text "1500")]])]);
     ("signer", text "B62qigw2U1sVRR29odR5Fb4KN2KsCwK8NGfVoniT2hnTMvCAfz4vDAf");
     ("signature", text "7mWyFgyW6gG6r68h6LKXBo54mjrdXaPTetQrmBKqs5Lx8g3i4ChnB3PYMZEPmQy2S61zSGLEJq6LnTwb4djshSVwH3Uu6a2z")].
Fixpoint json_okb (j : json) : bool :=
  match j with
  | JNum z => (- 2 ^ 63 <=? z) && (z <? 2 ^ 64)
  | JStr s => forallb (fun b => (0 <=? b) && (b <? 256)) s && utf8_valid s && (Z.of_nat (List.length s) <? 2 ^ 63)
  | JArr l => (Z.of_nat (List.length l) <? 2 ^ 63) && forallb json_okb l
  | JObj m => forallb (fun p => json_okb (snd p)) m
  | _ => true
  end.
Fixpoint distinctb (j : json) : bool :=
  match j with JArr l => forallb distinctb l | JObj m => nodupb (map fst m) && forallb (fun p => distinctb (snd p)) m | _ => true end.
Lemma distinctb_ok : forall j, distinctb j = true -> distinct j.
Proof.
  fix IH 1. intros j H. destruct j as [| |z| |s|l|m]; try exact I.
  - cbn [distinctb distinct] in *. induction l as [|j l IHl]; [exact I|].
    cbn [forallb] in H. apply andb_true_iff in H. destruct H as (A & B). split; [apply IH; exact A|apply IHl; exact B].
  - cbn [distinctb distinct] in *. apply andb_true_iff in H. destruct H as (N & H). split; [apply nodupb_iff; exact N|]. clear N.
    induction m as [|(k, j) m IHm]; [exact I|]. cbn [forallb snd] in H. apply andb_true_iff in H. destruct H as (A & B).
    split; [apply IH; exact A|apply IHm; exact B].
Qed.
Lemma json_okb_ok : forall j, json_okb j = true -> json_ok j.
Proof.
  fix IH 1. intros j H. destruct j as [| |z| |s|l|m]; try exact I.
  - cbn [json_okb json_ok] in *. lia.
  - cbn [json_okb json_ok] in *. apply andb_true_iff in H. destruct H as (H & L). apply andb_true_iff in H. destruct H as (B & U).
    split; [|split; [exact U|lia]]. rewrite forallb_forall in B. apply Forall_forall. intros x I. specialize (B x I). unfold byte_ok. lia.
  - cbn [json_okb json_ok] in *. apply andb_true_iff in H. destruct H as (L & H). split; [lia|]. clear L. induction l as [|j l IHl]; [exact I|].
    cbn [forallb] in H. apply andb_true_iff in H. destruct H as (A & B). split; [apply IH; exact A|apply IHl; exact B].
  - cbn [json_okb json_ok] in *. induction m as [|(k, j) m IHm]; [exact I|]. cbn [forallb snd] in H. apply andb_true_iff in H. destruct H as (A & B).
    split; [apply IH; exact A|apply IHm; exact B].
Qed.
(** What is said in the written form is said. *)
Lemma any_parts : forall names j xs, parts false names j xs -> parts true names j xs.
Proof. intros names j xs [H|(H & _)]; [left; exact H|discriminate]. Qed.
Lemma any_tagged : forall n j x, tagged false n j x -> tagged true n j x.
Proof. intros n j x [H|(H & _)]; [left; exact H|discriminate]. Qed.
Lemma any_command : forall sha amount j c, d_command sha amount false j c -> d_command sha amount true j c.
Proof.
  intros sha amount j c (a & b & d & P & (x & y & Q & C & B) & K & S). exists a, b, d. split; [apply any_parts; exact P|]. split; [|split; [exact K|exact S]].
  exists x, y. split; [apply any_parts; exact Q|]. split.
  - destruct C as (a1 & a2 & a3 & a4 & a5 & a6 & P' & C). exists a1, a2, a3, a4, a5, a6. split; [apply any_parts; exact P'|exact C].
  - destruct (p_body (c_payload _ c)); cbn [d_command_body] in *.
    + destruct B as (z & a1 & a2 & a3 & a4 & T & P' & B). exists z, a1, a2, a3, a4. split; [apply any_tagged; exact T|]. split; [apply any_parts; exact P'|exact B].
    + destruct B as (z & z' & a1 & a2 & T & T' & B). exists z, z', a1, a2. split; [apply any_tagged; exact T|]. split; [apply any_tagged; exact T'|exact B].
Qed.

Lemma a_document_written : try_into_json false sha_checksum (into_address sha_checksum) jSignedCommand C_command (a_command 1500) = Ok (a_document "0.002").
Proof. vm_compute. reflexivity. Qed.
Example C124_ex : let j := a_document "0.002" in
  json_ok j /\ distinct j /\ exists c, d_command sha_checksum plain_amount true j c /\ d_command sha_checksum plain_amount false j c /\
    fee (p_common (c_payload _ c)) = 2000000 /\ nonce (p_common (c_payload _ c)) = 3.
Proof.
  intros j. split; [apply json_okb_ok; vm_compute; reflexivity|]. split; [eapply (C124_once false); [right; right; left; reflexivity|exact a_document_written]|].
  exists (command_of (a_command 1500)). pose proof (C124_command_written false _ _ (proj1 a_command_ok) a_document_written) as D.
  split; [apply any_command; exact D|]. split; [exact D|]. split; reflexivity.
Qed.


(** A fee "1.+5" is read, although it is no decimal number. *)
Definition odd_command : val :=
  match a_command 1500 with VTup [VTup [VTup (_ :: c); b]; k; s] => VTup [VTup [VTup (VInt 1050000000 :: c); b]; k; s] | v => v end.
Lemma nodupb_head : forall k l, existsb (key_eqb k) l = false -> ~ In k l.
Proof. intros k l H I. assert (X : existsb (key_eqb k) l = true) by (apply existsb_exists; exists k; split; [exact I|apply key_eqb_refl]). congruence. Qed.
Lemma first_member : forall n a ns xs m r, parts true (n :: ns) (JObj ((str_bytes n, m) :: r)) (a :: xs) -> ~ In (str_bytes n) (map fst r) -> a = m.
Proof.
  intros n a ns xs m r [H|(_ & H)] N; [|discriminate].
  inversion H; subst. apply has_in in H3. destruct H3 as (l & E & I). injection E as <-.
  destruct I as [I|I]; [congruence|]. exfalso. apply N. apply (in_map fst) in I. exact I.
Qed.
Theorem C124_fee_refuted : exists j b, json_ok j /\ distinct j /\
  try_from_json true sha_checksum (from_address sha_checksum) jSignedCommand C_command j = Ok b /\ forall c, ~ d_command sha_checksum plain_amount true j c.
Proof.
  exists (a_document "1.+5"), odd_command.
  split; [apply json_okb_ok; vm_compute; reflexivity|]. split; [apply distinctb_ok; vm_compute; reflexivity|]. split; [vm_compute; reflexivity|].
  intros c (p & s & g & P & (cm & bd & Q & (f & a2 & a3 & a4 & a5 & a6 & R & F & _) & _) & _).
  unfold a_document, object in P. cbn [map fst snd] in P.
  eapply first_member in P; [|apply nodupb_head; vm_compute; reflexivity].
  subst p. eapply first_member in Q; [|apply nodupb_head; vm_compute; reflexivity].
  subst cm. eapply first_member in R; [|apply nodupb_head; vm_compute; reflexivity].
  subst f. destruct F as (t & T & _ & m & n & N & _). injection T as T. subst t.
  destruct C41_plus_refuted as (u & z & H & _ & -> & _). exact (H _ _ N).
Qed.
Definition a_state : val := match block 7 1 with VTup [_; VTup (s :: _)] => s | v => v end.
Definition a_state_base : val := match down C_state a_state with Ok b => b | _ => VUnit end.
Definition a_state_document : json :=
  match try_into_json false sha_checksum (into_address sha_checksum) jProtocolState C_state a_state_base with Ok j => j | _ => JNull end.
Example C124_state_ex : exists s, json_ok a_state_document /\ distinct a_state_document /\ d_state sha_checksum true a_state_document s /\
  List.length (sl_previous s) = 32%nat.
Proof.
  assert (R : rust_val ProtocolStateV1 a_state).
  { destruct (block_ok 7 1) as (R & _); [unfold byte_ok; lia|lia|]. apply ConvFacts.ver_shape in R. destruct R as (n & w & E & _ & R).
    apply rust_tup in R. destruct R as (vs & -> & R). destruct vs as [|v vs]; [destruct R|]. unfold a_state. rewrite E. exact (proj1 R). }
  assert (D : down C_state a_state = Ok a_state_base) by (vm_compute; reflexivity).
  destruct (C99_kept C_state _ _ _ (or_intror (or_introl eq_refl)) R D) as (B & _).
  destruct (C123_round_trip false jProtocolState C_state ProtocolStateV1 a_state_base) as (j & S & F); [right; left; reflexivity|exact B|].
  assert (E : a_state_document = j) by (unfold a_state_document; rewrite S; reflexivity).
  exists (state_of a_state_base). 
  assert (J : json_ok a_state_document) by (apply json_okb_ok; vm_compute; reflexivity).
  assert (X : distinct a_state_document) by (rewrite E; eapply (C124_once false); [right; left; reflexivity|exact S]).
  split; [exact J|]. split; [exact X|]. split; [|vm_compute; reflexivity].
  apply (C124_state false _ _ J X). exists a_state_base. rewrite E. split; [exact F|reflexivity].
Qed.

Print Assumptions C124_once.
Print Assumptions C124_state.
Print Assumptions C124_state_written.
Print Assumptions C124_command_read.
Print Assumptions C124_command.
Print Assumptions C124_command_written.
Print Assumptions C124_block_read.
Print Assumptions C124_block_written.
Print Assumptions C124_fee_refuted.
