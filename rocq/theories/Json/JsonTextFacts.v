(** The strings of JSON documents: which are UTF-8, and which make reading
    crash. *)

From Coq Require Import String ZArith List Bool Lia ZifyBool ZifyNat.
From Verif Require Import Lib.Res Lib.Bytes Lib.Decimal Lib.Text BinProt.Prim BinProt.Codec BinProt.CodecSpec BinProt.CodecProofs
  BinProt.CodecFacts BinProt.BufRead BinProt.CodecProps Wire.Types Wire.WireProps
  Text.Numbers Text.NumbersProps Text.Base58 Text.Base58Props Text.Base64 Text.Base64Props
  Text.Hex Text.HexSpec Text.HexProps Text.FieldText Json.Json Json.JsonSpec Json.JsonFacts Json.JsonReadFacts.
Import ListNotations.
Local Open Scope Z_scope.
Notation length := List.length.

(** ** Texts of the string wrappers *)

Definition ascii (s : list Z) : Prop := Forall (fun c => c < 128) s.

Lemma ascii_valid : forall s, ascii s -> utf8_valid s = true.
Proof. intros s H. induction H as [|c s C Cs IH]; [reflexivity|]. cbn [utf8_valid]. replace (c <? 0x80) with true by lia. exact IH. Qed.
Lemma nth_ascii : forall l n, ascii l -> nth n l 0 < 128.
Proof.
  induction l as [|x l IH]; intros [|n] H; cbn; try lia; inversion H; subst; auto. 
Qed.
Lemma b58_ascii : forall data, ascii (b58_encode data).
Proof.
  intros data. unfold b58_encode, ascii. apply Forall_forall. intros c I. apply in_map_iff in I. destruct I as (d & <- & _).
  unfold char_of. apply nth_ascii. unfold ascii. vm_compute. repeat (apply Forall_cons; [reflexivity|]). apply Forall_nil.
Qed.
Lemma b64_char_ascii : forall d, b64_char d < 128.
Proof.
  intros d. unfold b64_char. apply nth_ascii. unfold ascii. vm_compute. repeat (apply Forall_cons; [reflexivity|]). apply Forall_nil.
Qed.
Lemma b64_ascii : forall bs, ascii (b64_encode bs).
Proof.
  induction bs as [|a|a b|a b c r IH] using list3_ind; cbn [b64_encode]; unfold ascii;
    repeat (apply Forall_cons; [first [apply b64_char_ascii|lia]|]); first [apply Forall_nil|exact IH].
Qed.
Lemma hex_ascii : forall bs, bytes_ok bs -> ascii (hex_encode bs).
Proof.
  intros bs H. induction H as [|b bs B Bs IH]; [constructor|]. cbn [hex_encode]. unfold byte_ok in B.
  assert (0 <= b / 16 < 16) by (split; [apply Z.div_pos; lia|apply Z.div_lt_upper_bound; lia]).
  assert (0 <= b mod 16 < 16) by (apply Z.mod_pos_bound; lia).
  unfold ascii. repeat (apply Forall_cons; [unfold hex_char; match goal with |- context [if ?x then _ else _] => destruct x end; lia|]). exact IH.
Qed.
Lemma digits_ascii : forall l, digits l -> ascii l.
Proof. intros l H. unfold ascii. eapply Forall_impl; [|exact H]. intros c C. unfold is_digit in C. cbv beta in *. lia. Qed.
Lemma dec_ascii : forall n, 0 <= n -> ascii (dec n).
Proof. intros n H. apply digits_ascii, dec_digits, H. Qed.
Lemma trim_ascii : forall c l, ascii l -> ascii (trim_end c l).
Proof. intros c l H. destruct (trim_end_spec c l) as (k & E & _). rewrite E in H. apply Forall_app in H. tauto. Qed.
Lemma decimal_ascii : forall a, 0 <= a -> ascii (decimal_json_ser a).
Proof.
  intros a H. unfold decimal_json_ser. apply trim_ascii, trim_ascii. unfold ascii.
  assert (0 < MINA_PRECISION) by reflexivity.
  apply Forall_app. split; [apply dec_ascii, Z.div_pos; lia|]. apply Forall_app. split; [apply Forall_cons; [lia|apply Forall_nil]|].
  unfold pad0. apply Forall_app. split.
  - apply Forall_forall. intros c I. apply repeat_spec in I. lia.
  - apply dec_ascii. apply Z.mod_pos_bound. assumption.
Qed.
Lemma versioned_ascii : forall checksum c ver t v s, to_base58_versioned checksum c ver t v = Ok s -> ascii s.
Proof.
  intros checksum c ver t v s H. unfold to_base58_versioned in H. apply bind_ok in H. destruct H as (buf & _ & H).
  injection H as <-. apply b58_ascii.
Qed.

(** ** Strings of documents *)

Lemma strings_arr : forall P l, strings P (JArr l) <-> Forall (strings P) l.
Proof.
  intros P. induction l as [|j l IH]; [split; [constructor|intros; exact I]|]. split.
  - intros (A & B). constructor; [exact A|apply IH; exact B].
  - intros H. inversion H; subst. split; [assumption|apply IH; assumption].
Qed.
Lemma strings_obj : forall P m, strings P (JObj m) <-> Forall (fun p => P (fst p) /\ strings P (snd p)) m.
Proof.
  intros P. induction m as [|(k, j) m IH]; [split; [constructor|intros; exact I]|]. split.
  - intros (A & B & C). constructor; [auto|apply IH; exact C].
  - intros H. inversion H; subst. cbn [fst snd] in *. destruct H2. split; [assumption|]. split; [assumption|]. apply IH; assumption.
Qed.
Lemma strings_tag : forall P tg e j, tag_ser tg e = Ok j -> (strings P j <-> strings P e).
Proof.
  intros P [|x] e j H; [injection H as <-; reflexivity|]. cbn [tag_ser] in H. destruct e; try (injection H as <-; reflexivity).
  - injection H as <-. cbn. tauto.
  - destruct m as [|(k, v) [|p m]]; try discriminate.
    assert (G : strings P (JArr [JStr k; v]) <-> strings P (JObj [(k, v)])) by (cbn; tauto).
    destruct x; [|injection H as <-; exact G]. destruct v; try (injection H as <-; exact G).
    injection H as <-. cbn. tauto.
Qed.

(** ASCII names *)
Definition asciib (s : string) : bool := forallb (fun c => c <? 128) (str_bytes s).
Fixpoint names_ascii (d : dty) : bool :=
  match d with
  | DV d | DOpt d | DVec d => names_ascii d
  | DTup fs | DStruct fs => names_flds fs
  | DEnum _ _ ws => names_vars ws
  | _ => true
  end
with names_flds (fs : flds) : bool :=
  match fs with FNil => true | FCons nm _ d fs => asciib nm && names_ascii d && names_flds fs end
with names_vars (ws : vars) : bool :=
  match ws with WNil => true | WCons nm _ fs ws => asciib nm && names_flds fs && names_vars ws end.

Lemma asciib_valid : forall s, asciib s = true -> utf8_valid (str_bytes s) = true.
Proof.
  intros s H. apply ascii_valid. unfold ascii. apply Forall_forall. intros c I. unfold asciib in H.
  rewrite forallb_forall in H. specialize (H c I). cbv beta in H. lia.
Qed.

Section Text.
  Variable checked : bool.
  Variable checksum : list Z -> list Z.
  Variable addr : list Z -> bool -> list Z.
  Hypothesis addr_ascii : forall x b, ascii (addr x b).

  Notation leaf_ser := (leaf_ser checked checksum addr).
  Notation jser := (jser checked checksum addr).
  Notation jser_flds := (jser_flds checked checksum addr).
  Notation jser_vars := (jser_vars checked checksum addr).

  Lemma leaf_text : forall l v s, rust_val (leaf_ty l) v -> leaf_ser l v = Ok s ->
    (utf8_valid s = true <-> text_ok l v).
  Proof.
    assert (G : forall (s : list Z) (P : Prop), ascii s -> P -> (utf8_valid s = true <-> P)).
    { intros s P A p. split; [intros _; exact p|intros _; apply ascii_valid, A]. }
    intros l v s R S. destruct l; cbn [leaf_ty] in R.
    1-5: destruct R as (R & T), v; try contradiction; cbn in R; injection S as <-.
    - apply G; [apply dec_ascii; lia|exact I].
    - apply G; [|exact I]. destruct (C43_onto z R) as (A & _). apply dec_ascii; lia.
    - apply G; [apply dec_ascii; lia|exact I].
    - apply G; [apply decimal_ascii; lia|exact I].
    - cbn [text_ok char_json_ser utf8_valid]. destruct (z <? 128) eqn:E; lia.
    - apply bytes_seq in R. destruct R as (bs & -> & B & L). injection S as <-. cbn [text_ok]. unfold bytevec_json_ser. reflexivity.
    - apply conv_ok, versioned_ascii in S. apply G; [exact S|exact I].
    - apply bytes_seq in R. destruct R as (bs & -> & B & L). injection S as <-. apply G; [apply b58_ascii|exact I].
    - apply bytes_seq in R. destruct R as (bs & -> & B & L). injection S as <-. apply G; [apply b58_ascii|exact I].
    - apply bytes_seq in R. destruct R as (bs & -> & B & L). injection S as <-. apply G; [apply b64_ascii|exact I].
    - apply G; [|destruct v; exact I]. destruct v as [| | | | | | | | |vs|]; try discriminate.
      cbn [Json.leaf_ser] in S. destruct vs as [|x [|b [|y vs]]]; try discriminate; destruct x; try discriminate; destruct b; try discriminate.
      destruct (_ <? _); [|discriminate]. injection S as <-. apply addr_ascii.
    - apply conv_ok, versioned_ascii in S. apply G; [exact S|exact I].
    - apply (u8s_tup 32) in R. destruct R as (bs & -> & B & L). injection S as <-. apply G; [|exact I]. rewrite ints_map.
      unfold field_json_ser, ascii. repeat (apply Forall_cons; [lia|]). apply hex_ascii, B.
    - cbn [Json.leaf_ser] in S. apply bind_ok in S. destruct S as (bs & _ & S). injection S as <-. apply G; [apply b64_ascii|exact I].
  Qed.

  Notation U := (fun s => utf8_valid s = true).
  Definition txt_d (d : dty) : Prop := names_ascii d = true -> forall v j, rust_val (wire_ty d) v -> jser d v = Ok j ->
    (strings U j <-> leaves text_ok d v).
  Definition txt_fs (fs : flds) : Prop := names_flds fs = true -> forall vs m, typed_list rust_ok (wire_flds fs) vs -> jser_flds fs vs = Ok m ->
    (Forall (fun p => U (fst p) /\ strings U (snd p)) m <-> leaves_flds text_ok fs vs) /\
    (Forall (strings U) (map snd m) <-> leaves_flds text_ok fs vs).
  Definition txt_ws (ws : vars) : Prop := names_vars ws = true -> forall tg i vs ts e, jwf_vars tg ws = true ->
    nth_error (wire_vars ws) i = Some ts -> typed_list rust_ok ts vs -> jser_vars ws i vs = Ok e ->
    (strings U e <-> leaves_vars text_ok ws i vs).

  (** The strings of a document are UTF-8 exactly when the bytes used as texts are. *)
  Lemma txt_all : (forall d, jwf d = true -> txt_d d) /\ (forall fs, jwf_flds fs = true -> txt_fs fs) /\ (forall ws, txt_ws ws).
  Proof.
    pose proof (jser_eqs checked checksum addr) as EQ.
    destruct EQ as (E1 & E2 & E3 & E4 & E5 & E6 & E7 & E8 & E9 & E10 & E11).
    apply json_ind; unfold txt_d, txt_fs, txt_ws.
    - intros l _ _ v j R H. rewrite E1 in H. apply rmap_ok in H. destruct H as (s & S & ->). cbn [strings leaves].
      apply leaf_text; assumption.
    - intros _ _ v j (R & T) H. destruct v; try contradiction. injection H as <-. cbn. tauto.
    - intros _ _ v j (R & T) H. destruct v; try contradiction. injection H as <-. cbn. tauto.
    - intros _ _ v j (R & T) H. destruct v; try contradiction. injection H as <-. cbn. tauto.
    - intros d IH W N v j R H. cbn [wire_ty names_ascii] in *. apply typed_tup in R. destruct R as (_ & vs & -> & T).
      destruct vs as [|x [|y [|z vs]]]; cbn [typed_list] in T;
        try (destruct T as (_ & T); try (destruct T as (_ & T)); contradiction); try contradiction.
      destruct T as ((_ & Sx) & Ty & _). destruct x; try contradiction. rewrite E2 in H. cbn [leaves]. apply (IH W N y j Ty H).
    - intros d IH W N v j (_ & R) H. cbn [jwf names_ascii] in *. apply andb_true_iff in W. destruct W as (_ & W). destruct v; try contradiction.
      + injection H as <-. cbn. tauto.
      + rewrite E3 in H. cbn [leaves]. apply (IH W N v j R H).
    - intros d IH W N v j R H. cbn [jwf wire_ty names_ascii] in *. apply typed_seq in R. destruct R as (_ & vs & -> & T).
      rewrite E4 in H. apply rmap_ok in H. destruct H as (l & H & ->). rewrite strings_arr. cbn [leaves].
      revert l H. induction vs as [|v vs IHvs]; intros l H; cbn [mapM] in H.
      + injection H as <-. split; constructor.
      + apply bind_ok in H. destruct H as (j & Hj & H). apply bind_ok in H. destruct H as (l' & Hl & H). injection H as <-.
        destruct T as (T & Ts). specialize (IH W N v j T Hj). specialize (IHvs Ts l' Hl).
        split; intros F; inversion F; subst; constructor; tauto.
    - intros fs IH W N v j R H. cbn [jwf wire_ty names_ascii] in *. apply typed_tup in R. destruct R as (_ & vs & -> & T).
      rewrite E5 in H. apply rmap_ok in H. destruct H as (m & H & ->). rewrite strings_arr. cbn [leaves]. apply (IH W N vs m T H).
    - intros fs IH W N v j R H. cbn [jwf wire_ty names_ascii] in *. apply andb_true_iff in W. destruct W as (_ & W).
      apply typed_tup in R. destruct R as (_ & vs & -> & T).
      rewrite E6 in H. apply rmap_ok in H. destruct H as (m & H & ->). rewrite strings_obj. cbn [leaves]. apply (IH W N vs m T H).
    - intros tg poly ws IH W N v j R H. apply (enum_typed poly ws v) in R. destruct R as (i & vs & ts & -> & Nt & T).
      cbn [jwf names_ascii] in *. apply andb_true_iff in W. destruct W as (_ & W).
      rewrite E7 in H. apply bind_ok in H. destruct H as (e & S & H). rewrite (strings_tag _ _ _ _ H). cbn [leaves].
      apply (IH N tg i vs ts e W Nt T S).
    - intros _ _ [|v vs] m T H; [|destruct T]. injection H as <-. cbn. split; (split; [intros _; exact I|constructor]).
    - intros nm sk d IHd fs IH W N [|v vs] m T H; [destruct T|]. cbn [wire_flds typed_list] in T. destruct T as (T & Ts).
      cbn [jwf_flds names_flds] in *. apply andb_true_iff in W. destruct W as (Wd & W).
      apply andb_true_iff in N. destruct N as (N & Nf). apply andb_true_iff in N. destruct N as (Nn & Nd). apply asciib_valid in Nn.
      destruct sk as [x|]; cbn [leaves_flds].
      + rewrite E8 in H. apply (IH W Nf vs m Ts H).
      + rewrite E9 in H. apply bind_ok in H. destruct H as (j & Hj & H). apply bind_ok in H. destruct H as (m' & Hm & H). injection H as <-.
        destruct (IH W Nf vs m' Ts Hm) as (A & B). specialize (IHd Wd Nd v j T Hj). rewrite <- IHd. cbn [map fst snd]. split.
        * rewrite <- A. split; [intros F; inversion F; subst; cbn [fst snd] in *; tauto|].
          intros (F1 & F2). constructor; [cbn [fst snd]; auto|exact F2].
        * rewrite <- B. split; [intros F; inversion F; subst; auto|intros (F1 & F2); constructor; assumption].
    - intros _ tg [|i] vs ts e _ H; discriminate.
    - intros nm sh fs IHf ws IH N tg i vs ts e W Nt T H. cbn [jwf_vars names_vars] in *.
      apply andb_true_iff in W. destruct W as (W & Ww). apply andb_true_iff in W. destruct W as (Wsh & Wf).
      apply andb_true_iff in N. destruct N as (N & Nw). apply andb_true_iff in N. destruct N as (Nn & Nf). apply asciib_valid in Nn.
      destruct i as [|i]; cbn [wire_vars nth_error leaves_vars] in *.
      + injection Nt as <-. rewrite E10 in H. apply bind_ok in H. destruct H as (m & S & H).
        destruct (IHf Wf Nf vs m T S) as (A & B). rewrite <- B. destruct sh.
        * assert (Em : m = []).
          { cbn [shape_wf] in Wsh. clear - S Wsh E8 E9 T. revert vs m T S. induction fs as [|n [x|] d fs IH]; intros [|v vs] m T S; cbn [keys length Nat.eqb] in Wsh; try discriminate.
            - injection S as <-. reflexivity.
            - rewrite E8 in S. destruct T as (_ & T). apply (IH Wsh vs m T S). }
          subst m. injection H as <-. cbn. split; [constructor|intros _; exact Nn].
        * destruct m as [|(k, j) [|]]; try discriminate. injection H as <-. cbn [map snd]. cbn [strings].
          split; [intros (F1 & F2 & _); constructor; [exact F2|constructor]|intros F; inversion F; subst; auto].
        * injection H as <-. rewrite <- strings_arr. cbn [strings]. tauto.
        * injection H as <-. pose proof (strings_obj U m) as G. cbv beta in A, G.
          assert (X : strings U (JObj [(str_bytes nm, JObj m)]) <-> strings U (JObj m)).
          { split; [intros (_ & Q & _); exact Q|intros Q; split; [exact Nn|split; [exact Q|exact I]]]. }
          tauto.
      + rewrite E11 in H. apply (IH Nw tg i vs ts e Ww Nt T H).
  Qed.
End Text.
