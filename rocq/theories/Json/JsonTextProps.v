(** C125: JSON texts. *)

From Coq Require Import String ZArith List Bool Lia ZifyBool ZifyNat Permutation.
From Verif Require Import Lib.Res Lib.Bytes Lib.Text BinProt.Prim BinProt.Codec BinProt.CodecSpec Wire.Types Text.Base58 Text.Base58Props Text.FieldText Text.Checksum Text.ChecksumProps
  Json.Json Json.JsonSpec Json.JsonFacts Json.JsonTypes Json.JsonReadFacts Json.JsonTextFacts Json.JsonProps Hashing.Command Hashing.State
  Convert.Conv Convert.BlockConv Convert.ConvSpec Convert.View Convert.Block Convert.BlockProps Convert.JsonBlock Convert.JsonBlockSpec Convert.JsonBlockProps Convert.JsonViewSpec Convert.JsonViewFacts Convert.JsonViewProps.
From Verif Require Import Json.Grammar Json.Parse Json.ParseFacts Json.JsonText Json.TextSpec Json.PrintFacts Json.TextFacts Json.TextReadFacts Json.TextWriteFacts Json.SaysFacts Json.BlockText.
Import ListNotations.
Local Open Scope string_scope.
Local Open Scope list_scope.
Local Open Scope Z_scope.
Notation length := List.length.

(** ** The texts *)
(** What is accepted is what RFC 8259 calls a JSON text. *)
Theorem C125_parse : forall s r, parse s = Some r <-> json_text s r.
Proof. exact parse_iff. Qed.
(** A text has one reading. *)
Theorem C125_one_reading : forall s r r', json_text s r -> json_text s r' -> r = r'.
Proof. intros s r r' A B. apply parse_iff in A, B. congruence. Qed.

(** A string type, inside version wrappers *)
Fixpoint leaf_in (d : dty) : option leaf := match d with DLeaf l => Some l | DV d => leaf_in d | _ => None end.
(** The types with [impl_strconv_via_json] that have a JSON form in
    Json/JsonTypes.v: crypto/src/hash/types.rs 158-173, 227, 318, 346, 436,
    445, protocol/serialization-types/src/signatures.rs 34, base/src/
    numbers.rs 212, user_commands/memo.rs 17, consensus_state.rs 75 *)
Definition string_types : list dty :=
  [jLedgerHash; jCoinBaseHash; jEpochSeed; jStateHash; jAuxHash; jPendingAux; jPub; jChar; jMemo; jVrf].
(** A struct, inside version wrappers *)
Fixpoint struct_in (d : dty) : option flds := match d with DStruct fs => Some fs | DV d => struct_in d | _ => None end.
Fixpoint listed_in (d : dty) : bool := match d with DEnum (Listed _) _ _ => true | DV d => listed_in d | _ => false end.
(** the names of the members of a struct *)
Fixpoint names (fs : flds) : list (list Z) :=
  match fs with FNil => [] | FCons nm None _ fs => str_bytes nm :: names fs | FCons _ (Some _) _ fs => names fs end.

Section Props.
  Variable checked : bool.
  Variable float_of : list Z -> option Z.
  Variable float_text : Z -> list Z.
  Notation sha := sha_checksum.
  Notation read := (jde checked sha (from_address sha)).
  Notation write := (jser checked sha (into_address sha)).
  Notation from := (from_text checked sha (from_address sha) float_of).
  Notation to := (to_text checked sha (into_address sha) float_text).
  Notation tde := (tde checked sha (from_address sha) float_of).
  Notation tser := (tser checked sha (into_address sha)).

  (** ** Reading *)
  (** A text that names no member twice and is not too deep is read as its
      document is. *)
  Theorem C125_read_iff : forall d t s r j v, json_type d t -> json_text s r -> says float_of r j -> once r -> (depth r <= 127)%nat ->
    (from d s = Ok v <-> read d j = Ok v).
  Proof.
    intros d t s r j v T P S O D. apply parse_iff in P. unfold from_text. rewrite P.
    pose proof (says_distinct float_of r j S O) as X.
    rewrite (proj1 (agree_all checked sha (from_address sha) float_of) d (only_units d t T) r (sorted j) MAX_DEPTH (says_value float_of r j S) O D v).
    split; apply (proj1 (same_all checked sha (from_address sha))); [apply sorted_same, X|apply same_sorted, X].
  Qed.
  Theorem C125_not_json : forall d s, (forall r, ~ json_text s r) -> from d s = Err JE.
  Proof.
    intros d s N. unfold from_text. destruct (parse s) as [r|] eqn:P; [|reflexivity]. apply parse_iff in P. destruct (N r P).
  Qed.
  (** What is read of such a text is a value of the type. *)
  Theorem C125_read_sound : forall d t s r j v, json_type d t -> rust_text s -> json_text s r -> says float_of r j -> once r -> (depth r <= 127)%nat ->
    from d s = Ok v -> rust_val t v /\ declared d v.
  Proof.
    intros d t s r j v T R P S O D E. apply (C125_read_iff d t s r j v T P S O D) in E.
    exact (C84_read_sound checked sha (from_address sha) sha_unaddr_ok d t j v T (text_json_ok float_of s r j R P S) E).
  Qed.

  (** ** Writing *)
  Lemma addr_bytes : forall x b, bytes_ok (into_address sha x b).
  Proof. intros x b. apply b58_bytes. Qed.
  Lemma written : forall d t v, json_type d t -> rust_val t v -> leaves key_ok d v ->
    exists s r j j0, to d v = Ok s /\ json_text s r /\ says float_of r j /\ once r /\ (depth r <= 127)%nat /\ read d j = Ok (norm d v) /\
      write d v = Ok j0 /\ same j0 j /\ tser d v = Ok j.
  Proof.
    intros d t v T R K.
    destruct (C82_round_trip checked sha (into_address sha) (from_address sha) sha_checksum_len sha_checksum_bytes sha_addr_back d t v T R K) as (j0 & W & Rd).
    pose proof (proj1 (once_all checked sha (into_address sha)) d v j0 (json_type_wf d t T) W) as D0.
    pose proof (proj1 (like_all checked sha (into_address sha)) d v) as L. rewrite W in L. destruct (tser d v) as [j|e|] eqn:E; try contradiction. cbn [like] in L.
    pose proof (L D0) as Sm. pose proof (same_distinct _ _ Sm D0) as Dj.
    pose proof R as R'. rewrite <- (json_type_wire d t T) in R'.
    pose proof (proj1 (tgood_all checked sha (into_address sha) addr_bytes) d v j R' E) as G.
    destruct (good_parts float_text j _ G) as (NF & IR & SB & Dp). pose proof (levels_small d t T) as Ls. apply Nat.leb_le in Ls.
    exists (print float_text j), (raw_of float_text j), j, j0. split; [unfold to_text; rewrite E; reflexivity|].
    split; [apply parse_iff, parse_print; assumption|]. split; [apply raw_says; assumption|]. split; [apply raw_once, Dj|].
    split; [change 127%nat with MAX_DEPTH; lia|]. split; [exact (proj1 (same_all checked sha (from_address sha)) d j0 j _ Sm Rd)|]. auto.
  Qed.
  (** Every value is written as a JSON text, without repeated members and not
      too deep, and read back. *)
  Theorem C125_round_trip : forall d t v, json_type d t -> rust_val t v -> leaves key_ok d v ->
    exists s r, to d v = Ok s /\ json_text s r /\ once r /\ (depth r <= 127)%nat /\ from d s = Ok (norm d v).
  Proof.
    intros d t v T R K. destruct (written d t v T R K) as (s & r & j & j0 & W & P & S & O & D & E & _). exists s, r.
    split; [exact W|]. split; [exact P|]. split; [exact O|]. split; [exact D|]. apply (C125_read_iff d t s r j _ T P S O D), E.
  Qed.
  (** The text is that of the document of the value, in an order of members. *)
  Theorem C125_written : forall d t v s, json_type d t -> rust_val t v -> leaves key_ok d v -> to d v = Ok s ->
    exists j r j', write d v = Ok j /\ json_text s r /\ says float_of r j' /\ same j j'.
  Proof.
    intros d t v s T R K E. destruct (written d t v T R K) as (s' & r & j & j0 & W & P & S & _ & _ & _ & W0 & Sm & _). rewrite E in W. injection W as <-.
    exists j0, r, j. auto.
  Qed.
  (** Two values with one text are the same but for what JSON does not carry. *)
  Theorem C125_injective : forall d t v w s, json_type d t -> rust_val t v -> rust_val t w -> leaves key_ok d v -> leaves key_ok d w ->
    to d v = Ok s -> to d w = Ok s -> norm d v = norm d w.
  Proof.
    intros d t v w s T Rv Rw Kv Kw Ev Ew. destruct (C125_round_trip d t v T Rv Kv) as (s1 & r1 & W1 & _ & _ & _ & E1).
    destruct (C125_round_trip d t w T Rw Kw) as (s2 & r2 & W2 & _ & _ & _ & E2). congruence.
  Qed.

  (** ** Strings and values ([impl_strconv_via_json]) *)
  Lemma leaf_text : forall d l lim s, leaf_in d = Some l -> tde d lim (RStr s) = read d (JStr s).
  Proof.
    pose proof (jde_eqs checked sha (from_address sha)) as (E1 & E2 & _).
    induction d; intros l0 lim s H; cbn [leaf_in] in H; try discriminate; [reflexivity|]. cbn [JsonText.tde]. rewrite E2. rewrite (IHd l0 lim s H). reflexivity.
  Qed.
  Theorem C125_from_string : forall d l s, leaf_in d = Some l -> bytes_ok s ->
    str_try_from checked sha (from_address sha) float_of float_text d s = read d (JStr s).
  Proof.
    intros d l s H B. unfold str_try_from, from_text. rewrite parse_print; [|exact I|exact B]. cbn [raw_of]. apply (leaf_text d l), H.
  Qed.
  Lemma leaf_write : forall d l v, leaf_in d = Some l -> tser d v = write d v /\ forall j, write d v = Ok j -> exists s, j = JStr s.
  Proof.
    pose proof (jser_eqs checked sha (into_address sha)) as (E1 & E2 & _).
    induction d; intros l0 v H; cbn [leaf_in] in H; try discriminate.
    - split; [destruct v; reflexivity|]. intros j. rewrite E1. intros E. apply rmap_ok in E. destruct E as (s & _ & ->). eauto.
    - destruct v as [| | | | | | | | |[|a [|w [|]]]|]; try (split; [reflexivity|discriminate]); destruct a; try (split; [reflexivity|discriminate]).
      cbn [JsonText.tser]. rewrite E2. exact (IHd l0 w H).
  Qed.
  Theorem C125_into_string : forall d l v s, leaf_in d = Some l -> rust_val (wire_ty d) v ->
    (str_try_into checked sha (into_address sha) float_text d v = Ok s <-> write d v = Ok (JStr s)).
  Proof.
    intros d l v s H R. destruct (leaf_write d l v H) as (E & Sh). unfold str_try_into, to_text. rewrite E.
    pose proof (proj1 (jgood_all checked sha (into_address sha) addr_bytes) d v) as G.
    destruct (write d v) as [j|e|] eqn:W; cbn [rmap bind]; [|split; discriminate|split; discriminate].
    destruct (Sh j eq_refl) as (s' & ->). pose proof (G _ R eq_refl) as B. rewrite parse_print; [|exact I|exact B]. cbn [raw_of]. split; injection 1 as ->; reflexivity.
  Qed.
  (** The string of a value gives the value back. *)
  Theorem C125_string_round_trip : forall d v, In d string_types -> rust_val (wire_ty d) v -> leaves key_ok d v ->
    exists s, str_try_into checked sha (into_address sha) float_text d v = Ok s /\
      str_try_from checked sha (from_address sha) float_of float_text d s = Ok (norm d v).
  Proof.
    intros d v Sd R K. assert (W : jwf d = true) by (unfold string_types in Sd; repeat (destruct Sd as [<-|Sd]; [reflexivity|]); destruct Sd).
    assert (H : exists l, leaf_in d = Some l) by (unfold string_types in Sd; repeat (destruct Sd as [<-|Sd]; [eexists; reflexivity|]); destruct Sd).
    destruct H as (l & H).
    destruct (proj1 (back_all checked sha (into_address sha) (from_address sha) sha_checksum_len sha_checksum_bytes sha_addr_back) d W v R K) as (j & Wr & Rd & _).
    destruct (proj2 (leaf_write d l v H) j Wr) as (s & ->). exists s. split; [apply (C125_into_string d l v s H R), Wr|].
    rewrite (C125_from_string d l s H); [exact Rd|]. exact (proj1 (jgood_all checked sha (into_address sha) addr_bytes) d v _ R Wr).
  Qed.

  (** ** What is refused *)
  Lemma known_some : forall fs lim k r, In k (names fs) -> exists x, tfld_de checked sha (from_address sha) float_of fs lim k r = Some x.
  Proof.
    induction fs as [|nm [x|] d fs IH]; intros lim k r I; [destruct I|exact (IH lim k r I)|]. cbn [names In] in I. cbn [tfld_de].
    destruct (key_eqb (str_bytes nm) k) eqn:E; [eauto|]. destruct I as [<-|I]; [rewrite key_eqb_refl in E; discriminate|]. exact (IH lim k r I).
  Qed.
  Lemma loop_seen : forall f k, (forall r, exists x, f k r = Some x) -> forall m seen vs, In k seen -> In k (map fst m) -> member_loop f seen m <> Ok vs.
  Proof.
    intros f k F. induction m as [|[k' r] m IH]; intros seen vs S I E; [destruct I|]. cbn [map fst In member_loop] in *.
    destruct (list_eq_dec Z.eq_dec k' k) as [->|N].
    - destruct (F r) as (x & Fx). rewrite Fx in E. replace (existsb (key_eqb k) seen) with true in E; [discriminate E|].
      symmetry. apply existsb_exists. exists k. split; [exact S|apply key_eqb_refl].
    - destruct I as [I|I]; [contradiction|]. destruct (f k' r) as [x|]; [|exact (IH seen vs S I E)].
      destruct (existsb _ _); [discriminate E|]. apply bind_ok in E. destruct E as (v & _ & E). apply bind_ok in E. destruct E as (w & E & _).
      apply (IH (k' :: seen) w); [right; exact S|exact I|exact E].
  Qed.
  Lemma loop_twice : forall f k, (forall r, exists x, f k r = Some x) -> forall m1 r1 m2 seen vs, In k (map fst m2) -> member_loop f seen (m1 ++ (k, r1) :: m2) <> Ok vs.
  Proof.
    intros f k F. induction m1 as [|[k' r] m IH]; intros r1 m2 seen vs I E; cbn [app member_loop] in E.
    - destruct (F r1) as (x & Fx). rewrite Fx in E. destruct (existsb _ _); [discriminate E|]. apply bind_ok in E. destruct E as (v & _ & E). apply bind_ok in E. destruct E as (w & E & _).
      apply (loop_seen f k F m2 (k :: seen) w); [left; reflexivity|exact I|exact E].
    - destruct (f k' r) as [x|]; [|exact (IH _ _ _ _ I E)].
      destruct (existsb _ _); [discriminate E|]. apply bind_ok in E. destruct E as (v & _ & E). apply bind_ok in E. destruct E as (w & E & _). exact (IH _ _ _ _ I E).
  Qed.
  (** An object with a member of the struct twice is no value of the struct. *)
  Theorem C125_repeated : forall d fs k s m1 r1 m2 r2 m3 v, struct_in d = Some fs -> In k (names fs) ->
    json_text s (RObj (m1 ++ (k, r1) :: m2 ++ (k, r2) :: m3)) -> from d s <> Ok v.
  Proof.
    intros d fs k s m1 r1 m2 r2 m3 v H K P. apply parse_iff in P. unfold from_text. rewrite P. clear P. change MAX_DEPTH with (S 126). generalize 126%nat. intros lim.
    revert v. induction d; intros v E; cbn [struct_in] in H; try discriminate.
    - cbn [JsonText.tde] in E. apply bind_ok in E. destruct E as (w & E & _). exact (IHd H w E).
    - injection H as ->. cbn [JsonText.tde] in E. apply bind_ok in E. destruct E as (w & E & _).
      revert E. apply loop_twice with (k := k); [intros r; apply known_some, K|]. rewrite map_app. apply in_or_app. right. left. reflexivity.
  Qed.
  (** An enum is refused that goes more than 127 levels deep. *)
  Theorem C125_deep : forall d s r v, listed_in d = true -> json_text s r -> (127 < depth r)%nat -> from d s <> Ok v.
  Proof.
    intros d s r v H P L. apply parse_iff in P. unfold from_text. rewrite P. clear P. assert (L' : (depth r <=? MAX_DEPTH)%nat = false) by (apply Nat.leb_gt; exact L).
    revert L'. generalize MAX_DEPTH. clear L. intros lim L. revert v. induction d; intros v E; cbn [listed_in] in H; try discriminate.
    - cbn [JsonText.tde] in E. apply bind_ok in E. destruct E as (w & E & _). exact (IHd H w E).
    - destruct tg; [discriminate|]. cbn [JsonText.tde] in E. destruct (value_of float_of r); [|discriminate E]. rewrite L in E. discriminate E.
  Qed.

  (** ** Blocks, states and commands *)
  Notation into c d b := (try_into_text checked sha (into_address sha) float_text d c b).
  Notation take c d s := (try_from_text checked sha (from_address sha) float_of d c s).
  Notation take_json c d j := (try_from_json checked sha (from_address sha) d c j).
  Lemma take_iff : forall d c t s r j b, In (d, c, t) json_forms -> json_text s r -> says float_of r j -> once r -> (depth r <= 127)%nat ->
    (take c d s = Ok b <-> take_json c d j = Ok b).
  Proof.
    intros d c t s r j b F P S O D. destruct (forms_ok d c t F) as (T & _). unfold try_from_text, try_from_json.
    split; intros E; apply bind_ok in E; destruct E as (v & V & E); apply (C125_read_iff d t s r j v T P S O D) in V; rewrite V; exact E.
  Qed.
  Theorem C125_block_round_trip : forall d c t b, In (d, c, t) json_forms -> base_val c t b ->
    exists s r j, into c d b = Ok s /\ json_text s r /\ says float_of r j /\ once r /\ (depth r <= 127)%nat /\ take c d s = Ok (carried t b).
  Proof.
    intros d c t b F B. destruct (forms_ok d c t F) as (T & I). destruct (up_every c t b I B) as (R & D & E & K).
    assert (L : leaves key_ok d (up c b)) by (apply (proj1 JsonBlockFacts.keys_all); rewrite (json_type_wire d t T); assumption).
    destruct (written d t (up c b) T R L) as (s & r & j & j9 & W & P & S & O & Dp & Rd & _). exists s, r, j.
    split; [exact W|]. split; [exact P|]. split; [exact S|]. split; [exact O|]. split; [exact Dp|].
    apply (take_iff d c t s r j _ F P S O Dp). destruct (through checked d c t b F B) as (j0 & _ & J0 & F0).
    unfold try_from_json in *. rewrite J0 in F0. cbn [bind] in F0.
    destruct (C82_round_trip checked sha (into_address sha) (from_address sha) sha_checksum_len sha_checksum_bytes sha_addr_back d t (up c b) T R L) as (j1 & W1 & R1).
    assert (Q : norm d (up c b) = up c (carried t b)).
    { destruct (through checked d c t b F B) as (j2 & W2 & J2 & _). unfold try_into_json in W2. congruence. }
    rewrite Rd, Q. exact F0.
  Qed.
  (** A text is read as a protocol state exactly if it says one. *)
  Theorem C125_state : forall s r j st, rust_text s -> json_text s r -> says float_of r j -> once r -> (depth r <= 127)%nat ->
    ((exists b, take C_state jProtocolState s = Ok b /\ state_of b = st) <-> d_state sha true j st).
  Proof.
    intros s r j st R P S O D. rewrite <- (C124_state checked j st (text_json_ok float_of s r j R P S) (says_distinct float_of r j S O)).
    assert (F : In (jProtocolState, C_state, ProtocolStateV1) json_forms) by (right; left; reflexivity).
    split; intros (b & E & X); exists b; (split; [apply (take_iff _ _ _ s r j b F P S O D), E|exact X]).
  Qed.
  (** A state is written in the order of its members. *)
  Theorem C125_state_written : forall b s, base_val C_state ProtocolStateV1 b -> into C_state jProtocolState b = Ok s ->
    exists r j, json_text s r /\ says float_of r j /\ d_state sha false j (state_of b).
  Proof.
    intros b s B E. assert (F : In (jProtocolState, C_state, ProtocolStateV1) json_forms) by (right; left; reflexivity).
    destruct (forms_ok _ _ _ F) as (T & I). destruct (up_every C_state ProtocolStateV1 b I B) as (R & D & V & K).
    assert (L : leaves key_ok jProtocolState (up C_state b)) by (apply (proj1 JsonBlockFacts.keys_all); rewrite (json_type_wire _ _ T); assumption).
    destruct (written _ _ _ T R L) as (s' & r & j & j0 & W & P & S & _ & _ & _ & W0 & _ & Tj).
    assert (E' : Ok s = Ok s') by (rewrite <- E; exact W). injection E' as <-.
    exists r, j. split; [exact P|]. split; [exact S|]. apply (C124_state_written checked b j B).
    rewrite (proj1 (plain_all checked sha (into_address sha)) jProtocolState eq_refl) in Tj. exact Tj.
  Qed.
  Theorem C125_command : forall s r j c, rust_text s -> json_text s r -> says float_of r j -> once r -> (depth r <= 127)%nat ->
    d_command sha plain_amount true j c -> exists b, take C_command jSignedCommand s = Ok b /\ command_of b = c.
  Proof.
    intros s r j c R P S O D X. destruct (C124_command checked j c (text_json_ok float_of s r j R P S) (says_distinct float_of r j S O) X) as (b & E & Q).
    exists b. split; [|exact Q]. apply (take_iff _ _ _ s r j b (or_intror (or_intror (or_introl eq_refl))) P S O D), E.
  Qed.
End Props.

(** ** Cases and counterexamples *)

Lemma is_ok : forall x : res jerr val, match x with Ok _ => true | _ => false end = true -> exists v, x = Ok v.
Proof. intros [v|e|] H; [eauto|discriminate|discriminate]. Qed.
(** blanks, an escape and a member that is not known *)
Definition ledger_text : list Z :=
  str_bytes " { ""total_currency"" : ""\u0035"",""x"":[1, -2.5e3, null]
 ,""hash"":""jx7buQVWFLsXTtzRgSxbYcT8EYLS8KCZbLrfDcJxMtyy4thw2Ee"" } ".
Definition ledger_raw : raw :=
  RObj [(str_bytes "total_currency", RStr [53]); (str_bytes "x", RArr [RNum [49]; RNum (str_bytes "-2.5e3"); RNull]);
        (str_bytes "hash", RStr (str_bytes "jx7buQVWFLsXTtzRgSxbYcT8EYLS8KCZbLrfDcJxMtyy4thw2Ee"))].
Definition ledger_json : json :=
  JObj [(str_bytes "total_currency", JStr [53]); (str_bytes "x", JArr [JNum 1; JFloat 0; JNull]);
        (str_bytes "hash", JStr (str_bytes "jx7buQVWFLsXTtzRgSxbYcT8EYLS8KCZbLrfDcJxMtyy4thw2Ee"))].
Lemma ledger_type : json_type jEpochLedger EpochLedgerV1.
Proof. exists "EpochLedger". unfold json_types. repeat (try (left; reflexivity); right). Qed.
Example C125_ex : json_type jEpochLedger EpochLedgerV1 /\ rust_text ledger_text /\ json_text ledger_text ledger_raw /\
  says (fun _ => Some 0) ledger_raw ledger_json /\ once ledger_raw /\ (depth ledger_raw <= 127)%nat /\
  exists v, from_text false sha_checksum (from_address sha_checksum) (fun _ => Some 0) jEpochLedger ledger_text = Ok v.
Proof.
  split; [exact ledger_type|]. split; [split; [apply str_bytes_ok|split; [vm_compute; reflexivity|vm_compute; reflexivity]]|].
  split; [apply parse_iff; vm_compute; reflexivity|]. split.
  - constructor. constructor; [split; [reflexivity|constructor]|]. constructor; [split; [reflexivity|]|constructor; [split; [reflexivity|constructor]|constructor]].
    constructor. constructor; [|constructor; [|constructor; [constructor|constructor]]].
    + apply (Y_int _ [49] 1); [|unfold int64; lia]. apply (I_plus [49]); [discriminate|]. constructor; [reflexivity|constructor].
    + apply Y_float; [|reflexivity]. intros z H. exfalso. inversion H as [t N D E|t D N E]; subst.
      * inversion D as [|? ? X _]; subst. vm_compute in X. discriminate X.
      * inversion D as [|? ? _ X]; subst. inversion X as [|? ? Y _]; subst. discriminate Y.
  - split.
    + cbn [once ledger_raw]. split; [|repeat split]. apply nodupb_iff. vm_compute. reflexivity.
    + split; [vm_compute; repeat constructor|].
      apply is_ok. vm_compute. reflexivity.
Qed.
(** no JSON: a comma too many, a leading zero, half of a surrogate pair *)
Example C125_bad : Forall (fun t => forall r, ~ json_text (str_bytes t) r) ["[1,]"; "01"; """\ud800"""; "{""a"" 1}"; "nul"; "1."; ""].
Proof.
  assert (X : forall t, parse t = None -> forall r, ~ json_text t r) by (intros t E r P; apply parse_iff in P; congruence).
  repeat (apply Forall_cons; [apply X; vm_compute; reflexivity|]). apply Forall_nil.
Qed.

(** A payment in a command with two amounts is read with the last one: behind
    a list-tagged enum nothing notices repeated members. *)
Definition two_amounts : list Z :=
  str_bytes "[""Payment"",{""source_pk"":""B62qigw2U1sVRR29odR5Fb4KN2KsCwK8NGfVoniT2hnTMvCAfz4vDAf"",""receiver_pk"":""B62qiismeFKXGqhNwSznAAgKKLve83vr1yWNbRnZGrUMMaCZAawrNAP"",""token_id"":""1"",""amount"":""5"",""amount"":""7000""}]".
Definition amount_in (v : val) : option Z :=
  match v with VTup [_; VTup [_; VEnum _ [VTup [_; VTup [_; VTup [_; _; _; VTup [_; VTup [_; VInt z]]]]]]]] => Some z | _ => None end.
Theorem C125_repeated_refuted : exists s m v,
  json_text s (RArr [RStr (str_bytes "Payment"); RObj m]) /\ ~ NoDup (map fst m) /\
  In (str_bytes "amount", RStr (str_bytes "5")) m /\ In (str_bytes "amount", RStr (str_bytes "7000")) m /\
  (forall c, from_text c sha_checksum (from_address sha_checksum) (fun _ => None) jPayloadBody s = Ok v) /\ amount_in v = Some 7000.
Proof.
  exists two_amounts.
  exists [(str_bytes "source_pk", RStr (str_bytes "B62qigw2U1sVRR29odR5Fb4KN2KsCwK8NGfVoniT2hnTMvCAfz4vDAf"));
    (str_bytes "receiver_pk", RStr (str_bytes "B62qiismeFKXGqhNwSznAAgKKLve83vr1yWNbRnZGrUMMaCZAawrNAP"));
    (str_bytes "token_id", RStr (str_bytes "1")); (str_bytes "amount", RStr (str_bytes "5")); (str_bytes "amount", RStr (str_bytes "7000"))].
  exists (match from_text false sha_checksum (from_address sha_checksum) (fun _ => None) jPayloadBody two_amounts with Ok v => v | _ => VUnit end).
  split; [apply parse_iff; vm_compute; reflexivity|]. split.
  - cbn [map fst]. intros N. do 3 (inversion N as [|? ? _ N']; subst; clear N; rename N' into N). inversion N as [|? ? X _]; subst. apply X. left. reflexivity.
  - split; [right; right; right; left; reflexivity|]. split; [right; right; right; right; left; reflexivity|]. split; [intros []; vm_compute; reflexivity|vm_compute; reflexivity].
Qed.
(** The same amounts in a payment by itself are refused. *)
Example C125_repeated_ex : exists s fs m1 r1 m2 r2 m3, struct_in jPayment = Some fs /\ In (str_bytes "amount") (names fs) /\
  json_text s (RObj (m1 ++ (str_bytes "amount", r1) :: m2 ++ (str_bytes "amount", r2) :: m3)).
Proof.
  exists (str_bytes "{""amount"":""5"",""amount"":""5""}"). eexists. exists [], (RStr [53]), [], (RStr [53]), []. split; [reflexivity|].
  split; [vm_compute; tauto|]. apply parse_iff. vm_compute. reflexivity.
Qed.
(** A member that is not known may be as deep as it likes. *)
Definition deep_text (n : nat) : list Z := repeat 91 n ++ repeat 93 n.
Theorem C125_deep_refuted : exists s r v, json_text s r /\ (127 < depth r)%nat /\
  from_text false sha_checksum (from_address sha_checksum) (fun _ => None) jEpochLedger s = Ok v.
Proof.
  set (s := str_bytes "{""x"":" ++ deep_text 130 ++ str_bytes ",""total_currency"":""5"",""hash"":""jx7buQVWFLsXTtzRgSxbYcT8EYLS8KCZbLrfDcJxMtyy4thw2Ee""}").
  exists s, (match parse s with Some r => r | None => RNull end).
  exists (match from_text false sha_checksum (from_address sha_checksum) (fun _ => None) jEpochLedger s with Ok v => v | _ => VUnit end).
  split; [apply parse_iff; vm_compute; reflexivity|]. split; [apply Nat.ltb_lt; vm_compute; reflexivity|vm_compute; reflexivity].
Qed.
Example C125_deep_ex : listed_in jPayloadBody = true /\ exists r, json_text (deep_text 128) r /\ (127 < depth r)%nat.
Proof.
  split; [reflexivity|]. exists (match parse (deep_text 128) with Some r => r | None => RNull end).
  split; [apply parse_iff; vm_compute; reflexivity|apply Nat.ltb_lt; vm_compute; reflexivity].
Qed.
(** strings: the hash of a ledger *)
Example C125_string_ex : In jLedgerHash string_types /\ exists v,
  str_try_from true sha_checksum (from_address sha_checksum) (fun _ => None) (fun _ => []) jLedgerHash (str_bytes "jx7buQVWFLsXTtzRgSxbYcT8EYLS8KCZbLrfDcJxMtyy4thw2Ee") = Ok v /\
  rust_val (wire_ty jLedgerHash) v.
Proof.
  split; [left; reflexivity|].
  assert (E : exists v, jde true sha_checksum (from_address sha_checksum) jLedgerHash (JStr (str_bytes "jx7buQVWFLsXTtzRgSxbYcT8EYLS8KCZbLrfDcJxMtyy4thw2Ee")) = Ok v)
    by (apply is_ok; vm_compute; reflexivity).
  destruct E as (v & E). exists v. split.
  - rewrite (C125_from_string true _ _ jLedgerHash (LHash LEDGER_HASH)); [exact E|reflexivity|apply str_bytes_ok].
  - refine (proj1 (proj1 (snd_all true sha_checksum (from_address sha_checksum) sha_unaddr_ok) jLedgerHash eq_refl I _ v _ E)).
    cbn [json_ok]. split; [apply str_bytes_ok|]. split; vm_compute; reflexivity.
Qed.
(** the text of a command *)
Example C125_command_ex : exists s r, rust_text s /\ json_text s r /\ says (fun _ => None) r (a_document "0.002") /\ once r /\ (depth r <= 127)%nat /\
  exists c, d_command sha_checksum plain_amount true (a_document "0.002") c.
Proof.
  exists (print (fun _ => []) (a_document "0.002")), (raw_of (fun _ => []) (a_document "0.002")). destruct C124_ex as (J & D & c & X & _).
  assert (G : good 9 (a_document "0.002")).
  { unfold a_document, object, text. cbn [map fst snd good]. repeat (first [apply str_bytes_ok|exact I|split]). }
  destruct (good_parts (fun _ => []) _ _ G) as (NF & IR & SB & Dp).
  assert (P : json_text (print (fun _ => []) (a_document "0.002")) (raw_of (fun _ => []) (a_document "0.002"))) by (apply parse_iff, parse_print; assumption).
  split; [split; [|split; vm_compute; reflexivity]|].
  - apply Forall_forall. intros x I. assert (F : forallb (fun b => (0 <=? b) && (b <? 256)) (print (fun _ => []) (a_document "0.002")) = true) by (vm_compute; reflexivity).
    rewrite forallb_forall in F. specialize (F x I). unfold byte_ok. lia.
  - split; [exact P|]. split; [apply raw_says; assumption|]. split; [apply raw_once, D|]. split; [lia|]. eauto.
Qed.

Print Assumptions C125_parse.
Print Assumptions C125_one_reading.
Print Assumptions C125_read_iff.
Print Assumptions C125_not_json.
Print Assumptions C125_read_sound.
Print Assumptions C125_round_trip.
Print Assumptions C125_written.
Print Assumptions C125_injective.
Print Assumptions C125_from_string.
Print Assumptions C125_into_string.
Print Assumptions C125_string_round_trip.
Print Assumptions C125_repeated.
Print Assumptions C125_deep.
Print Assumptions C125_block_round_trip.
Print Assumptions C125_state.
Print Assumptions C125_state_written.
Print Assumptions C125_command.
Print Assumptions C125_repeated_refuted.
Print Assumptions C125_deep_refuted.
