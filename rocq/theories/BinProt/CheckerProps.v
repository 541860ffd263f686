(** C115: the command line checker of the codec. *)

From Coq Require Import String ZArith List Bool Lia ZifyBool ZifyNat.
From Verif Require Import Lib.Res Lib.Bytes Lib.Decimal BinProt.Prim BinProt.PrimProofs BinProt.Codec BinProt.CodecSpec BinProt.CodecFacts
  BinProt.CodecProps BinProt.BufRead BinProt.BufReadProofs.
From Verif Require Import BinProt.Checker.
Import ListNotations.
Local Open Scope Z_scope.
Notation length := List.length.

(** Values that a Rust program can hold. *)
Definition test_ok (t : test) : Prop :=
  match t with
  | Nat0 n => Z.of_nat n < 2 ^ 64
  | Int z | Int32 z => - 2 ^ 31 <= z < 2 ^ 31
  | Int64 z => - 2 ^ 63 <= z < 2 ^ 63
  | Rec s => - 2 ^ 31 <= s_a s < 2 ^ 31
  | Variant (VA a) => - 2 ^ 31 <= a < 2 ^ 31
  | _ => True
  end.
(** Of the same kind. *)
Definition same_kind (a b : test) : Prop :=
  match a, b with
  | Nat0 _, Nat0 _ | Bool _, Bool _ | Int _, Int _ | Int32 _, Int32 _ | Int64 _, Int64 _
  | Enum _, Enum _ | Rec _, Rec _ | Variant _, Variant _ => True
  | _, _ => False
  end.

Lemma units_fit : forall c n, typed_all (fun t v => rust_ok t v /\ wire_ok c t v) TUnit (repeat VUnit n).
Proof. induction n; [exact I|]. cbn [repeat typed_all]. split; [repeat split|exact IHn]. Qed.
Lemma e_fits : forall c e, fits c E_ty (E_val e).
Proof. intros c e. unfold fits, E_ty, E_val. destruct e; cbn; repeat split; lia. Qed.
Lemma test_fits : forall c t, test_ok t -> fits c (test_ty t) (test_val t).
Proof.
  intros c t O. destruct t as [n|b|z|z|z|e|s|v]; cbn [test_ty test_val test_ok] in *.
  - split; [split; [cbn; rewrite repeat_length; lia|exact I]|apply units_fit].
  - repeat split.
  - repeat split; cbn; lia.
  - repeat split; cbn; lia.
  - repeat split; cbn; lia.
  - apply e_fits.
  - pose proof (e_fits c (s_c s)) as F. unfold fits, S_ty, S_val in *. cbn [typed]. 
    split; [split; [exact I|exact I]|]. split; [repeat split; cbn; lia|]. split; [repeat split|]. split; [exact F|exact I].
  - destruct v as [a|b|x]; unfold fits, V_ty, V_val in *.
    + cbn; repeat split; lia.
    + cbn; repeat split; lia.
    + pose proof (e_fits c x) as F. unfold fits in F. cbn [typed]. split; [split; cbn; lia|]. split; [exact F|exact I].
Qed.
Lemma test_back : forall t u, same_kind t u -> test_of t (test_val u) = u.
Proof.
  intros t u K. destruct t, u; cbn in K; try contradiction; cbn [test_of test_val]; try reflexivity.
  - rewrite repeat_length. reflexivity.
  - destruct e0; reflexivity.
  - destruct s0 as [a b [| |]]; reflexivity.
  - destruct v0 as [a|b|[| |]]; reflexivity.
Qed.
Lemma kind_ty : forall t u, same_kind t u -> test_ty t = test_ty u.
Proof. intros [] [] K; try contradiction; reflexivity. Qed.
Lemma serialize_plain : forall c t, serialize c t = to_bytes c (test_ty t) (test_val t).
Proof. intros c []; reflexivity. Qed.

(** Every value that a test can hold is written, and read back in whatever
    pieces the bytes come; bytes behind it are not looked at. *)
Theorem C115_round_trip : forall checked t u, same_kind t u -> test_ok u ->
  exists bs, serialize checked u = Ok bs /\
    forall rest i, chunks_ok i -> concat i = bs ++ rest -> deserialize checked t i = Ok u.
Proof.
  intros c t u K O. destruct (C04_typed_round_trip c (test_ty u) (test_val u) (test_fits c u O)) as (bs & W & B & R).
  exists bs. split; [rewrite serialize_plain; exact W|]. intros rest i C E. unfold deserialize, from_reader.
  pose proof (buf_de DEFAULT_CAP ltac:(unfold DEFAULT_CAP; lia) c (test_ty t) i C) as D. rewrite E, (kind_ty t u K), R in D.
  destruct D as (s & D & _). rewrite (kind_ty t u K), D. cbn [bind rmap]. f_equal. apply test_back. exact K.
Qed.
Example C115_round_trip_example :
  same_kind (Variant (VA 15)) (Variant (VC EB)) /\ test_ok (Variant (VC EB)) /\ serialize true (Variant (VC EB)) = Ok [2; 1] /\
  deserialize true (Variant (VA 15)) [[2]; [1; 77]] = Ok (Variant (VC EB)).
Proof. repeat split. Qed.

(** The tests by name; every other name panics. *)
Theorem C115_names : forall name, (exists t, from_str name = Ok t) <->
  In name ["nat0"; "bool"; "int"; "int32"; "int64"; "enum"; "record"; "variant"]%string.
Proof.
  intros name. unfold from_str. split.
  - intros (t & H). repeat match type of H with context [String.eqb name ?s] => destruct (String.eqb_spec name s) as [->|]; [cbn; tauto|] end. discriminate.
  - intros H. cbn [In] in H. repeat destruct H as [<-|H]; try contradiction; eexists; reflexivity.
Qed.
Theorem C115_no_error : forall name e, from_str name <> Err e.
Proof. intros name e. unfold from_str. repeat destruct (String.eqb _ _); discriminate. Qed.
(** Expected: a name that the help text lists is a test, and a wrong name is
    reported. *)
Theorem C115_public_key_refuted : from_str "public-key" = Panic /\ from_str "all" = Panic /\ from_str "integer" = Panic.
Proof. repeat split. Qed.

(** What the tool writes for each name, and that it reads it. *)
Theorem C115_defaults : forall checked name t, from_str name = Ok t ->
  exists bs, run_serialize checked name = Ok bs /\
    forall rest i, chunks_ok i -> concat i = bs ++ rest -> run_deserialize checked name i = Ok (str_bytes "Deserialized value: " ++ to_string t).
Proof.
  intros c name t F. assert (K : same_kind t t) by (destruct t; exact I).
  assert (O : test_ok t).
  { unfold from_str in F. repeat destruct (String.eqb _ _); try discriminate; injection F as <-; cbn; try exact I; lia. }
  destruct (C115_round_trip c t t K O) as (bs & W & R). exists bs. unfold run_serialize, run_deserialize. rewrite F. cbn [bind]. rewrite W.
  split; [reflexivity|]. intros rest i C E. rewrite (R rest i C E). reflexivity.
Qed.
Example C115_bytes : map (run_serialize true) ["nat0"; "bool"; "int"; "int32"; "int64"; "enum"; "record"; "variant"]%string =
  map Ok [[1; 0]; [1]; [254; 57; 48]; [254; 57; 48]; [254; 57; 48]; [0]; [15; 1; 2]; [0; 15]].
Proof. reflexivity. Qed.
Example C115_texts : to_string (Rec {| s_a := -15; s_b := true; s_c := EC |}) = str_bytes "S { a: -15, b: true, c: C }" /\
  to_string (Variant (VC EB)) = str_bytes "C(B)" /\ to_string (Nat0 3) = str_bytes "3".
Proof. repeat split; vm_compute; reflexivity. Qed.

(** ** Printed texts tell the values apart *)
Lemma z_text_inj_app : forall a b x y, (forall c, hd_error x = Some c -> is_digit c = false) -> (forall c, hd_error y = Some c -> is_digit c = false) ->
  z_text a ++ x = z_text b ++ y -> a = b /\ x = y.
Proof.
  assert (D : forall l l' x y, Forall (fun c => is_digit c = true) l -> Forall (fun c => is_digit c = true) l' ->
    (forall c, hd_error x = Some c -> is_digit c = false) -> (forall c, hd_error y = Some c -> is_digit c = false) -> l ++ x = l' ++ y -> l = l' /\ x = y).
  { induction l as [|c l IH]; intros l' x y F F' X Y E.
    - destruct l' as [|c' l']; [split; [reflexivity|exact E]|]. cbn [app] in E. subst x. inversion F'; subst. specialize (X c' eq_refl). congruence.
    - destruct l' as [|c' l']; cbn [app] in E.
      + subst y. inversion F; subst. specialize (Y c eq_refl). congruence.
      + injection E as -> E. inversion F; subst. inversion F'; subst. destruct (IH l' x y) as (-> & ->); auto. }
  intros a b x y X Y E. unfold z_text in E.
  assert (N : forall n, 0 <= n -> exists c l, dec n = c :: l /\ is_digit c = true).
  { intros n N0. pose proof (dec_nonempty n). pose proof (dec_digits n N0) as F. destruct (dec n) as [|c l]; [congruence|]. inversion F; subst. eauto. }
  destruct (a <? 0) eqn:A, (b <? 0) eqn:B; cbn [app] in E.
  - injection E as E. apply D in E; [|apply dec_digits; lia|apply dec_digits; lia|exact X|exact Y]. destruct E as (E & ->).
    apply dec_inj in E; [|lia|lia]. split; [lia|reflexivity].
  - destruct (N b ltac:(lia)) as (c & l & Ed & Dg). rewrite Ed in E. injection E as <- _. discriminate.
  - destruct (N a ltac:(lia)) as (c & l & Ed & Dg). rewrite Ed in E. injection E as -> _. discriminate.
  - apply D in E; [|apply dec_digits; lia|apply dec_digits; lia|exact X|exact Y]. destruct E as (E & ->).
    apply dec_inj in E; [|lia|lia]. split; [lia|reflexivity].
Qed.
Lemma z_text_inj : forall a b, z_text a = z_text b -> a = b.
Proof.
  intros a b E. destruct (z_text_inj_app a b [] []) as (-> & _); [discriminate|discriminate| |reflexivity]. rewrite !app_nil_r. exact E.
Qed.
Lemma b_text_inj_app : forall a b x y, b_text a ++ x = b_text b ++ y -> a = b /\ x = y.
Proof. intros [|] [|] x y E; cbn in E; try discriminate; injection E as E; split; congruence. Qed.
Lemma e_text_inj_app : forall a b x y, e_text a ++ x = e_text b ++ y -> a = b /\ x = y.
Proof. intros [| |] [| |] x y E; cbn in E; try discriminate; injection E as E; split; congruence. Qed.
Theorem C115_printed : forall t u, same_kind t u -> to_string t = to_string u -> t = u.
Proof.
  intros t u K E. destruct t, u; cbn in K; try contradiction; cbn [to_string] in E; f_equal.
  - apply dec_inj in E; lia.
  - destruct (b_text_inj_app b b0 [] []) as (-> & _); [rewrite !app_nil_r; exact E|reflexivity].
  - apply z_text_inj. exact E.
  - apply z_text_inj. exact E.
  - apply z_text_inj. exact E.
  - destruct (e_text_inj_app e e0 [] []) as (-> & _); [rewrite !app_nil_r; exact E|reflexivity].
  - destruct s as [a b c], s0 as [a' b' c']. unfold s_text in E. cbn [s_a s_b s_c] in E. apply app_inv_head in E.
    apply z_text_inj_app in E; [|intros x X; injection X as <-; reflexivity|intros x X; injection X as <-; reflexivity].
    destruct E as (-> & E). apply app_inv_head in E. apply b_text_inj_app in E. destruct E as (-> & E).
    apply app_inv_head in E. apply e_text_inj_app in E. destruct E as (-> & _). reflexivity.
  - destruct v as [a|b|c], v0 as [a'|b'|c']; unfold v_text in E; try discriminate; apply app_inv_head in E; f_equal.
    + apply z_text_inj_app in E; [|intros x X; injection X as <-; reflexivity|intros x X; injection X as <-; reflexivity]. apply E.
    + apply b_text_inj_app in E. apply E.
    + apply e_text_inj_app in E. apply E.
Qed.

(** ** Expected of the tests, and not so *)

(** The test "nat0" is about a list of units: the encoding of a natural number
    n > 0 alone, which is what OCaml's nat0 writes, is not read. *)
Theorem C115_nat0_refuted : forall checked n t, 0 < n < 2 ^ 64 -> same_kind t (Nat0 0) ->
  exists e, deserialize checked t [bin_write_nat0 n] = Err e.
Proof.
  intros c n t N K. destruct t; try contradiction. unfold deserialize, from_reader. cbn [test_ty].
  assert (NE : bin_write_nat0 n <> []) by (unfold bin_write_nat0; repeat destruct (_ <? _); discriminate).
  pose proof (buf_de DEFAULT_CAP ltac:(unfold DEFAULT_CAP; lia) c (TSeq TUnit) [bin_write_nat0 n]) as D.
  assert (C : chunks_ok [bin_write_nat0 n]) by (repeat constructor; exact NE). specialize (D C).
  cbn [concat] in D. rewrite app_nil_r in D.
  assert (R : from_slice c (TSeq TUnit) (bin_write_nat0 n) = Err EIo).
  { unfold from_slice. cbn [Codec.de]. pose proof (bin_nat0_roundtrip R_u64 n [] ltac:(lia)) as H. rewrite app_nil_r in H.
    unfold bin_write_nat0 in *. rewrite H by (unfold in_range, R_u64; cbn [lo hi]; lia). cbn [bind].
    destruct (Z.to_nat n) as [|m] eqn:M; [lia|]. reflexivity. }
  rewrite R in D. rewrite D. eexists. reflexivity.
Qed.
(** A field that is marked to be read with the module integer or nat0 is written
    like any other and never read. *)
Theorem C115_integer_with_refuted : ~ (forall n, - 2 ^ 63 <= n < 2 ^ 63 -> read_integer_with (write_integer_with n) = Ok n).
Proof. intros H. specialize (H 5 ltac:(lia)). discriminate. Qed.
Theorem C115_nat0_with_refuted : ~ (forall n, 0 <= n < 2 ^ 64 -> read_nat0_with (write_nat0_with n) = Ok n).
Proof. intros H. specialize (H 5 ltac:(lia)). discriminate. Qed.

Print Assumptions C115_round_trip.
Print Assumptions C115_names.
Print Assumptions C115_no_error.
Print Assumptions C115_public_key_refuted.
Print Assumptions C115_defaults.
Print Assumptions C115_printed.
Print Assumptions C115_nat0_refuted.
Print Assumptions C115_integer_with_refuted.
Print Assumptions C115_nat0_with_refuted.
