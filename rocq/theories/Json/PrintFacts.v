(** What is printed is a text of the document.  Models no code. *)

From Coq Require Import String ZArith List Bool Lia ZifyBool ZifyNat.
From Verif Require Import Lib.Bytes Lib.Decimal Lib.Text Text.Base58 Proto.PbSpec Json.Json Json.JsonSpec.
From Verif Require Import Json.Grammar Json.Parse Json.ParseFacts Json.JsonText.
Import ListNotations.
Local Open Scope string_scope.
Local Open Scope list_scope.
Local Open Scope Z_scope.
Notation length := List.length.

(** ** Induction over documents and trees *)
Lemma json_nest : forall P : json -> Prop,
  P JNull -> (forall b, P (JBool b)) -> (forall z, P (JNum z)) -> (forall b, P (JFloat b)) -> (forall s, P (JStr s)) ->
  (forall l, Forall P l -> P (JArr l)) -> (forall m, Forall (fun p => P (snd p)) m -> P (JObj m)) -> forall j, P j.
Proof.
  intros P H1 H2 H3 H4 H5 H6 H7. fix IH 1. intros [|b|z|b|s|l|m].
  - exact H1.
  - apply H2.
  - apply H3.
  - apply H4.
  - apply H5.
  - apply H6. induction l as [|j l IHl]; constructor; [apply IH|exact IHl].
  - apply H7. induction m as [|[k j] m IHm]; constructor; [apply IH|exact IHm].
Qed.
Lemma raw_nest : forall P : raw -> Prop,
  P RNull -> (forall b, P (RBool b)) -> (forall z, P (RNum z)) -> (forall s, P (RStr s)) ->
  (forall l, Forall P l -> P (RArr l)) -> (forall m, Forall (fun p => P (snd p)) m -> P (RObj m)) -> forall r, P r.
Proof.
  intros P H1 H2 H3 H5 H6 H7. fix IH 1. intros [|b|z|s|l|m].
  - exact H1.
  - apply H2.
  - apply H3.
  - apply H5.
  - apply H6. induction l as [|j l IHl]; constructor; [apply IH|exact IHl].
  - apply H7. induction m as [|[k j] m IHm]; constructor; [apply IH|exact IHm].
Qed.

(** ** Numbers *)
Lemma dec_loop_head : forall fuel n acc, 0 < n < 10 ^ Z.of_nat fuel -> digits acc ->
  exists d ds, dec_loop fuel n acc = d :: ds /\ 49 <= d <= 57 /\ digits ds.
Proof.
  induction fuel as [|f IH]; intros n acc R D; [cbn in R; lia|]. cbn [dec_loop].
  replace (Z.of_nat (S f)) with (1 + Z.of_nat f) in R by lia. rewrite Z.pow_add_r in R by lia. change (10 ^ 1) with 10 in R.
  pose proof (Z.div_mod n 10 ltac:(lia)) as Q. pose proof (Z.mod_pos_bound n 10 ltac:(lia)) as M.
  destruct (n / 10 =? 0) eqn:E.
  - exists (48 + n mod 10), acc. split; [reflexivity|]. split; [lia|exact D].
  - apply IH; [|constructor; [unfold is_digit; lia|exact D]]. assert (0 <= n / 10) by (apply Z.div_pos; lia).
    split; [lia|]. apply Z.div_lt_upper_bound; lia.
Qed.
Lemma dec_whole : forall n, 0 <= n -> whole_text (dec n).
Proof.
  intros n H. destruct (Z.eq_dec n 0) as [->|N]; [left; reflexivity|right]. unfold dec.
  apply dec_loop_head; [|constructor]. split; [lia|apply log2_fuel; exact H].
Qed.
Lemma print_int_num : forall z, num_text (print_int z).
Proof.
  intros z. unfold print_int. destruct (z <? 0) eqn:E.
  - exists [45], (dec (- z)), [], []. rewrite !app_nil_r. split; [reflexivity|]. split; [right; reflexivity|]. split; [apply dec_whole; lia|].
    split; left; reflexivity.
  - exists [], (dec z), [], []. rewrite !app_nil_r. split; [reflexivity|]. split; [left; reflexivity|]. split; [apply dec_whole; lia|].
    split; left; reflexivity.
Qed.
Lemma all_digits_iff : forall s, all_digits s = true <-> digits s.
Proof. intros s. unfold all_digits, digits. rewrite forallb_forall, Forall_forall. reflexivity. Qed.
Lemma num_of_int : forall float_of z, - 2 ^ 63 <= z < 2 ^ 64 -> num_of float_of (print_int z) = Some (JNum z).
Proof.
  intros float_of z R. unfold num_of, print_int. destruct (z <? 0) eqn:E.
  - change (45 =? 45) with true. cbv iota. rewrite dec_val_dec by lia. rewrite (proj2 (all_digits_iff _)) by (apply dec_digits; lia).
    replace (true && (0 <? - z) && (- z <=? 2 ^ 63)) with true by lia. rewrite Z.opp_involutive. reflexivity.
  - pose proof (dec_digits z ltac:(lia)) as D. pose proof (dec_val_dec z ltac:(lia)) as V. pose proof (dec_nonempty z) as N.
    destruct (dec z) as [|c ds] eqn:Ed; [contradiction|]. assert (c =? 45 = false) as -> by (inversion D as [|? ? Dc _]; subst; unfold is_digit in Dc; lia).
    rewrite (proj2 (all_digits_iff _) D), V. replace (true && (z <? 2 ^ 64)) with true by lia. reflexivity.
Qed.

(** ** Strings *)
Lemma hex_digit_value : forall v, 0 <= v < 16 -> hex_value (hex_digit v) v.
Proof. intros v R. unfold hex_digit, hex_value. destruct (v <? 10) eqn:E; lia. Qed.
Lemma escape_chars : forall c s l, byte_ok c -> chars s l -> chars (escape c ++ s) (c :: l).
Proof.
  intros c s l B H. unfold byte_ok in B. unfold escape.
  repeat match goal with |- context [if c =? ?k then _ else _] =>
    let E := fresh in destruct (c =? k) eqn:E; [assert (c = k) as -> by lia; apply Ch_short; [unfold short; lia|exact H]|] end.
  destruct (c <? 32) eqn:L; [|apply Ch_plain; try lia; exact H].
  pose proof (Z.div_mod c 16 ltac:(lia)). pose proof (Z.mod_pos_bound c 16 ltac:(lia)). assert (0 <= c / 16 < 16) by lia.
  replace (c :: l) with (utf8_point c ++ l) by (unfold utf8_point; replace (c <? 0x80) with true by lia; reflexivity).
  change ([92; 117; 48; 48; hex_digit (c / 16); hex_digit (c mod 16)] ++ s) with (92 :: 117 :: [48; 48; hex_digit (c / 16); hex_digit (c mod 16)] ++ s).
  apply Ch_unicode; [|lia|exact H]. exists 48, 48, (hex_digit (c / 16)), (hex_digit (c mod 16)), 0, 0, (c / 16), (c mod 16).
  split; [reflexivity|]. repeat split; try (apply hex_digit_value; lia); try (left; lia). lia.
Qed.
Lemma escapes_chars : forall s, bytes_ok s -> chars (flat_map escape s) s.
Proof. intros s B. induction B as [|c s Bc B IH]; [constructor|]. cbn [flat_map]. apply escape_chars; assumption. Qed.

(** ** Documents *)
Section Tree.
  Variable float_text : Z -> list Z.
  (** the tree of a printed document *)
  Fixpoint raw_of (j : json) : raw :=
    match j with
    | JNull => RNull
    | JBool b => RBool b
    | JNum z => RNum (print_int z)
    | JFloat b => RNum (float_text b)
    | JStr s => RStr s
    | JArr l => RArr (map raw_of l)
    | JObj m => RObj (map (fun p : list Z * json => let (k, j) := p in (k, raw_of j)) m)
    end.
  Fixpoint no_float (j : json) : Prop :=
    match j with
    | JFloat _ => False
    | JArr l => (fix all (l : list json) : Prop := match l with [] => True | j :: l => no_float j /\ all l end) l
    | JObj m => (fix all (m : list (list Z * json)) : Prop := match m with [] => True | (_, j) :: m => no_float j /\ all m end) m
    | _ => True
    end.
  Lemma joined_cons : forall x y l, joined (x :: y :: l) = x ++ 44 :: joined (y :: l).
  Proof. reflexivity. Qed.
  Lemma printed : forall j, no_float j -> strings bytes_ok j -> value (print float_text j) (raw_of j).
  Proof.
    induction j as [|b|z|b|s|l IH|m IH] using json_nest; intros N S; cbn [print raw_of].
    - constructor.
    - destruct b; constructor.
    - constructor. apply print_int_num.
    - destruct N.
    - unfold print_str. apply V_str, escapes_chars, S.
    - destruct l as [|j l]; [apply (V_arr0 []); constructor|]. apply V_arr. cbn [map]. revert j N S IH.
      induction l as [|j' l IHl]; intros j [N1 N2] [S1 S2] IH; inversion IH as [|? ? I1 I2]; subst.
      + cbn [map]. replace (joined [print float_text j]) with ([] ++ print float_text j ++ []) by (cbn; reflexivity).
        apply E_one; [constructor|apply I1; assumption|constructor].
      + cbn [map]. rewrite joined_cons. change (print float_text j ++ 44 :: joined (print float_text j' :: map (print float_text) l))
          with ([] ++ print float_text j ++ [] ++ 44 :: joined (print float_text j' :: map (print float_text) l)).
        apply E_more; [constructor|apply I1; assumption|constructor|]. apply (IHl j' N2 S2 I2).
    - destruct m as [|[k j] m]; [apply (V_obj0 []); constructor|]. apply V_obj. cbn [map]. revert k j N S IH.
      induction m as [|[k' j'] m IHm]; intros k j [N1 N2] (S0 & S1 & S2) IH; inversion IH as [|? ? I1 I2]; subst; cbn [snd] in I1.
      + cbn [map]. replace (joined [print_str k ++ 58 :: print float_text j]) with ([] ++ (34 :: flat_map escape k ++ [34]) ++ [] ++ 58 :: [] ++ print float_text j ++ [])
          by (unfold print_str, joined; cbn [flat_map app]; rewrite !app_nil_r; reflexivity).
        apply M_one; try solve [constructor]; [apply escapes_chars, S0|apply I1; assumption].
      + cbn [map]. rewrite joined_cons.
        set (rest := joined _).
        replace ((print_str k ++ 58 :: print float_text j) ++ 44 :: rest)
          with ([] ++ (34 :: flat_map escape k ++ [34]) ++ [] ++ 58 :: [] ++ print float_text j ++ [] ++ 44 :: rest)
          by (unfold print_str; cbn [app]; rewrite <- !app_assoc; reflexivity).
        apply M_more; try solve [constructor]; [apply escapes_chars, S0|apply I1; assumption|]. apply (IHm k' j' N2 S2 I2).
  Qed.
  Lemma parse_print : forall j, no_float j -> strings bytes_ok j -> parse (print float_text j) = Some (raw_of j).
  Proof.
    intros j N S. apply parse_iff. exists [], (print float_text j), []. rewrite app_nil_r. split; [reflexivity|].
    split; [constructor|]. split; [constructor|]. apply printed; assumption.
  Qed.
End Tree.

(** ** The tree as a value *)
Fixpoint in_range (j : json) : Prop :=
  match j with
  | JNum z => - 2 ^ 63 <= z < 2 ^ 64
  | JArr l => (fix all (l : list json) : Prop := match l with [] => True | j :: l => in_range j /\ all l end) l
  | JObj m => (fix all (m : list (list Z * json)) : Prop := match m with [] => True | (_, j) :: m => in_range j /\ all m end) m
  | _ => True
  end.
Lemma value_of_raw : forall float_of float_text j, no_float j -> in_range j -> value_of float_of (raw_of float_text j) = Some (sorted j).
Proof.
  intros float_of float_text. induction j as [|b|z|b|s|l IH|m IH] using json_nest; intros N R; cbn [value_of raw_of sorted]; try reflexivity.
  - apply num_of_int, R.
  - destruct N.
  - assert (E : all_some (map (value_of float_of) (map (raw_of float_text) l)) = Some (map sorted l)); [|rewrite E; reflexivity].
    induction l as [|j l IHl]; [reflexivity|]. destruct N as [N1 N2], R as [R1 R2]. inversion IH as [|? ? I1 I2]; subst.
    cbn [map all_some]. rewrite (I1 N1 R1), (IHl I2 N2 R2). reflexivity.
  - assert (E : all_some (map (fun p : list Z * raw => let (k, r) := p in option_map (pair k) (value_of float_of r))
      (map (fun p : list Z * json => let (k, j) := p in (k, raw_of float_text j)) m)) = Some (map (fun p : list Z * json => let (k, j) := p in (k, sorted j)) m));
      [|rewrite E; reflexivity].
    induction m as [|[k j] m IHm]; [reflexivity|]. destruct N as [N1 N2], R as [R1 R2]. inversion IH as [|? ? I1 I2]; subst. cbn [snd] in I1.
    cbn [map all_some]. rewrite (I1 N1 R1). cbn [option_map all_some]. rewrite (IHm I2 N2 R2). reflexivity.
Qed.
