(** Property C64: the exact set of byte strings the typed decoder accepts. *)
From Coq Require Import ZArith List Bool String Lia ZifyBool ZifyNat.
From Verif Require Import Lib.Res Lib.Bytes BinProt.Prim BinProt.PrimProofs BinProt.PrimSpec
  BinProt.PrimSpecProofs BinProt.Codec BinProt.CodecSpec BinProt.CodecProofs BinProt.FormatSpec.
Import ListNotations.
Open Scope string_scope.
Open Scope list_scope.
Open Scope Z_scope.
Ltac Zify.zify_post_hook ::= Z.div_mod_to_equations.

Lemma bind_iff : forall E A B (r : res E A) (f : A -> res E B) b,
  bind r f = Ok b <-> exists a, r = Ok a /\ f a = Ok b.
Proof.
  intros. split; [apply bind_ok|]. intros (a & -> & H). exact H.
Qed.

Lemma read_integer_range : forall r bs, bytes_ok bs ->
  bin_read_integer _ sread r bs =
    let* (n, s) := bin_read_integer _ sread R_i64 bs in from_prim _ r n s.
Proof.
  intros r bs Hok. unfold bin_read_integer.
  destruct (read_u8 _ sread bs) as [(b, s)|e|] eqn:E1; cbn [bind]; auto.
  apply read_u8_ok in E1. subst bs. apply bytes_ok_cons in Hok. destruct Hok as (Hb & Hs).
  assert (G : forall k, 0 < k <= 8 ->
    (let* (x, s0) := read_sle (list Z) sread k s in from_prim (list Z) r x s0) =
    (let* (n, s0) := (let* (x, s0) := read_sle (list Z) sread k s in from_prim (list Z) R_i64 x s0) in
     from_prim _ r n s0)).
  { intros k Hk. destruct (read_sle (list Z) sread k s) as [(x, s1)|e|] eqn:E2; cbn [bind]; auto.
    apply read_sle_ok in E2; auto; [|lia]. destruct E2 as (l & -> & Hl & Hbl & ->).
    rewrite (from_prim_ok R_i64); [reflexivity|].
    pose proof (le_val_range l Hbl) as R. rewrite Hl in R.
    pose proof (signed_range (8 * k) (le_val l) ltac:(lia)) as Q.
    replace (256 ^ k) with (2 ^ (8 * k)) in R.
    2:{ rewrite Z.pow_mul_r by lia. reflexivity. }
    specialize (Q R).
    assert (2 ^ (8 * k - 1) <= 2 ^ 63) by (apply Z.pow_le_mono_r; lia).
    unfold in_range, R_i64; cbn [lo hi]. lia. }
  destruct (b =? CODE_INT16); [apply G; lia|]. destruct (b =? CODE_INT32); [apply G; lia|].
  destruct (b =? CODE_INT64); [apply G; lia|]. destruct (b =? CODE_NEG_INT8); [apply G; lia|].
  destruct (0x80 <? b); auto. unfold is_byte in Hb.
  rewrite (from_prim_ok R_i64); [reflexivity|]. unfold in_range, R_i64; cbn [lo hi]. lia.
Qed.
Lemma read_integer_iff' : forall r bs n rest, bytes_ok bs ->
  (bin_read_integer _ sread r bs = Ok (n, rest) <->
   exists pre, bs = pre ++ rest /\ int_form pre n /\ in_range r n = true).
Proof.
  intros r bs n rest Hok. rewrite read_integer_range by auto. rewrite bind_iff. split.
  - intros ((x & s) & H1 & H2). apply read_integer_iff in H1; auto. destruct H1 as (pre & -> & F).
    apply from_prim_inv in H2. destruct H2 as (-> & -> & R). exists pre. auto.
  - intros (pre & -> & F & R). exists (n, rest). split.
    + apply read_integer_iff; auto. eauto.
    + apply from_prim_ok. auto.
Qed.

Lemma read_word : forall bs x rest, bytes_ok bs ->
  (read_ule _ sread 4 bs = Ok (x, rest) <-> exists a b c d, bs = a :: b :: c :: d :: rest /\
     is_byte a /\ is_byte b /\ is_byte c /\ is_byte d /\ x = le4 a b c d).
Proof.
  intros bs x rest Hok. split.
  - intros H. apply read_ule_ok in H; auto; [|lia]. destruct H as (l & -> & Hl & Hb & ->).
    list_of_len l. byteH. do 4 eexists. split; [reflexivity|]. rewrite le_val_4. auto 10.
  - intros (a & b & c & d & -> & _ & _ & _ & _ & ->). apply read_ule_app4.
Qed.
Lemma read_dword : forall bs x rest, bytes_ok bs ->
  (read_ule _ sread 8 bs = Ok (x, rest) <-> exists a b c d e f g h, bs = a :: b :: c :: d :: e :: f :: g :: h :: rest /\
     is_byte a /\ is_byte b /\ is_byte c /\ is_byte d /\ is_byte e /\ is_byte f /\ is_byte g /\ is_byte h /\
     x = le8 a b c d e f g h).
Proof.
  intros bs x rest Hok. split.
  - intros H. apply read_ule_ok in H; auto; [|lia]. destruct H as (l & -> & Hl & Hb & ->).
    list_of_len l. byteH. do 8 eexists. split; [reflexivity|]. rewrite le_val_8. auto 20.
  - intros (a & b & c & d & e & f & g & h & -> & H). decompose [and] H. subst. apply read_ule_app8.
Qed.
Lemma read_byte : forall bs x rest, bytes_ok bs ->
  (read_u8 _ sread bs = Ok (x, rest) <-> bs = x :: rest).
Proof.
  intros. split; [apply read_u8_ok|]. intros ->. apply read_u8_cons.
Qed.

Lemma find_variant_iff : forall names k h j,
  find_variant false names k h = Ok j <->
  exists i, sel_rank names h i /\ j = wrapu 8 (k + Z.of_nat (rank names i)).
Proof.
  induction names as [|nm names IH]; intros k h j; cbn [find_variant].
  - split; [discriminate|]. intros (i & (nm & E & _) & _). destruct i; discriminate.
  - change (is_ascii nm) with (ascii_name nm). destruct (ascii_name nm) eqn:A.
    + rewrite caml_hash_spec. cbn [andb bind]. destruct (Z.eqb_spec (name_hash32 nm) h) as [Q|Q].
      * split.
        -- intros E. assert (j = wrapu 8 k) by congruence. subst j. exists O. split.
           ++ exists nm. repeat split; auto. intros j nm' L. lia.
           ++ f_equal. cbn. lia.
        -- intros (i & (nm2 & E & A2 & Q2 & D) & ->). destruct i as [|i].
           ++ cbn [rank firstn filter List.length]. unfold rank. cbn. do 2 f_equal. lia.
           ++ exfalso. apply (D O nm); auto; lia.
      * rewrite IH. split.
        -- intros (i & (nm2 & E & A2 & Q2 & D) & ->). exists (S i). split.
           ++ exists nm2. repeat split; auto. intros [|j] nm' L E' A'.
              ** cbn in E'. congruence.
              ** apply (D j nm'); auto; lia.
           ++ unfold rank. cbn [firstn filter]. rewrite A. cbn [List.length]. f_equal. lia.
        -- intros (i & (nm2 & E & A2 & Q2 & D) & ->). destruct i as [|i]; [cbn in E; congruence|].
           exists i. split.
           ++ exists nm2. repeat split; auto. intros j nm' L E' A'. apply (D (S j) nm'); auto; lia.
           ++ unfold rank. cbn [firstn filter]. rewrite A. cbn [List.length]. f_equal. lia.
    + rewrite IH. split.
      * intros (i & (nm2 & E & A2 & Q2 & D) & ->). exists (S i). split.
        -- exists nm2. repeat split; auto. intros [|j] nm' L E' A'.
           ++ cbn in E'. congruence.
           ++ apply (D j nm'); auto; lia.
        -- unfold rank. cbn [firstn filter]. rewrite A. reflexivity.
      * intros (i & (nm2 & E & A2 & Q2 & D) & ->). destruct i as [|i]; [cbn in E; congruence|].
        exists i. split.
        -- exists nm2. repeat split; auto. intros j nm' L E' A'. apply (D (S j) nm'); auto; lia.
        -- unfold rank. cbn [firstn filter]. rewrite A. reflexivity.
Qed.

Lemma wrap_rank : forall n, Z.to_nat (wrapu 8 (Z.of_nat n)) = (n mod 256)%nat.
Proof.
  intros n. unfold wrapu. change (2 ^ 8) with (Z.of_nat 256). rewrite <- Nat2Z.inj_mod. apply Nat2Z.id.
Qed.

Section Accept.
  Notation de := (de false (list Z) sread).
  Notation de_list := (de_list false (list Z) sread).
  Notation de_rep := (de_rep false (list Z) sread).
  Definition ac (t : ty) : Prop := forall bs v rest, bytes_ok bs ->
    (de t bs = Ok (v, rest) <-> exists pre, bs = pre ++ rest /\ acc t v pre).

  Lemma ac_list : forall ts, Forall ac ts -> forall bs vs rest, bytes_ok bs ->
    (de_list ts bs = Ok (vs, rest) <-> exists pre, bs = pre ++ rest /\ accs ts vs pre).
  Proof.
    induction ts as [|t ts IH]; intros HF bs vs rest Hok; cbn [Codec.de_list].
    - split.
      + intros E. injection E as <- <-. exists []. split; [reflexivity|constructor].
      + intros (pre & -> & A). inversion A; subst. reflexivity.
    - inversion HF as [|? ? H1 H2]; subst. rewrite bind_iff. split.
      + intros ((v & s) & D1 & D2). apply H1 in D1; auto. destruct D1 as (a & -> & A1).
        apply bytes_ok_app in Hok. destruct Hok as (_ & Hs).
        rewrite bind_iff in D2. destruct D2 as ((ws & s2) & D2 & E).
        apply IH in D2; auto. destruct D2 as (b & -> & A2). injection E as <- <-.
        exists (a ++ b). split; [apply app_assoc|constructor; auto].
      + intros (pre & -> & A). inversion A; subst. rewrite <- app_assoc in *.
        exists (v, b ++ rest). split; [apply H1; auto; eauto|].
        apply bytes_ok_app in Hok. destruct Hok as (_ & Hs).
        rewrite bind_iff. exists (vs0, rest). split; [apply IH; auto; eauto|reflexivity].
  Qed.
  Lemma ac_rep : forall t, ac t -> forall n bs vs rest, bytes_ok bs ->
    (de_rep t n bs = Ok (vs, rest) <->
     List.length vs = n /\ exists pre, bs = pre ++ rest /\ accs (List.repeat t n) vs pre).
  Proof.
    intros t Ht. induction n as [|n IH]; intros bs vs rest Hok.
    - rewrite de_rep_0. split.
      + intros E. injection E as <- <-. split; [reflexivity|]. exists []. split; [reflexivity|constructor].
      + intros (_ & pre & -> & A). inversion A; subst. reflexivity.
    - rewrite de_rep_S, bind_iff. cbn [List.repeat]. split.
      + intros ((v & s) & D1 & D2). apply Ht in D1; auto. destruct D1 as (a & -> & A1).
        apply bytes_ok_app in Hok. destruct Hok as (_ & Hs).
        rewrite bind_iff in D2. destruct D2 as ((ws & s2) & D2 & E).
        apply IH in D2; auto. destruct D2 as (L & b & -> & A2). injection E as <- <-.
        split; [cbn; congruence|]. exists (a ++ b). split; [apply app_assoc|constructor; auto].
      + intros (L & pre & -> & A). inversion A; subst. rewrite <- app_assoc in *.
        exists (v, b ++ rest). split; [apply Ht; auto; eauto|].
        apply bytes_ok_app in Hok. destruct Hok as (_ & Hs).
        rewrite bind_iff. exists (vs0, rest). split; [apply IH; auto; split; [cbn in L; congruence|eauto]|reflexivity].
  Qed.

  Lemma rust_range : forall k z, in_range (irange k) z = true <-> rust_ok (TInt k) (VInt z).
  Proof.
    intros [] z; unfold in_range; cbn [irange R_i8 R_i16 R_i32 R_i64 R_u16 R_u32 lo hi rust_ok]; lia.
  Qed.
  Lemma int_form_i64 : forall p n, int_form p n -> bytes_ok p -> i64 n.
  Proof.
    intros p n F Hb.
    assert (E : bin_read_integer _ sread R_i64 p = Ok (n, [])).
    { apply read_integer_iff; auto. exists p. rewrite app_nil_r. auto. }
    apply read_integer_iff' in E; auto. destruct E as (_ & _ & _ & R).
    unfold in_range, R_i64 in R; cbn [lo hi] in R. unfold i64. lia.
  Qed.

  Lemma accepts : forall t, ac t.
  Proof.
    induction t using ty_ind'; intros bs v rest Hok;
      lazymatch goal with
      | |- context [TEnum _] => idtac
      | |- context [TPoly _] => idtac
      | _ => cbn [Codec.de]
      end.
    - unfold bin_read_unit. rewrite bind_iff. split.
      + intros ((u & s) & D & E). rewrite bind_iff in D. destruct D as ((b & s1) & D & D2).
        apply read_byte in D; auto. subst bs. destruct (Z.eqb_spec b 0); [|discriminate].
        injection D2 as <- <-. injection E as <- <-. subst b. exists [0]. split; [reflexivity|constructor].
      + intros (pre & -> & A). inversion A; subst. cbn [app]. rewrite read_u8_cons. cbn. eauto.
    - unfold bin_read_bool. rewrite bind_iff. split.
      + intros ((u & s) & D & E). rewrite bind_iff in D. destruct D as ((b & s1) & D & D2).
        apply read_byte in D; auto. subst bs.
        destruct (Z.eqb_spec b 0); [|destruct (Z.eqb_spec b 1); [|discriminate]];
        injection D2 as <- <-; injection E as <- <-; subst b; eexists [_]; (split; [reflexivity|constructor]).
      + intros (pre & -> & A). inversion A; subst; cbn [app]; rewrite read_u8_cons; cbn; eauto.
    - unfold bin_read_char. rewrite bind_iff. split.
      + intros ((b & s) & D & E). apply read_byte in D; auto. subst bs. injection E as <- <-.
        apply bytes_ok_cons in Hok. exists [b]. split; [reflexivity|]. constructor. tauto.
      + intros (pre & -> & A). inversion A; subst; cbn [app]; rewrite read_u8_cons; eauto.
    - rewrite bind_iff. split.
      + intros ((b & s) & D & E). apply read_byte in D; auto. subst bs. injection E as <- <-.
        apply bytes_ok_cons in Hok. exists [b]. split; [reflexivity|]. constructor. tauto.
      + intros (pre & -> & A). inversion A; subst; cbn [app]; rewrite read_u8_cons; eauto.
    - rewrite bind_iff. split.
      + intros ((z & s) & D & E). apply read_integer_iff' in D; auto. destruct D as (pre & -> & F & R).
        injection E as <- <-. exists pre. split; auto. constructor; auto. apply rust_range; auto.
      + intros (pre & -> & A). inversion A; subst. exists (z, rest). split; [|reflexivity].
        apply read_integer_iff'; auto. exists pre. rewrite rust_range. auto.
    - rewrite bind_iff. split.
      + intros ((z & s) & D & E). apply read_integer_iff' in D; auto. destruct D as (pre & -> & F & R).
        injection E as <- <-. exists pre. split; auto. constructor; auto.
        unfold in_range, R_u64 in R; cbn [lo hi] in R. lia.
      + intros (pre & -> & A). inversion A; subst. exists (z, rest). split; [|reflexivity].
        apply read_integer_iff'; auto. exists pre. repeat split; auto.
        apply bytes_ok_app in Hok. pose proof (int_form_i64 pre z ltac:(assumption) (proj1 Hok)) as Q.
        unfold i64 in Q. unfold in_range, R_u64; cbn [lo hi]. lia.
    - rewrite bind_iff. split.
      + intros ((z & s) & D & E). apply read_word in D; auto.
        destruct D as (a & b & c & d & -> & A & B & C & D & ->). injection E as <- <-.
        exists [a; b; c; d]. split; [reflexivity|constructor; auto].
      + intros (pre & -> & A). inversion A; subst. cbn [app]. rewrite read_ule_app4. eauto.
    - rewrite bind_iff. split.
      + intros ((z & s) & D & E). apply read_dword in D; auto.
        destruct D as (a & b & c & d & e & f & g & h & -> & A). decompose [and] A. subst. injection E as <- <-.
        exists [a; b; c; d; e; f; g; h]. split; [reflexivity|constructor; auto].
      + intros (pre & -> & A). inversion A; subst. cbn [app]. rewrite read_ule_app8. eauto.
    - unfold bin_read_string. rewrite bind_iff. split.
      + intros ((l & s) & D & E). injection E as <- <-.
        rewrite bind_iff in D. destruct D as ((n & s1) & D & D2).
        apply read_nat0_iff in D; auto. destruct D as (p & -> & F).
        apply bytes_ok_app in Hok. destruct Hok as (_ & Hs).
        rewrite bind_iff in D2. destruct D2 as (u & Al & D2). unfold alloc in Al.
        destruct (Z.ltb_spec n (2 ^ 63)); [|discriminate].
        rewrite bind_iff in D2. destruct D2 as ((l' & s2) & D2 & D3).
        assert (N0 : 0 <= n) by (destruct F; unfold is_byte, le2, le8, le4 in *; lia).
        apply sread_ok in D2; auto. destruct D2 as (-> & L). 
        destruct (utf8_valid l') eqn:U; [|discriminate]. injection D3 as -> ->.
        apply bytes_ok_app in Hs. exists (p ++ l). split; [apply app_assoc|].
        assert (N : n = Z.of_nat (List.length l)) by lia.
        constructor; [rewrite <- N; auto|]. cbn. repeat split; try tauto; lia.
      + intros (pre & -> & A). inversion A; subst.
        match goal with H : rust_ok _ _ |- _ => cbn in H; destruct H as (Hb & U & L) end.
        exists (l, rest). split; [|reflexivity]. rewrite <- app_assoc in *.
        rewrite bind_iff. exists (Z.of_nat (List.length l), l ++ rest). split; [apply read_nat0_iff; auto; eauto|].
        unfold alloc. destruct (Z.ltb_spec (Z.of_nat (List.length l)) (2 ^ 63)); [|lia]. cbn [bind].
        rewrite sread_app by reflexivity. cbn [bind]. rewrite U. reflexivity.
    - unfold bin_read_bool. rewrite bind_iff. split.
      + intros ((u & s) & D & E). rewrite bind_iff in D. destruct D as ((b & s1) & D & D2).
        apply read_byte in D; auto. subst bs. apply bytes_ok_cons in Hok. destruct Hok as (_ & Hs).
        destruct (Z.eqb_spec b 0); [|destruct (Z.eqb_spec b 1); [|discriminate]]; injection D2 as <- <-; subst b.
        * injection E as <- <-. exists [0]. split; [reflexivity|constructor].
        * rewrite bind_iff in E. destruct E as ((w & s2) & E & E2). apply IHt in E; auto.
          destruct E as (pre & -> & A). injection E2 as <- <-. exists (1 :: pre). split; [reflexivity|constructor; auto].
      + intros (pre & -> & A). inversion A; subst; cbn [app]; rewrite read_u8_cons; cbn [bind Z.eqb Pos.eqb].
        * eauto.
        * eexists. split; [reflexivity|]. cbv beta iota. rewrite bind_iff. exists (v0, rest).
          split; [|reflexivity]. apply IHt; eauto. cbn [app] in Hok. apply bytes_ok_cons in Hok. tauto.
    - fold (de_rep t). rewrite bind_iff. split.
      + intros ((n & s1) & D & D2).
        apply read_nat0_iff in D; auto. destruct D as (p & -> & F).
        apply bytes_ok_app in Hok. destruct Hok as (_ & Hs).
        rewrite bind_iff in D2. destruct D2 as ((vs & s2) & D2 & E). injection E as <- <-.
        apply ac_rep in D2; auto. destruct D2 as (L & b & -> & A).
        assert (N0 : 0 <= n) by (destruct F; unfold is_byte, le2, le8, le4 in *; lia).
        exists (p ++ b). split; [apply app_assoc|]. rewrite <- L in A.
        constructor; auto. replace (Z.of_nat (List.length vs)) with n by lia. auto.
      + intros (pre & -> & A). inversion A; subst. rewrite <- app_assoc in *.
        exists (Z.of_nat (List.length vs), bs ++ rest). split; [apply read_nat0_iff; auto; eauto|].
        apply bytes_ok_app in Hok. destruct Hok as (_ & Hs).
        rewrite bind_iff. exists (vs, rest). split; [|reflexivity]. rewrite Nat2Z.id.
        apply ac_rep; auto. split; auto. eauto.
    - change ((let* (vs, s) := de_list ts bs in Ok (VTup vs, s)) = Ok (v, rest) <->
              exists pre, bs = pre ++ rest /\ acc (TTup ts) v pre).
      rewrite bind_iff. split.
      + intros ((vs & s) & D & E). apply ac_list in D; auto. destruct D as (pre & -> & A).
        injection E as <- <-. exists pre. split; [auto|constructor; auto].
      + intros (pre & -> & A). inversion A; subst. exists (vs, rest). split; [|reflexivity].
        apply ac_list; auto. eauto.
    - rewrite (de_enum false (list Z) sread). unfold bin_read_variant_index.
      rewrite bind_iff. split.
      + intros ((i & s) & D & D2). apply read_byte in D; auto. subst bs.
        apply bytes_ok_cons in Hok. destruct Hok as (Hi & Hs). unfold is_byte in Hi.
        rewrite bind_iff in D2. destruct D2 as ((ws & s2) & D2 & E). injection E as <- <-.
        destruct (nth_error vs (Z.to_nat i)) as [ts|] eqn:N; [|discriminate].
        assert (HF : Forall ac ts) by (rewrite Forall_forall in H; apply H; eapply nth_error_In; eauto).
        apply ac_list in D2; auto. destruct D2 as (pre & -> & A).
        exists (i :: pre). split; [reflexivity|]. replace i with (Z.of_nat (Z.to_nat i)) at 2 by lia.
        econstructor; eauto. lia.
      + intros (pre & -> & A). inversion A; subst. cbn [app] in *. apply bytes_ok_cons in Hok.
        exists (Z.of_nat i, bs ++ rest). split; [apply read_u8_cons|].
        rewrite Nat2Z.id. rewrite bind_iff. exists (vs0, rest). split; [|reflexivity].
        match goal with N : nth_error vs i = Some ts |- _ => rewrite N;
        assert (HF : Forall ac ts) by (rewrite Forall_forall in H; apply H; eapply nth_error_In; eauto) end.
        apply ac_list; eauto. tauto.
    - rewrite (de_poly false (list Z) sread). unfold bin_read_polyvar_tag.
      rewrite bind_iff. split.
      + intros ((h & s) & D & D2). rewrite bind_iff in D. destruct D as ((x & s1) & D & E).
        apply read_word in D; auto. destruct D as (a & b & c & d & -> & A & B & C & D & ->).
        injection E as <- <-.
        do 4 (apply bytes_ok_cons in Hok; destruct Hok as (_ & Hok)).
        rewrite bind_iff in D2. destruct D2 as (j & FV & D2). apply find_variant_iff in FV.
        destruct FV as (i & Sel & ->).
        rewrite bind_iff in D2. destruct D2 as ((ws & s2) & D2 & E). injection E as <- <-.
        rewrite ?Z.add_0_l, ?wrap_rank in *.
        destruct (nth_error vs _) as [(nm, ts)|] eqn:N; [|discriminate].
        assert (HF : Forall ac ts) by (rewrite Forall_forall in H; apply nth_error_In in N; apply (H _ N)).
        apply ac_list in D2; auto. destruct D2 as (pre & -> & G).
        exists (a :: b :: c :: d :: pre). split; [reflexivity|].
        eapply A_poly; eauto. rewrite Z.shiftr_div_pow2 in Sel by lia. exact Sel.
      + intros (pre & -> & G). inversion G; subst. cbn [app] in *.
        do 4 (apply bytes_ok_cons in Hok; destruct Hok as (_ & Hok)).
        eexists. split; [rewrite read_ule_app4; reflexivity|]. cbv beta iota.
        rewrite bind_iff. exists (wrapu 8 (0 + Z.of_nat (rank (map fst vs) i))). split.
        * apply find_variant_iff. exists i. split; [|reflexivity]. rewrite Z.shiftr_div_pow2 by lia. auto.
        * rewrite Z.add_0_l, wrap_rank.
          rewrite bind_iff. exists (vs0, rest). split; [|reflexivity].
          match goal with N : nth_error vs _ = Some (nm, ts) |- _ => rewrite N;
          assert (HF : Forall ac ts) by (rewrite Forall_forall in H; apply nth_error_In in N; apply (H _ N)) end.
          apply ac_list; eauto.
  Qed.
End Accept.

(** In a release build the decoder returns [v] and leaves [rest] exactly when
    the input is a byte string of [acc t v] followed by [rest]. *)
Theorem C64_accepted : forall t bs v rest, bytes_ok bs ->
  (from_slice false t bs = Ok (v, rest) <-> exists pre, bs = pre ++ rest /\ acc t v pre).
Proof. exact accepts. Qed.
(** Hence a byte string has at most one reading, also with other bytes behind. *)
Theorem C64_unique_reading : forall t p q v w r s, bytes_ok (p ++ r) ->
  acc t v p -> acc t w q -> p ++ r = q ++ s -> v = w /\ r = s /\ p = q.
Proof.
  intros t p q v w r s Hok A B E.
  assert (D1 : from_slice false t (p ++ r) = Ok (v, r)) by (apply C64_accepted; eauto).
  assert (D2 : from_slice false t (p ++ r) = Ok (w, s)) by (apply C64_accepted; eauto).
  rewrite D1 in D2. injection D2 as -> ->. repeat split; auto. eapply app_inv_tail; eauto.
Qed.
Example C64_ex : acc (TTup [TBool; TInt I16; TSeq TU8]) (VTup [VBool true; VInt 5; VSeq [VInt 9]])
                     [1; 254; 5; 0; 1; 9] /\
  ~ (exists v, acc TBool v [2]).
Proof.
  assert (Z0 : bytes_ok ([1; 254; 5; 0; 1; 9] ++ [])) by (repeat constructor; unfold byte_ok; lia).
  split.
  - destruct (proj1 (C64_accepted (TTup [TBool; TInt I16; TSeq TU8]) _ (VTup [VBool true; VInt 5; VSeq [VInt 9]]) [] Z0)
      eq_refl) as (pre & E & A).
    rewrite !app_nil_r in E. subst. exact A.
  - intros (v & A). inversion A.
Qed.

Print Assumptions C64_accepted.
Print Assumptions C64_unique_reading.
