(** Memos: theorems. *)

From Coq Require Import String ZArith List Bool Lia ZifyBool ZifyNat.
From Verif Require Import Lib.Res Lib.Bytes BinProt.Prim Text.Memo.
Import ListNotations.
Local Open Scope string_scope.
Local Open Scope list_scope.
Local Open Scope Z_scope.

(** ** The lossy conversion *)

Lemma valid_step : forall l, l <> [] -> utf8_valid l =
  (let (ok, n) := utf8_step l in if ok then utf8_valid (skipn n l) else false).
Proof.
  intros [|a l1] N; [easy|]. clear N. unfold utf8_step. cbn [nth utf8_valid].
  destruct (a <? 128) eqn:A; [reflexivity|].
  destruct l1 as [|b l2].
  { cbn [nth]. unfold btw, cont. 
    repeat match goal with |- context [if ?b then _ else _] => destruct b eqn:? end; try reflexivity; lia. }
  cbn [nth]. destruct (btw 194 a 223) eqn:B.
  { destruct (cont b); reflexivity. }
  destruct l2 as [|c l3].
  { cbn [nth]. change (cont 0) with false. cbn match.
    repeat match goal with |- context [if ?b then _ else _] => destruct b eqn:? end; reflexivity. }
  cbn [nth]. destruct (btw 224 a 239) eqn:C.
  - replace (cont b) with (btw 128 b 191) by reflexivity.
    destruct (a =? 224) eqn:X0.
    { replace (btw 225 a 236) with false by (unfold btw; lia). replace (a =? 237) with false by lia.
      replace (btw 238 a 239) with false by (unfold btw; lia). cbn [andb orb]. rewrite !orb_false_r.
      destruct (btw 160 b 191); [|reflexivity]. destruct (cont c); reflexivity. }
    destruct (a =? 237) eqn:X1.
    { replace (btw 225 a 236) with false by (unfold btw; lia).
      replace (btw 238 a 239) with false by (unfold btw; lia). cbn [andb orb]. rewrite !orb_false_r.
      destruct (btw 128 b 159); [|reflexivity]. destruct (cont c); reflexivity. }
    replace (btw 225 a 236 || btw 238 a 239) with true by (unfold btw in *; lia). cbn [andb orb].
    replace (btw 225 a 236 && btw 128 b 191 || false || btw 238 a 239 && btw 128 b 191) with (btw 128 b 191)
      by (unfold btw in *; lia).
    destruct (btw 128 b 191); [|reflexivity]. destruct (cont c); reflexivity.
  - replace (a =? 224) with false by (unfold btw in *; lia).
    replace (btw 225 a 236 || btw 238 a 239) with false by (unfold btw in *; lia).
    replace (a =? 237) with false by (unfold btw in *; lia).
    destruct l3 as [|d l4].
    { cbn [nth]. change (cont 0) with false. cbn match.
      repeat match goal with |- context [if ?b then _ else _] => destruct b eqn:? end; reflexivity. }
    cbn [nth]. replace (cont b) with (btw 128 b 191) by reflexivity.
    destruct (btw 240 a 244) eqn:E.
    + destruct (a =? 240) eqn:X0.
      { replace (btw 241 a 243) with false by (unfold btw; lia). replace (a =? 244) with false by lia.
        cbn [andb orb]. rewrite !orb_false_r.
        destruct (btw 144 b 191); [|reflexivity]. destruct (cont c); [|reflexivity]. destruct (cont d); reflexivity. }
      destruct (btw 241 a 243) eqn:X1.
      { replace (a =? 244) with false by (unfold btw in *; lia). cbn [andb orb]. rewrite !orb_false_r.
        destruct (btw 128 b 191); [|reflexivity]. destruct (cont c); [|reflexivity]. destruct (cont d); reflexivity. }
      replace (a =? 244) with true by (unfold btw in *; lia). cbn [andb orb].
      destruct (btw 128 b 143); [|reflexivity]. destruct (cont c); [|reflexivity]. destruct (cont d); reflexivity.
    + replace (a =? 240) with false by (unfold btw in *; lia).
      replace (btw 241 a 243) with false by (unfold btw in *; lia).
      replace (a =? 244) with false by (unfold btw in *; lia). reflexivity.
Qed.

(** A step is between one byte and the bytes there are. *)
Lemma step_len : forall l, l <> [] -> (1 <= snd (utf8_step l) <= length l)%nat.
Proof.
  intros l N. unfold utf8_step. change (cont 0) with false.
  destruct l as [|a [|b [|c [|d l]]]]; [easy| | | |]; cbn [nth length]; change (cont 0) with false;
    cbn match; unfold btw; 
    repeat match goal with |- context [if ?b then _ else _] => destruct b eqn:? end; cbn [snd]; try lia.
Qed.

(** A step only looks at the bytes of the sequence. *)
Lemma step_app : forall l n r, l <> [] -> utf8_step l = (true, n) -> utf8_step (firstn n l ++ r) = (true, n).
Proof.
  intros l n r N H. destruct l as [|a l]; [easy|]. unfold utf8_step in H.
  destruct l as [|b [|c [|d l]]]; cbn [nth] in H; change (cont 0) with false in H; cbn match in H;
    repeat match type of H with context [if ?b then _ else _] => destruct b eqn:? end;
    try discriminate H; injection H as <-; try (exfalso; unfold cont, btw in *; lia); unfold utf8_step; cbn [firstn app nth];
    repeat match goal with H : ?b = _ |- context [?b] => rewrite H end; reflexivity.
Qed.

Lemma lossy_more : forall f g l, (length l <= f)%nat -> (length l <= g)%nat -> lossy_loop f l = lossy_loop g l.
Proof.
  induction f as [|f IH]; intros g l F G.
  - destruct l; [destruct g; reflexivity|cbn in F; lia].
  - destruct l as [|a l]; [destruct g; reflexivity|]. destruct g as [|g]; [cbn in G; lia|].
    cbn [lossy_loop]. pose proof (step_len (a :: l) ltac:(discriminate)) as S.
    destruct (utf8_step (a :: l)) as [ok n]. cbn [snd] in S. f_equal.
    apply IH; rewrite skipn_length; lia.
Qed.

Lemma lossy_unfold : forall l, l <> [] -> from_utf8_lossy l =
  let (ok, n) := utf8_step l in (if ok then firstn n l else replacement) ++ from_utf8_lossy (skipn n l).
Proof.
  intros l N. unfold from_utf8_lossy at 1. destruct l as [|a l]; [easy|]. cbn [length lossy_loop].
  pose proof (step_len (a :: l) ltac:(discriminate)) as S.
  destruct (utf8_step (a :: l)) as [ok n]. cbn [snd] in S. f_equal. unfold from_utf8_lossy.
  apply lossy_more; rewrite ?skipn_length; cbn [length] in *; lia.
Qed.

Lemma len_ind : forall P : list Z -> Prop, (forall l, (forall m, (length m < length l)%nat -> P m) -> P l) -> forall l, P l.
Proof.
  intros P H l. assert (G : forall n l, (length l <= n)%nat -> P l).
  { induction n as [|n IH]; intros l' L; apply H; intros m M; [lia|]. apply IH. lia. }
  apply (G (length l)). lia.
Qed.

Lemma lossy_valid_id : forall l, utf8_valid l = true -> from_utf8_lossy l = l.
Proof.
  induction l as [l IH] using len_ind. intros V. destruct l as [|a l]; [reflexivity|].
  rewrite lossy_unfold by discriminate. rewrite valid_step in V by discriminate.
  pose proof (step_len (a :: l) ltac:(discriminate)) as S.
  destruct (utf8_step (a :: l)) as [[|] n]; [|discriminate]. cbn [snd] in S.
  rewrite IH; [apply firstn_skipn| |exact V]. rewrite skipn_length. lia.
Qed.

Lemma lossy_is_valid : forall l, utf8_valid (from_utf8_lossy l) = true.
Proof.
  induction l as [l IH] using len_ind. destruct l as [|a l]; [reflexivity|].
  rewrite lossy_unfold by discriminate.
  pose proof (step_len (a :: l) ltac:(discriminate)) as S.
  destruct (utf8_step (a :: l)) as [[|] n] eqn:E; cbn [snd] in S.
  - assert (X : utf8_step (firstn n (a :: l) ++ from_utf8_lossy (skipn n (a :: l))) = (true, n))
      by (apply step_app; [discriminate|exact E]).
    rewrite valid_step.
    + rewrite X. rewrite skipn_app, skipn_all2 by (rewrite firstn_length; lia).
      rewrite firstn_length, Nat.min_l by lia. rewrite Nat.sub_diag. cbn [app skipn].
      apply IH. rewrite skipn_length. lia.
    + destruct n; [lia|]. discriminate.
  - change (utf8_valid (replacement ++ from_utf8_lossy (skipn n (a :: l)))) with
      (utf8_valid (from_utf8_lossy (skipn n (a :: l)))).
    apply IH. rewrite skipn_length. lia.
Qed.

(** ** Writing *)

Lemma set_nth_app : forall a b x y, set_nth (length a) x (a ++ y :: b) = a ++ x :: b.
Proof. induction a as [|z a IH]; intros b x y; [reflexivity|]. cbn [length app set_nth]. now rewrite IH. Qed.

Lemma write_at_spec : forall s i a z, (length a = i + 2)%nat -> (length s <= length z)%nat ->
  write_at i s (a ++ z) = a ++ s ++ skipn (length s) z.
Proof.
  induction s as [|b s IH]; intros i a z L Z0; [reflexivity|]. cbn [write_at length app skipn].
  destruct z as [|y z]; [cbn in Z0; lia|]. rewrite <- L, set_nth_app.
  change (a ++ b :: z) with (a ++ [b] ++ z). rewrite app_assoc, IH.
  - now rewrite <- app_assoc.
  - rewrite app_length. cbn [length]. lia.
  - cbn [length] in Z0. lia.
Qed.

Lemma memo_form : forall s, (length s <= 32)%nat ->
  try_from_text s = Ok (1 :: Z.of_nat (length s) :: s ++ repeat 0 (32 - length s)).
Proof.
  intros s L. unfold try_from_text, DIGEST_LEN. destruct (Nat.ltb 32 (length s)) eqn:E; [lia|].
  unfold wrapu. rewrite Z.mod_small by lia. f_equal.
  change (set_nth 1 (Z.of_nat (length s)) (set_nth 0 1 (repeat 0 MEMO_LEN)))
    with ([1; Z.of_nat (length s)] ++ repeat 0 32).
  rewrite write_at_spec; [|reflexivity|rewrite repeat_length; exact L]. cbn [app]. do 3 f_equal.
  replace 32%nat with (length s + (32 - length s))%nat at 1 by lia. rewrite repeat_app.
  rewrite <- (repeat_length 0 (length s)) at 1. rewrite skipn_app, skipn_all, Nat.sub_diag. reflexivity.
Qed.

(** ** C44 *)

(** Text of at most 32 bytes gives a memo of 34 bytes that reads back as the
    text. *)
Theorem C44_round_trip : forall s, utf8_valid s = true -> (length s <= 32)%nat ->
  exists m, try_from_text s = Ok m /\ length m = 34%nat /\ to_text m = Ok s.
Proof.
  intros s V L. exists (1 :: Z.of_nat (length s) :: s ++ repeat 0 (32 - length s)).
  split; [apply memo_form, L|]. split; [cbn [length]; rewrite app_length, repeat_length; lia|].
  unfold to_text. cbn [nth_error]. rewrite Nat2Z.id. cbn [length skipn]. rewrite app_length, repeat_length.
  destruct (Nat.leb _ _) eqn:E; [|lia]. rewrite firstn_app, firstn_all, Nat.sub_diag. cbn [firstn].
  rewrite app_nil_r, lossy_valid_id by exact V. reflexivity.
Qed.
(** Longer text is rejected, whatever it is. *)
Theorem C44_too_long : forall s, (32 < length s)%nat -> try_from_text s = Err StringTooLong.
Proof. intros s L. unfold try_from_text, DIGEST_LEN. destruct (Nat.ltb 32 (length s)) eqn:E; [reflexivity|lia]. Qed.
(** Byte strings, text or not, are kept: distinct ones give distinct memos,
    and all bytes of the memo are bytes. *)
Theorem C44_injective : forall s t m, try_from_text s = Ok m -> try_from_text t = Ok m -> s = t.
Proof.
  intros s t m S T.
  assert (Ls : (length s <= 32)%nat) by (destruct (Nat.le_gt_cases (length s) 32); [auto|rewrite C44_too_long in S by lia; discriminate]).
  assert (Lt : (length t <= 32)%nat) by (destruct (Nat.le_gt_cases (length t) 32); [auto|rewrite C44_too_long in T by lia; discriminate]).
  rewrite memo_form in S, T by assumption. rewrite <- S in T. injection T as A B.
  assert (A' : length s = length t) by lia.
  rewrite A' in B. symmetry. exact (app_inv_tail _ _ _ B).
Qed.
Theorem C44_bytes : forall s m, bytes_ok s -> try_from_text s = Ok m -> bytes_ok m.
Proof.
  intros s m B E.
  assert (Ls : (length s <= 32)%nat) by (destruct (Nat.le_gt_cases (length s) 32); [auto|rewrite C44_too_long in E by lia; discriminate]).
  rewrite memo_form in E by exact Ls. injection E as <-.
  constructor; [unfold byte_ok; lia|]. constructor; [unfold byte_ok; lia|]. apply bytes_ok_app. split; [exact B|].
  apply Forall_forall. intros x I. apply repeat_spec in I. subst. unfold byte_ok. lia.
Qed.
Example C44_ex : exists m, try_from_text (str_bytes "Hello Mina!") = Ok m /\ firstn 4 m = [1; 11; 72; 101] /\
  to_text m = Ok (str_bytes "Hello Mina!").
Proof. eexists. split; [reflexivity|]. vm_compute. auto. Qed.

(** ** C45 *)

(** Reading a memo panics exactly when it is shorter than its length byte
    says; otherwise the result is well-formed UTF-8. *)
Theorem C45_panics_iff : forall m, to_text m = Panic <->
  (length m < 2)%nat \/ (length m < 2 + Z.to_nat (nth 1 m 0%Z))%nat.
Proof.
  intros m. unfold to_text. destruct m as [|a [|b m]]; cbn [nth_error nth length].
  - split; [left; lia|reflexivity].
  - split; [left; lia|reflexivity].
  - destruct (Nat.leb _ _) eqn:E; split; try discriminate; try reflexivity; intros; try lia.
Qed.
Theorem C45_otherwise_text : forall m, to_text m <> Panic ->
  exists t, to_text m = Ok t /\ utf8_valid t = true.
Proof.
  intros m N. destruct (to_text m) as [t|e|] eqn:E; [|destruct e|easy].
  - exists t. split; [reflexivity|]. unfold to_text in E. destruct (nth_error m 1); [|discriminate].
    destruct (Nat.leb _ _); [|discriminate]. injection E as <-. apply lossy_is_valid.
  - exfalso. unfold to_text in E. destruct (nth_error m 1); [|discriminate]. destruct (Nat.leb _ _); discriminate.
Qed.
(** A received memo of the full 34 bytes is read without a panic exactly when
    its length byte is at most 32; the tag byte is not looked at. *)
Theorem C45_full_length : forall tag len rest, 0 <= len < 256 -> length rest = 32%nat ->
  (to_text (tag :: len :: rest) = Panic <-> 32 < len) /\
  (forall tag', to_text (tag' :: len :: rest) = to_text (tag :: len :: rest)).
Proof.
  intros tag len rest B L. split; [|reflexivity]. rewrite C45_panics_iff. cbn [length nth]. lia.
Qed.
(** The default memo, which the command builder uses when none is given, and a
    received memo with a length byte above 32 crash. *)
Theorem C45_refuted : to_text [] = Panic /\ to_text (1 :: 33 :: repeat 65 32) = Panic.
Proof. split; reflexivity. Qed.
(** Bytes that are no text do not come back. *)
Theorem C45_lossy_refuted : exists s m t, try_from_text s = Ok m /\ to_text m = Ok t /\ t <> s.
Proof. exists [0xff], (1 :: 1 :: 0xff :: repeat 0 31), replacement. split; [reflexivity|]. split; [reflexivity|discriminate]. Qed.
Example C45_ex : to_text (1 :: 3 :: [0xe2; 0x82; 0x41] ++ repeat 0 29) = Ok (replacement ++ [0x41]) /\
  to_text (0 :: 2 :: [72; 105] ++ repeat 0 30) = Ok (str_bytes "Hi").
Proof. split; reflexivity. Qed.

Print Assumptions C44_round_trip.
Print Assumptions C44_too_long.
Print Assumptions C44_injective.
Print Assumptions C44_bytes.
Print Assumptions C45_panics_iff.
Print Assumptions C45_otherwise_text.
Print Assumptions C45_full_length.
Print Assumptions C45_refuted.
Print Assumptions C45_lossy_refuted.
