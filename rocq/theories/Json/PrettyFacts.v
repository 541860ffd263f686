(** What is printed on several lines is a text of the document.  Models no
    code. *)

From Coq Require Import String ZArith List Bool Lia.
From Verif Require Import Lib.Bytes Text.Base58 Json.Json Json.JsonSpec Json.Grammar Json.Parse Json.ParseFacts Json.JsonText Json.PrintFacts.
From Verif Require Import Json.Pretty.
Import ListNotations.
Local Open Scope string_scope.
Local Open Scope list_scope.
Local Open Scope Z_scope.

Lemma spaces_blank : forall n, blank (spaces n).
Proof. induction n as [|n IH]; cbn [spaces]; repeat constructor; try exact IH; left; reflexivity. Qed.
Lemma line_blank : forall n, blank (new_line n).
Proof. intros n. constructor; [right; right; left; reflexivity|apply spaces_blank]. Qed.

Section Tree.
  Variable float_text : Z -> list Z.
  Notation pretty := (pretty float_text).
  Lemma pretty_value : forall j n, no_float j -> strings bytes_ok j -> value (pretty n j) (raw_of float_text j).
  Proof.
    induction j as [|b|z|b|s|l IH|m IH] using json_nest; intros n N B;
      try (exact (printed float_text _ N B)).
    - destruct l as [|j l]; [apply (V_arr0 []); constructor|]. cbn [Pretty.pretty raw_of].
      set (f := fun j => new_line (S n) ++ pretty (S n) j).
      replace (91 :: joined (map f (j :: l)) ++ new_line n ++ [93]) with (91 :: (joined (map f (j :: l)) ++ new_line n) ++ [93]) by (rewrite <- app_assoc; reflexivity).
      apply V_arr. revert j N B IH.
      induction l as [|j' l IHl]; intros j [N1 N2] [B1 B2] IH; inversion IH as [|? ? I1 I2]; subst.
      + cbn [map]. replace (joined [f j] ++ new_line n) with (new_line (S n) ++ pretty (S n) j ++ new_line n)
          by (unfold f, joined; cbn [flat_map]; rewrite app_nil_r, <- app_assoc; reflexivity).
        apply E_one; [apply line_blank|apply I1; assumption|apply line_blank].
      + cbn [map]. rewrite joined_cons. set (rest := joined _).
        replace ((f j ++ 44 :: rest) ++ new_line n) with (new_line (S n) ++ pretty (S n) j ++ [] ++ 44 :: (rest ++ new_line n))
          by (unfold f; rewrite <- !app_assoc; reflexivity).
        apply E_more; [apply line_blank|apply I1; assumption|constructor|]. apply (IHl j' N2 B2 I2).
    - destruct m as [|[k j] m]; [apply (V_obj0 []); constructor|]. cbn [Pretty.pretty raw_of].
      set (f := fun p : list Z * json => let (k, j) := p in new_line (S n) ++ print_str k ++ 58 :: 32 :: pretty (S n) j).
      replace (123 :: joined (map f ((k, j) :: m)) ++ new_line n ++ [125])
        with (123 :: (joined (map f ((k, j) :: m)) ++ new_line n) ++ [125])
        by (rewrite <- app_assoc; reflexivity).
      apply V_obj. revert k j N B IH.
      induction m as [|[k' j'] m IHm]; intros k j [N1 N2] (B0 & B1 & B2) IH; inversion IH as [|? ? I1 I2]; subst; cbn [snd] in I1.
      + cbn [map]. replace (joined [f (k, j)] ++ new_line n) with (new_line (S n) ++ (34 :: flat_map escape k ++ [34]) ++ [] ++ 58 :: [32] ++ pretty (S n) j ++ new_line n)
          by (unfold f, print_str, joined; cbn [flat_map app]; rewrite app_nil_r, <- !app_assoc; cbn [app]; rewrite <- !app_assoc; reflexivity).
        apply M_one; [apply line_blank|apply escapes_chars, B0|constructor|repeat constructor|apply I1; assumption|apply line_blank].
      + cbn [map]. rewrite joined_cons. set (rest := joined _).
        replace ((f (k, j) ++ 44 :: rest) ++ new_line n)
          with (new_line (S n) ++ (34 :: flat_map escape k ++ [34]) ++ [] ++ 58 :: [32] ++ pretty (S n) j ++ [] ++ 44 :: (rest ++ new_line n))
          by (unfold f, print_str; cbn [app]; rewrite <- !app_assoc; cbn [app]; rewrite <- !app_assoc; reflexivity).
        apply M_more; [apply line_blank|apply escapes_chars, B0|constructor|repeat constructor|apply I1; assumption|constructor|].
        apply (IHm k' j' N2 B2 I2).
  Qed.
  Lemma parse_pretty : forall j, no_float j -> strings bytes_ok j -> parse (pretty 0 j) = Some (raw_of float_text j).
  Proof.
    intros j N S. apply parse_iff. exists [], (pretty 0 j), []. rewrite app_nil_r. split; [reflexivity|].
    split; [constructor|]. split; [constructor|]. apply pretty_value; assumption.
  Qed.
End Tree.
