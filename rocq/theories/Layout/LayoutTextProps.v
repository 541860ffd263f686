(** C128: layouts as texts. *)

From Coq Require Import String ZArith List Bool Lia ZifyBool ZifyNat Permutation.
From Verif Require Import Lib.Res Loose.Loose Loose.LooseSpec Layout.LayoutJson Layout.LayoutSpec Layout.LayoutProps Layout.Reader Layout.ReaderProps.
From Verif Require Import Lib.Bytes Json.Json Json.JsonSpec Json.JsonFacts Json.Grammar Json.Parse Json.ParseFacts Json.JsonText Json.PrintFacts
  Json.TextSpec Json.TextWriteFacts Json.SaysFacts.
From Verif Require Import Json.TextFacts Convert.JsonViewSpec Frontier.ResponseSpec Frontier.ResponseProps.
From Verif Require Import Layout.LayoutText Layout.LayoutTextSpec.
Import ListNotations.
Local Open Scope string_scope.
Local Open Scope list_scope.
Local Open Scope Z_scope.
Notation length := List.length.

Lemma container_rest : forall v r n rest, container r -> value v r -> (2 * length v <= n)%nat -> p_val n (v ++ rest) = Some (r, rest).
Proof.
  intros v r n rest C V L. inversion V as [| | |s N|s l X|w B|s l X|w B|s l X]; subst; try destruct C.
  - destruct n as [|n]; [cbn in L; lia|]. cbn [app p_val]. change (91 =? 34) with false. change (91 =? 91) with true. cbv iota.
    rewrite <- app_assoc. rewrite skip_blank by exact B. reflexivity.
  - destruct n as [|n]; [cbn in L; lia|]. cbn [app p_val]. change (91 =? 34) with false. change (91 =? 91) with true. cbv iota.
    rewrite <- app_assoc. destruct (elements_first s l X ([93] ++ rest)) as (c & q & E & S). rewrite E. cbn [strip]. unfold starter in S. replace (93 =? c) with false by lia.
    cbn [app]. rewrite (proj1 (proj2 complete) s l X); [reflexivity|]. cbn [length] in L. rewrite app_length in L. cbn [length] in L. lia.
  - destruct n as [|n]; [cbn in L; lia|]. cbn [app p_val]. change (123 =? 34) with false. change (123 =? 91) with false. change (123 =? 123) with true. cbv iota.
    rewrite <- app_assoc. rewrite skip_blank by exact B. reflexivity.
  - destruct n as [|n]; [cbn in L; lia|]. cbn [app p_val]. change (123 =? 34) with false. change (123 =? 91) with false. change (123 =? 123) with true. cbv iota.
    rewrite <- app_assoc. destruct (members_first s l X ([125] ++ rest)) as (q & E). rewrite E. cbn [strip]. change (125 =? 34) with false. cbv iota.
    cbn [app]. rewrite (proj2 (proj2 complete) s l X); [reflexivity|]. cbn [length] in L. rewrite app_length in L. cbn [length] in L. lia.
Qed.
Lemma first_iff : forall t r, container r -> (parse_first t = Some r <-> begins t r).
Proof.
  intros t r C. unfold parse_first, begins. split.
  - destruct (skip_split t) as (w & E & B). destruct (p_val (S (2 * length t)) (skip t)) as [[r' rest]|] eqn:P; [|discriminate]. intros [= ->].
    destruct (proj1 (sound _) _ _ _ P) as (v & X & V). exists w, v, rest. rewrite X in E. auto.
  - intros (w & v & rest & -> & B & V). destruct (value_first v r V) as (c & v' & Ev & S).
    assert (E : skip (w ++ v ++ rest) = v ++ rest) by (rewrite Ev; cbn [app]; apply skip_starter; assumption). rewrite E.
    rewrite (container_rest v r _ rest C V); [reflexivity|]. rewrite !app_length. lia.
Qed.
(** Members with other names do not matter. *)
Lemma lookup_known : forall k m m', In k layout_names ->
  Forall2 (fun p q : list Z * json => fst p = fst q /\ (known_name (fst p) = true -> snd p = snd q)) m m' -> lookup k m = lookup k m' /\ count k m = count k m'.
Proof.
  intros k m m' I F. induction F as [|[a x] [b y] m m' [K S] F [IH1 IH2]]; [auto|]. cbn [fst snd] in K, S. subst b. cbn [lookup count]. rewrite IH1, IH2.
  split; [|reflexivity]. destruct (key_eqb a (str_bytes k)) eqn:E; [|reflexivity]. f_equal. apply S. unfold known_name. apply existsb_exists. exists k. auto.
Qed.
Lemma layout_known : forall m m', Forall2 (fun p q : list Z * json => fst p = fst q /\ (known_name (fst p) = true -> snd p = snd q)) m m' ->
  layout_of_json (JObj m) = layout_of_json (JObj m').
Proof.
  intros m m' F. pose proof (fun k I => lookup_known k m m' I F) as L. unfold layout_names in L. cbn [layout_of_json].
  replace (forallb (fun k => Nat.leb (count k m) 1) layout_names) with (forallb (fun k => Nat.leb (count k m') 1) layout_names).
  - rewrite (proj1 (L "layout_loc" ltac:(cbn; auto 6))), (proj1 (L "version_opt" ltac:(cbn; auto 6))), (proj1 (L "type_decl" ltac:(cbn; auto 6))),
      (proj1 (L "bin_io_derived" ltac:(cbn; auto 6))), (proj1 (L "bin_prot_rule" ltac:(cbn; auto 6))). reflexivity.
  - unfold layout_names. cbn [forallb]. rewrite (proj2 (L "layout_loc" ltac:(cbn; auto 6))), (proj2 (L "version_opt" ltac:(cbn; auto 6))), (proj2 (L "type_decl" ltac:(cbn; auto 6))),
      (proj2 (L "bin_io_derived" ltac:(cbn; auto 6))), (proj2 (L "bin_prot_rule" ltac:(cbn; auto 6))). reflexivity.
Qed.
Section Texts.
  Variable float_of : list Z -> option Z.
  Lemma top_says : forall r j j', says float_of r j -> inside j j' -> exists j1, top float_of r = Some j1 /\ layout_of_json j1 = layout_of_json j'.
  Proof.
    intros r j j' S N. destruct N as [m m' F|l l' F]; inversion S as [| | | | |rl jl SF|rm jm SF]; subst; cbn [top].
    - assert (X : exists m1, all_some (map (fun p : list Z * raw => let (k, r) := p in
        if known_name k then option_map (pair k) (value_of float_of r) else Some (k, JNull)) rm) = Some m1 /\
        Forall2 (fun p q : list Z * json => fst p = fst q /\ (known_name (fst p) = true -> snd p = snd q)) m1 m').
      { clear S. revert m' F. induction SF as [|[k r] [k1 x] rm m [K SX] SF IH]; intros m' F; inversion F as [|? [k2 y] ? m'' [K' KX] F']; subst; cbn [map all_some fst snd] in *; [eauto|].
        subst. destruct (IH m'' F') as (m1 & E & G). apply kept_sorted in KX. rewrite (says_value float_of r x SX). cbn [option_map].
        destruct (known_name k2) eqn:KN; rewrite E; eexists; (split; [reflexivity|]); constructor; try assumption; cbn [fst snd]; (split; [reflexivity|congruence]). }
      destruct X as (m1 & E & G). rewrite E. eexists. split; [reflexivity|]. apply layout_known, G.
    - assert (X : all_some (map (value_of float_of) rl) = Some l').
      { clear S. revert l' F. induction SF as [|r x rl l SX SF IH]; intros l' F; inversion F as [|? y ? l'' KX F']; subst; cbn [map all_some]; [reflexivity|].
        apply kept_sorted in KX. rewrite (says_value float_of r x SX), (IH l'' F'). congruence. }
      rewrite X. exists (JArr l'). split; reflexivity.
  Qed.
  (** A text that begins with an object or an array is read as what is kept of
      it; what comes behind does not matter. *)
  Theorem C128_text : forall t r j j', begins t r -> says float_of r j -> inside j j' -> layout_of_text float_of t = layout_of_json j'.
  Proof.
    intros t r j j' B S N. assert (C : container r) by (destruct N; inversion S; exact I). unfold layout_of_text. rewrite (proj2 (first_iff t r C) B).
    destruct (top_says r j j' S N) as (j1 & -> & E). exact E.
  Qed.
  Theorem C128_text_iff : forall t r j j' R, begins t r -> says float_of r j -> inside j j' -> texts_ok j' -> (layout_of_text float_of t = Some R <-> document j' R).
  Proof. intros t r j j' R B S N T. rewrite (C128_text t r j j' B S N). apply C104_document, T. Qed.
  (** Nothing else is read. *)
  Theorem C128_begins : forall t R, layout_of_text float_of t = Some R -> exists r, begins t r /\ container r.
  Proof.
    intros t R H. unfold layout_of_text in H. destruct (parse_first t) as [r|] eqn:P; [|discriminate]. destruct (top float_of r) as [j|] eqn:T; [|discriminate].
    assert (C : container r) by (destruct r; try discriminate; exact I). exists r. split; [apply first_iff; assumption|exact C].
  Qed.
  (** The values of members with other names do not matter at all; they may be
      numbers that no float can hold. *)
  Theorem C128_other : forall t t' m m', begins t (RObj m) -> begins t' (RObj m') ->
    Forall2 (fun p q => fst p = fst q /\ (In (fst p) (map str_bytes fields_of) -> snd p = snd q)) m m' -> layout_of_text float_of t = layout_of_text float_of t'.
  Proof.
    intros t t' m m' B B' F. unfold layout_of_text. rewrite (proj2 (first_iff t (RObj m) I) B), (proj2 (first_iff t' (RObj m') I) B'). cbn [top].
    replace (map _ m) with (map (fun p : list Z * raw => let (k, r) := p in if known_name k then option_map (pair k) (value_of float_of r) else Some (k, JNull)) m'); [reflexivity|].
    symmetry. clear B B'. induction F as [|[k r] [k' r'] m m' [K X] F IH]; [reflexivity|]. cbn [fst snd map] in *. subst k'. f_equal; [|exact IH].
    destruct (known_name k) eqn:N; [|reflexivity]. rewrite X; [reflexivity|]. unfold known_name in N. apply existsb_exists in N. destruct N as (n & I & E). apply key_eqb_iff in E.
    subst k. apply in_map. exact I.
  Qed.
  (** A printed document is read as what is kept of it. *)
  Variable float_text : Z -> list Z.
  Theorem C128_printed : forall j j' rest, no_float j -> in_range j -> strings bytes_ok j -> inside j j' ->
    layout_of_text float_of (print float_text j ++ rest) = layout_of_json j'.
  Proof.
    intros j j' rest NF IR SB N. apply (C128_text _ (raw_of float_text j) j j'); [|apply raw_says; assumption|exact N].
    exists [], (print float_text j), rest. split; [reflexivity|]. split; [constructor|]. apply printed; assumption.
  Qed.
End Texts.

(** ** The layouts OCaml prints *)
Inductive fine : json -> Prop :=
| F_null : fine JNull
| F_bool : forall b, fine (JBool b)
| F_num : forall z, - 2 ^ 63 <= z < 2 ^ 64 -> fine (JNum z)
| F_str : forall s, bytes_ok s -> fine (JStr s)
| F_arr : forall l, Forall fine l -> fine (JArr l)
| F_obj : forall m, NoDup (map fst m) -> Forall (fun p => bytes_ok (fst p) /\ fine (snd p)) m -> fine (JObj m).
Lemma fine_parts : forall j, fine j -> no_float j /\ in_range j /\ strings bytes_ok j /\ distinct j.
Proof.
  induction j as [|b|z|b|s|l IH|m IH] using json_nest; intros F; inversion F as [| |? R|? B|? FL|? N FM]; subst; try (cbn [no_float in_range strings distinct]; auto 8; fail).
  - cbn [no_float in_range strings distinct]. clear F. induction IH as [|a l A IH IHl]; [auto|]. inversion FL as [|? ? F1 F2]; subst.
    destruct (A F1) as (A1 & A2 & A3 & A4). destruct (IHl F2) as (B1 & B2 & B3 & B4). auto 10.
  - cbn [no_float in_range strings distinct]. clear F.
    match goal with |- ?A /\ ?B /\ ?C /\ _ /\ ?D => enough (X : A /\ B /\ C /\ D) by (destruct X as (X1 & X2 & X3 & X4); auto 8) end. clear N.
    induction IH as [|[k j] m A IH IHm]; [auto|]. inversion FM as [|? ? [K F1] F2]; subst. cbn [fst snd] in *.
    destruct (A F1) as (A1 & A2 & A3 & A4). destruct (IHm F2) as (B1 & B2 & B3 & B4). auto 12.
Qed.
Lemma jstr_fine : forall s, fine (jstr s).
Proof. intros s. apply F_str, str_bytes_ok. Qed.
Lemma jobj_fine : forall ms, nodupb (map (fun x => str_bytes (fst x)) ms) = true -> Forall (fun x => fine (snd x)) ms -> fine (jobj ms).
Proof.
  intros ms N F. unfold jobj. apply F_obj; [rewrite map_map; cbn [fst]; apply nodupb_iff, N|].
  clear N. induction F as [|x ms X F IH]; cbn [map]; constructor; [cbn [fst snd]; split; [apply str_bytes_ok|exact X]|exact IH].
Qed.
Lemma yojson_fine : forall decl n r, (Loose.depth r <= n)%nat -> writable r -> fine (yojson decl r).
Proof.
  intros decl. induction n as [|n IH]; intros r D W; [destruct r; cbn in D; lia|].
  assert (TJ := jstr_fine).
  assert (MP : forall A (f : A -> json) l, (forall x, In x l -> fine (f x)) -> fine (JArr (map f l))).
  { intros A f l H. apply F_arr, Forall_forall. intros j I. apply in_map_iff in I. destruct I as (x & <- & I). auto. }
  assert (LI : forall rs, (list_max (map Loose.depth rs) <= n)%nat -> fold_right (fun r P => writable r /\ P) True rs -> fine (JArr (map (yojson decl) rs))).
  { intros rs D' W'. apply fold_and in W'. rewrite Forall_forall in W'. apply MP. intros x I. apply IH; auto.
    pose proof (max_in _ Loose.depth rs x I). lia. }
  assert (P2 : forall s j, fine j -> fine (JArr [jstr s; j])) by (intros; apply F_arr; auto).
  assert (P1 : forall s, fine (JArr [jstr s])) by (intros; apply F_arr; auto).
  destruct r; cbn [Loose.depth] in D; cbn [writable] in W; cbn [yojson]; try apply P1; try (apply P2; first [apply IH; [lia|assumption] | apply LI; [lia|assumption]]); try (apply P2, TJ).
  - apply P2. apply fold_and in W. rewrite Forall_forall in W. apply MP. intros f I. apply jobj_fine; [reflexivity|].
    pose proof (max_in _ (fun f => Loose.depth (snd f)) fs f I). cbn beta in *. repeat constructor; cbn [snd]; [apply str_bytes_ok|]. apply IH; [lia|]. apply (W f I).
  - apply P2. apply fold_and in W. rewrite Forall_forall in W. apply MP. intros s I. apply jobj_fine; [reflexivity|]. destruct (W s I) as (W1 & W2).
    pose proof (max_in _ (fun s => list_max (map Loose.depth (snd s))) ss s I). cbn beta in *. repeat (apply Forall_cons; cbn [snd]); [apply TJ|apply F_num; lia|apply LI; [lia|assumption]|constructor].
  - apply P2. apply fold_and in W. rewrite Forall_forall in W. apply MP. intros p I.
    pose proof (max_in _ (fun p => match p with inl t => list_max (map Loose.depth (snd t)) | inr r => Loose.depth r end) ps p I) as M. cbn beta in M.
    specialize (W p I). destruct p as [t|r]; apply P2; [|apply IH; [lia|assumption]]. destruct W as (W1 & W2). apply jobj_fine; [reflexivity|].
    repeat (apply Forall_cons; cbn [snd]); [apply TJ|apply F_num; lia|apply LI; [lia|assumption]|constructor].
  - destruct W as (W1 & W2). apply P2, jobj_fine; [reflexivity|]. repeat (apply Forall_cons; cbn [snd]); [apply IH; [lia|assumption]..|constructor].
  - destruct W as (W1 & W2). apply F_arr. repeat apply Forall_cons; [apply TJ|apply F_num; lia|apply IH; [lia|assumption]|constructor].
  - apply P2, P2, jobj_fine; [reflexivity|]. repeat (apply Forall_cons; cbn [snd]); [apply F_arr; constructor|apply TJ|constructor].
  - apply P2, P2, jobj_fine; [reflexivity|]. repeat (apply Forall_cons; cbn [snd]); [apply TJ|apply TJ|apply F_bool|apply IH; [lia|assumption]|constructor].
  - apply F_arr. repeat apply Forall_cons; [apply TJ|apply MP; intros; apply TJ|apply IH; [lia|assumption]|constructor].
  - destruct W as (W1 & W2). apply fold_and in W1. rewrite Forall_forall in W1. apply F_arr. repeat apply Forall_cons; [apply TJ| |apply IH; [lia|assumption]|constructor].
    apply MP. intros b I. pose proof (max_in _ (fun b => Loose.depth (snd b)) _ b I). cbn beta in *. apply P2, IH; [lia|]. apply (W1 b I).
  - destruct W.
Qed.
Lemma holds_in : forall m k j, NoDup (map fst m) -> (holds m k j <-> In (str_bytes k, j) m).
Proof.
  intros m k j N. split.
  - intros (a & b & -> & _). apply in_elt.
  - intros I. apply in_split in I. destruct I as (a & b & ->). exists a, b. split; [reflexivity|].
    rewrite map_app in N. cbn [map fst] in N. apply NoDup_remove_2 in N. intros I. apply N, in_or_app. auto.
Qed.
Lemma pairs_names : forall (P : json -> json -> Prop) m m', Forall2 (fun p q : list Z * json => fst p = fst q /\ P (snd p) (snd q)) m m' -> map fst m = map fst m'.
Proof. intros P m m' F. induction F as [|p q m m' [K _] F IH]; [reflexivity|]. cbn [map]. congruence. Qed.
Lemma same_alike : forall j j', same j j' -> alike j j'.
Proof.
  induction j as [|b|z|b|s|l IH|m IH] using json_nest; intros j' S; inversion S as [|? ? F|? m1 m' N P F]; subst; try apply L_same.
  - apply L_arr. clear S. induction F as [|x y l l' X F IHf]; [constructor|]. inversion IH; subst. constructor; auto.
  - assert (N1 : NoDup (map fst m1)) by (eapply Permutation_NoDup; [apply Permutation_map, P|exact N]).
    assert (N' : NoDup (map fst m')) by (rewrite <- (pairs_names _ _ _ F); exact N1).
    assert (IH1 : Forall (fun p => forall j', same (snd p) j' -> alike (snd p) j') m1) by (eapply Permutation_Forall; eassumption).
    apply L_obj.
    + intros k j _ H. apply holds_in in H; [|exact N]. apply (Permutation_in _ P) in H. clear - F IH1 H N'.
      assert (X : exists j', In (str_bytes k, j') m' /\ alike j j').
      { clear N'. induction F as [|p q m1 m' [K X] F IHf]; [destruct H|]. inversion IH1 as [|? ? A B]; subst. destruct H as [->|H].
        - exists (snd q). cbn [fst snd] in *. split; [left; destruct q; cbn in *; congruence|]. apply A, X.
        - destruct (IHf B H) as (j' & I & L). exists j'. split; [right; exact I|exact L]. }
      destruct X as (j' & I & L). exists j'. split; [apply holds_in; assumption|exact L].
    + intros k j' _ H. apply holds_in in H; [|exact N']. apply (in_map fst) in H. cbn [fst] in H. rewrite <- (pairs_names _ _ _ F) in H.
      apply (Permutation_in _ (Permutation_map fst (Permutation_sym P))) in H. apply in_map_iff in H. destruct H as ([k1 j] & E & I). cbn [fst] in E. subst k1.
      exists j. apply holds_in; assumption.
Qed.
Lemma texts_strings : forall j, strings bytes_ok j -> texts_ok j.
Proof.
  induction j as [|b|z|b|s|l IH|m IH] using json_nest; intros S; try exact I; [exact S| |]; cbn [strings texts_ok] in *.
  - induction IH as [|x l X IH IHl]; [exact I|]. destruct S as (S1 & S2). cbn [fold_right]. auto.
  - induction IH as [|[k x] m X IH IHl]; [exact I|]. destruct S as (_ & S1 & S2). cbn [fold_right snd] in *. auto.
Qed.
Lemma texts_sorted : forall j, texts_ok j -> texts_ok (sorted j).
Proof.
  induction j as [|b|z|b|s|l IH|m IH] using json_nest; intros T; try exact T; cbn [texts_ok sorted] in *.
  - apply (fold_and _ texts_ok) in T. apply (fold_and _ texts_ok). rewrite Forall_forall in *. intros j I. apply in_map_iff in I. destruct I as (x & <- & I). auto.
  - apply (fold_and _ (fun x : list Z * json => texts_ok (snd x))) in T. apply (fold_and _ (fun x : list Z * json => texts_ok (snd x))). rewrite Forall_forall in *.
    intros p I. apply map_of_in, in_map_iff in I. destruct I as ([k x] & <- & I). cbn [snd]. apply (IH _ I), (T _ I).
Qed.
Lemma sorted_rule : forall decl r, writable r -> rule_of_json (sorted (yojson decl r)) = Some r.
Proof.
  intros decl r W. destruct (fine_parts _ (yojson_fine decl _ r (le_n _) W)) as (_ & _ & S & D).
  rewrite <- (C104_printed decl r W). symmetry. apply C104_alike; [apply texts_strings, S|apply texts_sorted, texts_strings, S|]. apply same_alike, same_sorted, D.
Qed.
(** Every writable rule is read from the text of the document OCaml prints, in
    one line and with anything behind it. *)
Theorem C128_every_rule : forall float_of float_text decl r loc v tdecl flag rest, writable r -> - 2 ^ 31 <= v < 2 ^ 31 ->
  layout_of_text float_of (print float_text (jobj [("layout_loc", jstr loc); ("version_opt", JNum v); ("type_decl", jstr tdecl);
    ("bin_io_derived", JBool flag); ("bin_prot_rule", yojson decl r)]) ++ rest) = Some r.
Proof.
  intros float_of float_text decl r loc v tdecl flag rest W V.
  assert (F : fine (jobj [("layout_loc", jstr loc); ("version_opt", JNum v); ("type_decl", jstr tdecl); ("bin_io_derived", JBool flag); ("bin_prot_rule", yojson decl r)])).
  { apply jobj_fine; [reflexivity|]. repeat (apply Forall_cons; cbn [snd]); [apply jstr_fine|apply F_num; lia|apply jstr_fine|constructor|eapply yojson_fine; eauto|constructor]. }
  destruct (fine_parts _ F) as (NF & IR & SB & _).
  rewrite (C128_printed float_of float_text _ (jobj [("layout_loc", jstr loc); ("version_opt", JNum v); ("type_decl", jstr tdecl); ("bin_io_derived", JBool flag); ("bin_prot_rule", sorted (yojson decl r))]) rest NF IR SB).
  - rewrite <- (sorted_rule decl r W). generalize (sorted (yojson decl r)) as J. intros J.
    change (match to_version (Some (JNum v)) with Some _ => rule_of_json J | None => None end = rule_of_json J).
    unfold to_version, to_i32, to_int. replace (- 2147483648 <=? v) with true by lia. replace (v <=? 2147483647) with true by lia. reflexivity.
  - unfold jobj. apply N_obj. cbn [map fst snd]. repeat constructor; apply kept_sorted; reflexivity.
Qed.
(** ** The tool on two files *)
Theorem C128_tool : forall float_of sz t r j j' file flag, begins t r -> says float_of r j -> inside j j' ->
  tool_on float_of sz t file flag = tool sz (Some j') file flag.
Proof. intros float_of sz t r j j' file flag B S N. unfold tool_on, tool. rewrite (C128_text float_of t r j j' B S N). reflexivity. Qed.
(** With the layout that OCaml prints for a rule, exactly the canonical encodings
    of values of that rule pass the round trip. *)
Theorem C128_tool_rule : forall float_of float_text sz decl r loc n tdecl flag rest file v, writable r -> numbered r = true -> - 2 ^ 31 <= n < 2 ^ 31 -> bytes_ok file ->
  (tool_on float_of sz (print float_text (jobj [("layout_loc", jstr loc); ("version_opt", JNum n); ("type_decl", jstr tdecl);
     ("bin_io_derived", JBool flag); ("bin_prot_rule", yojson decl r)]) ++ rest) file true = Ok v <->
   exists bs q, stands_for file bs /\ canonical sz None r v bs q).
Proof.
  intros float_of float_text sz decl r loc n tdecl flag rest file v W N R B. unfold tool_on. rewrite (C128_every_rule float_of float_text decl r loc n tdecl flag rest W R).
  destruct (doc_ok r W) as (T & D). rewrite <- (C106_roundtrip sz _ r file v T B D N). unfold tool. rewrite (proj2 (C104_document _ r T) D). reflexivity.
Qed.
(** Without a layout in the file nothing is read. *)
Theorem C128_tool_none : forall float_of sz t file flag, (forall r, container r -> ~ begins t r) -> tool_on float_of sz t file flag = Err RLayout.
Proof.
  intros float_of sz t file flag H. unfold tool_on. destruct (layout_of_text float_of t) as [R|] eqn:E; [|reflexivity].
  destruct (C128_begins float_of t R E) as (r & B & C). destruct (H r C B).
Qed.
(** Texts that are no JSON are read all the same: whatever comes behind a layout
    is never looked at. *)
Theorem C128_behind_refuted : exists t, (forall float_of, layout_of_text float_of t = Some RInt) /\ forall r, ~ json_text t r.
Proof.
  exists (str_bytes "[""a.ml"",null,""t"",true,[""Int""]]]"). split; [intros; vm_compute; reflexivity|].
  intros r J. apply parse_iff in J. vm_compute in J. discriminate.
Qed.
(** A rule with every kind of member, read with its version *)
Example C128_ex_rule : forall float_of float_text, layout_of_text float_of (print float_text (jobj [("layout_loc", jstr "a.ml"); ("version_opt", JNum (-1));
  ("type_decl", jstr "t"); ("bin_io_derived", JBool true); ("bin_prot_rule", yojson (fun _ => "type t") ex_rule)]) ++ str_bytes "}") = Some ex_rule.
Proof. intros. apply C128_every_rule; [apply C104_ex_writable|lia]. Qed.
(** Members in another order, one with another name and blanks; of the two names
    of the field the last counts. *)
Definition ex_text : list Z := str_bytes
  " { ""bin_prot_rule"" : [""Record"",[{""field_name"":""x"",""field_name"":""y"",""field_rule"":[""Int""]}]], ""more"" : [{}], ""type_decl"":""t"",""bin_io_derived"":true,""layout_loc"":""a.ml""} .".
Example C128_ex : forall float_of, layout_of_text float_of ex_text = Some (RRecord [("y", RInt)]).
Proof. intros. vm_compute. reflexivity. Qed.
(** whatever number the other member is *)
Example C128_ex_other : forall float_of, layout_of_text float_of
  (str_bytes "{""more"":1e999,""layout_loc"":"""",""version_opt"":7,""type_decl"":"""",""bin_io_derived"":false,""bin_prot_rule"":[""Unit""]}") = Some RUnit.
Proof. intros. vm_compute. reflexivity. Qed.
(** and the first text meets the hypotheses of [C128_text_iff] *)
Definition ex_document (field : list (string * json)) : json :=
  jobj [("bin_prot_rule", JArr [jstr "Record"; JArr [jobj field]]); ("more", JArr [JObj []]); ("type_decl", jstr "t"); ("bin_io_derived", JBool true); ("layout_loc", jstr "a.ml")].
Definition ex_twice : json := ex_document [("field_name", jstr "x"); ("field_name", jstr "y"); ("field_rule", JArr [jstr "Int"])].
Definition ex_once : json := ex_document [("field_name", jstr "y"); ("field_rule", JArr [jstr "Int"])].
Example C128_ex_meets : forall float_of float_text, begins ex_text (raw_of float_text ex_twice) /\ says float_of (raw_of float_text ex_twice) ex_twice /\
  inside ex_twice ex_once /\ texts_ok ex_once /\ document ex_once (RRecord [("y", RInt)]).
Proof.
  intros float_of float_text. assert (T : texts_ok ex_once).
  { unfold ex_once, ex_document. apply texts_obj. intros x H. repeat (destruct H as [<-|H]; [cbn [snd texts_ok fold_right jobj map]; repeat split; try exact I; apply str_bytes_ok|]). destruct H. }
  split; [apply first_iff; [exact I|vm_compute; reflexivity]|].
  split; [apply raw_says; vm_compute; repeat split; exact I|]. split; [|split; [exact T|]].
  - unfold ex_twice, ex_once, ex_document, jobj. apply N_obj. cbn [map fst snd]. repeat (constructor; [split; [reflexivity|apply kept_sorted; vm_compute; reflexivity]|]). constructor.
  - apply C104_document; [exact T|]. vm_compute. reflexivity.
Qed.
(** "Hi!" by the layout of a string: as bytes, as hex digits and with a byte
    behind; and a file without a layout *)
Definition ex_layout : list Z := str_bytes "[""a.ml"",null,""t"",true,[""String""]] and so on".
Example C128_ex_tool : forall float_of, tool_on float_of 200 ex_layout [3; 72; 105; 33] true = Ok (Loose.LList (map Loose.LChar [72; 105; 33])) /\
  tool_on float_of 200 ex_layout (str_bytes "03486921") true = Ok (Loose.LList (map Loose.LChar [72; 105; 33])) /\
  tool_on float_of 200 ex_layout [3; 72; 105; 33; 0] true = Panic /\ tool_on float_of 200 (str_bytes "no layout") [3; 72; 105; 33] true = Err RLayout.
Proof. intros. repeat split; vm_compute; reflexivity. Qed.
Example C128_ex_none : forall r, container r -> ~ begins (str_bytes "no layout") r.
Proof. intros r C B. apply first_iff in B; [|exact C]. vm_compute in B. discriminate. Qed.

Print Assumptions C128_text.
Print Assumptions C128_text_iff.
Print Assumptions C128_begins.
Print Assumptions C128_other.
Print Assumptions C128_printed.
Print Assumptions C128_every_rule.
Print Assumptions C128_tool.
Print Assumptions C128_tool_rule.
Print Assumptions C128_tool_none.
Print Assumptions C128_behind_refuted.
