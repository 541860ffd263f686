(** Lemmas for the properties of Layout/LayoutProps.v *)
From Coq Require Import String Ascii ZArith List Bool Lia ZifyBool ZifyNat ZifyN.
From Verif Require Import Lib.Bytes Json.Json Loose.Loose Layout.LayoutJson Layout.LayoutSpec.
Import ListNotations.
Local Open Scope string_scope.
Local Open Scope list_scope.
Local Open Scope Z_scope.

Lemma text_bytes : forall s, text (str_bytes s) = s.
Proof.
  induction s as [|c s IH]; [reflexivity|]. cbn [str_bytes text]. rewrite IH, N2Z.id, ascii_N_embedding. reflexivity.
Qed.
Lemma bytes_text : forall s, bytes_ok s -> str_bytes (text s) = s.
Proof.
  induction s as [|b s IH]; intros H; [reflexivity|]. inversion H as [|x l H1 H2]; subst. cbn [text str_bytes].
  rewrite IH by auto. unfold byte_ok in H1. rewrite N_ascii_embedding by lia. f_equal. lia.
Qed.
Lemma key_eqb_iff : forall a b, key_eqb a b = true <-> a = b.
Proof. intros. unfold key_eqb. destruct (list_eq_dec Z.eq_dec a b); intuition congruence. Qed.

Lemma lookup_holds : forall m k j, lookup k m = Some j <-> holds m k j.
Proof.
  induction m as [|(k' & j') m IH]; intros k j; cbn [lookup].
  - split; [discriminate|]. intros (a & b & E & _). destruct a; discriminate.
  - destruct (key_eqb k' (str_bytes k)) eqn:E.
    + apply key_eqb_iff in E. subst k'. split.
      * intros H. inversion H; subst. exists [], m. split; auto.
      * intros (a & b & H & N). destruct a as [|x a]; cbn [app] in H.
        -- inversion H; reflexivity.
        -- inversion H; subst. exfalso. apply N. left. reflexivity.
    + assert (D : k' <> str_bytes k) by (intros ->; rewrite (proj2 (key_eqb_iff _ _)) in E; auto; discriminate).
      rewrite IH. split.
      * intros (a & b & -> & N). exists ((k', j') :: a), b. split; auto. cbn [map fst]. intros [H|H]; auto.
      * intros (a & b & H & N). destruct a as [|x a]; cbn [app] in H; inversion H; subst; [contradiction|].
        exists a, b. split; auto. intros I. apply N. right. auto.
Qed.
Lemma members_struct : forall names v js, members names v = Some js <-> struct names v js.
Proof.
  intros names v js. split.
  - intros H. destruct v; try discriminate; cbn [members] in H.
    + destruct (Nat.eqb_spec (List.length l) (List.length names)); [|discriminate]. inversion H; subst. constructor. auto.
    + inversion H; subst. constructor. clear. induction names as [|k names IH]; constructor; auto.
      intros j. apply lookup_holds.
  - intros H. inversion H; subst; cbn [members].
    + f_equal. clear H. rename H0 into H. induction H as [|k o names js H F IH]; [reflexivity|]. cbn [map]. f_equal; auto.
      destruct (lookup k m) as [j|] eqn:E.
      * symmetry. apply H. apply lookup_holds. auto.
      * destruct o as [j|]; auto. rewrite (proj2 (lookup_holds m k j)) in E; [discriminate|]. apply H. auto.
    + rewrite (proj2 (Nat.eqb_eq _ _)) by auto. reflexivity.
Qed.
Lemma all_of_iff : forall A (f : json -> option A) l xs, all_of f l = Some xs <-> Forall2 (fun j x => f j = Some x) l xs.
Proof.
  intros A f. induction l as [|j l IH]; intros xs; cbn [all_of].
  - split; [intros H; inversion H; constructor|intros H; inversion H; reflexivity].
  - destruct (f j) as [a|] eqn:E.
    + destruct (all_of f l) as [ys|] eqn:E2; cbn [option_map].
      * split.
        -- intros H. inversion H; subst. constructor; auto. apply IH. reflexivity.
        -- intros H. inversion H as [|x y l' ys' H1 H2]; subst. rewrite H1 in E. inversion E; subst.
           apply IH in H2. inversion H2; reflexivity.
      * split; [discriminate|]. intros H. inversion H as [|x y l' ys' H1 H2]; subst. apply IH in H2. discriminate.
    + split; [discriminate|]. intros H. inversion H; congruence.
Qed.
Lemma Forall2_in : forall A B (P Q : A -> B -> Prop) l m, Forall2 P l m -> (forall x y, In x l -> P x y -> Q x y) -> Forall2 Q l m.
Proof.
  intros A B P Q l m H. induction H; intros I; constructor.
  - apply I; auto. left; auto.
  - apply IHForall2. intros. apply I; auto. right; auto.
Qed.
Lemma depth_in : forall j l, In j l -> (jdepth j <= list_max (map jdepth l))%nat.
Proof.
  intros j l I. pose proof (proj1 (list_max_le (map jdepth l) _) (le_n _)) as F. rewrite Forall_forall in F. apply F.
  apply in_map. auto.
Qed.
Lemma depth_member : forall names v js j, struct names v js -> In (Some j) js -> (jdepth j < jdepth v)%nat.
Proof.
  intros names v js j H I. inversion H; subst; cbn [jdepth].
  - assert (exists k, holds m k j).
    { clear H. rename H0 into F. induction F as [|k o names js H F IH]; [contradiction|]. destruct I as [->|I]; auto.
      exists k. apply H. reflexivity. }
    destruct H1 as (k & a & b & -> & _).
    pose proof (proj1 (list_max_le (map (fun x => jdepth (snd x)) (a ++ (str_bytes k, j) :: b)) _) (le_n _)) as F.
    rewrite Forall_forall in F. specialize (F (jdepth j)). apply le_n_S, F. apply in_map_iff. exists (str_bytes k, j). split; auto.
    apply in_or_app. right. left. auto.
  - apply in_map_iff in I. destruct I as (x & E & I). inversion E; subst. apply le_n_S, depth_in. auto.
Qed.
Lemma texts_in : forall l j, fold_right (fun j P => texts_ok j /\ P) True l -> In j l -> texts_ok j.
Proof. induction l; intros j H I; [contradiction|]. destruct I as [->|I]; destruct H; auto. Qed.
Lemma texts_member : forall names v js j, struct names v js -> texts_ok v -> In (Some j) js -> texts_ok j.
Proof.
  intros names v js j H T I. inversion H; subst; cbn [texts_ok] in T.
  - assert (exists k, holds m k j).
    { clear H. rename H0 into F. induction F as [|k o names js H F IH]; [contradiction|]. destruct I as [->|I]; auto.
      exists k. apply H. reflexivity. }
    destruct H1 as (k & a & b & -> & _). clear -T. induction a as [|x a IH]; cbn in T; [apply T|apply IH, T].
  - apply in_map_iff in I. destruct I as (x & E & I). inversion E; subst. eapply texts_in; eauto.
Qed.
Lemma jstr_inj : forall a b, jstr a = jstr b -> a = b.
Proof. intros a b H. inversion H as [E]. rewrite <- (text_bytes a), <- (text_bytes b). f_equal. exact E. Qed.
Lemma jstr_iff : forall j n, texts_ok j -> (to_text j = Some n <-> j = jstr n).
Proof.
  intros j n T. split; [|intros ->; cbn; rewrite text_bytes; reflexivity].
  destruct j; try discriminate. cbn [to_text]. intros H. inversion H; subst. unfold jstr. rewrite bytes_text; auto.
Qed.
Lemma to_int_iff : forall lo hi j z, to_int lo hi j = Some z <-> j = JNum z /\ lo <= z <= hi.
Proof.
  intros lo hi j z. split.
  - destruct j; try discriminate. cbn [to_int]. destruct ((lo <=? z0) && (z0 <=? hi)) eqn:E; [|discriminate].
    intros H. inversion H; subst. split; auto. lia.
  - intros (-> & R). cbn [to_int]. replace ((lo <=? z) && (z <=? hi)) with true by lia. reflexivity.
Qed.
Lemma rule0_iff : forall t r, rule0 t = Some r <-> In (t, r) plain_rules.
Proof.
  intros t r. unfold rule0. split.
  - repeat match goal with |- (if String.eqb ?a ?b then _ else _) = _ -> _ =>
      destruct (String.eqb_spec a b); [intros H; inversion H; subst; unfold plain_rules; cbn [In]; tauto|] end. discriminate.
  - unfold plain_rules. cbn [In]. intros H.
    repeat match type of H with _ \/ _ => destruct H as [H|H]; [inversion H; subst; reflexivity|] end. contradiction.
Qed.

Section Rd.
  Variable g : json -> option rule.
  Variable n : nat.
  Definition dom (j : json) : Prop := (jdepth j <= n)%nat /\ texts_ok j.
  Hypothesis Hg : forall j r, dom j -> (g j = Some r <-> denotes j r).

  Lemma dom_arr : forall l j, (jdepth (JArr l) <= S n)%nat -> texts_ok (JArr l) -> In j l -> dom j.
  Proof.
    intros l j D T I. cbn [jdepth] in D. split; [pose proof (depth_in j l I); lia|]. eapply texts_in; eauto.
  Qed.
  Lemma dom_member : forall names v js j, dom v -> struct names v js -> In (Some j) js -> dom j.
  Proof.
    intros names v js j (D & T) S I. split; [pose proof (depth_member _ _ _ _ S I); lia|]. eapply texts_member; eauto.
  Qed.
  Lemma dom_in : forall l j, dom (JArr l) -> In j l -> dom j.
  Proof. intros l j (D & T) I. apply (dom_arr l); auto. Qed.

  Lemma vec_iff : forall A (f : json -> option A) (P : json -> A -> Prop) v xs, dom v ->
    (forall j x, dom j -> (f j = Some x <-> P j x)) ->
    (vec f v = Some xs <-> exists l, v = JArr l /\ Forall2 P l xs).
  Proof.
    intros A f P v xs D H. split.
    - intros E. destruct v; try discriminate. cbn [vec] in E. apply all_of_iff in E. exists l. split; auto.
      eapply Forall2_in; [exact E|]. intros x y I K. apply H in K; auto. eapply dom_in; eauto.
    - intros (l & -> & F). cbn [vec]. apply all_of_iff. eapply Forall2_in; [exact F|]. intros x y I K. apply H; auto. eapply dom_in; eauto.
  Qed.
  Lemma rules_iff : forall v rs, dom v -> (vec g v = Some rs <-> exists l, v = JArr l /\ Forall2 denotes l rs).
  Proof. intros v rs D. apply vec_iff; auto. Qed.
  Lemma req_iff : forall A (f : json -> option A) o x, req f o = Some x <-> exists j, o = Some j /\ f j = Some x.
  Proof.
    intros A f o x. destruct o as [j|]; cbn [req]; [|split; [discriminate|intros (j & E & _); discriminate]].
    split; [eauto|]. intros (j' & E & H). inversion E; subst. auto.
  Qed.
  Lemma field_iff : forall v f, dom v -> (to_field g v = Some f <->
    exists j, struct ["field_name"; "field_rule"] v [Some (jstr (fst f)); Some j] /\ denotes j (snd f)).
  Proof.
    intros v (nm & r) D. cbn [fst snd]. unfold to_field. split.
    - destruct (members ["field_name"; "field_rule"] v) as [[|a [|b [|c js]]]|] eqn:E; try discriminate.
      apply members_struct in E. destruct (req to_text a) as [nm'|] eqn:E1; [|discriminate].
      destruct (req g b) as [r'|] eqn:E2; [|discriminate]. intros H. inversion H; subst.
      apply req_iff in E1, E2. destruct E1 as (ja & -> & E1). destruct E2 as (jb & -> & E2).
      apply jstr_iff in E1; [|eapply (dom_member _ _ _ ja); eauto; left; auto]. subst ja.
      apply Hg in E2; [|eapply (dom_member _ _ _ jb); eauto; right; left; auto]. eauto.
    - intros (j & S & H). pose proof S as S'. apply members_struct in S. rewrite S. cbn [req to_text jstr]. rewrite text_bytes.
      apply Hg in H; [rewrite H; reflexivity|]. eapply (dom_member _ _ _ j); eauto. right. left. auto.
  Qed.
  Lemma counted_iff : forall names v lo hi nm i rs a b c, dom v -> struct names v [a; b; c] ->
    (match req to_text a, req (to_int lo hi) b, req (vec g) c with Some n, Some i, Some rs => Some (n, i, rs) | _, _, _ => None end
      = Some (nm, i, rs) <-> exists js, a = Some (jstr nm) /\ b = Some (JNum i) /\ c = Some (JArr js) /\ lo <= i <= hi /\ Forall2 denotes js rs).
  Proof.
    intros names v lo hi nm i rs a b c D S. split.
    - destruct (req to_text a) as [nm'|] eqn:E1; [|discriminate]. destruct (req (to_int lo hi) b) as [i'|] eqn:E2; [|discriminate].
      destruct (req (vec g) c) as [rs'|] eqn:E3; [|discriminate]. intros H. inversion H; subst.
      apply req_iff in E1, E2, E3. destruct E1 as (ja & -> & E1). destruct E2 as (jb & -> & E2). destruct E3 as (jc & -> & E3).
      apply jstr_iff in E1; [|eapply (dom_member _ _ _ ja); eauto; left; auto]. apply to_int_iff in E2. destruct E2 as (-> & R).
      apply rules_iff in E3; [|eapply (dom_member _ _ _ jc); eauto; do 2 right; left; auto]. destruct E3 as (l & -> & F). subst ja.
      exists l. auto.
    - intros (js & -> & -> & -> & R & F). cbn [req]. rewrite (proj2 (to_int_iff lo hi (JNum i) i)) by auto.
      cbn [to_text jstr]. rewrite text_bytes.
      rewrite (proj2 (rules_iff (JArr js) rs ltac:(eapply (dom_member _ _ _ (JArr js)); eauto; do 2 right; left; auto))) by eauto.
      reflexivity.
  Qed.
  Lemma counted_struct : forall names v lo hi s, dom v ->
    (match members names v with
     | Some [a; b; c] =>
       match req to_text a, req (to_int lo hi) b, req (vec g) c with Some n, Some i, Some rs => Some (n, i, rs) | _, _, _ => None end
     | _ => None end = Some s <->
     exists js, struct names v [Some (jstr (fst (fst s))); Some (JNum (snd (fst s))); Some (JArr js)] /\
       lo <= snd (fst s) <= hi /\ Forall2 denotes js (snd s)).
  Proof.
    intros names v lo hi ((nm & i) & rs) D. cbn [fst snd]. split.
    - destruct (members names v) as [[|a [|b [|c [|d js]]]]|] eqn:E; try discriminate. apply members_struct in E.
      intros H. apply (counted_iff names v) in H; auto. destruct H as (js & -> & -> & -> & R & F). eauto.
    - intros (js & S & R & F). pose proof S as S'. apply members_struct in S. rewrite S.
      apply (counted_iff names v); auto. eauto 8.
  Qed.
  Lemma summand_iff : forall v s, dom v -> (to_summand g v = Some s <->
    exists js, struct ["ctor_name"; "index"; "ctor_args"] v [Some (jstr (fst (fst s))); Some (JNum (snd (fst s))); Some (JArr js)] /\
      - 2 ^ 31 <= snd (fst s) < 2 ^ 31 /\ Forall2 denotes js (snd s)).
  Proof.
    intros v s D. unfold to_summand, to_i32. rewrite (counted_struct _ v _ _ s D).
    split; intros (js & A & B & C); exists js; repeat split; auto; lia.
  Qed.
  Lemma tagged_iff : forall v s, dom v -> (to_tagged g v = Some s <->
    exists js, struct ["polyvar_name"; "hash"; "polyvar_args"] v [Some (jstr (fst (fst s))); Some (JNum (snd (fst s))); Some (JArr js)] /\
      0 <= snd (fst s) < 2 ^ 32 /\ Forall2 denotes js (snd s)).
  Proof.
    intros v s D. unfold to_tagged, to_u32. rewrite (counted_struct _ v _ _ s D).
    split; intros (js & A & B & C); exists js; repeat split; auto; lia.
  Qed.
  Lemma entry_iff : forall v r, dom v -> (to_entry g v = Some r <->
    exists a b k w, struct ["key_rule"; "value_rule"] v [Some a; Some b] /\ denotes a k /\ denotes b w /\ r = RHashtable k w).
  Proof.
    intros v r D. unfold to_entry. split.
    - destruct (members ["key_rule"; "value_rule"] v) as [[|a [|b [|c js]]]|] eqn:E; try discriminate.
      apply members_struct in E. destruct (req g a) as [k|] eqn:E1; [|discriminate].
      destruct (req g b) as [w|] eqn:E2; [|discriminate]. intros H. inversion H; subst.
      apply req_iff in E1, E2. destruct E1 as (ja & -> & E1). destruct E2 as (jb & -> & E2).
      apply Hg in E1; [|eapply (dom_member _ _ _ ja); eauto; left; auto].
      apply Hg in E2; [|eapply (dom_member _ _ _ jb); eauto; right; left; auto]. eauto 8.
    - intros (a & b & k & w & S & A & B & ->). pose proof S as S'. apply members_struct in S. rewrite S. cbn [req].
      apply Hg in A; [|eapply (dom_member _ _ _ a); eauto; left; auto].
      apply Hg in B; [|eapply (dom_member _ _ _ b); eauto; right; left; auto]. rewrite A, B. reflexivity.
  Qed.
  (** an array of two elements that begins with a string *)
  Lemma pair_cases : forall v, dom v -> (exists t w, v = JArr [jstr t; w] /\ dom w) \/ (forall t w, v <> JArr [JStr t; w]).
  Proof.
    intros v D. destruct v as [| | | | |l|]; try (right; intros; discriminate).
    destruct l as [|a [|w [|x l]]]; try (right; intros; discriminate).
    destruct a; try (right; intros; discriminate). left. exists (text s), w.
    assert (T : texts_ok (JStr s)) by (apply (dom_in _ _ D); left; auto). unfold jstr. rewrite bytes_text by auto.
    split; auto. apply (dom_in _ _ D). right. left. auto.
  Qed.
  Lemma not_pair : forall (A : Type) (f : list Z -> json -> option A) v, (forall t w, v <> JArr [JStr t; w]) ->
    match v with JArr [JStr t; w] => f t w | _ => None end = None.
  Proof.
    intros A f v H. destruct v as [| | | | |l|]; auto. destruct l as [|a [|w [|x l]]]; auto; destruct a; auto.
    exfalso. eapply H; eauto.
  Qed.
  Lemma polyvar_iff : forall v p, dom v -> (to_polyvar g v = Some p <->
    (exists n h rs w js, p = inl (n, h, rs) /\ v = JArr [jstr "Tagged"; w] /\
          struct ["polyvar_name"; "hash"; "polyvar_args"] w [Some (jstr n); Some (JNum h); Some (JArr js)] /\
          0 <= h < 2 ^ 32 /\ Forall2 denotes js rs) \/
      (exists r w, p = inr r /\ v = JArr [jstr "Inherited"; w] /\ denotes w r)).
  Proof.
    intros v p D. destruct (pair_cases v D) as [(t & w & -> & W)|N].
    - cbn [to_polyvar jstr]. rewrite text_bytes. split.
      + destruct (String.eqb_spec t "Tagged") as [->|N1].
        * intros H. destruct (to_tagged g w) as [((nm & h) & rs)|] eqn:E; [|discriminate]. inversion H; subst.
          apply tagged_iff in E; auto. destruct E as (js & S & R & F). left. exists nm, h, rs, w, js. auto.
        * destruct (String.eqb_spec t "Inherited") as [->|N2]; [|discriminate].
          intros H. destruct (g w) as [r|] eqn:E; [|discriminate]. inversion H; subst. apply Hg in E; auto. right. eauto.
      + intros [(nm & h & rs & w' & js & -> & E & S & R & F)|(r & w' & -> & E & H)].
        * assert (t = "Tagged") by (apply jstr_inj; congruence). assert (w' = w) by congruence. subst t w'.
          rewrite String.eqb_refl. rewrite (proj2 (tagged_iff w (nm, h, rs) W)); [reflexivity|]. eauto.
        * assert (t = "Inherited") by (apply jstr_inj; congruence). assert (w' = w) by congruence. subst t w'.
          change (String.eqb "Inherited" "Tagged") with false. rewrite String.eqb_refl.
          apply Hg in H; auto. rewrite H. reflexivity.
    - unfold to_polyvar. rewrite not_pair by auto. split; [discriminate|].
      intros [(nm & h & rs & w' & js & -> & -> & _)|(r & w' & -> & -> & _)]; exfalso; eapply N; reflexivity.
  Qed.
  Lemma unresolved_iff : forall v r, dom v -> (to_unresolved g v = Some r <->
    exists js rs m, struct ["params"; "layout_id"] v [Some (JArr js); Some (jstr m)] /\ Forall2 denotes js rs /\ r = RUnresolved).
  Proof.
    intros v r D. unfold to_unresolved. split.
    - destruct (members ["params"; "layout_id"] v) as [[|a [|b [|c js]]]|] eqn:E; try discriminate.
      apply members_struct in E. destruct (req (vec g) a) as [k|] eqn:E1; [|discriminate].
      destruct (req to_text b) as [w|] eqn:E2; [|discriminate]. intros H. inversion H; subst.
      apply req_iff in E1, E2. destruct E1 as (ja & -> & E1). destruct E2 as (jb & -> & E2).
      apply rules_iff in E1; [|eapply (dom_member _ _ _ ja); eauto; left; auto]. destruct E1 as (l & -> & F).
      apply jstr_iff in E2; [|eapply (dom_member _ _ _ jb); eauto; right; left; auto]. subst jb. eauto 6.
    - intros (js & rs & m & S & F & ->). pose proof S as S'. apply members_struct in S. rewrite S. cbn [req to_text jstr].
      rewrite (proj2 (rules_iff (JArr js) rs ltac:(eapply (dom_member _ _ _ (JArr js)); eauto; left; auto))) by eauto. reflexivity.
  Qed.
  Lemma resolved_iff : forall v r, dom v -> (to_resolved g v = Some r <->
    exists decl path derived j p r', struct ["source_type_decl"; "source_module_path"; "bin_io_derived"; "ref_rule"] v [Some (jstr decl); path; derived; Some j] /\
    (path = Some (jstr p) \/ path = None /\ p = "") /\ (derived = None \/ exists b, derived = Some (JBool b)) /\ denotes j r' /\ r = RResolved p r').
  Proof.
    intros v r D. unfold to_resolved. split.
    - destruct (members ["source_type_decl"; "source_module_path"; "bin_io_derived"; "ref_rule"] v) as [[|a [|b [|c [|d [|e js]]]]]|] eqn:E; try discriminate.
      apply members_struct in E. destruct (req to_text a) as [k|] eqn:E1; [|discriminate].
      destruct (opt to_text "" b) as [p|] eqn:E2; [|discriminate]. destruct (opt to_bool false c) as [q|] eqn:E3; [|discriminate].
      destruct (req g d) as [w|] eqn:E4; [|discriminate]. intros H. inversion H; subst.
      apply req_iff in E1, E4. destruct E1 as (ja & -> & E1). destruct E4 as (jd & -> & E4).
      apply Hg in E4; [|eapply (dom_member _ _ _ jd); eauto; do 3 right; left; auto].
      apply jstr_iff in E1; [|eapply (dom_member _ _ _ ja); eauto; left; auto]. subst ja.
      exists k, b, c, jd, p, w. split; auto. split; [|split; auto].
      + destruct b as [jb|]; cbn [opt] in E2; [|inversion E2; auto]. left.
        apply jstr_iff in E2; [subst; auto|]. eapply (dom_member _ _ _ jb); eauto. right. left. auto.
      + destruct c as [jc|]; cbn [opt] in E3; [|auto]. right. destruct jc; try discriminate. eauto.
    - intros (decl & path & dv & j & p & r' & S & P & B & F & ->). pose proof S as S'. apply members_struct in S. rewrite S. cbn [req to_text jstr].
      apply Hg in F; [|eapply (dom_member _ _ _ j); eauto; do 3 right; left; auto]. rewrite F.
      replace (opt to_text "" path) with (Some p)
        by (destruct P as [->|(-> & ->)]; cbn [opt to_text jstr]; [rewrite text_bytes|]; reflexivity).
      destruct B as [->|(b & ->)]; reflexivity.
  Qed.
  Lemma reference_iff : forall v r, dom v -> (to_reference g v = Some r <->
    (exists w, v = JArr [jstr "Unresolved"; w] /\ to_unresolved g w = Some r) \/
    (exists w, v = JArr [jstr "Resolved"; w] /\ to_resolved g w = Some r)).
  Proof.
    intros v r D. destruct (pair_cases v D) as [(t & w & -> & W)|N].
    - cbn [to_reference jstr]. rewrite text_bytes. split.
      + destruct (String.eqb_spec t "Unresolved") as [->|N1]; [intros H; left; eauto|].
        destruct (String.eqb_spec t "Resolved") as [->|N2]; [intros H; right; eauto|discriminate].
      + intros [(w' & E & H)|(w' & E & H)].
        * assert (t = "Unresolved") by (apply jstr_inj; congruence). assert (w' = w) by congruence. subst t w'. rewrite String.eqb_refl. auto.
        * assert (t = "Resolved") by (apply jstr_inj; congruence). assert (w' = w) by congruence. subst t w'.
          change (String.eqb "Resolved" "Unresolved") with false. rewrite String.eqb_refl. auto.
    - unfold to_reference. rewrite not_pair by auto. split; [discriminate|].
      intros [(w' & -> & _)|(w' & -> & _)]; exfalso; eapply N; reflexivity.
  Qed.
  Lemma binding_iff : forall v b, dom v -> (to_binding g v = Some b <-> exists w, v = JArr [jstr (fst b); w] /\ denotes w (snd b)).
  Proof.
    intros v (nm & r) D. cbn [fst snd]. split.
    - destruct v as [| | | | |l|]; try discriminate. destruct l as [|a [|w [|x l]]]; try discriminate. cbn [to_binding].
      destruct (to_text a) as [t|] eqn:E; [|discriminate]. destruct (g w) as [r'|] eqn:E2; [|discriminate].
      intros H. inversion H; subst. apply jstr_iff in E; [|apply (dom_in _ _ D); left; auto]. subst a.
      apply Hg in E2; [|apply (dom_in _ _ D); right; left; auto]. eauto.
    - intros (w & -> & H). cbn [to_binding to_text jstr]. apply Hg in H; [|apply (dom_in _ _ D); right; left; auto].
      rewrite H, text_bytes. reflexivity.
  Qed.
  Lemma texts_vec_iff : forall v ns, dom v -> (vec to_text v = Some ns <-> v = JArr (map jstr ns)).
  Proof.
    intros v ns D. rewrite (vec_iff _ to_text (fun j m => j = jstr m) v ns D) by (intros; apply jstr_iff; apply H).
    split.
    - intros (l & -> & F). f_equal. clear D. induction F; [reflexivity|]. cbn [map]. subst. reflexivity.
    - intros ->. eexists. split; eauto. clear. induction ns; constructor; auto.
  Qed.
  Lemma usize_iff : forall v z, to_usize v = Some z <-> v = JNum z /\ 0 <= z < 2 ^ 64.
  Proof. intros v z. unfold to_usize. rewrite to_int_iff. split; intros (A & B); split; auto; lia. Qed.

  Lemma rule1_iff : forall t v r, dom v -> (rule1 g t v = Some r <-> denotes (JArr [jstr t; v]) r).
  Proof.
    intros t v r D. unfold rule1. split.
    - repeat match goal with |- (if String.eqb t ?b then _ else _) = _ -> _ => destruct (String.eqb_spec t b) as [->|]; [
        let H := fresh "H" in intros H;
        try match type of H with option_map _ ?x = _ => destruct x as [y|] eqn:E; [|discriminate]; cbn [option_map] in H; inversion H; subst r end|] end;
        try discriminate.
      + apply N_option, Hg; auto.
      + apply (vec_iff _ _ _ _ _ D field_iff) in E. destruct E as (l & -> & F). apply N_record; auto.
      + apply rules_iff in E; auto. destruct E as (l & -> & F). apply N_tuple; auto.
      + apply (vec_iff _ _ _ _ _ D summand_iff) in E. destruct E as (l & -> & F). apply N_sum; auto.
      + apply (vec_iff _ _ _ _ _ D polyvar_iff) in E. destruct E as (l & -> & F). apply N_polyvar; auto.
      + apply N_list, Hg; auto.
      + apply entry_iff in H; auto. destruct H as (a & b & k & w & S & A & B & ->). eapply N_table; eauto.
      + apply reference_iff in H; auto. destruct H as [(w & -> & H)|(w & -> & H)].
        * apply unresolved_iff in H; [|apply (dom_in _ _ D); right; left; auto]. destruct H as (js & rs & m & S & F & ->).
          eapply N_unresolved; eauto.
        * apply resolved_iff in H; [|apply (dom_in _ _ D); right; left; auto].
          destruct H as (decl & path & dv & j & p & r' & S & P & B & F & ->). eapply N_resolved; eauto.
      + apply jstr_iff in E; [|apply D]. subst v. apply N_var.
      + apply rules_iff in E; auto. destruct E as (l & -> & F). apply N_self; auto.
      + apply rules_iff in E; auto. destruct E as (l & -> & F). apply N_custom; auto.
    - intros H. remember (JArr [jstr t; v]) as J eqn:EJ.
      destruct H; try discriminate EJ;
        match type of EJ with JArr [jstr ?s; ?x] = _ =>
          assert (t = s) by (apply jstr_inj; congruence); assert (v = x) by congruence; subst t v; clear EJ end;
        cbn [String.eqb Ascii.eqb Bool.eqb].
      + apply Hg in H; auto. rewrite H. reflexivity.
      + apply Hg in H; auto. rewrite H. reflexivity.
      + rewrite (proj2 (rules_iff _ rs D)) by eauto. reflexivity.
      + rewrite (proj2 (rules_iff _ rs D)) by eauto. reflexivity.
      + rewrite (proj2 (rules_iff _ rs D)) by eauto. reflexivity.
      + rewrite (proj2 (vec_iff _ _ _ _ fs D field_iff)) by eauto. reflexivity.
      + rewrite (proj2 (vec_iff _ _ _ _ ss D summand_iff)) by eauto. reflexivity.
      + rewrite (proj2 (vec_iff _ _ _ _ ps D polyvar_iff)) by eauto. reflexivity.
      + apply entry_iff; auto. eauto 8.
      + apply reference_iff; auto. left. exists v0. split; auto. apply unresolved_iff; eauto 6. apply (dom_in _ _ D). right. left. auto.
      + apply reference_iff; auto. right. exists v0. split; auto. apply resolved_iff; eauto 12. apply (dom_in _ _ D). right. left. auto.
      + cbn [to_text jstr]. rewrite text_bytes. reflexivity.
  Qed.
  Lemma rule2_iff : forall t v w r, dom v -> dom w -> (rule2 g t v w = Some r <-> denotes (JArr [jstr t; v; w]) r).
  Proof.
    intros t v w r D D'. unfold rule2. split.
    - repeat match goal with |- (if String.eqb t ?b then _ else _) = _ -> _ => destruct (String.eqb_spec t b) as [->|] end;
        try discriminate.
      + destruct (to_usize v) as [z|] eqn:E; [|discriminate]. destruct (g w) as [r'|] eqn:E2; [|discriminate]. intros H. inversion H; subst.
        apply usize_iff in E. destruct E as (-> & R). apply Hg in E2; auto. apply N_vec; auto.
      + destruct (vec to_text v) as [z|] eqn:E; [|discriminate]. destruct (g w) as [r'|] eqn:E2; [|discriminate]. intros H. inversion H; subst.
        apply texts_vec_iff in E; auto. subst v. apply Hg in E2; auto. apply N_abstraction; auto.
      + destruct (vec (to_binding g) v) as [z|] eqn:E; [|discriminate]. destruct (g w) as [r'|] eqn:E2; [|discriminate]. intros H. inversion H; subst.
        apply (vec_iff _ _ _ _ _ D binding_iff) in E. destruct E as (l & -> & F). apply Hg in E2; auto. apply N_closure; auto.
    - intros H. remember (JArr [jstr t; v; w]) as J eqn:EJ.
      destruct H; try discriminate EJ;
        match type of EJ with JArr [jstr ?s; ?x; ?y] = _ =>
          assert (t = s) by (apply jstr_inj; congruence); assert (v = x) by congruence; assert (w = y) by congruence; subst t v w; clear EJ end;
        cbn [String.eqb Ascii.eqb Bool.eqb].
      + rewrite (proj2 (usize_iff (JNum n0) n0)) by auto. apply Hg in H0; auto. rewrite H0. reflexivity.
      + rewrite (proj2 (texts_vec_iff _ ns D)) by auto. apply Hg in H; auto. rewrite H. reflexivity.
      + rewrite (proj2 (vec_iff _ _ _ _ bs D binding_iff)) by eauto. apply Hg in H0; auto. rewrite H0. reflexivity.
  Qed.
End Rd.

Lemma rd_iff : forall n j r, dom n j -> (rd n j = Some r <-> denotes j r).
Proof.
  induction n as [|n IH]; intros j r D.
  - split; [discriminate|]. intros H. destruct D as (D & _). destruct H; cbn in D; lia.
  - destruct D as (D & T).
    assert (IN : forall l x, j = JArr l -> In x l -> dom n x) by (intros l x -> I; eapply dom_arr; eauto).
    split.
    + intros H. cbn [rd] in H. destruct j as [| | | | |l|]; try discriminate.
      destruct l as [|a [|v [|w [|x l]]]]; try discriminate; destruct a; try discriminate;
        assert (TS : texts_ok (JStr s)) by (apply T); rewrite <- (bytes_text s TS); fold (jstr (text s)).
      * apply rule0_iff in H. apply N_plain; auto.
      * apply (rule1_iff (rd n) n) in H; auto. apply (IN _ _ eq_refl). right. left. auto.
      * apply (rule2_iff (rd n) n) in H; auto; apply (IN _ _ eq_refl); cbn [In]; auto.
    + intros H. destruct j as [| | | | |l|]; try (inversion H; fail).
      destruct l as [|a [|v [|w [|x l]]]]; try (inversion H; fail).
      * inversion H as [m r' I| | | | | | | | | | | | | | |]; subst. cbn [rd]. cbn [jstr]. rewrite text_bytes. apply rule0_iff. auto.
      * assert (exists t, a = jstr t) as (t & ->) by (inversion H; subst; eauto).
        cbn [rd]. cbn [jstr]. rewrite text_bytes. apply (rule1_iff (rd n) n); auto. apply (IN _ _ eq_refl). right. left. auto.
      * assert (exists t, a = jstr t) as (t & ->) by (inversion H; subst; eauto).
        cbn [rd]. cbn [jstr]. rewrite text_bytes. apply (rule2_iff (rd n) n); auto; apply (IN _ _ eq_refl); cbn [In]; auto.
Qed.
