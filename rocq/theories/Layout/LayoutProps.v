(** C104: reading a layout from JSON. *)
From Coq Require Import String Ascii ZArith List Bool Lia ZifyBool ZifyNat ZifyN Permutation.
From Verif Require Import Lib.Bytes Json.Json Loose.Loose Layout.LayoutJson Layout.LayoutSpec Layout.LayoutFacts.
Import ListNotations.
Local Open Scope string_scope.
Local Open Scope list_scope.
Local Open Scope Z_scope.

(** The reader returns exactly the rule a document denotes. *)
Theorem C104_read_iff : forall j r, texts_ok j -> (rule_of_json j = Some r <-> denotes j r).
Proof. intros j r T. apply rd_iff. split; auto. Qed.

(** ** The layouts OCaml prints are read back *)
Lemma holds_hd : forall ms k j, holds (map (fun x => (str_bytes (fst x), snd x)) ((k, j) :: ms)) k j.
Proof. intros. exists [], (map (fun x => (str_bytes (fst x), snd x)) ms). split; [reflexivity|intros []]. Qed.
Lemma struct_members : forall names v js, members names v = Some js -> struct names v js.
Proof. intros. apply members_struct. auto. Qed.
Lemma max_in : forall A (f : A -> nat) l x, In x l -> (f x <= list_max (map f l))%nat.
Proof.
  intros A f l x I. pose proof (proj1 (list_max_le (map f l) _) (le_n _)) as F. rewrite Forall_forall in F. apply F.
  apply in_map. auto.
Qed.
Lemma fold_and : forall A (P : A -> Prop) l, fold_right (fun x Q => P x /\ Q) True l <-> Forall P l.
Proof.
  intros A P. induction l as [|x l IH]; cbn [fold_right]; split; intros H; auto.
  - destruct H. constructor; auto. apply IH. auto.
  - inversion H; subst. split; auto. apply IH. auto.
Qed.
Lemma Forall2_map_l : forall A B (f : B -> A) (P : A -> B -> Prop) l, (forall x, In x l -> P (f x) x) -> Forall2 P (map f l) l.
Proof. intros A B f P. induction l; intros H; constructor; [apply H; left; auto|apply IHl; intros; apply H; right; auto]. Qed.

Lemma printed_denotes : forall decl n r, (depth r <= n)%nat -> writable r -> denotes (yojson decl r) r.
Proof.
  intros decl. induction n as [|n IH]; intros r D W; [destruct r; cbn in D; lia|].
  assert (LI : forall rs, (list_max (map depth rs) <= n)%nat -> fold_right (fun r P => writable r /\ P) True rs ->
            Forall2 denotes (map (yojson decl) rs) rs).
  { intros rs D' W'. apply fold_and in W'. rewrite Forall_forall in W'. apply Forall2_map_l. intros x I. apply IH; auto.
    pose proof (max_in _ depth rs x I). lia. }
  destruct r; cbn [depth] in D; cbn [writable] in W; cbn [yojson];
    try (apply N_plain; cbn [plain_rules In]; tauto).
  - apply N_option, IH; auto. lia.
  - apply N_record. apply fold_and in W. rewrite Forall_forall in W. apply Forall2_map_l. intros f I.
    exists (yojson decl (snd f)). split; [apply struct_members; reflexivity|]. apply IH; auto.
    pose proof (max_in _ (fun f => depth (snd f)) fs f I). cbn beta in *. lia.
  - apply N_tuple, LI; auto. lia.
  - apply N_sum. apply fold_and in W. rewrite Forall_forall in W. apply Forall2_map_l. intros s I.
    exists (map (yojson decl) (snd s)). split; [apply struct_members; reflexivity|]. destruct (W s I) as (W1 & W2). split; auto.
    apply LI; auto. pose proof (max_in _ (fun s => list_max (map depth (snd s))) ss s I). cbn beta in *. lia.
  - apply N_polyvar. apply fold_and in W. rewrite Forall_forall in W. apply Forall2_map_l. intros p I.
    pose proof (max_in _ (fun p => match p with inl t => list_max (map depth (snd t)) | inr r => depth r end) ps p I) as M. cbn beta in M.
    specialize (W p I). destruct p as [((nm & h) & rs)|r]; cbn [fst snd] in *.
    + left. destruct W as (W1 & W2). do 5 eexists. split; [reflexivity|]. split; [reflexivity|].
      split; [apply struct_members; reflexivity|]. split; auto. apply LI; auto. lia.
    + right. do 2 eexists. split; [reflexivity|]. split; [reflexivity|]. apply IH; auto. lia.
  - apply N_list, IH; auto. lia.
  - destruct W as (W1 & W2). eapply N_table; [apply struct_members; reflexivity|apply IH; auto; lia..].
  - destruct W as (W1 & W2). apply N_vec; auto. apply IH; auto. lia.
  - eapply N_unresolved; [apply struct_members; reflexivity|constructor].
  - eapply N_resolved; [apply struct_members; reflexivity|left; reflexivity|right; exists true; reflexivity|apply IH; auto; lia].
  - apply N_var.
  - apply N_self, LI; auto. lia.
  - apply N_abstraction, IH; auto. lia.
  - destruct W as (W1 & W2). apply fold_and in W1. rewrite Forall_forall in W1. apply N_closure; [|apply IH; auto; lia].
    apply Forall2_map_l. intros b I. eexists. split; [reflexivity|]. apply IH; auto.
    pose proof (max_in _ (fun b => depth (snd b)) bindings b I). cbn beta in *. lia.
  - apply N_custom, LI; auto. lia.
  - contradiction.
Qed.
Lemma bytes_ok_str : forall s, bytes_ok (str_bytes s).
Proof.
  induction s as [|c s IH]; [constructor|]. cbn [str_bytes]. constructor; auto.
  unfold byte_ok. pose proof (N_ascii_bounded c). lia.
Qed.
Lemma texts_arr : forall l, (forall j, In j l -> texts_ok j) -> texts_ok (JArr l).
Proof. intros l H. cbn [texts_ok]. induction l; cbn [fold_right]; [exact I|]. split; [apply H; left; auto|apply IHl; intros; apply H; right; auto]. Qed.
Lemma texts_obj : forall ms, (forall x, In x ms -> texts_ok (snd x)) -> texts_ok (jobj ms).
Proof.
  intros ms H. unfold jobj. cbn [texts_ok]. induction ms as [|x ms IH]; cbn [map fold_right fst snd]; [exact I|].
  split; [apply H; left; auto|apply IH; intros; apply H; right; auto].
Qed.
Lemma printed_texts : forall decl n r, (depth r <= n)%nat -> texts_ok (yojson decl r).
Proof.
  intros decl. induction n as [|n IH]; intros r D; [destruct r; cbn in D; lia|].
  assert (TJ : forall s, texts_ok (jstr s)) by (intros; apply bytes_ok_str).
  assert (LI : forall rs, (list_max (map depth rs) <= n)%nat -> texts_ok (JArr (map (yojson decl) rs))).
  { intros rs D'. apply texts_arr. intros j I. apply in_map_iff in I. destruct I as (x & <- & I). apply IH.
    pose proof (max_in _ depth rs x I). lia. }
  assert (P2 : forall s j, texts_ok j -> texts_ok (JArr [jstr s; j])) by (intros; cbn [texts_ok fold_right]; repeat split; auto).
  assert (M : forall A (f : A -> json) (d : A -> nat) l, (list_max (map d l) <= n)%nat -> (forall x, (d x <= n)%nat -> texts_ok (f x)) ->
            texts_ok (JArr (map f l))).
  { intros A f d l D' H. apply texts_arr. intros j I. apply in_map_iff in I. destruct I as (x & <- & I). apply H.
    pose proof (max_in _ d l x I). lia. }
  destruct r; cbn [depth] in D; cbn [yojson]; try (cbn [texts_ok fold_right]; repeat split; try exact I; apply bytes_ok_str);
    try (apply P2; first [apply LI; lia | apply IH; lia]).
  - apply P2. apply (M _ _ (fun f => depth (snd f))); [lia|]. intros f Df. apply texts_obj. intros x [<-|[<-|[]]]; cbn [snd]; auto.
  - apply P2. apply (M _ _ (fun s => list_max (map depth (snd s)))); [lia|]. intros s Ds. apply texts_obj.
    intros x [<-|[<-|[<-|[]]]]; cbn [snd]; auto. exact I.
  - apply P2. apply (M _ _ (fun p => match p with inl t => list_max (map depth (snd t)) | inr r => depth r end)); [lia|].
    intros [t|r] Dp; apply P2; auto. apply texts_obj. intros x [<-|[<-|[<-|[]]]]; cbn [snd]; auto. exact I.
  - apply P2. apply texts_obj. intros x [<-|[<-|[]]]; cbn [snd]; apply IH; lia.
  - cbn [texts_ok fold_right]. repeat split; auto. apply (IH r). lia.
  - apply P2, P2. apply texts_obj. intros x [<-|[<-|[<-|[<-|[]]]]]; cbn [snd]; auto; [exact I|apply IH; lia].
  - apply texts_arr. intros j [<-|[<-|[<-|[]]]]; auto; [|apply IH; lia]. apply texts_arr. intros j I. apply in_map_iff in I.
    destruct I as (x & <- & _). auto.
  - apply texts_arr. intros j [<-|[<-|[<-|[]]]]; auto; [|apply IH; lia]. apply (M _ _ (fun b => depth (snd b))); [lia|].
    intros b Db. apply P2, IH. auto.
Qed.
Theorem C104_printed : forall decl r, writable r -> rule_of_json (yojson decl r) = Some r.
Proof. intros decl r W. apply C104_read_iff; [eapply printed_texts; eauto|]. eapply printed_denotes; eauto. Qed.

(** ** What is read could have been printed *)
Lemma denotes_writable : forall n j r, (jdepth j <= n)%nat -> denotes j r -> writable r.
Proof.
  induction n as [|n IH]; intros j r D H; [destruct H; cbn in D; lia|].
  assert (LI : forall l rs, (jdepth (JArr l) <= n)%nat -> Forall2 denotes l rs -> fold_right (fun r P => writable r /\ P) True rs).
  { intros l rs D' F. apply fold_and. clear - IH D' F. cbn [jdepth] in D'. revert D'. induction F; intros D'; constructor.
    - apply (IH x); auto. cbn [map list_max fold_right] in D'. change (fold_right Nat.max 0%nat (map jdepth l)) with (list_max (map jdepth l)) in D'. lia.
    - apply IHF. cbn [map list_max fold_right] in D'. change (fold_right Nat.max 0%nat (map jdepth l)) with (list_max (map jdepth l)) in D'. lia. }
  assert (F2 : forall A (P : json -> A -> Prop) (Q : A -> Prop) l xs, (jdepth (JArr l) <= n)%nat -> Forall2 P l xs ->
     (forall j x, (jdepth j < n)%nat -> P j x -> Q x) -> fold_right (fun x R => Q x /\ R) True xs).
  { intros A P Q l xs D' F H'. apply fold_and. cbn [jdepth] in D'.
    assert (I : forall j, In j l -> (jdepth j < n)%nat) by (intros j0 I; pose proof (depth_in j0 l I); lia).
    clear - F H' I. induction F; constructor.
    - eapply H'; [|eauto]. apply I. left. auto.
    - apply IHF. intros; apply I; right; auto. }
  destruct H; cbn [writable];
    try (assert (DV : forall x, In x [jstr "_"] -> True) by auto);
    match type of D with (jdepth (JArr ?l) <= _)%nat =>
      assert (IN : forall x, In x l -> (jdepth x <= n)%nat) by (intros x I; pose proof (depth_in x l I); cbn [jdepth] in D; lia) end.
  - unfold plain_rules in H. cbn [In] in H. decompose [or] H; try contradiction; match goal with E : (_, _) = (_, _) |- _ => inversion E; subst; exact I end.
  - apply (IH j); auto. apply IN. right. left. auto.
  - apply (IH j); auto. apply IN. right. left. auto.
  - eapply LI; [|eauto]. apply IN. right. left. auto.
  - eapply LI; [|eauto]. apply IN. right. left. auto.
  - eapply LI; [|eauto]. apply IN. right. left. auto.
  - apply (F2 _ _ (fun f => writable (snd f)) l fs) in H; auto; [apply IN; right; left; auto|].
    intros v f Dv (j & S & N). apply (IH j); auto. pose proof (depth_member _ _ _ j S ltac:(right; left; auto)). lia.
  - apply (F2 _ _ (fun s => - 2 ^ 31 <= snd (fst s) < 2 ^ 31 /\ fold_right (fun r P => writable r /\ P) True (snd s)) l ss) in H; auto; [apply IN; right; left; auto|].
    intros v s Dv (js & S & R & N). split; auto. eapply LI; [|eauto].
    pose proof (depth_member _ _ _ (JArr js) S ltac:(right; right; left; auto)). lia.
  - apply (F2 _ _ (fun p => match p with
      | inl t => 0 <= snd (fst t) < 2 ^ 32 /\ fold_right (fun r P => writable r /\ P) True (snd t)
      | inr r => writable r end) l ps) in H; auto; [apply IN; right; left; auto|].
    intros v p Dv [(nm & h & rs & w & js & -> & -> & S & R & N)|(r & w & -> & -> & N)]; cbn [fst snd].
    + split; auto. eapply LI; [|eauto]. pose proof (depth_member _ _ _ (JArr js) S ltac:(right; right; left; auto)).
      pose proof (depth_in w [jstr "Tagged"; w] ltac:(right; left; auto)). cbn [jdepth] in Dv. cbn [jdepth] in *. lia.
    + apply (IH w); auto. pose proof (depth_in w [jstr "Inherited"; w] ltac:(right; left; auto)). cbn [jdepth] in Dv. lia.
  - pose proof (IN v ltac:(right; left; auto)).
    pose proof (depth_member _ _ _ a H ltac:(left; auto)). pose proof (depth_member _ _ _ b H ltac:(right; left; auto)).
    split; [apply (IH a)|apply (IH b)]; auto; lia.
  - split; auto. apply (IH j); auto. apply IN. right. right. left. auto.
  - exact I.
  - pose proof (IN _ ltac:(right; left; reflexivity)) as D1.
    pose proof (depth_in v [jstr "Resolved"; v] ltac:(right; left; auto)). cbn [jdepth] in D1.
    pose proof (depth_member _ _ _ j H ltac:(do 3 right; left; auto)). apply (IH j); auto. lia.
  - exact I.
  - apply (IH j); auto. apply IN. right. right. left. auto.
  - split; [|apply (IH j); auto; apply IN; right; right; left; auto].
    apply (F2 _ _ (fun b => writable (snd b)) l bs) in H; auto; [apply IN; right; left; auto|].
    intros v b Dv (w & -> & N). apply (IH w); auto. pose proof (depth_in w [jstr (fst b); w] ltac:(right; left; auto)).
    cbn [jdepth] in Dv. lia.
Qed.
Theorem C104_writable : forall j r, texts_ok j -> rule_of_json j = Some r -> writable r.
Proof. intros j r T H. apply C104_read_iff in H; auto. eapply denotes_writable; eauto. Qed.
(** so a rule can be read from some document exactly when it is writable *)
Theorem C104_some_document : forall r, (exists j, texts_ok j /\ rule_of_json j = Some r) <-> writable r.
Proof.
  intros r. split.
  - intros (j & T & H). eapply C104_writable; eauto.
  - intros W. exists (yojson (fun _ => "") r). split; [eapply printed_texts; eauto|apply C104_printed; auto].
Qed.
(** and reading, printing and reading again changes nothing *)
Theorem C104_stable : forall decl j r, texts_ok j -> rule_of_json j = Some r -> rule_of_json (yojson decl r) = Some r.
Proof. intros. apply C104_printed. eapply C104_writable; eauto. Qed.

(** ** The crate's own printer *)
Theorem C104_derived_refuted : forall r, rule_of_json (derived r) = None.
Proof. intros r. unfold rule_of_json. destruct r; reflexivity. Qed.

(** ** Other members, and the order of members *)
Lemma holds_fun : forall m k j j', holds m k j -> holds m k j' -> j = j'.
Proof. intros m k j j' H H'. apply lookup_holds in H, H'. congruence. Qed.
Lemma alike_sym : forall n j j', (jdepth j <= n)%nat -> alike j j' -> alike j' j.
Proof.
  induction n as [|n IH]; intros j j' D H; [destruct H; [constructor|cbn in D; lia..]|].
  destruct H as [j|l l' F|m m' H1 H2]; [constructor|..]; cbn [jdepth] in D.
  - apply L_arr. assert (I : forall x, In x l -> (jdepth x <= n)%nat) by (intros x I; pose proof (depth_in x l I); lia).
    clear - F I IH. induction F; constructor.
    + apply IH; auto. apply I. left. auto.
    + apply IHF. intros; apply I; right; auto.
  - apply L_obj.
    + intros k j' K H'. destruct (H2 k j' K H') as (j & H). exists j. split; auto. destruct (H1 k j K H) as (j2 & H3 & A).
      rewrite (holds_fun _ _ _ _ H' H3). apply IH; auto.
      destruct H as (a & b & -> & _). pose proof (max_in _ (fun x => jdepth (snd x)) (a ++ (str_bytes k, j) :: b) (str_bytes k, j)
        ltac:(apply in_or_app; right; left; auto)). cbn [snd] in *. lia.
    + intros k j K H. destruct (H1 k j K H) as (j' & H' & _). eauto.
Qed.
Definition alike_opt (o o' : option json) : Prop :=
  match o, o' with Some a, Some b => alike a b | None, None => True | _, _ => False end.
Lemma alike_struct : forall names v v' js, alike v v' -> struct names v js -> incl names known ->
  exists js', struct names v' js' /\ Forall2 alike_opt js js'.
Proof.
  intros names v v' js A S K. destruct A as [j|l l' F|m m' H1 H2].
  - exists js. split; auto. clear. induction js as [|[j|] js IH]; constructor; auto; cbn; constructor.
  - inversion S as [|l0 E]; subst. exists (map Some l'). split.
    + apply S_arr. rewrite <- E. clear - F. induction F; cbn [List.length]; auto.
    + clear - F. induction F; constructor; auto.
  - exists (map (fun k => lookup k m') names). split; [apply struct_members; reflexivity|].
    apply members_struct in S. cbn [members] in S. inversion S; subst. clear S.
    induction names as [|k names IH]; constructor; [|apply IH; intros x I; apply K; right; auto].
    assert (Kk : In k known) by (apply K; left; auto). unfold alike_opt.
    destruct (lookup k m) as [j|] eqn:E.
    + apply lookup_holds in E. destruct (H1 k j Kk E) as (j' & E' & A). apply lookup_holds in E'. rewrite E'. auto.
    + destruct (lookup k m') as [j'|] eqn:E'; auto. apply lookup_holds in E'. destruct (H2 k j' Kk E') as (j & H).
      apply lookup_holds in H. congruence.
Qed.
Lemma alike_str : forall s j, alike (jstr s) j -> j = jstr s.
Proof. intros s j H. inversion H; auto. Qed.
Lemma alike_num : forall z j, alike (JNum z) j -> j = JNum z.
Proof. intros s j H. inversion H; auto. Qed.
Lemma alike_arr : forall l j, alike (JArr l) j -> exists l', j = JArr l' /\ Forall2 alike l l'.
Proof.
  intros l j H. inversion H; subst; eauto. exists l. split; auto. clear. induction l; constructor; auto. constructor.
Qed.
Lemma alike_2 : forall s v j, alike (JArr [jstr s; v]) j -> exists v', j = JArr [jstr s; v'] /\ alike v v'.
Proof.
  intros s v j H. apply alike_arr in H. destruct H as (l & -> & F). inversion F as [|a b c d A F']; subst.
  inversion F' as [|a' b' c' d' A' F'']; subst. inversion F''; subst. apply alike_str in A. subst. eauto.
Qed.
Lemma alike_3 : forall s v w j, alike (JArr [jstr s; v; w]) j -> exists v' w', j = JArr [jstr s; v'; w'] /\ alike v v' /\ alike w w'.
Proof.
  intros s v w j H. apply alike_arr in H. destruct H as (l & -> & F). inversion F as [|a b c d A F']; subst.
  inversion F' as [|a' b' c' d' A' F'']; subst. inversion F'' as [|a2 b2 c2 d2 A2 F3]; subst. inversion F3; subst.
  apply alike_str in A. subst. eauto.
Qed.
Ltac opts F := repeat match type of F with
  | Forall2 alike_opt [] _ => inversion F; subst; clear F
  | Forall2 alike_opt (_ :: _) _ => let o := fresh "o" in let A := fresh "A" in let F' := fresh "F" in
      inversion F as [|? o ? ? A F']; subst; clear F; rename F' into F; destruct o; cbn [alike_opt] in A; try contradiction end.
Ltac inc := let x := fresh in let I := fresh in intros x I; repeat (destruct I as [<-|I]; [unfold known; repeat first [left; reflexivity | right]|]); destruct I.

Lemma denotes_alike : forall n j j' r, (jdepth j <= n)%nat -> denotes j r -> alike j j' -> denotes j' r.
Proof.
  induction n as [|n IH]; intros j j' r D H A; [destruct H; cbn in D; lia|].
  assert (FA : forall X (P P' : json -> X -> Prop) l l' xs, (jdepth (JArr l) <= n)%nat -> Forall2 P l xs -> Forall2 alike l l' ->
     (forall j j' x, (jdepth j < n)%nat -> P j x -> alike j j' -> P' j' x) -> Forall2 P' l' xs).
  { intros X P P' l l' xs D' F G H'. cbn [jdepth] in D'.
    assert (I : forall x, In x l -> (jdepth x < n)%nat) by (intros x I; pose proof (depth_in x l I); lia).
    clear - F G H' I. revert l' G. induction F; intros m G; inversion G; subst; constructor.
    - eapply H'; [|eauto..]. apply I. left. auto.
    - apply IHF; auto. intros; apply I; right; auto. }
  assert (LI : forall l l' rs, (jdepth (JArr l) <= n)%nat -> Forall2 denotes l rs -> Forall2 alike l l' -> Forall2 denotes l' rs).
  { intros l l' rs D' F G. eapply FA; eauto. intros j1 j2 x D1 N1 A1. apply (IH j1 j2); auto. lia. }
  destruct H;
    match type of D with (jdepth (JArr ?l) <= _)%nat =>
      assert (IN : forall x, In x l -> (jdepth x <= n)%nat) by (intros x I; pose proof (depth_in x l I); cbn [jdepth] in D; lia) end;
    try (apply alike_2 in A; destruct A as (v' & -> & A); match goal with A : alike ?v _ |- _ => pose proof (IN v ltac:(right; left; auto)) as DV end);
    try (apply alike_3 in A; destruct A as (v' & w' & -> & A & A')).
  - apply alike_arr in A. destruct A as (l & -> & F). inversion F as [|a b c d A1 F1]; subst. inversion F1; subst.
    apply alike_str in A1. subst. apply N_plain. auto.
  - apply N_option. apply (IH j); auto.
  - apply N_list. apply (IH j); auto.
  - apply alike_arr in A. destruct A as (l' & -> & F). apply N_tuple. eapply LI; eauto.
  - apply alike_arr in A. destruct A as (l' & -> & F). apply N_self. eapply LI; eauto.
  - apply alike_arr in A. destruct A as (l' & -> & F). apply N_custom. eapply LI; eauto.
  - apply alike_arr in A. destruct A as (l' & -> & F). apply N_record. eapply FA; eauto.
    intros j1 j2 f D1 (j & S & N) A1. destruct (alike_struct _ _ _ _ A1 S ltac:(inc)) as (js' & S' & O). opts O.
    apply alike_str in A. subst. eexists. split; eauto. eapply IH; [|eassumption|eassumption].
    pose proof (depth_member _ _ _ j S ltac:(right; left; auto)). lia.
  - apply alike_arr in A. destruct A as (l' & -> & F). apply N_sum. eapply FA; eauto.
    intros j1 j2 s D1 (js & S & R & N) A1. destruct (alike_struct _ _ _ _ A1 S ltac:(inc)) as (js' & S' & O). opts O.
    apply alike_str in A. apply alike_num in A0. apply alike_arr in A2. destruct A2 as (js' & -> & G). subst.
    eexists. split; eauto. split; auto. eapply LI; [|eassumption|eassumption].
    pose proof (depth_member _ _ _ (JArr js) S ltac:(right; right; left; auto)). lia.
  - apply alike_arr in A. destruct A as (l' & -> & F). apply N_polyvar. eapply FA; eauto.
    intros j1 j2 p D1 H1 A1. cbn beta in H1. destruct H1 as [(nm & h & rs & w & js & -> & -> & S & R & N)|(r & w & -> & -> & N)].
    + apply alike_2 in A1. destruct A1 as (w' & -> & A1). left. exists nm, h, rs, w'.
      destruct (alike_struct _ _ _ _ A1 S ltac:(inc)) as (js' & S' & O). opts O.
      apply alike_str in A. apply alike_num in A0. apply alike_arr in A2. destruct A2 as (js' & -> & G). subst.
      exists js'. do 2 (split; [reflexivity|]). split; auto. split; auto. eapply LI; [|eassumption|eassumption].
      pose proof (depth_member _ _ _ (JArr js) S ltac:(right; right; left; auto)).
      pose proof (depth_in w [jstr "Tagged"; w] ltac:(right; left; auto)). cbn [jdepth] in D1. cbn [jdepth] in *. lia.
    + apply alike_2 in A1. destruct A1 as (w' & -> & A1). right. exists r, w'. do 2 (split; [reflexivity|]). eapply IH; [|eassumption|eassumption].
      pose proof (depth_in w [jstr "Inherited"; w] ltac:(right; left; auto)). cbn [jdepth] in D1. lia.
  - destruct (alike_struct _ _ _ _ A H ltac:(inc)) as (js' & S' & O). opts O.
    pose proof (depth_member _ _ _ a H ltac:(left; auto)). pose proof (depth_member _ _ _ b H ltac:(right; left; auto)).
    eapply N_table; eauto; (eapply IH; [|eassumption|eassumption]; lia).
  - apply alike_num in A. subst. apply N_vec; auto. eapply IH; [|eassumption|eassumption]. apply IN. right. right. left. auto.
  - apply alike_2 in A. destruct A as (w & -> & A). destruct (alike_struct _ _ _ _ A H ltac:(inc)) as (js' & S' & O). opts O.
    apply alike_arr in A0. destruct A0 as (l & -> & G). apply alike_str in A1. subst. eapply N_unresolved; eauto.
    eapply LI; [|eassumption|eassumption]. pose proof (depth_member _ _ _ (JArr js) H ltac:(left; auto)).
    pose proof (depth_in v [jstr "Unresolved"; v] ltac:(right; left; auto)). cbn [jdepth] in DV. cbn [jdepth] in *. lia.
  - apply alike_2 in A. destruct A as (w & -> & A). destruct (alike_struct _ _ _ _ A H ltac:(inc)) as (js' & S' & O).
    inversion O as [|? o1 ? ? A1 O1]; subst. inversion O1 as [|? o2 ? ? A2 O2]; subst. inversion O2 as [|? o3 ? ? A3 O3]; subst.
    inversion O3 as [|? o4 ? ? A4 O4]; subst. inversion O4; subst. destruct o1, o4; cbn [alike_opt] in *; try contradiction.
    apply alike_str in A1. subst. apply (N_resolved w decl o2 o3 j1 p); auto.
    + destruct H0 as [->|(-> & ->)]; destruct o2; cbn [alike_opt] in A2; try contradiction; auto. apply alike_str in A2. subst. auto.
    + destruct H1 as [->|(b & ->)]; destruct o3 as [x|]; cbn [alike_opt] in A3; try contradiction; auto. right. exists b. inversion A3; auto.
    + eapply IH; [|eassumption|eassumption]. pose proof (depth_member _ _ _ j H ltac:(do 3 right; left; auto)).
      pose proof (depth_in v [jstr "Resolved"; v] ltac:(right; left; auto)). cbn [jdepth] in DV. cbn [jdepth] in *. lia.
  - apply alike_str in A. subst. apply N_var.
  - apply alike_arr in A. destruct A as (l' & -> & F). assert (l' = map jstr ns) as ->.
    { clear - F. revert l' F. induction ns; intros l' F; inversion F; subst; [reflexivity|]. apply alike_str in H1. cbn [map].
      f_equal; auto. }
    apply N_abstraction. eapply IH; [|eassumption|eassumption]. apply IN. right. right. left. auto.
  - apply alike_arr in A. destruct A as (l' & -> & F). apply N_closure.
    + eapply FA; eauto; [apply IN; right; left; auto|]. intros j1 j2 b D1 (w & -> & N) A1. apply alike_2 in A1.
      destruct A1 as (v' & -> & A1). eexists. split; eauto. eapply IH; [|eassumption|eassumption].
      pose proof (depth_in w [jstr (fst b); w] ltac:(right; left; auto)). cbn [jdepth] in D1. lia.
    + eapply IH; [|eassumption|eassumption]. apply IN. right. right. left. auto.
Qed.
Theorem C104_alike : forall j j', texts_ok j -> texts_ok j' -> alike j j' -> rule_of_json j = rule_of_json j'.
Proof.
  intros j j' T T' A.
  assert (E : forall a b, texts_ok a -> texts_ok b -> alike a b -> forall r, rule_of_json a = Some r -> rule_of_json b = Some r).
  { intros a b Ta Tb Ab r H. apply C104_read_iff; auto. apply C104_read_iff in H; auto. eapply denotes_alike; eauto. }
  destruct (rule_of_json j) as [r|] eqn:H.
  - symmetry. apply (E j j'); auto.
  - destruct (rule_of_json j') as [r|] eqn:H'; auto. rewrite (E j' j) with (r := r) in H; auto.
    eapply alike_sym; eauto.
Qed.

(** ** The whole document *)
Lemma count_zero : forall m k, count k m = O <-> ~ In (str_bytes k) (map fst m).
Proof.
  induction m as [|(k' & j) m IH]; intros k; cbn [count map fst In]; [tauto|].
  destruct (key_eqb k' (str_bytes k)) eqn:E.
  - apply key_eqb_iff in E. split; [lia|tauto].
  - rewrite Nat.add_0_l, IH. assert (k' <> str_bytes k) by (intros ->; rewrite (proj2 (key_eqb_iff _ _) eq_refl) in E; discriminate). tauto.
Qed.
Lemma count_app : forall a b k, count k (a ++ b) = (count k a + count k b)%nat.
Proof. induction a as [|(k' & j) a IH]; intros b k; cbn [count app]; [reflexivity|]. rewrite IH. lia. Qed.
Lemma count_once : forall m k, (count k m <= 1)%nat <-> once m k.
Proof.
  intros m k. split.
  - intros C a j b ->. rewrite count_app in C. cbn [count] in C. rewrite (proj2 (key_eqb_iff _ _) eq_refl) in C. apply count_zero. lia.
  - induction m as [|(k' & j) m IH]; intros O; cbn [count]; [lia|]. destruct (key_eqb k' (str_bytes k)) eqn:E.
    + apply key_eqb_iff in E. subst k'. rewrite (proj2 (count_zero m k)); [lia|]. apply (O [] j m). reflexivity.
    + apply IH. intros a x b ->. apply (O ((k', j) :: a) x b). reflexivity.
Qed.
Lemma version_iff : forall o, to_version o <> None <-> version o.
Proof.
  intros o. unfold to_version, version. split.
  - destruct o as [j|]; auto. destruct j; try (intros H; exfalso; apply H; reflexivity); auto. intros H. right. right.
    destruct (to_i32 (JNum z)) as [y|] eqn:E; [|exfalso; apply H; reflexivity]. apply to_int_iff in E. destruct E as (E & R).
    inversion E; subst. exists y. split; auto. lia.
  - intros [->|[->|(z & -> & R)]]; try discriminate. unfold to_i32. rewrite (proj2 (to_int_iff _ _ (JNum z) z)); [discriminate|]. split; auto. lia.
Qed.
Theorem C104_document : forall doc r, texts_ok doc -> (layout_of_json doc = Some r <-> document doc r).
Proof.
  intros doc r T. split.
  - destruct doc as [| | | | |l|m]; try discriminate; cbn [layout_of_json].
    + destruct l as [|a [|b [|c [|d [|e [|f l]]]]]]; try discriminate.
      destruct a; try discriminate. destruct (to_version (Some b)) eqn:V; [|discriminate].
      destruct c; try discriminate. destruct d; try discriminate. cbn [to_text to_bool]. intros H.
      eapply (D_doc _ s (Some b) s0 b0 e).
      * apply (S_arr fields_of [JStr s; b; JStr s0; JBool b0; e]). reflexivity.
      * discriminate.
      * apply version_iff. congruence.
      * apply C104_read_iff; auto. apply (texts_in _ _ T). cbn [In]. auto 6.
    + destruct (forallb (fun k => Nat.leb (count k m) 1) layout_names) eqn:C; [|discriminate].
      destruct (lookup "layout_loc" m) as [a|] eqn:E1; [|discriminate]. cbn [req]. destruct a; try discriminate.
      destruct (to_version (lookup "version_opt" m)) eqn:V; [|discriminate].
      destruct (lookup "type_decl" m) as [c|] eqn:E2; [|discriminate]. cbn [req]. destruct c; try discriminate.
      destruct (lookup "bin_io_derived" m) as [d|] eqn:E3; [|discriminate]. cbn [req]. destruct d; try discriminate.
      destruct (lookup "bin_prot_rule" m) as [e|] eqn:E4; [|discriminate]. cbn [req to_text to_bool]. intros H.
      assert (S : struct fields_of (JObj m) [Some (JStr s); lookup "version_opt" m; Some (JStr s0); Some (JBool b); Some e]).
      { apply struct_members. cbn [members fields_of map]. rewrite E1, E2, E3, E4. reflexivity. }
      eapply D_doc; [exact S| | |].
      * intros m' E k I. inversion E; subst m'. apply count_once. rewrite forallb_forall in C. specialize (C k I). apply Nat.leb_le. exact C.
      * apply version_iff. congruence.
      * apply C104_read_iff; auto. apply (texts_member _ _ _ _ S T). cbn [In]. auto 6.
  - intros H. destruct H as [doc loc v decl d j r S O V N]. pose proof S as S'.
    assert (TJ : texts_ok j) by (apply (texts_member _ _ _ _ S T); cbn [In]; auto 6).
    apply version_iff in V. apply C104_read_iff in N; auto. inversion S as [m js F E1 E2|l L E1 E2]; subst.
    + cbn [layout_of_json].
      replace (forallb (fun k => Nat.leb (count k m) 1) layout_names) with true.
      2:{ symmetry. apply forallb_forall. intros k I. apply Nat.leb_le, count_once. eapply O; eauto. }
      apply members_struct in S'. cbn [members fields_of map] in S'. inversion S' as [[E1 E2 E3 E4 E5]].
      rewrite E1, E3, E4, E5, E2. cbn [req to_text to_bool]. destruct (to_version v); [auto|contradiction].
    + destruct l as [|a [|b [|c [|e [|f [|g l]]]]]]; cbn [map] in E2; try discriminate. inversion E2; subst.
      cbn [layout_of_json to_text to_bool]. destruct (to_version (Some b)); [auto|contradiction].
Qed.
(** Of the five members, none may be repeated, whatever the copies hold; *)
Theorem C104_repeated : forall k a x b y c, In k fields_of ->
  layout_of_json (JObj (a ++ (str_bytes k, x) :: b ++ (str_bytes k, y) :: c)) = None.
Proof.
  intros k a x b y c I. cbn [layout_of_json].
  replace (forallb _ layout_names) with false; auto. symmetry. apply not_true_iff_false. rewrite forallb_forall. intros H.
  specialize (H k I). apply Nat.leb_le in H. rewrite !count_app in H. cbn [count] in H. rewrite count_app in H. cbn [count] in H.
  rewrite (proj2 (key_eqb_iff _ _) eq_refl) in H. lia.
Qed.
(** other members may be there any number of times; *)
Lemma lookup_app : forall a b k, lookup k (a ++ b) = match lookup k a with Some j => Some j | None => lookup k b end.
Proof. induction a as [|(k' & j) a IH]; intros b k; cbn [lookup app]; [reflexivity|]. destruct (key_eqb k' (str_bytes k)); auto. Qed.
Theorem C104_other : forall a k x b, ~ In k (map str_bytes fields_of) ->
  layout_of_json (JObj (a ++ (k, x) :: b)) = layout_of_json (JObj (a ++ b)).
Proof.
  intros a k x b N.
  assert (K : forall s, In s fields_of -> key_eqb k (str_bytes s) = false).
  { intros s I. apply not_true_iff_false. rewrite key_eqb_iff. intros ->. apply N, in_map, I. }
  assert (L : forall s, In s fields_of -> lookup s (a ++ (k, x) :: b) = lookup s (a ++ b)).
  { intros s I. rewrite !lookup_app. cbn [lookup]. rewrite (K s I). reflexivity. }
  assert (C : forall s, In s fields_of -> count s (a ++ (k, x) :: b) = count s (a ++ b)).
  { intros s I. rewrite !count_app. cbn [count]. rewrite (K s I). reflexivity. }
  cbn [layout_of_json]. rewrite !L by (cbn [fields_of In]; tauto).
  replace (forallb (fun s => Nat.leb (count s (a ++ (k, x) :: b)) 1) layout_names)
    with (forallb (fun s => Nat.leb (count s (a ++ b)) 1) layout_names); [reflexivity|].
  cbn [layout_names forallb]. rewrite !C by (cbn [fields_of In]; tauto). reflexivity.
Qed.
(** and the order of the members is free. *)
Lemma lookup_in : forall m k j, once m k -> (lookup k m = Some j <-> In (str_bytes k, j) m).
Proof.
  intros m k j O. rewrite lookup_holds. split.
  - intros (a & b & -> & _). apply in_or_app. right. left. reflexivity.
  - intros I. apply in_split in I. destruct I as (a & b & ->). exists a, b. split; auto. intros I.
    apply in_map_iff in I. destruct I as ((k' & x) & E & I). cbn [fst] in E. subst k'. apply in_split in I. destruct I as (c & d & ->).
    apply (O c x (d ++ (str_bytes k, j) :: b)); [rewrite <- app_assoc; reflexivity|].
    rewrite map_app. apply in_or_app. right. left. reflexivity.
Qed.
Theorem C104_order : forall m m', Permutation m m' -> layout_of_json (JObj m) = layout_of_json (JObj m').
Proof.
  intros m m' P.
  assert (C : forall k, count k m = count k m').
  { intros k. induction P as [|(k' & j)|(k1 & j1) (k2 & j2)|]; cbn [count]; lia. }
  cbn [layout_of_json].
  replace (forallb (fun k => Nat.leb (count k m') 1) layout_names) with (forallb (fun k => Nat.leb (count k m) 1) layout_names).
  2:{ cbn [layout_names forallb]. rewrite !C. reflexivity. }
  destruct (forallb (fun k => Nat.leb (count k m) 1) layout_names) eqn:E; auto.
  assert (L : forall k, In k layout_names -> lookup k m = lookup k m').
  { intros k I. rewrite forallb_forall in E. specialize (E k I). apply Nat.leb_le in E. pose proof E as E'. rewrite C in E'.
    apply count_once in E, E'. destruct (lookup k m) as [j|] eqn:H.
    - apply lookup_in in H; auto. symmetry. apply lookup_in; auto. eapply Permutation_in; eauto.
    - destruct (lookup k m') as [j|] eqn:H'; auto. apply lookup_in in H'; auto. apply Permutation_sym in P.
      eapply Permutation_in in H'; eauto. apply lookup_in in H'; auto. congruence. }
  rewrite !L by (cbn [layout_names In]; tauto). reflexivity.
Qed.

(** ** Cases *)
Definition ex_rule : rule :=
  RResolved "Mina_base.Account" (RRecord [("index", RInt); ("kind", RSum [("Ok", 0, []); ("Err", 1, [RTuple [RString; ROption RChar]])]);
    ("flag", RPolyvar [inl ("A", 65, [RList RInt64]); inr (RPolyvar [])]); ("more", RTypeClosure [("a", RVec 3 RFloat)] (RTypeVar "a"));
    ("table", RHashtable RNat0 (RCustom [RUnit; RUnresolved]))]).
Example C104_ex_writable : writable ex_rule.
Proof. cbn. repeat split; lia. Qed.
Example C104_ex_printed : rule_of_json (yojson (fun _ => "type t") ex_rule) = Some ex_rule.
Proof. apply C104_printed, C104_ex_writable. Qed.
(** a record field given as an array, one with a further member and one turned
    around are read alike *)
Definition ex_field (v : json) : json := JArr [jstr "Record"; JArr [v]].
Definition ex_int : json := JArr [jstr "Int"].
Example C104_ex_forms : Forall (fun v => rule_of_json (ex_field v) = Some (RRecord [("x", RInt)]))
  [JArr [jstr "x"; ex_int]; jobj [("field_name", jstr "x"); ("field_rule", ex_int)];
   jobj [("field_rule", ex_int); ("comment", JNull); ("field_name", jstr "x")]].
Proof. repeat constructor. Qed.
Example C104_ex_alike : alike (ex_field (jobj [("field_name", jstr "x"); ("field_rule", ex_int)]))
  (ex_field (jobj [("field_rule", ex_int); ("comment", JNull); ("field_name", jstr "x")])).
Proof.
  apply L_arr. constructor; [apply L_same|]. constructor; [|constructor]. apply L_arr. constructor; [|constructor]. apply L_obj.
  - intros k j I H. exists j. split; [|constructor]. apply lookup_holds. apply lookup_holds in H. revert H.
    destruct I as [<-|[<-|I]]; [exact (fun h => h)..|].
    repeat (destruct I as [<-|I]; [discriminate|]). destruct I.
  - intros k j I H. apply lookup_holds in H. revert H. destruct I as [<-|[<-|I]].
    + eexists. apply lookup_holds. reflexivity.
    + eexists. apply lookup_holds. reflexivity.
    + repeat (destruct I as [<-|I]; [discriminate|]). destruct I.
Qed.
(** numbers out of range, a float for an index, a missing argument list, one
    element too many *)
Example C104_ex_refused : Forall (fun j => rule_of_json j = None)
  [JArr [jstr "Sum"; JArr [JArr [jstr "A"; JNum (2 ^ 31); JArr []]]];
   JArr [jstr "Polyvar"; JArr [JArr [jstr "Tagged"; JArr [jstr "A"; JNum (-1); JArr []]]]];
   JArr [jstr "Sum"; JArr [JArr [jstr "A"; JFloat 0; JArr []]]];
   JArr [jstr "Sum"; JArr [jobj [("ctor_name", jstr "A"); ("index", JNum 0)]]];
   JArr [jstr "Int"; JNull]; JArr [jstr "Custom_for_path"; jstr "p"; JArr []]; JArr []; JNull; jstr "Int"].
Proof. repeat constructor. Qed.
Definition ex_doc : list (list Z * json) := map (fun x => (str_bytes (fst x), snd x))
  [("layout_loc", jstr "here"); ("version_opt", JNum 1); ("type_decl", jstr "type t = int"); ("bin_io_derived", JBool true); ("bin_prot_rule", ex_int)].
Example C104_ex_document : layout_of_json (JObj ex_doc) = Some RInt /\ layout_of_json (JArr (map snd ex_doc)) = Some RInt /\
  layout_of_json (JObj (rev ex_doc)) = Some RInt /\ layout_of_json (JObj ((str_bytes "x", JNull) :: (str_bytes "x", JNull) :: ex_doc)) = Some RInt /\
  layout_of_json (JObj (ex_doc ++ [(str_bytes "type_decl", jstr "")])) = None /\
  layout_of_json (JObj (tl ex_doc)) = None /\ layout_of_json (JArr (tl (map snd ex_doc))) = None.
Proof. repeat split. Qed.
Example C104_ex_document_spec : document (JObj ex_doc) RInt.
Proof. apply C104_document; [|reflexivity]. cbn. repeat split; repeat constructor; lia. Qed.
Example C104_ex_derived : derived (ROption RInt) = JObj [(str_bytes "Option", jstr "Int")].
Proof. reflexivity. Qed.

Print Assumptions C104_read_iff.
Print Assumptions C104_printed.
Print Assumptions C104_writable.
Print Assumptions C104_some_document.
Print Assumptions C104_stable.
Print Assumptions C104_derived_refuted.
Print Assumptions C104_alike.
Print Assumptions C104_document.
Print Assumptions C104_repeated.
Print Assumptions C104_other.
Print Assumptions C104_order.
