(** A text is read as at most one document. *)
From Coq Require Import ZArith List Bool Lia ZifyNat.
From Verif Require Import Lib.Bytes Client.GqlSpec Client.GqlFacts.
Import ListNotations.
Local Open Scope Z_scope.
Local Open Scope nat_scope.

Definition entry (f : list Z * arg) : list token := TName (fst f) :: TPunct 58 :: arg_tokens (snd f).

Lemma arg_tokens_obj : forall fs, arg_tokens (AObj fs) = TPunct 123 :: flat_map entry fs ++ [TPunct 125].
Proof. reflexivity. Qed.

Lemma arg_tokens_inj : forall n a a' r r', length (arg_tokens a) <= n ->
  arg_tokens a ++ r = arg_tokens a' ++ r' -> a = a' /\ r = r'.
Proof.
  induction n as [|n IHn]; intros a a' r r' L E.
  - destruct a; cbn in L; lia.
  - assert (IH : forall fs fs' r r' c, length (flat_map entry fs) <= n ->
      flat_map entry fs ++ TPunct c :: r = flat_map entry fs' ++ TPunct c :: r' -> fs = fs' /\ r = r').
    { clear L E. induction fs as [|[k a0] fs IHf]; intros [|[k' a0'] fs'] q q' c L0 E0; cbn [flat_map entry fst snd app] in *; try discriminate.
      - injection E0. auto.
      - injection E0 as <- E0. rewrite <- !app_assoc in E0.
        cbn [length] in L0. rewrite app_length in L0.
        apply IHn in E0 as [<- E0]; [|lia]. apply IHf in E0 as [<- <-]; [|lia]. auto. }
    destruct a as [v|d|e|fs], a' as [v'|d'|e'|fs']; try (cbn in E; discriminate).
    + injection E as -> ->. auto.
    + injection E as -> ->. auto.
    + injection E as -> ->. auto.
    + rewrite !arg_tokens_obj in E. cbn [app] in E. injection E as E. rewrite <- !app_assoc in E. cbn [app] in E.
      rewrite arg_tokens_obj in L. cbn [length] in L. rewrite app_length in L. cbn [length] in L.
      apply IH in E as [-> ->]; [auto|lia].
Qed.

Lemma entries_inj : forall fs fs' r r' c,
  flat_map entry fs ++ TPunct c :: r = flat_map entry fs' ++ TPunct c :: r' -> fs = fs' /\ r = r'.
Proof.
  induction fs as [|[k a0] fs IHf]; intros [|[k' a0'] fs'] r r' c E; cbn [flat_map entry fst snd app] in *; try discriminate.
  - injection E. auto.
  - injection E as <- E. rewrite <- !app_assoc in E.
    eapply arg_tokens_inj in E as [<- E]; [|reflexivity]. apply IHf in E as [<- <-]. auto.
Qed.

(** Not the beginning of the inside of a selection. *)
Definition outside (r : list token) : Prop :=
  match r with TPunct c :: _ => c <> 58%Z /\ c <> 40%Z /\ c <> 123%Z | _ => True end.

Definition al_tokens (al : option (list Z)) : list token := match al with Some a => [TName a; TPunct 58] | None => [] end.
Definition sub_tokens (subs : list sel) : list token :=
  match subs with [] => [] | _ => TPunct 123 :: flat_map sel_tokens subs ++ [TPunct 125] end.
Definition ar_tokens (args : list (list Z * arg)) : list token :=
  match args with [] => [] | _ => TPunct 40 :: flat_map entry args ++ [TPunct 41] end.
Lemma sel_tokens_eq : forall al n args subs,
  sel_tokens (Sel al n args subs) = al_tokens al ++ TName n :: ar_tokens args ++ sub_tokens subs.
Proof. reflexivity. Qed.

Lemma ar_tokens_inj : forall a a' r r',
  (forall c q, r = TPunct c :: q -> c <> 40%Z) -> (forall c q, r' = TPunct c :: q -> c <> 40%Z) ->
  ar_tokens a ++ r = ar_tokens a' ++ r' -> a = a' /\ r = r'.
Proof.
  intros [|x a] [|x' a'] r r' N N' E; auto.
  - exfalso. cbn [ar_tokens app] in E. eapply N; [exact E|reflexivity].
  - exfalso. cbn [ar_tokens app] in E. symmetry in E. eapply N'; [exact E|reflexivity].
  - apply (f_equal (@tl _)) in E. unfold ar_tokens in E. rewrite <- !app_comm_cons in E. cbn [tl] in E.
    rewrite <- !app_assoc in E.
    exact (entries_inj (x :: a) (x' :: a') _ _ _ E).
Qed.

Lemma not_paren : forall subs r, outside r -> forall c q, sub_tokens subs ++ r = TPunct c :: q -> c <> 40%Z.
Proof.
  intros [|s subs] r O c q E; cbn [sub_tokens app] in E.
  - subst r. cbn in O. tauto.
  - injection E as <- _. discriminate.
Qed.

Lemma outside_sels : forall ss r, outside (flat_map sel_tokens ss ++ TPunct 125 :: r).
Proof.
  intros [|[[al|] n args subs] ss] r; cbn [flat_map app]; [cbn; repeat split; discriminate| |];
    rewrite sel_tokens_eq; exact I.
Qed.

Lemma sel_tokens_inj : forall n s s' r r', length (sel_tokens s) <= n -> outside r -> outside r' ->
  sel_tokens s ++ r = sel_tokens s' ++ r' -> s = s' /\ r = r'.
Proof.
  induction n as [|n IHn]; intros [al nm args subs] [al' nm' args' subs'] r r' L O O' E.
  - rewrite sel_tokens_eq in L. rewrite app_length in L. cbn [length] in L. lia.
  - assert (IH : forall ss ss' r r', length (flat_map sel_tokens ss) <= n ->
      flat_map sel_tokens ss ++ TPunct 125 :: r = flat_map sel_tokens ss' ++ TPunct 125 :: r' -> ss = ss' /\ r = r').
    { clear - IHn. induction ss as [|x ss IHf]; intros [|x' ss'] r r' L E.
      - injection E. auto.
      - destruct x' as [[?|] ? ? ?]; discriminate E.
      - destruct x as [[?|] ? ? ?]; discriminate E.
      - change (flat_map sel_tokens (x :: ss)) with (sel_tokens x ++ flat_map sel_tokens ss) in *.
        change (flat_map sel_tokens (x' :: ss')) with (sel_tokens x' ++ flat_map sel_tokens ss') in E.
        rewrite app_length in L. rewrite <- !app_assoc in E.
        apply IHn in E as [<- E]; [|lia|apply outside_sels..]. apply IHf in E as [<- <-]; [auto|lia]. }
    rewrite !sel_tokens_eq in *.
    rewrite app_length in L. cbn [length] in L. rewrite app_length in L.
    assert (REST : forall q q', ar_tokens args ++ sub_tokens subs ++ q = ar_tokens args' ++ sub_tokens subs' ++ q' ->
      outside q -> outside q' -> args = args' /\ subs = subs' /\ q = q').
    { intros q q' H Q Q'. apply ar_tokens_inj in H as [<- H]; [|eauto using not_paren..].
      split; [reflexivity|].
      destruct subs as [|x subs], subs' as [|x' subs']; unfold sub_tokens in H; rewrite <- ?app_comm_cons in H; cbn [app] in H.
      - auto.
      - exfalso. subst q. cbn in Q. tauto.
      - exfalso. subst q'. cbn in Q'. tauto.
      - apply (f_equal (@tl _)) in H. cbn [tl] in H. rewrite <- !app_assoc in H. unfold sub_tokens in L. cbn [length] in L. rewrite app_length in L. cbn [length] in L.
        apply (IH (x :: subs) (x' :: subs')) in H as [<- <-]; auto. lia. }
    assert (NOCOL : forall args subs q t, outside q -> ar_tokens args ++ sub_tokens subs ++ q <> TPunct 58 :: t).
    { intros [|? ?] [|? ?] q t Q; cbn [ar_tokens sub_tokens app]; try discriminate.
      intros ->. cbn in Q. tauto. }
    destruct al as [a|], al' as [a'|]; cbn [al_tokens app] in E; rewrite <- ?app_assoc in E.
    + injection E as <- <- E. apply REST in E as (<- & <- & <-); auto.
    + injection E as <- E. symmetry in E. now apply NOCOL in E.
    + injection E as <- E. now apply NOCOL in E.
    + injection E as <- E. apply REST in E as (<- & <- & <-); auto.
Qed.

Lemma sels_inj : forall ss ss' r r', flat_map sel_tokens ss ++ TPunct 125 :: r = flat_map sel_tokens ss' ++ TPunct 125 :: r' ->
  ss = ss' /\ r = r'.
Proof.
  induction ss as [|x ss IHf]; intros [|x' ss'] r r' E.
  - injection E. auto.
  - destruct x' as [[?|] ? ? ?]; discriminate E.
  - destruct x as [[?|] ? ? ?]; discriminate E.
  - change (flat_map sel_tokens (x :: ss)) with (sel_tokens x ++ flat_map sel_tokens ss) in *.
    change (flat_map sel_tokens (x' :: ss')) with (sel_tokens x' ++ flat_map sel_tokens ss') in E.
    rewrite <- !app_assoc in E.
    eapply sel_tokens_inj in E as [<- E]; [|reflexivity|apply outside_sels..]. apply IHf in E as [<- <-]. auto.
Qed.

Lemma asks_unique : forall t d d', asks t d -> asks t d' -> d = d'.
Proof.
  intros t [k n ss] [k' n' ss'] H H'. pose proof (lexes_det _ _ H _ H') as E.
  unfold doc_tokens in E. cbn [d_kind d_name d_sels] in E. injection E as <- <- E.
  apply sels_inj in E as [<- _]. reflexivity.
Qed.
