(** C114: the blocks crawler. *)

From Coq Require Import String ZArith List Bool Lia ZifyBool ZifyNat Permutation.
From Verif Require Import Lib.Res Lib.Bytes Lib.Decimal BinProt.Codec BinProt.CodecSpec Wire.Types Text.FieldText Json.Json Json.JsonTypes Json.JsonSpec Json.JsonFacts
  Json.JsonCrashFacts Json.JsonProps Convert.Conv Convert.ConvSpec Convert.BlockConv Convert.Block Convert.BlockProps Client.GqlSpec Client.GqlFacts Client.QueryProps.
From Verif Require Import Tools.Crawler.
Import ListNotations.
Local Open Scope list_scope.
Local Open Scope Z_scope.
Notation length := List.length.

(** ** Names *)
Lemma digits_dash : forall l l' x y, Forall (fun c => is_digit c = true) l -> Forall (fun c => is_digit c = true) l' ->
  l ++ 45 :: x = l' ++ 45 :: y -> l = l' /\ x = y.
Proof.
  induction l as [|c l IH]; intros l' x y F F' E; destruct l' as [|c' l']; cbn [app] in E.
  - injection E as ->. auto.
  - injection E as <- _. inversion F'; subst. discriminate.
  - injection E as -> _. inversion F; subst. discriminate.
  - injection E as -> E. inversion F; subst. inversion F'; subst. destruct (IH l' x y) as (-> & ->); auto.
Qed.
(** Different blocks have different files and addresses. *)
Theorem C114_names : forall network b b', 0 <= block_height b -> 0 <= block_height b' ->
  (file_name network b = file_name network b' \/ block_url (file_name network b) = block_url (file_name network b')) -> b = b'.
Proof.
  intros network b b' H H' E. assert (N : file_name network b = file_name network b').
  { destruct E as [E|E]; [exact E|]. unfold block_url in E. apply app_inv_head in E. exact E. }
  unfold file_name in N. apply app_inv_head, app_inv_head, app_inv_tail in N. unfold shown in N.
  apply digits_dash in N; [|apply dec_digits; exact H|apply dec_digits; exact H'].
  destruct N as (N & S). apply dec_inj in N; [|exact H|exact H']. destruct b, b'. cbn in *. congruence.
Qed.
(** A name is that of a file if and only if the hash has no slash and no zero
    byte and is not too long. *)
Theorem C114_file_iff : forall b, 0 <= block_height b -> file_name_ok (file_name (str_bytes "mainnet") b) = true <->
  ~ In 47 (state_hash b) /\ ~ In 0 (state_hash b) /\ (length (dec (block_height b)) + length (state_hash b) <= 241)%nat.
Proof.
  intros b H. unfold file_name_ok, file_name, shown. rewrite !forallb_app, !app_length.
  assert (D : forallb (fun c => negb (c =? 47) && negb (c =? 0)) (dec (block_height b)) = true).
  { apply forallb_forall. intros c I. pose proof (dec_digits (block_height b) H) as F. rewrite Forall_forall in F. specialize (F c I).
    unfold is_digit in F. lia. }
  rewrite D. change (length (str_bytes "mainnet")) with 7%nat. change (length (str_bytes "-")) with 1%nat. change (length (str_bytes ".json")) with 5%nat.
  change (forallb (fun c => negb (c =? 47) && negb (c =? 0)) (str_bytes "mainnet")) with true.
  change (forallb (fun c => negb (c =? 47) && negb (c =? 0)) (str_bytes "-")) with true.
  change (forallb (fun c => negb (c =? 47) && negb (c =? 0)) (str_bytes ".json")) with true.
  cbn [andb]. rewrite !andb_true_iff, forallb_forall, Nat.leb_le. split.
  - intros ((F & _) & L). repeat split; [intros I; specialize (F _ I); lia|intros I; specialize (F _ I); lia|lia].
  - intros (A & B & L). repeat split; [|lia]. intros c I. destruct (Z.eqb_spec c 47); [congruence|]. destruct (Z.eqb_spec c 0); [congruence|]. reflexivity.
Qed.
Example C114_file_example :
  file_name (str_bytes "mainnet") {| block_height := 77749; state_hash := str_bytes "3NK3" |} = str_bytes "mainnet-77749-3NK3.json" /\
  file_name_ok (str_bytes "mainnet-77749-3NK3.json") = true.
Proof. split; reflexivity. Qed.

(** ** The request and its reply *)
Definition fetch_document (limit : Z) : document :=
  query "Fetch" [Sel None (nm "blocks") [(nm "limit", AInt (dec limit)); (nm "sortBy", AEnum (nm "RECEIVEDTIME_DESC"))]
    [field "blockHeight"; field "stateHash"]].
(** The request for a number asks for that many blocks. *)
Theorem C114_query : forall limit, 0 <= limit -> asks (blocks_query (dec limit)) (fetch_document limit).
Proof.
  intros limit H. unfold asks, blocks_query.
  match goal with |- lexes (str_bytes ?a ++ _ ++ str_bytes ?b) _ =>
    change (doc_tokens (fetch_document limit)) with (toks a ++ TInt (dec limit) :: toks b);
    apply (pre_iff (str_bytes a) (toks a)); [reflexivity|];
    assert (L : lexes (str_bytes b) (toks b)) by (apply seg_end; discriminate);
    pose proof (dec_digits limit H) as D; pose proof (dec_nonempty limit) as N; pose proof (dec_head limit) as Hd;
    destruct (dec limit) as [|c n]; [congruence|];
    inversion D as [|? ? D1 D2]; subst;
    apply (L_int c n (str_bytes b)); [exact D1|exact D2|exact (Hd c n H eq_refl)|cbn; discriminate|exact L] end.
Qed.
(** A reply that lists blocks is read as these blocks. *)
Theorem C114_reply : forall bs, Forall (fun b => 0 <= block_height b < 2 ^ 64) bs -> read_response (write_response bs) = Some bs.
Proof.
  intros bs F. unfold read_response, write_response. cbn [one_field get].
  change (key_eqb (str_bytes "data") (str_bytes "data")) with true. cbn [one_field get].
  change (key_eqb (str_bytes "blocks") (str_bytes "blocks")) with true. cbn match.
  rewrite map_map. induction F as [|b bs Hb F IH]; [reflexivity|]. cbn [map all_some].
  assert (R : read_info (write_info b) = Some b).
  { destruct b as [h s]. cbn [block_height] in Hb. unfold read_info, write_info. cbn [get block_height state_hash].
    change (key_eqb (str_bytes "blockHeight") (str_bytes "blockHeight")) with true.
    change (key_eqb (str_bytes "blockHeight") (str_bytes "stateHash")) with false.
    change (key_eqb (str_bytes "stateHash") (str_bytes "stateHash")) with true. cbn match.
    replace ((0 <=? h) && (h <? 2 ^ 64)) with true by lia. reflexivity. }
  rewrite R, IH. reflexivity.
Qed.
Example C114_reply_example : read_response (write_response [{| block_height := 77749; state_hash := str_bytes "3NK3" |}]) =
  Some [{| block_height := 77749; state_hash := str_bytes "3NK3" |}].
Proof. reflexivity. Qed.

Section Props.
  Variable checked : bool.
  Variable checksum : list Z -> list Z.
  Variable unaddr : list Z -> option (list Z * bool).
  Variable parse_text : list Z -> option json.
  Notation parse_block := (parse_block_json checked checksum unaddr).
  Notation retrieve := (retrieve parse_text).
  Notation after := (after checked checksum unaddr parse_text).

  (** ** What is stored *)
  (** [x] without its member [scheduled_time] *)
  Definition strip (x : json) : json :=
    match x with
    | JObj m => JObj (filter (fun kv => if list_eq_dec Z.eq_dec (fst kv) (str_bytes "scheduled_time") then false else true) m)
    | _ => x
    end.
  Lemma retrieve_strip : forall r, retrieve r = match r with Text t => option_map strip (parse_text t) | NoReply => None end.
  Proof.
    intros [|t]; [reflexivity|]. unfold Crawler.retrieve. destruct (parse_text t) as [[]|]; try reflexivity. cbn [option_map strip]. do 2 f_equal.
    apply filter_ext. intros (k, j). cbn [fst]. unfold key_eqb. destruct (list_eq_dec _ _ _); reflexivity.
  Qed.
  (** The member plays no role for the check. *)
  Theorem C114_strip : forall x, parse_block (strip x) = parse_block x.
  Proof.
    intros x. destruct x as [| | | | | |m]; try reflexivity. unfold parse_block_json. f_equal. unfold jExternalTransition. cbn [strip].
    destruct (jde_eqs checked checksum unaddr) as (_ & E2 & _ & _ & _ & E6 & _). rewrite !E2. f_equal. rewrite !E6. f_equal.
    match goal with |- obj_loop (fld_de _ _ _ ?fs) _ = _ => set (fields := fs) end.
    assert (N : forall j, fld_de checked checksum unaddr fields (str_bytes "scheduled_time") j = None).
    { intros j. apply fld_unknown. subst fields. cbn [keys]. intros I. repeat destruct I as [I|I]; try discriminate I; exact I. }
    clearbody fields. induction m as [|(k, j) m IH]; [reflexivity|]. cbn [filter fst obj_loop].
    destruct (list_eq_dec Z.eq_dec k (str_bytes "scheduled_time")) as [->|]; [rewrite N; exact IH|]. cbn [obj_loop]. rewrite IH. reflexivity.
  Qed.

  (** ** The verdict about a block *)
  Inductive verdict : Type := Nothing | Good (j : json) | Bad (j : json) | Fatal.
  Definition verdict_of (n : list Z) (r : reply) : verdict :=
    match r with
    | NoReply => Nothing
    | Text t =>
      match parse_text t with
      | None => Nothing
      | Some x =>
        match parse_block x, file_name_ok n with
        | Panic, _ | _, false => Fatal
        | Ok _, true => Good (strip x)
        | Err _, true => Bad (strip x)
        end
      end
    end.
  Lemma after_verdict : forall d n r, after d n r =
    match verdict_of n r with
    | Nothing => Ok d
    | Good j => Ok {| succeeded := put (succeeded d) n (Some j); failed := failed d |}
    | Bad j => Ok {| succeeded := succeeded d; failed := put (failed d) n (Some j) |}
    | Fatal => Panic
    end.
  Proof.
    intros d n r. unfold Crawler.after, verdict_of. rewrite retrieve_strip. destruct r as [|t]; [reflexivity|].
    destruct (parse_text t) as [x|]; [|reflexivity]. cbn [option_map]. rewrite C114_strip. destruct (parse_block x), (file_name_ok n); reflexivity.
  Qed.

  (** ** The crawl *)
  Variable limit : nat.
  Variable answers : list Z -> reply -> Prop.
  Notation step := (step checked checksum unaddr parse_text limit answers).
  Notation runs := (runs checked checksum unaddr parse_text limit answers).

  (** Every run ends. *)
  Definition weight (s : crawl) : nat :=
    match s with
    | Running p a d => (1 + 3 * length p + 2 * length (filter (fun x => match snd x with Fresh => true | Asking => false end) a)
        + length (filter (fun x => match snd x with Fresh => false | Asking => true end) a))%nat
    | Crashed _ => 0%nat
    end.
  Theorem C114_ends : forall s s', step s s' -> (weight s' < weight s)%nat.
  Proof.
    intros s s' H. destruct H; cbn [weight length]; rewrite ?filter_app, ?app_length; cbn [filter snd]; rewrite ?app_length; cbn [length]; lia.
  Qed.
  (** It ends only when all checks are done, the program has crashed, or no
      reply comes for any of the checks that run. *)
  Theorem C114_progress : forall p a d, (forall s', ~ step (Running p a d) s') ->
    (p = [] /\ a = []) \/
    (a <> [] /\ (p = [] \/ (limit <> 0 /\ limit <= length a)%nat) /\
     Forall (fun x => snd x = Asking /\ forall r, ~ answers (block_url (fst x)) r) a).
  Proof.
    intros p a d H.
    assert (F : Forall (fun x => snd x = Asking /\ forall r, ~ answers (block_url (fst x)) r) a).
    { apply Forall_forall. intros (n, g) I. apply in_split in I. destruct I as (a1 & a2 & ->). cbn [fst snd]. destruct g.
      - exfalso. destruct (before d n) as (d', [|]) eqn:B; eapply H; [eapply s_ask|eapply s_known]; exact B.
      - split; [reflexivity|]. intros r A. destruct (after d n r) as [d'|e|] eqn:E.
        + eapply H. eapply s_answer; eassumption.
        + rewrite after_verdict in E. destruct (verdict_of n r); discriminate E.
        + eapply H. eapply s_panic; eassumption. }
    destruct p as [|n p].
    - destruct a as [|x a]; [left; auto|]. right. split; [discriminate|]. split; [left; reflexivity|exact F].
    - assert (L : (limit <> 0 /\ limit <= length a)%nat).
      { destruct (Nat.eq_dec limit 0) as [Z0|Z0]; [exfalso; eapply H, s_pull; left; exact Z0|]. split; [exact Z0|].
        destruct (Nat.le_gt_cases limit (length a)) as [L|L]; [exact L|]. exfalso. eapply H, s_pull. right. exact L. }
      right. split; [intros ->; cbn in L; lia|]. split; [right; exact L|exact F].
  Qed.
End Props.

(** ** With a server whose replies do not change *)
Section Steady.
  Variable checked : bool.
  Variable checksum : list Z -> list Z.
  Variable unaddr : list Z -> option (list Z * bool).
  Variable parse_text : list Z -> option json.
  Variable limit : nat.
  Variable server : list Z -> reply.
  Notation after := (after checked checksum unaddr parse_text).
  Notation V n := (verdict_of checked checksum unaddr parse_text n (server (block_url n))).
  Notation step := (step checked checksum unaddr parse_text limit (fun u r => r = server u)).
  Notation runs := (runs checked checksum unaddr parse_text limit (fun u r => r = server u)).

  (** What is on the disk for a name after the crawl, from what was there. *)
  Definition settled (d0 d : disk) (n : list Z) : Prop :=
    match succeeded d0 n with
    | Some j => succeeded d n = Some j /\ failed d n = None
    | None =>
      match V n with
      | Nothing => succeeded d n = None /\ failed d n = None
      | Good j => succeeded d n = Some j /\ failed d n = None
      | Bad j => succeeded d n = None /\ failed d n = Some j
      | Fatal => False
      end
    end.
  Definition untouched (d0 d : disk) (n : list Z) : Prop := succeeded d n = succeeded d0 n /\ failed d n = failed d0 n.
  (** Nothing wrong is on the disk: a record is old or tells the verdict. *)
  Definition truthful (d0 d : disk) (n : list Z) : Prop :=
    (succeeded d n = succeeded d0 n \/ succeeded d0 n = None /\ exists j, V n = Good j /\ succeeded d n = Some j) /\
    (failed d n = failed d0 n \/ failed d n = None \/ exists j, V n = Bad j /\ failed d n = Some j).

  Definition inv (L : list (list Z)) (d0 : disk) (s : crawl) : Prop :=
    match s with
    | Running p a d => exists c, (forall n, In n L <-> In n p \/ In n (map fst a) \/ In n c) /\
      forall n, truthful d0 d n /\
        (~ In (n, Asking) a -> ~ In n c -> untouched d0 d n) /\
        (In (n, Asking) a -> succeeded d0 n = None /\ (failed d n = None \/ exists j, V n = Bad j /\ failed d n = Some j)) /\
        (In n c -> ~ In (n, Asking) a -> settled d0 d n) /\
        (In n c -> succeeded d0 n = None -> V n <> Fatal)
    | Crashed d => (exists n, In n L /\ succeeded d0 n = None /\ V n = Fatal) /\
        forall n, truthful d0 d n /\ (~ In n L -> untouched d0 d n)
    end.
  Lemma put_same : forall f n v, put f n v n = v.
  Proof. intros f n v. unfold put, same_name. rewrite key_eqb_refl. reflexivity. Qed.
  Lemma put_other : forall f n v k, k <> n -> put f n v k = f k.
  Proof. intros f n v k H. unfold put, same_name. rewrite key_neqb by exact H. reflexivity. Qed.
  Lemma in_mid : forall (A : Type) (x y : A) l1 l2, In x (l1 ++ y :: l2) <-> y = x \/ In x (l1 ++ l2).
  Proof. intros A x y l1 l2. rewrite !in_app_iff. cbn [In]. tauto. Qed.
  Lemma name_dec : forall a b : list Z, {a = b} + {a <> b}.
  Proof. apply list_eq_dec, Z.eq_dec. Qed.

  Lemma inv_step : forall L d0 s s', inv L d0 s -> step s s' -> inv L d0 s'.
  Proof.
    intros L d0 s s' I H. destruct H as [m p a d Lm|m p a1 a2 d d' B|m p a1 a2 d d' B|m p a1 a2 d d' r -> E|m p a1 a2 d r -> E].
    - (* pull *)
      destruct I as (c & M & I). exists c. split.
      + intros n. rewrite M, map_app, in_app_iff. cbn [map fst In]. clear. tauto.
      + intros n. specialize (I n). rewrite in_app_iff. cbn [In].
        assert (X : (In (n, Asking) a \/ (m, Fresh) = (n, Asking) \/ False) <-> In (n, Asking) a) by (intuition discriminate).
        rewrite X. exact I.
    - (* known *)
      destruct I as (c & M & I). exists (m :: c). unfold before in B. injection B as <- S.
      assert (X : forall n, In (n, Asking) (a1 ++ (m, Fresh) :: a2) <-> In (n, Asking) (a1 ++ a2)) by (intros n; rewrite in_mid; intuition discriminate).
      split.
      + intros n. rewrite M, !map_app, !in_app_iff. cbn [map fst In]. clear. tauto.
      + intros n. specialize (I n). rewrite X in I. destruct I as ((T1 & T2) & U & A & D & F).
        destruct (name_dec n m) as [->|N].
        * destruct (succeeded d m) as [j|] eqn:Sm; [|discriminate S].
          repeat match goal with |- _ /\ _ => split end; cbn [succeeded failed].
          -- split; cbn [succeeded failed]; [rewrite Sm; exact T1|right; left; apply put_same].
          -- intros _ NI. destruct NI. left. reflexivity.
          -- intros J. destruct (A J) as (A1 & _). split; [exact A1|left; apply put_same].
          -- intros _ _. unfold settled. cbn [succeeded failed]. rewrite put_same, Sm. destruct T1 as [T1|(T1 & j' & G & T1')].
             ++ rewrite <- T1. auto.
             ++ rewrite T1, G. split; [congruence|reflexivity].
          -- intros _ Z0. destruct T1 as [T1|(_ & j' & G & _)]; congruence.
        * unfold truthful, untouched, settled in *. cbn [succeeded failed]. rewrite put_other by exact N.
          assert (Y : In n (m :: c) <-> In n c) by (clear - N; cbn [In]; intuition congruence). rewrite Y. repeat split; try tauto; assumption.
    - (* ask *)
      destruct I as (c & M & I). exists c. unfold before in B. injection B as <- S.
      assert (X : forall n, In (n, Asking) (a1 ++ (m, Fresh) :: a2) <-> In (n, Asking) (a1 ++ a2)) by (intros n; rewrite in_mid; intuition discriminate).
      split.
      + intros n. rewrite M, !map_app, !in_app_iff. cbn [map fst In]. clear. tauto.
      + intros n. specialize (I n). rewrite X in I. rewrite in_mid. destruct I as ((T1 & T2) & U & A & D & F).
        destruct (name_dec n m) as [->|N].
        * destruct (succeeded d m) as [j|] eqn:Sm; [discriminate S|].
          repeat match goal with |- _ /\ _ => split end; cbn [succeeded failed].
          -- split; cbn [succeeded failed]; [rewrite Sm; exact T1|right; left; apply put_same].
          -- intros NI. destruct NI. left. reflexivity.
          -- intros _. split; [destruct T1 as [T1|(T1 & _)]; congruence|left; apply put_same].
          -- intros _ NI. destruct NI. left. reflexivity.
          -- exact F.
        * unfold truthful, untouched, settled in *. cbn [succeeded failed]. rewrite put_other by exact N.
          assert (Y : ((m, Asking) = (n, Asking) \/ In (n, Asking) (a1 ++ a2)) <-> In (n, Asking) (a1 ++ a2)) by (clear - N; intuition congruence).
          rewrite Y. repeat split; try tauto; assumption.
    - (* answer *)
      destruct I as (c & M & I). exists (m :: c). rewrite after_verdict in E.
      assert (Im := I m). rewrite in_mid in Im. destruct Im as ((T1 & T2) & U & A & D & F). destruct (A (or_introl eq_refl)) as (A1 & A2).
      split.
      + intros n. rewrite M, !map_app, !in_app_iff. cbn [map fst In]. clear. tauto.
      + intros n. destruct (name_dec n m) as [->|N].
        * assert (S : settled d0 d' m /\ V m <> Fatal /\ truthful d0 d' m /\ (failed d' m = None \/ exists j, V m = Bad j /\ failed d' m = Some j)).
          { unfold settled, truthful. rewrite A1. destruct (V m) as [|j|j|] eqn:G; try discriminate E; injection E as <-; cbn [succeeded failed]; rewrite ?put_same.
            - assert (S0 : succeeded d m = None) by (destruct T1 as [T1|(_ & j & G' & _)]; congruence).
              assert (F0 : failed d m = None) by (destruct A2 as [A2|(j & G' & _)]; congruence).
              rewrite S0, F0. repeat split; try discriminate; auto.
            - assert (F0 : failed d m = None) by (destruct A2 as [A2|(j' & G' & _)]; congruence).
              rewrite F0. repeat split; try discriminate; eauto.
            - assert (S0 : succeeded d m = None) by (destruct T1 as [T1|(_ & j' & G' & _)]; congruence).
              rewrite S0. repeat split; try discriminate; eauto. }
          destruct S as (S1 & S2 & S3 & S4). repeat match goal with |- _ /\ _ => split end.
          -- exact S3.
          -- intros _ NI. destruct NI. left. reflexivity.
          -- intros _. auto.
          -- auto.
          -- auto.
        * specialize (I n). rewrite in_mid in I.
          assert (Y : ((m, Asking) = (n, Asking) \/ In (n, Asking) (a1 ++ a2)) <-> In (n, Asking) (a1 ++ a2)) by (clear - N; intuition congruence).
          rewrite Y in I. assert (Z0 : In n (m :: c) <-> In n c) by (clear - N; cbn [In]; intuition congruence). rewrite Z0.
          assert (K : succeeded d' n = succeeded d n /\ failed d' n = failed d n).
          { destruct (V m); try discriminate E; injection E as <-; cbn [succeeded failed]; rewrite ?put_other by exact N; auto. }
          destruct K as (K1 & K2). unfold truthful, untouched, settled in *. rewrite K1, K2. exact I.
    - (* panic *)
      destruct I as (c & M & I). rewrite after_verdict in E. split.
      + exists m. specialize (I m). rewrite in_mid in I. destruct I as (_ & _ & A & _). destruct (A (or_introl eq_refl)) as (A1 & _).
        split; [apply M; right; left; rewrite map_app, in_app_iff; right; left; reflexivity|]. split; [exact A1|].
        destruct (V m); try discriminate E. reflexivity.
      + intros n. specialize (I n). destruct I as (T & U & _). split; [exact T|]. intros NL. apply U.
        * intros J. apply NL, M. right. left. apply in_map_iff. exists (n, Asking). auto.
        * intros J. apply NL, M. auto.
  Qed.
  Lemma inv_runs : forall L d0 s s', inv L d0 s -> runs s s' -> inv L d0 s'.
  Proof. intros L d0 s s' I H. induction H as [|s s' s'' H _ IH]; [exact I|]. apply IH. eapply inv_step; eassumption. Qed.
  Notation name := (file_name (str_bytes "mainnet")).
  Lemma inv_start : forall bs d0, inv (map name bs) d0 (start bs d0).
  Proof.
    intros bs d0. exists []. split; [intros n; cbn [map In]; tauto|]. intros n. cbn [In]. unfold truthful, untouched. repeat split; auto; tauto.
  Qed.

  (** When the crawl is done, the disk is as the verdicts say, whatever the order
      of the replies, the limit and the repetitions in the list. *)
  Theorem C114_result : forall bs d0 d, runs (start bs d0) (Running [] [] d) ->
    (forall b, In b bs -> settled d0 d (name b)) /\ (forall n, ~ In n (map name bs) -> untouched d0 d n).
  Proof.
    intros bs d0 d R. pose proof (inv_runs _ _ _ _ (inv_start bs d0) R) as (c & M & I). split.
    - intros b B. destruct (I (name b)) as (_ & _ & _ & S & _). apply S; [|intros []].
      assert (L : In (name b) (map name bs)) by (apply in_map; exact B). apply M in L. cbn [map In] in L. tauto.
    - intros n N. destruct (I n) as (_ & U & _). apply U; [intros []|]. intros C. apply N, M. auto.
  Qed.
  (** Every run can be continued to one of two ends; which of them depends on the
      replies alone. *)
  Theorem C114_done_iff : forall bs d0 s, runs (start bs d0) s -> (forall s', ~ step s s') ->
    ((exists d, s = Running [] [] d) <-> forall b, In b bs -> succeeded d0 (name b) = None -> V (name b) <> Fatal).
  Proof.
    intros bs d0 s R E. pose proof (inv_runs _ _ _ _ (inv_start bs d0) R) as I. split.
    - intros (d & ->) b B Z0 G. destruct (C114_result bs d0 d R) as (S & _). specialize (S b B). unfold settled in S. rewrite Z0, G in S. exact S.
    - intros H. destruct s as [p a d|d].
      + apply C114_progress in E. destruct E as [(-> & ->)|(NE & _ & F)]; [eauto|]. destruct a as [|x a]; [congruence|]. inversion F; subst.
        destruct H2 as (_ & N). destruct (N _ eq_refl).
      + destruct I as ((n & L & Z0 & G) & _). apply in_map_iff in L. destruct L as (b & <- & B). destruct (H b B Z0 G).
  Qed.
  Theorem C114_crashed_iff : forall bs d0 s, runs (start bs d0) s -> (forall s', ~ step s s') ->
    ((exists d, s = Crashed d) <-> exists b, In b bs /\ succeeded d0 (name b) = None /\ V (name b) = Fatal).
  Proof.
    intros bs d0 s R E. pose proof (inv_runs _ _ _ _ (inv_start bs d0) R) as I. split.
    - intros (d & ->). destruct I as ((n & L & Z0 & G) & _). apply in_map_iff in L. destruct L as (b & <- & B). eauto.
    - intros (b & B & Z0 & G). destruct s as [p a d|d]; [|eauto]. exfalso.
      assert (D : exists d', Running p a d = Running [] [] d').
      { pose proof E as E'. apply C114_progress in E'. destruct E' as [(-> & ->)|(NE & _ & F)]; [eauto|]. destruct a as [|x a]; [congruence|].
        inversion F; subst. destruct H1 as (_ & N). destruct (N _ eq_refl). }
      destruct D as (d' & D). rewrite D in R. destruct (C114_result bs d0 d' R) as (S & _). specialize (S b B). unfold settled in S. rewrite Z0, G in S. exact S.
  Qed.
  (** At any moment, and after a crash, the records are old or true. *)
  Theorem C114_truthful : forall bs d0 s, runs (start bs d0) s ->
    match s with Running _ _ d | Crashed d => forall n, truthful d0 d n /\ (~ In n (map name bs) -> untouched d0 d n) end.
  Proof.
    intros bs d0 s R. pose proof (inv_runs _ _ _ _ (inv_start bs d0) R) as I. destruct s as [p a d|d].
    - destruct I as (c & M & I). intros n. destruct (I n) as (T & U & _). split; [exact T|]. intros N. apply U.
      + intros J. apply N, M. right. left. apply in_map_iff. exists (n, Asking). auto.
      + intros J. apply N, M. auto.
    - intros n. apply I.
  Qed.
  (** Crawling again gives the same records. *)
  Theorem C114_again : forall bs d0 d d', runs (start bs d0) (Running [] [] d) -> runs (start bs d) (Running [] [] d') ->
    forall n, untouched d d' n.
  Proof.
    intros bs d0 d d' R R' n. destruct (C114_result bs d0 d R) as (S & U). destruct (C114_result bs d d' R') as (S' & U').
    destruct (in_dec name_dec n (map name bs)) as [I|I]; [|exact (U' n I)]. apply in_map_iff in I. destruct I as (b & <- & B).
    specialize (S b B). specialize (S' b B). unfold settled in *. destruct (succeeded d0 (name b)) as [j|].
    - destruct S as (S1 & S2). rewrite S1 in S'. destruct S' as (S1' & S2'). split; congruence.
    - destruct (V (name b)) as [|j|j|]; [| | |destruct S]; destruct S as (S1 & S2); rewrite S1 in S'; destruct S' as (S1' & S2'); split; congruence.
  Qed.
End Steady.

(** ** Which documents succeed *)
Section Documents.
  Variable checked : bool.
  Variable checksum : list Z -> list Z.
  Variable addr : list Z -> bool -> list Z.
  Variable unaddr : list Z -> option (list Z * bool).
  Hypothesis checksum_len : forall l, length (checksum l) = 4%nat.
  Hypothesis checksum_bytes : forall l, bytes_ok (checksum l).
  Hypothesis addr_back : forall x b, bytes_ok x -> length x = 32%nat -> le_val x < FP_MODULUS ->
    unaddr (addr x b) = Some (x, b).
  (** A block written by this code, with the keys and signatures that base
      values have, succeeds, with any [scheduled_time] added at any place. *)
  Theorem C114_good : forall v m1 m2 time, rust_val ExternalTransitionV1 v -> declared jExternalTransition v -> leaves key_ok jExternalTransition v ->
    ~ bad ExternalTransitionV1 v -> jser checked checksum addr jExternalTransition v = Ok (JObj (m1 ++ m2)) ->
    exists b, down C_block v = Ok b /\
      parse_block_json checked checksum unaddr (JObj (m1 ++ (str_bytes "scheduled_time", time) :: m2)) = Ok b.
  Proof using checksum_len checksum_bytes addr_back.
    intros v m1 m2 time R D K B W.
    assert (T : json_type jExternalTransition ExternalTransitionV1) by (exists "ExternalTransition"%string; left; reflexivity).
    destruct (C82_round_trip checked checksum addr unaddr checksum_len checksum_bytes addr_back _ _ v T R K) as (j & S & Rd).
    rewrite W in S. injection S as <-.
    assert (N : norm jExternalTransition v = v) by (apply (proj1 norm_all); [rewrite (json_type_wire _ _ T); exact R|exact D]).
    rewrite N in Rd. destruct (proj2 (C99_converts_iff C_block ExternalTransitionV1 v ltac:(left; reflexivity) R) B) as (b & E).
    exists b. split; [exact E|]. unfold parse_block_json.
    assert (U : jde checked checksum unaddr jExternalTransition (JObj (m1 ++ (str_bytes "scheduled_time", time) :: m2)) = Ok v).
    { unfold jExternalTransition in *. destruct (jde_eqs checked checksum unaddr) as (_ & E2 & _). rewrite E2 in *. rewrite C92_unknown; [exact Rd|].
      cbn [keys]. intros I. repeat destruct I as [I|I]; try discriminate I; exact I. }
    rewrite U. cbn [bind]. rewrite E. reflexivity.
  Qed.
  Hypothesis checksum_empty : nth 0 (checksum []) 0 = 0x5d.
  (** Expected: the program goes on whatever the server sends.  There is a
      document such that a crawl that asks for it ends with a crash. *)
  Theorem C114_crash_refuted : exists j, forall parse_text limit server bs b d0 s,
    parse_text [] = Some j -> In b bs -> succeeded d0 (file_name (str_bytes "mainnet") b) = None ->
    server (block_url (file_name (str_bytes "mainnet") b)) = Text [] ->
    runs checked checksum unaddr parse_text limit (fun u r => r = server u) (start bs d0) s ->
    (forall s', ~ step checked checksum unaddr parse_text limit (fun u r => r = server u) s s') -> exists d, s = Crashed d.
  Proof using checksum_len checksum_bytes checksum_empty.
    assert (T : json_type jExternalTransition ExternalTransitionV1) by (exists "ExternalTransition"%string; left; reflexivity).
    destruct (proj2 (C81_crashes_iff checked checksum unaddr checksum_len checksum_bytes checksum_empty _ _ T)) as (j & J).
    { destruct checked; vm_compute; reflexivity. }
    exists j. intros parse_text limit server bs b d0 s P B S0 A R E.
    apply (proj2 (C114_crashed_iff checked checksum unaddr parse_text limit server bs d0 s R E)). exists b. split; [exact B|]. split; [exact S0|].
    unfold verdict_of. rewrite A, P. unfold parse_block_json. rewrite J. reflexivity.
  Qed.
End Documents.

(** ** Expected, and not so *)
Definition sample_a : block_info := {| block_height := 1; state_hash := str_bytes "a" |}.
Definition sample_b : block_info := {| block_height := 2; state_hash := str_bytes "b" |}.
Definition name_a : list Z := file_name (str_bytes "mainnet") sample_a.
Definition name_b : list Z := file_name (str_bytes "mainnet") sample_b.
Definition no_checksum (l : list Z) : list Z := [0x5d; 0; 0; 0].
Definition no_address (l : list Z) : option (list Z * bool) := None.
Definition any_text (t : list Z) : option json := Some JNull.
Notation crawl_runs := (runs true no_checksum no_address any_text).
Notation crawl_step := (step true no_checksum no_address any_text).
Definition old_failure : disk := {| succeeded := fun _ => None; failed := put (fun _ => None) name_a (Some (JBool true)) |}.
(** A record of a failure is kept until there is a new verdict: no, it is gone
    when the block cannot be fetched. *)
Theorem C114_lost_refuted : exists server d, crawl_runs 1 (fun u r => r = server u) (start [sample_a] old_failure) (Running [] [] d) /\
  failed old_failure name_a = Some (JBool true) /\ failed d name_a = None /\ succeeded d name_a = None.
Proof.
  exists (fun _ => NoReply). eexists. split.
  - unfold start. cbn [map]. eapply r_step; [apply s_pull; right; cbn; lia|]. cbn [app].
    eapply r_step; [apply (s_ask _ _ _ _ _ _ _ _ []); reflexivity|]. cbn [app].
    eapply r_step; [apply (s_answer _ _ _ _ _ _ _ _ []) with (r := NoReply); reflexivity|]. apply r_here.
  - repeat split.
Qed.
(** A block whose server is silent does not keep the others from being checked:
    no, with a limit of one nothing else is ever looked at. *)
Theorem C114_silent_refuted : exists answers s, crawl_runs 1 answers (start [sample_a; sample_b] old_failure) s /\ (forall s', ~ crawl_step 1 answers s s') /\
  answers (block_url name_b) (Text []) /\ exists d, s = Running [name_b] [(name_a, Asking)] d.
Proof.
  exists (fun u r => u = block_url name_b /\ r = Text []). eexists. split; [|split; [|split]].
  - unfold start. cbn [map]. eapply r_step; [apply s_pull; right; cbn; lia|]. cbn [app].
    eapply r_step; [apply (s_ask _ _ _ _ _ _ _ _ []); reflexivity|]. cbn [app]. apply r_here.
  - intros s' H.
    assert (NE : block_url name_a <> block_url name_b) by (intros E; vm_compute in E; discriminate E).
    assert (ONE : forall n g a1 a2, a1 ++ (n, g) :: a2 = [(name_a, Asking)] -> n = name_a /\ g = Asking).
    { intros n g [|x a1] a2 E; cbn [app] in E; [now injection E as -> -> _|]. injection E as _ E. destruct a1; discriminate E. }
    inversion H; subst; try match goal with E : _ ++ _ = _ |- _ => apply ONE in E; destruct E as (-> & E); try discriminate E end.
    + match goal with E : _ \/ _ |- _ => cbn in E; lia end.
    + match goal with E : _ /\ _ = Text [] |- _ => exact (NE (proj1 E)) end.
    + match goal with E : _ /\ _ = Text [] |- _ => exact (NE (proj1 E)) end.
  - split; reflexivity.
  - eexists. reflexivity.
Qed.
(** A hash with a slash in it, and any document at all: the program crashes. *)
Theorem C114_slash_refuted : forall checked checksum unaddr parse_text limit server height d0 s x,
  let b := {| block_height := height; state_hash := str_bytes "a/b" |} in 0 <= height ->
  succeeded d0 (file_name (str_bytes "mainnet") b) = None ->
  server (block_url (file_name (str_bytes "mainnet") b)) = Text [] -> parse_text [] = Some x ->
  runs checked checksum unaddr parse_text limit (fun u r => r = server u) (start [b] d0) s ->
  (forall s', ~ step checked checksum unaddr parse_text limit (fun u r => r = server u) s s') -> exists d, s = Crashed d.
Proof.
  intros c k u pt limit server height d0 s x b H S0 A P R E.
  apply (proj2 (C114_crashed_iff c k u pt limit server [b] d0 s R E)). exists b. split; [left; reflexivity|]. split; [exact S0|].
  unfold verdict_of. rewrite A, P.
  assert (F : file_name_ok (file_name (str_bytes "mainnet") b) = false).
  { destruct (file_name_ok _) eqn:O; [|reflexivity]. apply C114_file_iff in O; [|exact H]. destruct O as (O & _). destruct O. right. left. reflexivity. }
  rewrite F. destruct (parse_block_json _ _ _ x); reflexivity.
Qed.
(** A crawl with two blocks, one of them twice, in which the replies come in
    another order than the blocks. *)
Example C114_result_example : exists server d, crawl_runs 8 (fun u r => r = server u) (start [sample_a; sample_b; sample_a] old_failure) (Running [] [] d) /\
  failed d name_a = Some JNull /\ failed d name_b = None /\ succeeded d name_b = None.
Proof.
  exists (fun u => if key_eqb u (block_url name_a) then Text [] else NoReply). eexists. split.
  - unfold start. cbn [map]. do 3 (eapply r_step; [apply s_pull; right; cbn; lia|]; cbn [app]).
    eapply r_step; [apply (s_ask _ _ _ _ _ _ _ _ []); reflexivity|]. cbn [app].
    eapply r_step; [apply (s_ask _ _ _ _ _ _ _ _ [(name_a, Asking)]); reflexivity|]. cbn [app].
    eapply r_step; [apply (s_answer _ _ _ _ _ _ _ _ [(name_a, Asking)]) with (r := NoReply); vm_compute; reflexivity|]. cbn [app].
    eapply r_step; [apply (s_answer _ _ _ _ _ _ _ _ []) with (r := Text []); [vm_compute; reflexivity|reflexivity]|]. cbn [app].
    eapply r_step; [apply (s_ask _ _ _ _ _ _ _ _ []); reflexivity|]. cbn [app].
    eapply r_step; [apply (s_answer _ _ _ _ _ _ _ _ []) with (r := Text []); [vm_compute; reflexivity|reflexivity]|]. cbn [app]. apply r_here.
  - repeat split; vm_compute; reflexivity.
Qed.

Print Assumptions C114_names.
Print Assumptions C114_file_iff.
Print Assumptions C114_query.
Print Assumptions C114_reply.
Print Assumptions C114_strip.
Print Assumptions C114_ends.
Print Assumptions C114_progress.
Print Assumptions C114_result.
Print Assumptions C114_done_iff.
Print Assumptions C114_crashed_iff.
Print Assumptions C114_truthful.
Print Assumptions C114_again.
Print Assumptions C114_good.
Print Assumptions C114_crash_refuted.
Print Assumptions C114_lost_refuted.
Print Assumptions C114_silent_refuted.
Print Assumptions C114_slash_refuted.
