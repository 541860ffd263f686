(** C110: polling of the two backends. *)
From Coq Require Import String ZArith List Bool Lia ZifyNat Permutation.
From Verif Require Import Lib.Res Lib.Bytes Lib.Decimal Lib.Text Json.Json Hashing.Command Hashing.Account Hashing.State Text.Checksum.
From Verif Require Import GraphQL.GraphQL GraphQL.GraphQLSpec GraphQL.GraphQLFacts GraphQL.GraphQLProps.
From Verif Require Import Client.Fetch Client.FetchProps.
Import ListNotations.
Local Open Scope string_scope.
Local Open Scope list_scope.
Local Open Scope Z_scope.
Notation length := List.length.

(** ** Berkeley *)
Section Berkeley.
  Variable fetch : list Z -> option json.

  (** A poll succeeds exactly if every endpoint answers, and then the answers are
      handed to the processor in the order of the endpoints. *)
  Theorem C110_berkeley_iff : forall apis bs, berkeley_poll fetch apis = (bs, true) <->
    Forall2 (fun e b => fetch e = Some b) apis bs.
  Proof.
    induction apis as [|e apis IH]; intros bs; cbn [berkeley_poll].
    - split; [intros E; injection E as <-; constructor|]. now inversion 1.
    - destruct (fetch e) as [b|] eqn:F.
      + destruct (berkeley_poll fetch apis) as [bs' ok] eqn:P. split.
        * intros E. injection E as <- ->. constructor; [exact F|]. now apply IH.
        * intros H. inversion H as [|? b' ? bs0 Q H']; subst. apply IH in H'. congruence.
      + split; [discriminate|]. intros H. inversion H. congruence.
  Qed.
  (** Otherwise those before the first that does not answer. *)
  Theorem C110_berkeley_failed_iff : forall apis bs, berkeley_poll fetch apis = (bs, false) <->
    exists done e rest, apis = done ++ e :: rest /\ Forall2 (fun e b => fetch e = Some b) done bs /\ fetch e = None.
  Proof.
    induction apis as [|e apis IH]; intros bs; cbn [berkeley_poll].
    - split; [discriminate|]. intros ([|? ?] & e & rest & E & _); discriminate.
    - destruct (fetch e) as [b|] eqn:F.
      + destruct (berkeley_poll fetch apis) as [bs' ok] eqn:P. split.
        * intros E. injection E as <- ->. destruct (proj1 (IH bs') eq_refl) as (done & e' & rest & -> & D & N).
          exists (e :: done), e', rest. auto.
        * intros ([|e0 done] & e' & rest & E & D & N); injection E as -> ->; [congruence|].
          inversion D as [|? b' ? bs0 Q D']; subst.
          assert (H : (bs', ok) = (bs0, false)) by (apply IH; eauto 6). congruence.
      + split.
        * intros E. injection E as <-. exists [], e, apis. auto.
        * intros ([|e0 done] & e' & rest & E & D & N); injection E as -> ->; [now inversion D|]. inversion D. congruence.
  Qed.

  (** Expected: endpoints that answer are used although another does not.
      Refuted: one that does not answer hides all that come after it. *)
  Theorem C110_failing_endpoint_refuted : forall e rest, fetch e = None -> berkeley_poll fetch (e :: rest) = ([], false).
  Proof. intros e rest F. cbn [berkeley_poll]. now rewrite F. Qed.
  (** What is sent depends on the order in which the set is traversed. *)
  Theorem C110_order_refuted : forall e e' b, fetch e = None -> fetch e' = Some b ->
    Permutation [e; e'] [e'; e] /\ fst (berkeley_poll fetch [e; e']) = [] /\ fst (berkeley_poll fetch [e'; e]) = [b].
  Proof. intros e e' b F G. split; [constructor|]. cbn [berkeley_poll]. rewrite F, G. auto. Qed.
End Berkeley.

(** Expected: asking for a block delivers that block.  Refuted on berkeley: the
    request is ignored, the answer is the chain of the server. *)
Theorem C110_berkeley_request_refuted : forall height hash, exists fetch apis d s,
  berkeley_query fetch apis height hash = ([d], true) /\ state_of sha_checksum true (first_state d) = Ok s /\
  blockchain_length (body_consensus (s_body s)) <> height.
Proof.
  intros height hash.
  assert (R : forall h t, number 32 (str t) = Ok h -> h <> height -> exists fetch apis d s,
    berkeley_query fetch apis height hash = ([d], true) /\ state_of sha_checksum true (first_state d) = Ok s /\
    blockchain_length (body_consensus (s_body s)) <> height).
  { intros h t N D. destruct (fixture_at t h N) as (d & s & E & B). exists (fun _ => Some d), [str_bytes "a"], d, s.
    split; [reflexivity|]. split; [exact E|]. congruence. }
  destruct (Z.eq_dec height 7) as [->|D].
  - apply (R 8 "8"); [reflexivity|lia].
  - apply (R 7 "7"); [reflexivity|lia].
Qed.

(** ** Version 1 *)

(** The blocks of the list that can be fetched, in the order of the list. *)
Inductive fetched {A B} (f : A -> option B) : list A -> list B -> Prop :=
| F_nil : fetched f [] []
| F_here : forall a b l bs, f a = Some b -> fetched f l bs -> fetched f (a :: l) (b :: bs)
| F_not : forall a l bs, f a = None -> fetched f l bs -> fetched f (a :: l) bs.

Section V1.
  Context {B : Type}.
  Variable latest : option (list block_info).
  Variable fetch : list Z -> option B.

  Lemma v1_send_fetched : forall l bs, v1_send fetch l = bs <-> fetched (fun b => fetch (block_url (bi_height b) (bi_hash b))) l bs.
  Proof.
    induction l as [|a l IH]; intros bs; cbn [v1_send].
    - split; [intros <-; constructor|now inversion 1].
    - unfold fetch_info. destruct (fetch (block_url (bi_height a) (bi_hash a))) as [x|] eqn:F; split.
      + intros <-. apply F_here; [exact F|now apply IH].
      + inversion 1; subst; [|congruence]. assert (b = x) by congruence. subst b. f_equal. now apply IH.
      + intros <-. apply F_not; [exact F|now apply IH].
      + inversion 1; subst; [congruence|]. now apply IH.
  Qed.

  (** C110 (version 1): a poll fails only if the list of blocks cannot be had;
      all blocks that can be fetched are handed on, in the order of the list. *)
  Theorem C110_v1_iff : forall bs ok, v1_poll latest fetch = (bs, ok) <->
    match latest with
    | None => bs = [] /\ ok = false
    | Some l => fetched (fun b => fetch (block_url (bi_height b) (bi_hash b))) l bs /\ ok = true
    end.
  Proof.
    intros bs ok. unfold v1_poll. destruct latest as [l|]; split.
    - intros E. injection E as <- <-. split; [now apply v1_send_fetched|reflexivity].
    - intros (H & ->). apply v1_send_fetched in H. congruence.
    - intros E. injection E as <- <-. auto.
    - intros (-> & ->). reflexivity.
  Qed.
  (** Expected: success means that blocks came.  Refuted. *)
  Theorem C110_v1_silent_refuted : forall l, latest = Some l -> (forall u, fetch u = None) -> v1_poll latest fetch = ([], true).
  Proof.
    intros l E N. apply C110_v1_iff. rewrite E. split; [|reflexivity]. clear E. induction l as [|a l IH]; [constructor|]. now apply F_not.
  Qed.
  Theorem C110_v1_query_iff : forall height hash bs ok, v1_query fetch height hash = (bs, ok) <->
    match fetch (block_url height hash) with Some b => bs = [b] /\ ok = true | None => bs = [] /\ ok = false end.
  Proof.
    intros height hash bs ok. unfold v1_query. destruct (fetch _); split; try (intros E; injection E as <- <-; auto); intros (-> & ->); reflexivity.
  Qed.
End V1.

(** Different blocks have different addresses. *)
Lemma digits_dash : forall a b s t, Forall (fun c => is_digit c = true) a -> Forall (fun c => is_digit c = true) b ->
  a ++ 45 :: s = b ++ 45 :: t -> a = b /\ s = t.
Proof.
  induction a as [|x a IH]; intros [|y b] s t A B E; cbn [app] in E.
  - now injection E as ->.
  - injection E as <- E. inversion B as [|? ? D _]; subst. discriminate D.
  - injection E as -> E. inversion A as [|? ? D _]; subst. discriminate D.
  - injection E as -> E. inversion A; subst. inversion B; subst. destruct (IH b s t) as (-> & ->); auto.
Qed.
Theorem C110_address : forall h h' s s', 0 <= h -> 0 <= h' -> block_url h s = block_url h' s' -> h = h' /\ s = s'.
Proof.
  intros h h' s s' H H' E. unfold block_url in E. apply app_inv_head in E.
  assert (E' : dec h ++ 45 :: (s ++ str_bytes ".json") = dec h' ++ 45 :: (s' ++ str_bytes ".json")).
  { revert E. change (str_bytes "-") with [45]. cbn [app]. auto. }
  apply digits_dash in E' as (D & T); [|now apply dec_digits..].
  split; [|now apply app_inv_tail in T].
  rewrite <- (dec_val_dec h), <- (dec_val_dec h'), D by assumption. reflexivity.
Qed.

(** ** Cases *)
Definition ex_info (h : Z) (s : string) : block_info := {| bi_height := h; bi_hash := str_bytes s |}.
Example C110_v1_ex : forall fetch : list Z -> option Z,
  fetch = (fun u => if key_eqb u (block_url 6 (str_bytes "b")) then None else Some (Z.of_nat (length u))) ->
  v1_poll (Some [ex_info 5 "a"; ex_info 6 "b"; ex_info 17 "c"]) fetch = ([71; 72], true).
Proof. intros fetch ->. vm_compute. reflexivity. Qed.
Example C110_berkeley_ex :
  let fetch := fun e : list Z => match e with [c] => if c =? 98 then None else Some (JNum c) | _ => None end in
  berkeley_poll fetch [str_bytes "a"; str_bytes "c"] = ([JNum 97; JNum 99], true) /\
  berkeley_poll fetch [str_bytes "a"; str_bytes "b"; str_bytes "c"] = ([JNum 97], false) /\
  v1_poll (None : option (list block_info)) (fun _ => Some 5) = ([], false).
Proof. vm_compute. auto. Qed.
Example C110_address_ex : block_url 25718 (str_bytes "3NLQ") <> block_url 2571 (str_bytes "8-3NLQ") /\
  block_url 25718 (str_bytes "3NLQ") = str_bytes "https://storage.googleapis.com/mina_network_block_data/mainnet-25718-3NLQ.json".
Proof. split; [discriminate|reflexivity]. Qed.

Print Assumptions C110_berkeley_iff.
Print Assumptions C110_berkeley_failed_iff.
Print Assumptions C110_failing_endpoint_refuted.
Print Assumptions C110_order_refuted.
Print Assumptions C110_berkeley_request_refuted.
Print Assumptions C110_v1_iff.
Print Assumptions C110_v1_silent_refuted.
Print Assumptions C110_v1_query_iff.
Print Assumptions C110_address.
