(** C111: the tasks of a client of the processor finish, and when they cannot. *)
From Coq Require Import List Lia Bool Arith.
From Verif Require Import Lib.Res Frontier.Tasks.
Import ListNotations.

(** ** Lists *)
Lemma nth_put_same : forall {A} (l : list A) i a x, nth_error l i = Some x -> nth_error (put l i a) i = Some a.
Proof. induction l as [|y l IH]; intros [|i] a x H; try discriminate; cbn [put nth_error] in *; eauto. Qed.
Lemma nth_put_other : forall {A} (l : list A) i j a, i <> j -> nth_error (put l i a) j = nth_error l j.
Proof. induction l as [|y l IH]; intros [|i] [|j] a N; try congruence; cbn [put nth_error]; auto. Qed.
Lemma nth_put : forall {A} (l : list A) i j a x, nth_error l i = Some x ->
  nth_error (put l i a) j = if Nat.eqb i j then Some a else nth_error l j.
Proof.
  intros A l i j a x H. destruct (Nat.eqb_spec i j) as [<-|N]; [eapply nth_put_same; eauto|now apply nth_put_other].
Qed.
Lemma put_length : forall {A} (l : list A) i a, length (put l i a) = length l.
Proof. induction l as [|y l IH]; intros [|i] a; cbn [put length]; auto. Qed.
Lemma sum_put : forall {A} (w : A -> nat) l i a x, nth_error l i = Some x ->
  list_sum (map w (put l i a)) + w x = list_sum (map w l) + w a.
Proof.
  induction l as [|y l IH]; intros [|i] a x H; try discriminate; cbn [put map list_sum nth_error] in *.
  - injection H as ->. change (list_sum (w a :: map w l)) with (w a + list_sum (map w l)). change (list_sum (w x :: map w l)) with (w x + list_sum (map w l)). lia.
  - specialize (IH i a x H). change (list_sum (w y :: map w (put l i a))) with (w y + list_sum (map w (put l i a))).
    change (list_sum (w y :: map w l)) with (w y + list_sum (map w l)). lia.
Qed.

Section Props.
Context {B R F : Type}.
Variable add : F -> B -> option (F * list R).
Variable answer : R -> list B.
Notation tstate := (tstate B R F).
Notation tstep := (tstep add answer).
Notation trun := (trun add answer).

Lemma trun_trans : forall (s : tstate) n s1 m s2, trun s n s1 -> trun s1 m s2 -> trun s (m + n) s2.
Proof. intros s n s1 m s2 H K. induction K as [|m s2 s3 K IH St]; [exact H|]. cbn. econstructor; eauto. Qed.

(** What holds in every state of an execution: the channels hold at most one
    message; who writes the backend is alone. *)
Definition sane (s : tstate) : Prop :=
  length (t_blocks s) <= 1 /\ length (t_requests s) <= 1 /\ (ops_written s = true -> existsb polling (t_tasks s) = false) /\
  (t_recv s = Stopped <-> t_query s = QStopped).

Lemma existsb_put : forall {A} (p : A -> bool) l i a x, nth_error l i = Some x -> existsb p l = false -> p a = false -> existsb p (put l i a) = false.
Proof.
  induction l as [|y l IH]; intros [|i] a x H E P; try discriminate; cbn [put existsb nth_error] in *; apply orb_false_iff in E as (E1 & E2).
  - now rewrite P, E2.
  - rewrite E1. cbn. eauto.
Qed.
Lemma existsb_nth : forall {A} (p : A -> bool) l i x, nth_error l i = Some x -> p x = true -> existsb p l = true.
Proof. intros A p l i x H P. apply existsb_exists. exists x. split; [eapply nth_error_In; eauto|exact P]. Qed.

Lemma sane_step : forall s s', sane s -> tstep s s' -> sane s'.
Proof.
  intros s s' (L1 & L2 & X & D) St.
  assert (NP : forall i bs, nth_error (t_tasks s) i = Some (TPolling bs) -> ops_written s = false).
  { intros i bs H. destruct (ops_written s); [|reflexivity]. rewrite (existsb_nth polling _ _ _ H) in X by reflexivity. discriminate X. reflexivity. }
  unfold sane, ops_written in *.
  destruct St; cbn [t_blocks t_requests t_recv t_query t_tasks mk with_task]; rewrite ?app_length; cbn [length];
    repeat split; try lia; try tauto; try congruence;
    try (intros W; try discriminate W; try specialize (X W); try (eapply existsb_put; eauto; reflexivity); try congruence).
  all: try (now rewrite H0 in *).
  all: try (rewrite H in *; cbn in *; try lia; try tauto; try congruence).
  all: try (rewrite (NP _ _ ltac:(eassumption)) in *; congruence).
  all: try (rewrite H0 in *; cbn in *; lia).
  all: try (unfold ops_held in *; apply orb_false_iff in H0; tauto).
  all: try (apply D in W; congruence).
  all: try (apply X; congruence).
Qed.

Definition not_started (t : task B) : Prop := match t with TPolling _ => False | _ => True end.
Lemma sane_initial : forall running ts f, Forall not_started ts -> sane (tinitial (R := R) running ts f).
Proof.
  intros running ts f H. unfold sane, tinitial, ops_written. cbn [t_blocks t_requests t_recv t_query t_tasks length].
  repeat split; try lia; destruct running; discriminate || reflexivity.
Qed.
Lemma sane_run : forall s n s', sane s -> trun s n s' -> sane s'.
Proof. intros s n s' H K. induction K; [exact H|]. eapply sane_step; eauto. Qed.

(** ** Frontiers that send no requests, as the naive frontier *)

(** Nothing is asked for, and nothing panics. *)
Definition silent : Prop := forall f b, exists f', add f b = Some (f', []).

(** The number of steps that are left. *)
Definition task_work (t : task B) : nat :=
  match t with TPoll bs => 4 * length bs + 2 | TPolling bs => 4 * length bs + 1 | TSet | TRead => 1 | TDone => 0 end.
Definition recv_work (r : receiver B R) : nat := match r with RIdle => 0 | RGot _ => 2 | RAdding _ => 1 | Stopped => 0 end.
Definition work (s : tstate) : nat := list_sum (map task_work (t_tasks s)) + 3 * length (t_blocks s) + recv_work (t_recv s).
(** No requests are under way. *)
Definition quiet (s : tstate) : Prop :=
  sane s /\ t_requests s = [] /\ t_query s = QIdle /\ match t_recv s with RAdding rs => rs = [] | Stopped => False | _ => True end.

Lemma quiet_step : silent -> forall s s', quiet s -> tstep s s' -> quiet s' /\ work s = S (work s').
Proof.
  intros Si s s' (Sa & Rq & Q & Rc) St. pose proof (sane_step _ _ Sa St) as Sa'.
  unfold quiet, work in *.
  destruct St; cbn [t_blocks t_requests t_recv t_query t_tasks t_front mk with_task] in *; try congruence.
  - split; [auto|]. pose proof (sum_put task_work _ _ (TPolling bs) _ H) as W. cbn [task_work] in W. lia.
  - split; [auto|]. pose proof (sum_put task_work _ _ (TPolling bs) _ H) as W. cbn [task_work length] in W. rewrite app_length. cbn [length]. lia.
  - split; [auto|]. pose proof (sum_put task_work _ _ TDone _ H) as W. cbn [task_work length] in W. lia.
  - split; [auto|]. pose proof (sum_put task_work _ _ TDone _ H) as W. cbn [task_work length] in W. lia.
  - split; [auto|]. pose proof (sum_put task_work _ _ TDone _ H) as W. cbn [task_work length] in W. lia.
  - rewrite H, H0. split; [auto|]. cbn [recv_work length]. lia.
  - rewrite H. destruct (Si (t_front s) b) as (f' & E). rewrite E in H0. injection H0 as <- <-. split; [auto|]. cbn [recv_work]. lia.
  - destruct (Si (t_front s) b) as (f' & E). congruence.
  - rewrite H in Rc. discriminate.
  - rewrite H. split; [auto|]. cbn [recv_work]. lia.
Qed.

(** C111 (termination): every execution takes exactly as many steps as there is
    work; none goes on for ever. *)
Theorem C111_steps : silent -> forall s n s', quiet s -> trun s n s' -> work s = n + work s'.
Proof.
  intros Si s n s' Qs K. assert (quiet s' /\ work s = n + work s') as (_ & E); [|exact E].
  induction K as [|n s1 s2 K (Q1 & E) St]; [auto|]. destruct (quiet_step Si _ _ Q1 St) as (Q2 & W). split; [exact Q2|]. lia.
Qed.
Lemma quiet_run : silent -> forall s n s', quiet s -> trun s n s' -> quiet s'.
Proof. intros Si s n s' Qs K. induction K as [|n s1 s2 K IH St]; [exact Qs|]. exact (proj1 (quiet_step Si _ _ IH St)). Qed.

Lemma work_zero : forall (l : list (task B)), list_sum (map task_work l) = 0 -> Forall (fun t => t = TDone) l.
Proof.
  induction l as [|t l IH]; intros H; [constructor|]. change (task_work t + list_sum (map task_work l) = 0) in H.
  constructor; [|apply IH; lia]. destruct t; cbn [task_work] in H; lia || reflexivity.
Qed.

(** C111 (no deadlock): as long as a task is not done there is a step; and a
    step of a task that waits for the lock of the backend is only needed when
    nobody holds the lock, so that whoever is first in the queue can have it. *)
Theorem C111_progress : silent -> forall s, quiet s -> ~ Forall (fun t => t = TDone) (t_tasks s) ->
  (exists s', tstep s s') /\
  (ops_held s = true -> exists s', tstep s s' /\ existsb polling (t_tasks s) = true /\
     (t_recv s' <> t_recv s \/ exists i t, nth_error (t_tasks s) i = Some t /\ polling t = true /\ nth_error (t_tasks s') i <> Some t)).
Proof.
  intros Si s (Sa & Rq & Q & Rc) N.
  assert (P : existsb polling (t_tasks s) = true -> exists s', tstep s s' /\ (t_recv s' <> t_recv s \/
     exists i t, nth_error (t_tasks s) i = Some t /\ polling t = true /\ nth_error (t_tasks s') i <> Some t)).
  { intros X. destruct (t_recv s) as [|b|rs|] eqn:Er; [|destruct (Si (t_front s) b) as (f' & E)| |contradiction].
    - destruct (t_blocks s) as [|b q] eqn:Eb.
      + apply existsb_exists in X as (t & I & Pt). destruct t as [|[|b bs]| | |]; try discriminate.
        * apply In_nth_error in I as (i & I). eexists. split; [eapply ts_poll_end; eauto|]. right. exists i, (TPolling []).
          split; [exact I|]. split; [reflexivity|]. cbn [t_tasks with_task mk]. rewrite (nth_put_same _ _ _ _ I). discriminate.
        * apply In_nth_error in I as (i & I). eexists. split; [eapply ts_poll_send; eauto; rewrite Eb; cbn; lia|]. right. exists i, (TPolling (b :: bs)).
          split; [exact I|]. split; [reflexivity|]. cbn [t_tasks with_task mk]. rewrite (nth_put_same _ _ _ _ I). intros C. injection C as C.
          apply (f_equal (@length B)) in C. cbn in C. lia.
      + eexists. split; [eapply ts_recv; eauto|]. left. cbn. discriminate.
    - eexists. split; [eapply ts_add; eauto|]. left. cbn. discriminate.
    - subst rs. eexists. split; [eapply ts_added; eauto|]. left. cbn. discriminate. }
  assert (W : ops_written s = false) by (unfold ops_written; now rewrite Q). split.
  - destruct (existsb polling (t_tasks s)) eqn:X; [destruct (P eq_refl) as (s' & St & _); eauto|].
    assert (Y : exists i t, nth_error (t_tasks s) i = Some t /\ t <> TDone).
    { clear - N. induction (t_tasks s) as [|t l IH]; [exfalso; apply N; constructor|].
      destruct t; try (exists 0; eexists; split; [reflexivity|discriminate]).
      destruct IH as (i & t & H); [intros C; apply N; constructor; auto|]. exists (S i), t. exact H. }
    destruct Y as (i & t & I & Nd). destruct t as [bs|bs| | |]; [| | | |congruence].
    + eexists. eapply ts_poll_lock; eauto.
    + rewrite (existsb_nth polling _ _ _ I eq_refl) in X. discriminate.
    + eexists. eapply ts_set; eauto. unfold ops_held. now rewrite W, X.
    + destruct (t_recv s) as [|b|rs|] eqn:Er; [| | |contradiction].
      * eexists. eapply ts_read; eauto. unfold front_held. now rewrite Er.
      * eexists. eapply ts_read; eauto. unfold front_held. now rewrite Er.
      * subst rs. eexists. eapply ts_added; eauto.
  - unfold ops_held. rewrite W. cbn [orb]. intros X. destruct (P X) as (s' & St & D). exists s'. auto.
Qed.

Lemma all_done_dec : forall l : list (task B), {Forall (fun t => t = TDone) l} + {~ Forall (fun t => t = TDone) l}.
Proof. apply Forall_dec. intros x. destruct x; (left; reflexivity) || (right; discriminate). Qed.

(** Every execution of a client against a running processor can go on until all
    its tasks are done, and cannot stop before. *)
Theorem C111_all_done : silent -> forall ts f, Forall not_started ts -> forall n s, trun (tinitial true ts f) n s ->
  (exists m s', trun s m s' /\ Forall (fun t => t = TDone) (t_tasks s')) /\
  ((forall s', ~ tstep s s') -> Forall (fun t => t = TDone) (t_tasks s)).
Proof.
  intros Si ts f Ns n s K.
  assert (Q : quiet s).
  { refine (quiet_run Si _ _ _ _ K). split; [now apply sane_initial|]. cbn. auto. }
  clear K. split.
  - remember (work s) as w eqn:Ew. revert s Q Ew. induction w as [w IH] using lt_wf_ind. intros s Q Ew.
    destruct (all_done_dec (t_tasks s)) as [D|N].
    + exists 0, s. split; [constructor|exact D].
    + destruct (C111_progress Si s Q N) as ((s1 & St) & _). destruct (quiet_step Si _ _ Q St) as (Q1 & W).
      destruct (IH (work s1)) with (s := s1) as (m & s' & K & D); [lia|exact Q1|reflexivity|].
      exists (m + 1), s'. split; [|exact D]. eapply trun_trans; [|exact K]. eapply tr_snoc; [apply tr_nil|exact St].
  - intros Stuck. destruct (all_done_dec (t_tasks s)) as [D|N]; [exact D|].
    destruct (C111_progress Si s Q N) as ((s1 & St) & _). now apply Stuck in St.
Qed.

(** ** Without the loops *)

(** Expected: a poll ends.  Refuted: if the processor does not run (runProcessor
    was not called, or a block made it panic), no poll of two or more blocks
    ever ends, whatever else happens. *)
Definition stopped_inv (i : nat) (n : nat) (s : tstate) : Prop :=
  length (t_blocks s) <= 1 /\ t_recv s = Stopped /\ t_query s = QStopped /\ exists t, nth_error (t_tasks s) i = Some t /\
    match t with TPoll bs => n <= length bs | TPolling bs => n <= length bs + length (t_blocks s) | _ => False end.
Lemma stopped_step : forall i n s s', 2 <= n -> stopped_inv i n s -> tstep s s' -> stopped_inv i n s'.
Proof.
  intros i n s s' Hn (Lb & Rc & Q & t & I & H) St. unfold stopped_inv.
  destruct St as [j bs J W|j b bs J L|j J|j J W|j J W| | | | | | | | |];
    cbn [t_blocks t_requests t_recv t_query t_tasks t_front mk with_task] in *; try congruence.
  - split; [rewrite ?app_length; cbn [length]; lia|]. split; [exact Rc|]. split; [exact Q|]. rewrite (nth_put _ _ _ _ _ J). destruct (Nat.eqb_spec j i) as [->|D]; [|eauto].
    eexists. split; [reflexivity|]. assert (t = TPoll bs) as -> by congruence. cbn beta iota in *. lia.
  - split; [rewrite ?app_length; cbn [length]; lia|]. split; [exact Rc|]. split; [exact Q|]. rewrite (nth_put _ _ _ _ _ J). destruct (Nat.eqb_spec j i) as [->|D].
    + eexists. split; [reflexivity|]. assert (t = TPolling (b :: bs)) as -> by congruence. rewrite app_length. cbn [length] in *. lia.
    + exists t. split; [exact I|]. rewrite app_length. destruct t; auto. lia.
  - split; [rewrite ?app_length; cbn [length]; lia|]. split; [exact Rc|]. split; [exact Q|]. rewrite (nth_put _ _ _ _ _ J). destruct (Nat.eqb_spec j i) as [->|D]; [|eauto].
    (* the poll would have sent everything into a channel of one place *)
    exfalso. assert (t = TPolling []) as -> by congruence. cbn [length] in H. lia.
  - split; [rewrite ?app_length; cbn [length]; lia|]. split; [exact Rc|]. split; [exact Q|]. rewrite (nth_put _ _ _ _ _ J). destruct (Nat.eqb_spec j i) as [->|D]; [|eauto].
    exfalso. assert (t = TSet) as -> by congruence. exact H.
  - split; [rewrite ?app_length; cbn [length]; lia|]. split; [exact Rc|]. split; [exact Q|]. rewrite (nth_put _ _ _ _ _ J). destruct (Nat.eqb_spec j i) as [->|D]; [|eauto].
    exfalso. assert (t = TRead) as -> by congruence. exact H.
Qed.
Lemma stopped_run : forall i n s m s', 2 <= n -> stopped_inv i n s -> trun s m s' -> stopped_inv i n s'.
Proof. intros i n s m s' Hn H K. induction K; [exact H|]. eapply stopped_step; eauto. Qed.
Theorem C111_not_running_refuted : forall ts f i bs, nth_error ts i = Some (TPoll bs) -> 2 <= length bs ->
  forall n s, trun (tinitial false ts f) n s -> nth_error (t_tasks s) i <> Some TDone.
Proof.
  intros ts f i bs I L n s K D.
  assert (H : stopped_inv i 2 (tinitial (R := R) false ts f)).
  { split; [cbn; lia|]. split; [reflexivity|]. split; [reflexivity|]. eauto. }
  apply (stopped_run _ _ _ _ _ (le_n 2) H) in K as (_ & _ & _ & t & T & X). assert (t = TDone) as -> by congruence. exact X.
Qed.
(** From the moment such a poll has its lock, the endpoints and accounts can no
    longer be changed. *)
Theorem C111_setters_refuted : forall s i bs, length (t_blocks s) <= 1 -> t_recv s = Stopped -> t_query s = QStopped ->
  nth_error (t_tasks s) i = Some (TPolling bs) -> 2 <= length bs + length (t_blocks s) ->
  forall j n s', nth_error (t_tasks s) j = Some TSet -> trun s n s' -> nth_error (t_tasks s') j = Some TSet.
Proof.
  intros s i bs Lb Rc Q I L j n s' J K.
  assert (H : stopped_inv i 2 s /\ exists bs, nth_error (t_tasks s) i = Some (TPolling bs)).
  { split; [|eauto]. split; [exact Lb|]. split; [exact Rc|]. split; [exact Q|]. eauto. }
  assert (G : (stopped_inv i 2 s' /\ exists bs, nth_error (t_tasks s') i = Some (TPolling bs)) /\ nth_error (t_tasks s') j = Some TSet); [|tauto].
  clear I L. induction K as [|n s1 s2 K ((H1 & (bs1 & P1)) & J1) St]; [auto|].
  pose proof (stopped_step i 2 _ _ (le_n 2) H1 St) as H2.
  assert (P2 : exists bs, nth_error (t_tasks s2) i = Some (TPolling bs)).
  { clear J1 J H. destruct H2 as (_ & _ & _ & t & T & M). destruct H1 as (_ & Rc1 & Q1 & _).
    destruct St as [k cs Kk W|k b cs Kk Lk|k Kk|k Kk W|k Kk W| | | | | | | | |];
      cbn [t_blocks t_requests t_recv t_query t_tasks t_front mk with_task] in *; try congruence;
      rewrite (nth_put _ _ _ _ _ Kk) in *; destruct (Nat.eqb_spec k i) as [->|D]; eauto; try congruence.
    injection T as <-. destruct M. }
  split; [auto|]. clear P2 H2 H.
  destruct St as [k cs Kk W|k b cs Kk Lk|k Kk|k Kk W|k Kk W| | | | | | | | |];
    cbn [t_blocks t_requests t_recv t_query t_tasks t_front mk with_task] in *; try assumption;
    rewrite (nth_put _ _ _ _ _ Kk); destruct (Nat.eqb_spec k j) as [->|D]; auto; try congruence.
  exfalso. unfold ops_held in W. rewrite (existsb_nth polling _ _ _ P1 eq_refl), orb_true_r in W. discriminate.
Qed.

(** ** Frontiers that send requests *)

(** What the query loop still has to do before it takes the next request. *)
Definition busy (q : querier B R) : nat := match q with QGot _ => 1 | QSending (_ :: _) => 1 | _ => 0 end.
Definition pressure (s : tstate) : nat :=
  match t_recv s with RAdding rs => length rs | _ => 0 end + length (t_requests s) + busy (t_query s) + length (t_blocks s).

Definition adding (s : tstate) : Prop := exists rs, t_recv s = RAdding rs.
Lemma dead_step : (forall r, answer r <> []) -> forall s s', sane s -> adding s -> 4 <= pressure s -> tstep s s' ->
  adding s' /\ 4 <= pressure s'.
Proof.
  intros An s s' (L1 & L2 & _) (rs & A) P St. unfold pressure, adding in *. rewrite A in P.
  destruct St; cbn [t_blocks t_requests t_recv t_query t_tasks t_front mk with_task] in *; try congruence.
  - rewrite A. split; [eauto|exact P].
  - rewrite A. split; [eauto|]. rewrite app_length. cbn [length]. lia.
  - rewrite A. split; [eauto|exact P].
  - rewrite A. split; [eauto|exact P].
  - rewrite A. split; [eauto|exact P].
  - assert (rs = r :: rs0) as -> by congruence. split; [eauto|]. rewrite app_length. cbn [length] in *. lia.
  - exfalso. assert (rs = []) as -> by congruence. cbn [length] in P.
    assert (busy (t_query s) <= 1) by (destruct (t_query s) as [| |[|]|]; cbn; lia). lia.
  - rewrite A. split; [eauto|]. rewrite H, H0 in P. cbn [busy length] in *. lia.
  - rewrite A. split; [eauto|]. rewrite H in P. cbn [busy] in P. specialize (An r). destruct (answer r); [congruence|]. cbn [busy]. exact P.
  - rewrite A. split; [eauto|]. rewrite H in P. rewrite app_length. cbn [busy length] in *. destruct bs; cbn [busy]; lia.
  - rewrite A. split; [eauto|]. rewrite H in P. exact P.
Qed.
Lemma dead_run : (forall r, answer r <> []) -> forall s n s', sane s -> adding s -> 4 <= pressure s -> trun s n s' ->
  adding s' /\ 4 <= pressure s' /\ sane s'.
Proof.
  intros An s n s' Sa A P K. induction K as [|n s1 s2 K (A1 & P1 & Sa1) St]; [auto|].
  destruct (dead_step An _ _ Sa1 A1 P1 St) as (A2 & P2). split; [exact A2|]. split; [exact P2|]. eapply sane_step; eauto.
Qed.

(** Expected: a frontier can ask for blocks while it adds one, and the loop goes
    on.  Refuted: if it has four requests to send (and each is answered with a
    block), no execution gets past that block, and nobody can read the frontier
    any more. *)
Theorem C111_requests_refuted : (forall r, answer r <> []) -> forall s rs, sane s -> t_recv s = RAdding rs -> 4 <= length rs ->
  forall n s', trun s n s' ->
  (exists rs', t_recv s' = RAdding rs') /\ forall i, nth_error (t_tasks s) i = Some TRead -> nth_error (t_tasks s') i = Some TRead.
Proof.
  intros An s rs Sa A L n s' K.
  assert (A0 : adding s) by (exists rs; exact A).
  assert (P0 : 4 <= pressure s) by (unfold pressure; rewrite A; lia).
  split; [exact (proj1 (dead_run An _ _ _ Sa A0 P0 K))|]. intros i I.
  induction K as [|n s1 s2 K IH St]; [exact I|].
  destruct (dead_run An _ _ _ Sa A0 P0 K) as ((rs1 & A1) & _).
  destruct St as [k cs Kk W|k b cs Kk Lk|k Kk|k Kk W|k Kk W| | | | | | | | |];
    cbn [t_blocks t_requests t_recv t_query t_tasks t_front mk with_task] in *; try assumption;
    rewrite (nth_put _ _ _ _ _ Kk); destruct (Nat.eqb_spec k i) as [->|D]; auto; try congruence.
  exfalso. unfold front_held in W. rewrite A1 in W. discriminate.
Qed.

(** Even one request for each block is too many: a poll of five or more blocks
    never ends, since it keeps the lock that the query loop waits for. *)
Definition recv_busy (r : receiver B R) : nat := match r with RGot _ => 1 | RAdding (_ :: _) => 1 | _ => 0 end.
Definition poll_inv (i : nat) (s : tstate) : Prop :=
  sane s /\ t_recv s <> Stopped /\ exists bs, nth_error (t_tasks s) i = Some (TPolling bs) /\
    5 <= length bs + length (t_blocks s) + recv_busy (t_recv s) + length (t_requests s) + busy (t_query s).
Lemma poll_step : (forall f b, exists f' r rs, add f b = Some (f', r :: rs)) -> forall i s s', poll_inv i s -> tstep s s' -> poll_inv i s'.
Proof.
  intros Ad i s s' (Sa & Ns & bs & I & P) St. pose proof (sane_step _ _ Sa St) as Sa'. split; [exact Sa'|].
  assert (W0 : ops_written s = false).
  { destruct Sa as (_ & _ & X & _). destruct (ops_written s); [|reflexivity]. rewrite (existsb_nth polling _ _ _ I eq_refl) in X. discriminate X. reflexivity. }
  assert (Hd : ops_held s = true) by (unfold ops_held; now rewrite (existsb_nth polling _ _ _ I eq_refl), orb_true_r).
  destruct Sa as (L1 & L2 & _).
  assert (Bq : busy (t_query s) <= 1) by (destruct (t_query s) as [| |[|]|]; cbn; lia).
  assert (Br : recv_busy (t_recv s) <= 1) by (destruct (t_recv s) as [| |[|]|]; cbn; lia).
  unfold ops_written in W0.
  destruct St as [k cs Kk W|k b cs Kk Lk|k Kk|k Kk W|k Kk W|b q E1 E2|b f rs E1 E2|b E1 E2|r rs E1 E2|E1|r q E1 E2|r E1 E2|b cs E1 E2|E1];
    cbn [t_blocks t_requests t_recv t_query t_tasks t_front mk with_task] in *; try congruence.
  - split; [exact Ns|]. rewrite (nth_put _ _ _ _ _ Kk). destruct (Nat.eqb_spec k i) as [->|D]; [congruence|eauto].
  - split; [exact Ns|]. rewrite (nth_put _ _ _ _ _ Kk), app_length. destruct (Nat.eqb_spec k i) as [->|D].
    + assert (bs = b :: cs) as -> by congruence. exists cs. split; [reflexivity|]. cbn [length] in *. lia.
    + exists bs. split; [exact I|]. cbn [length]. lia.
  - split; [exact Ns|]. rewrite (nth_put _ _ _ _ _ Kk). destruct (Nat.eqb_spec k i) as [->|D]; [|eauto].
    exfalso. assert (bs = []) as -> by congruence. cbn [length] in P. lia.
  - split; [exact Ns|]. rewrite (nth_put _ _ _ _ _ Kk). destruct (Nat.eqb_spec k i) as [->|D]; [congruence|eauto].
  - split; [discriminate|]. exists bs. split; [exact I|]. rewrite E1, E2 in P. cbn [recv_busy length] in *. lia.
  - split; [discriminate|]. exists bs. split; [exact I|]. destruct (Ad (t_front s) b) as (f' & r & rs' & E). rewrite E in E2. injection E2 as <- <-.
    rewrite E1 in P. exact P.
  - destruct (Ad (t_front s) b) as (f' & r & rs' & E). congruence.
  - split; [discriminate|]. exists bs. split; [exact I|]. rewrite E1 in P. rewrite app_length. cbn [recv_busy length] in *. lia.
  - split; [discriminate|]. exists bs. split; [exact I|]. rewrite E1 in P. cbn [recv_busy] in *. lia.
  - split; [exact Ns|]. exists bs. split; [exact I|]. rewrite E1, E2 in P. cbn [busy length] in *. lia.
  - rewrite E1 in W0. discriminate.
  - rewrite E1 in W0. discriminate.
Qed.
Theorem C111_poll_refuted : (forall f b, exists f' r rs, add f b = Some (f', r :: rs)) -> forall s i bs, sane s -> t_recv s <> Stopped ->
  nth_error (t_tasks s) i = Some (TPolling bs) -> 5 <= length bs ->
  forall n s', trun s n s' -> exists bs', nth_error (t_tasks s') i = Some (TPolling bs').
Proof.
  intros Ad s i bs Sa Ns I L n s' K.
  assert (H : poll_inv i s) by (split; [exact Sa|]; split; [exact Ns|]; exists bs; split; [exact I|lia]).
  assert (H' : poll_inv i s') by (induction K; [exact H|]; eapply poll_step; eauto).
  destruct H' as (_ & _ & bs' & I' & _). eauto.
Qed.
End Props.

(** The naive frontiers are such, as long as no block makes them panic (C72). *)
Theorem C111_naive : forall {N E R F} (handle : F -> N -> F * res E unit), (forall f m, snd (handle f m) <> Panic) ->
  forall (answer : R -> list N) ts f, Forall not_started ts -> forall n s, trun (naive handle) answer (tinitial true ts f) n s ->
  exists m s', trun (naive handle) answer s m s' /\ Forall (fun t => t = TDone) (t_tasks s').
Proof.
  intros N E R F handle NP answer ts f Ns n s K.
  assert (Si : silent (R := R) (naive handle)).
  { intros f0 b. unfold naive. specialize (NP f0 b). destruct (handle f0 b) as [f' [[]|e|]]; [eauto|eauto|]. now elim NP. }
  exact (proj1 (C111_all_done (naive handle) answer Si ts f Ns n s K)).
Qed.

(** ** Cases *)
Definition keep (f : list nat) (b : nat) : option (list nat * list nat) := Some (f ++ [b], []).
Lemma keep_silent : silent (R := nat) keep.
Proof. intros f b. now eexists. Qed.
(** Asks for [k] blocks with each. *)
Definition asking (k : nat) (f : list nat) (b : nat) : option (list nat * list nat) := Some (f ++ [b], repeat b k).
Definition one (r : nat) : list nat := [r].

Example C111_done_ex : forall answer : nat -> list nat,
  exists m s', trun keep answer (tinitial true [TPoll [7; 8; 9]; TSet; TRead; TPoll [10]] []) m s' /\ Forall (fun t => t = TDone) (t_tasks s').
Proof.
  intros answer. destruct (C111_all_done keep answer keep_silent [TPoll [7; 8; 9]; TSet; TRead; TPoll [10]] []) with (n := 0) (s := tinitial (R := nat) true [TPoll [7; 8; 9]; TSet; TRead; TPoll [10]] ([] : list nat)) as (D & _).
  - repeat constructor.
  - constructor.
  - exact D.
Qed.
Example C111_steps_ex : work (tinitial (R := nat) true [TPoll [7; 8; 9]; TSet; TRead; TPoll [10]] ([] : list nat)) = 22.
Proof. reflexivity. Qed.

Ltac go := eapply tr_snoc.
(** A poll has the lock of the backend and cannot go on; a setter waits. *)
Example C111_setters_ex : forall answer : nat -> list nat, exists n s,
  trun keep answer (tinitial false [TPoll [7; 8]; TSet] []) n s /\ nth_error (t_tasks s) 0 = Some (TPolling [8]) /\
  nth_error (t_tasks s) 1 = Some TSet /\ t_blocks s = [7] /\ forall s', ~ tstep keep answer s s'.
Proof.
  intros answer. do 2 eexists. split; [|split; [|split; [|split]]].
  - go; [go; [apply tr_nil|]|].
    + apply (ts_poll_lock _ _ _ 0 [7; 8]); reflexivity.
    + apply (ts_poll_send _ _ _ 0 7 [8]); [reflexivity|cbn; lia].
  - reflexivity.
  - reflexivity.
  - reflexivity.
  - intros s' St. inversion St; cbn in *; try discriminate; try lia;
      destruct i as [|[|[|i]]]; cbn in *; try discriminate; congruence.
Qed.
(** The state from which nothing gets past the block is reached. *)
Example C111_requests_ex : exists n s, trun (asking 4) one (tinitial true [TPoll [7]; TRead] []) n s /\
  t_recv s = RAdding [7; 7; 7; 7] /\ nth_error (t_tasks s) 1 = Some TRead /\ sane s.
Proof.
  assert (K : exists n s, trun (asking 4) one (tinitial true [TPoll [7]; TRead] []) n s /\
    t_recv s = RAdding [7; 7; 7; 7] /\ nth_error (t_tasks s) 1 = Some TRead).
  { do 2 eexists. split; [|split].
    - go; [go; [go; [go; [apply tr_nil|]|]|]|].
      + apply (ts_poll_lock _ _ _ 0 [7]); reflexivity.
      + apply (ts_poll_send _ _ _ 0 7 []); [reflexivity|cbn; lia].
      + apply (ts_recv _ _ _ 7 []); reflexivity.
      + apply (ts_add _ _ _ 7 [7] [7; 7; 7; 7]); reflexivity.
    - reflexivity.
    - reflexivity. }
  destruct K as (n & s & K & H1 & H2). exists n, s. repeat (split; [assumption|]).
  eapply sane_run; [|exact K]. apply sane_initial. repeat constructor.
Qed.
(** Three requests can be served. *)
Example C111_three_ex : exists n s, trun (asking 3) one (tinitial true [TPoll [7]] []) n s /\ t_recv s = RIdle /\ t_front s = [7].
Proof.
  set (s0 := tinitial true [TPoll [7]] []). assert (K0 : trun (asking 3) one s0 0 s0) by apply tr_nil.
  assert (K1 : trun (asking 3) one s0 1 (mk [] [] (RIdle) (QIdle) [TPolling [7]] [])) by (eapply tr_snoc; [exact K0|]; refine (ts_poll_lock _ _ _ 0 [7] _ _); reflexivity).
  assert (K2 : trun (asking 3) one s0 2 (mk [7] [] (RIdle) (QIdle) [TPolling []] [])) by (eapply tr_snoc; [exact K1|]; refine (ts_poll_send _ _ _ 0 7 [] _ _); [reflexivity|cbn; lia]).
  assert (K3 : trun (asking 3) one s0 3 (mk [7] [] (RIdle) (QIdle) [TDone] [])) by (eapply tr_snoc; [exact K2|]; refine (ts_poll_end _ _ _ 0 _); reflexivity).
  assert (K4 : trun (asking 3) one s0 4 (mk [] [] (RGot 7) (QIdle) [TDone] [])) by (eapply tr_snoc; [exact K3|]; refine (ts_recv _ _ _ 7 [] _ _); reflexivity).
  assert (K5 : trun (asking 3) one s0 5 (mk [] [] (RAdding [7; 7; 7]) (QIdle) [TDone] [7])) by (eapply tr_snoc; [exact K4|]; refine (ts_add _ _ _ 7 [7] [7; 7; 7] _ _); reflexivity).
  assert (K6 : trun (asking 3) one s0 6 (mk [] [7] (RAdding [7; 7]) (QIdle) [TDone] [7])) by (eapply tr_snoc; [exact K5|]; refine (ts_request _ _ _ 7 [7; 7] _ _); [reflexivity|cbn; lia]).
  assert (K7 : trun (asking 3) one s0 7 (mk [] [] (RAdding [7; 7]) (QGot 7) [TDone] [7])) by (eapply tr_snoc; [exact K6|]; refine (ts_query _ _ _ 7 [] _ _); reflexivity).
  assert (K8 : trun (asking 3) one s0 8 (mk [] [] (RAdding [7; 7]) (QSending [7]) [TDone] [7])) by (eapply tr_snoc; [exact K7|]; refine (ts_query_lock _ _ _ 7 _ _); reflexivity).
  assert (K9 : trun (asking 3) one s0 9 (mk [7] [] (RAdding [7; 7]) (QSending []) [TDone] [7])) by (eapply tr_snoc; [exact K8|]; refine (ts_answer _ _ _ 7 [] _ _); [reflexivity|cbn; lia]).
  assert (K10 : trun (asking 3) one s0 10 (mk [7] [] (RAdding [7; 7]) (QIdle) [TDone] [7])) by (eapply tr_snoc; [exact K9|]; refine (ts_answered _ _ _ _); reflexivity).
  assert (K11 : trun (asking 3) one s0 11 (mk [7] [7] (RAdding [7]) (QIdle) [TDone] [7])) by (eapply tr_snoc; [exact K10|]; refine (ts_request _ _ _ 7 [7] _ _); [reflexivity|cbn; lia]).
  assert (K12 : trun (asking 3) one s0 12 (mk [7] [] (RAdding [7]) (QGot 7) [TDone] [7])) by (eapply tr_snoc; [exact K11|]; refine (ts_query _ _ _ 7 [] _ _); reflexivity).
  assert (K13 : trun (asking 3) one s0 13 (mk [7] [7] (RAdding []) (QGot 7) [TDone] [7])) by (eapply tr_snoc; [exact K12|]; refine (ts_request _ _ _ 7 [] _ _); [reflexivity|cbn; lia]).
  assert (K14 : trun (asking 3) one s0 14 (mk [7] [7] (RIdle) (QGot 7) [TDone] [7])) by (eapply tr_snoc; [exact K13|]; refine (ts_added _ _ _ _); reflexivity).
  do 2 eexists. split; [exact K14|]. split; reflexivity.
Qed.
(** A poll of as many blocks as graphql_api_v1.rs polls. *)
Example C111_poll_ex : exists n s, trun (asking 1) one (tinitial true [TPoll (seq 0 10)] []) n s /\ sane s /\ t_recv s <> Stopped /\
  nth_error (t_tasks s) 0 = Some (TPolling (seq 0 10)).
Proof.
  assert (K : exists n s, trun (asking 1) one (tinitial true [TPoll (seq 0 10)] []) n s /\ t_recv s <> Stopped /\
    nth_error (t_tasks s) 0 = Some (TPolling (seq 0 10))).
  { do 2 eexists. split; [|split].
    - go; [apply tr_nil|]. apply (ts_poll_lock _ _ _ 0 (seq 0 10)); reflexivity.
    - cbn. discriminate.
    - reflexivity. }
  destruct K as (n & s & K & H1 & H2). exists n, s. split; [exact K|]. split; [|auto].
  eapply sane_run; [|exact K]. apply sane_initial. repeat constructor.
Qed.
Example C111_naive_ex : forall f m, snd ((fun (f : list nat) m => (m :: f, if Nat.even m then Err tt else Ok tt)) f m) <> Panic.
Proof. intros f m. cbn. now destruct (Nat.even m). Qed.

Print Assumptions C111_steps.
Print Assumptions C111_progress.
Print Assumptions C111_all_done.
Print Assumptions C111_not_running_refuted.
Print Assumptions C111_setters_refuted.
Print Assumptions C111_requests_refuted.
Print Assumptions C111_poll_refuted.
Print Assumptions C111_naive.
