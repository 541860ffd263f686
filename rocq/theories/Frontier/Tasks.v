(** Model of the whole network message processor with the tasks of a client:
    - /repo/network/src/processor/processor_impl.rs:18-86
    - /repo/network/src/processor/js/graphql_api_berkeley.rs:64-97,
      graphql_api_v1.rs:72-102 (polling, queries)
    - /repo/apps/wasm/mina-berkeley/src/js_exports.rs:11-66 (the calls of a client)

    The two channels of capacity 1, the receive loop, the query loop, the lock
    of the backend and the lock of the frontier; any number of tasks that poll,
    set the endpoints or accounts, or read the frontier.

    Simplifications: the blocks that a poll fetches are given with the task;
    fetching takes no step.  The locks are granted in any order (tokio: first
    come, first served), so there are more executions than in the code.  Code
    between two awaits is one step. *)
From Coq Require Import List.
From Verif Require Import Lib.Res.
Import ListNotations.

Section Tasks.
Context {B R F : Type}.
(** What the frontier does with a block, and the requests it sends while it does
    (trait TransitionFrontier, mod.rs:39-52); [None] is a panic. *)
Variable add : F -> B -> option (F * list R).
(** The blocks that the backend answers to a request (mod.rs:56-71). *)
Variable answer : R -> list B.

(** [Stopped], [QStopped]: not started, or ended by a panic (the loops are
    joined, a panic of the one ends both and drops their guards). *)
Inductive receiver := RIdle | RGot (b : B) | RAdding (rs : list R) | Stopped.
Inductive querier := QIdle | QGot (r : R) | QSending (bs : list B) | QStopped.
(** pollLatestBlocks before and after it has the lock; setApiList and
    setTrackingAccounts; getBestChainState and the like. *)
Inductive task := TPoll (bs : list B) | TPolling (bs : list B) | TSet | TRead | TDone.

Record tstate := {
  t_blocks : list B;
  t_requests : list R;
  t_recv : receiver;
  t_query : querier;
  t_tasks : list task;
  t_front : F }.

Definition polling (t : task) : bool := match t with TPolling _ => true | _ => false end.
(** The lock of the backend: held for writing, held at all. *)
Definition ops_written (s : tstate) : bool := match t_query s with QSending _ => true | _ => false end.
Definition ops_held (s : tstate) : bool := orb (ops_written s) (existsb polling (t_tasks s)).
Definition front_held (s : tstate) : bool := match t_recv s with RAdding _ => true | _ => false end.

Fixpoint put {A} (l : list A) (i : nat) (a : A) : list A :=
  match l, i with
  | [], _ => []
  | _ :: l', O => a :: l'
  | x :: l', S i' => x :: put l' i' a
  end.
Definition mk bl rq rc q ts f : tstate :=
  {| t_blocks := bl; t_requests := rq; t_recv := rc; t_query := q; t_tasks := ts; t_front := f |}.
Definition with_task (s : tstate) i t : tstate :=
  mk (t_blocks s) (t_requests s) (t_recv s) (t_query s) (put (t_tasks s) i t) (t_front s).

Inductive tstep (s : tstate) : tstate -> Prop :=
(** js_exports.rs:36: the read lock; graphql_api_*.rs: the blocks are sent one
    by one, each when the channel has room; the lock is held to the end. *)
| ts_poll_lock : forall i bs, nth_error (t_tasks s) i = Some (TPoll bs) -> ops_written s = false ->
    tstep s (with_task s i (TPolling bs))
| ts_poll_send : forall i b bs, nth_error (t_tasks s) i = Some (TPolling (b :: bs)) -> length (t_blocks s) < 1 ->
    tstep s (mk (t_blocks s ++ [b]) (t_requests s) (t_recv s) (t_query s) (put (t_tasks s) i (TPolling bs)) (t_front s))
| ts_poll_end : forall i, nth_error (t_tasks s) i = Some (TPolling []) -> tstep s (with_task s i TDone)
(** js_exports.rs:18, 27: the write lock, no await while it is held *)
| ts_set : forall i, nth_error (t_tasks s) i = Some TSet -> ops_held s = false -> tstep s (with_task s i TDone)
(** js_exports.rs:42, 49, 59: the read lock of the frontier *)
| ts_read : forall i, nth_error (t_tasks s) i = Some TRead -> front_held s = false -> tstep s (with_task s i TDone)
(** processor_impl.rs:62 *)
| ts_recv : forall b q, t_recv s = RIdle -> t_blocks s = b :: q ->
    tstep s (mk q (t_requests s) (RGot b) (t_query s) (t_tasks s) (t_front s))
(** 63-66 *)
| ts_add : forall b f rs, t_recv s = RGot b -> add (t_front s) b = Some (f, rs) ->
    tstep s (mk (t_blocks s) (t_requests s) (RAdding rs) (t_query s) (t_tasks s) f)
| ts_panic : forall b, t_recv s = RGot b -> add (t_front s) b = None ->
    tstep s (mk (t_blocks s) (t_requests s) Stopped QStopped (t_tasks s) (t_front s))
| ts_request : forall r rs, t_recv s = RAdding (r :: rs) -> length (t_requests s) < 1 ->
    tstep s (mk (t_blocks s) (t_requests s ++ [r]) (RAdding rs) (t_query s) (t_tasks s) (t_front s))
| ts_added : t_recv s = RAdding [] ->
    tstep s (mk (t_blocks s) (t_requests s) RIdle (t_query s) (t_tasks s) (t_front s))
(** 79 *)
| ts_query : forall r q, t_query s = QIdle -> t_requests s = r :: q ->
    tstep s (mk (t_blocks s) q (t_recv s) (QGot r) (t_tasks s) (t_front s))
(** 80-81 *)
| ts_query_lock : forall r, t_query s = QGot r -> ops_held s = false ->
    tstep s (mk (t_blocks s) (t_requests s) (t_recv s) (QSending (answer r)) (t_tasks s) (t_front s))
| ts_answer : forall b bs, t_query s = QSending (b :: bs) -> length (t_blocks s) < 1 ->
    tstep s (mk (t_blocks s ++ [b]) (t_requests s) (t_recv s) (QSending bs) (t_tasks s) (t_front s))
| ts_answered : t_query s = QSending [] ->
    tstep s (mk (t_blocks s) (t_requests s) (t_recv s) QIdle (t_tasks s) (t_front s)).

Inductive trun (s : tstate) : nat -> tstate -> Prop :=
| tr_nil : trun s 0 s
| tr_snoc : forall n s1 s2, trun s n s1 -> tstep s1 s2 -> trun s (S n) s2.

(** 20-35: nothing sent, no lock held, the tasks not started; the loops run
    unless [run] was not called. *)
Definition tinitial (running : bool) (ts : list task) (f : F) : tstate :=
  {| t_blocks := []; t_requests := []; t_recv := if running then RIdle else Stopped; t_query := if running then QIdle else QStopped; t_tasks := ts; t_front := f |}.
End Tasks.
Arguments tstate : clear implicits.
Arguments receiver : clear implicits.
Arguments querier : clear implicits.
Arguments task : clear implicits.

(** naive_transition_frontier.rs:98-121 and 153-184: the naive frontiers keep the
    requester and never use it.  [handle] is the conversion and add_block
    (Processor.v, recv_block). *)
Definition naive {N E R F} (handle : F -> N -> F * res E unit) (f : F) (m : N) : option (F * list R) :=
  match handle f m with
  | (_, Panic) => None
  | (f', _) => Some (f', [])
  end.
