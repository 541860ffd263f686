(** Model of /repo/network/src/processor/processor_impl.rs: the loops of the
    network message processor as a transition system.

    Any number of tasks send messages through clones of the sender into the
    bounded channel of capacity 1 (line 22); the receive loop (57-71) takes one
    message, waits for the write lock of the frontier, handles the message and
    releases the lock; other tasks hold read locks on the frontier (38-40).  The
    query loop (75-84) has the same shape with another handler.

    Simplifications: tokio's lock is fair, here a reader may also overtake a
    waiting writer (more schedules).  A panic in the handler ends the loop. *)
From Coq Require Import ZArith List Bool.
From Verif Require Import Lib.Res.
Import ListNotations.

Section Processor.
Context {E M S : Type}.
Variable handle : S -> M -> S * res E unit.

(** A message and the task that sent it (the tag is not in the code; it only
    names the sender in statements). *)
Definition tagged : Type := nat * M.
Inductive consumer := Idle | Got (x : tagged) | Locked (x : tagged) | Dead.
(** [p_done] records the messages handled; it is not in the code. *)
Record pstate := {
  p_senders : list (list M);
  p_queue : list tagged;
  p_consumer : consumer;
  p_readers : nat;
  p_front : S;
  p_done : list tagged }.

Definition capacity : nat := 1.
Definition initial (senders : list (list M)) (s : S) : pstate :=
  {| p_senders := senders; p_queue := []; p_consumer := Idle; p_readers := 0; p_front := s; p_done := [] |}.

Fixpoint set_nth {A} (l : list A) (i : nat) (a : A) : list A :=
  match l, i with
  | [], _ => []
  | _ :: l', O => a :: l'
  | x :: l', Datatypes.S i' => x :: set_nth l' i' a
  end.

Inductive label := LSend | LRecv | LLock | LHandle | LRead | LUnread.
Inductive step : pstate -> label -> pstate -> Prop :=
| st_send : forall s i m rest, nth_error (p_senders s) i = Some (m :: rest) ->
    length (p_queue s) < capacity ->
    step s LSend {| p_senders := set_nth (p_senders s) i rest; p_queue := p_queue s ++ [(i, m)];
                    p_consumer := p_consumer s; p_readers := p_readers s; p_front := p_front s; p_done := p_done s |}
| st_recv : forall s x q, p_consumer s = Idle -> p_queue s = x :: q ->
    step s LRecv {| p_senders := p_senders s; p_queue := q; p_consumer := Got x; p_readers := p_readers s;
                    p_front := p_front s; p_done := p_done s |}
| st_lock : forall s x, p_consumer s = Got x -> p_readers s = 0 ->
    step s LLock {| p_senders := p_senders s; p_queue := p_queue s; p_consumer := Locked x; p_readers := 0;
                    p_front := p_front s; p_done := p_done s |}
| st_handle : forall s x s' r, p_consumer s = Locked x -> handle (p_front s) (snd x) = (s', r) ->
    step s LHandle {| p_senders := p_senders s; p_queue := p_queue s;
                      p_consumer := match r with Panic => Dead | _ => Idle end;
                      p_readers := p_readers s; p_front := s'; p_done := p_done s ++ [x] |}
| st_read : forall s, (forall x, p_consumer s <> Locked x) ->
    step s LRead {| p_senders := p_senders s; p_queue := p_queue s; p_consumer := p_consumer s;
                    p_readers := Datatypes.S (p_readers s); p_front := p_front s; p_done := p_done s |}
| st_unread : forall s n, p_readers s = Datatypes.S n ->
    step s LUnread {| p_senders := p_senders s; p_queue := p_queue s; p_consumer := p_consumer s;
                      p_readers := n; p_front := p_front s; p_done := p_done s |}.

(** Executions: any sequence of steps. *)
Inductive run (s : pstate) : list label -> pstate -> Prop :=
| run_nil : run s [] s
| run_snoc : forall tr s1 l s2, run s tr s1 -> step s1 l s2 -> run s (tr ++ [l]) s2.
End Processor.
Arguments pstate : clear implicits.
Arguments consumer : clear implicits.

(** run_recv_block_loop, one message: convert and add; errors are logged.
    Conversion takes place under the lock. *)
Definition recv_block {E N B F} (try_into : N -> res E B) (add_block : F -> B -> F * res E unit)
  (f : F) (m : N) : F * res E unit :=
  match try_into m with
  | Ok b => add_block f b
  | Err e => (f, Err e)
  | Panic => (f, Panic)
  end.
