(** The reconnection loop of a worker (/repo/src/docket/worker.py:544-568).  No proofs in this file. *)
From Coq Require Import List.
From Verif Require Import Base.
Import ListNotations.

(** How an attempt (worker.py:552-553) ends: _worker_loop returns, a ConnectionError, or another
    exception; and how long it takes. *)
Inductive finish := Returns | Disconnected | Fails.
Record attempt := mkAttempt { at_end : finish; at_takes : Z }.
(** How _run has ended, and when; or it goes on beyond the attempts that are given. *)
Inductive outcome := Over (t : Z) | Raised (t : Z) | GoesOn (t : Z).

(** stopping.is_set() at time [t] (worker.py:550, 555); [stop]: when it is set, if ever *)
Definition stopped (stop : option Z) (t : Z) : bool := match stop with Some s => s <=? t | None => false end.
(** worker.py:550-566, from time [t] on: when the attempts start, what is added to
    REDIS_DISRUPTIONS, and the outcome.  [delay]: reconnection_delay.  In the wait of 563-566 a stop at the
    very end counts as in time. *)
Fixpoint run_loop (delay : Z) (stop : option Z) (l : list attempt) (t : Z) : list Z * nat * outcome :=
  if stopped stop t then ([], 0%nat, Over t) else
  match l with
  | [] => ([], 0%nat, GoesOn t)
  | x :: l' =>
      let t1 := t + at_takes x in
      match at_end x with
      | Returns => ([t], 0%nat, Over t1)
      | Fails => ([t], 0%nat, Raised t1)
      | Disconnected =>
          if stopped stop t1 then ([t], 0%nat, Over t1)
          else if stopped stop (t1 + delay) then ([t], 1%nat, Over (match stop with Some s => s | None => t1 + delay end))
          else let '(ts, n, o) := run_loop delay stop l' (t1 + delay) in (t :: ts, S n, o)
      end
  end.
