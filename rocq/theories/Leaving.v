(** Model of leaving a worker (src/docket/worker.py:300-350 Worker.__aenter__, __aexit__ and 544-568
    Worker._run): the events _worker_stopping and _worker_done, and any number of _run coroutines.

    What a run does between two looks at the event is left out here (the main loop is WorkerLoop.v). *)
From Verif Require Import Base.

(** A call of run_forever, run_until_finished or run_at_most: the coroutine exists but was not started (544);
    in its loops; over, or over with an AttributeError because the worker's attributes are gone. *)
Inductive rst := RNew | RLoop | ROver | RError.

(** __aexit__: not called; waiting for _worker_done (344); about to go on (the event was set); closing
    the shared context (348, exit stack, first); over, the attributes of the worker are deleted (346-350, 305-331). *)
Inductive xst := XNo | XWait | XReady | XClosing | XGone.

(** worker.py:305-309 and the runs called so far. *)
Record wk := mkWk { k_stop : bool; k_done : bool; k_exit : xst; k_runs : list rst }.
(** worker.py:305-309: _worker_done is set, nothing runs. *)
Definition wk_init : wk := mkWk false true XNo [].

(** One run's new state (worker.py:544-568: the coroutine's own). *)
Fixpoint set_nth (l : list rst) (i : nat) (r : rst) : list rst :=
  match l, i with
  | [], _ => []
  | _ :: l, O => r :: l
  | x :: l, S i => x :: set_nth l i r
  end.
(** worker.py:306-321: the attributes are deleted. *)
Definition gone (s : wk) : bool := match k_exit s with XGone => true | _ => false end.

(** worker.py:568, asyncio.Event.set of _worker_done: a waiter goes on, even if the event is cleared again. *)
Definition set_done (s : wk) (runs : list rst) : wk :=
  mkWk (k_stop s) true (match k_exit s with XWait => XReady | x => x end) runs.

(** [VCall]: a run is called; [VStart i]: its coroutine starts (546-548); [VLook i]: it looks at the event (550, 555, 563, and
    in _worker_loop: the loops end when it is set); [VEnd i]: it ends by itself (no more work, an exception, a cancellation); both reach the finally
    (567-568). [VLeave]: __aexit__ is called (343-344); [VGo]: it goes on after the wait; [VClose]: it is over. *)
Inductive vev := VCall | VStart (i : nat) | VLook (i : nat) | VEnd (i : nat) | VLeave | VGo | VClose.

(** worker.py:567-568: the finally; AttributeError when the attribute is deleted. *)
Definition finish_run (s : wk) (i : nat) : wk :=
  if gone s then mkWk (k_stop s) (k_done s) (k_exit s) (set_nth (k_runs s) i RError)
  else set_done s (set_nth (k_runs s) i ROver).

(** worker.py:300-350, 544-568. *)
Definition vstep (s : wk) (e : vev) : wk :=
  match e with
  | VCall => mkWk (k_stop s) (k_done s) (k_exit s) (k_runs s ++ [RNew])
  | VStart i =>
      match nth_error (k_runs s) i with
      | Some RNew =>
          if gone s then mkWk (k_stop s) (k_done s) (k_exit s) (set_nth (k_runs s) i RError)
          else mkWk false false (k_exit s) (set_nth (k_runs s) i RLoop)
      | _ => s
      end
  | VLook i =>
      match nth_error (k_runs s) i with
      | Some RLoop => if k_stop s then finish_run s i else s
      | _ => s
      end
  | VEnd i => match nth_error (k_runs s) i with Some RLoop => finish_run s i | _ => s end
  | VLeave =>
      match k_exit s with
      | XNo => mkWk true (k_done s) (if k_done s then XReady else XWait) (k_runs s)
      | _ => s
      end
  | VGo => match k_exit s with XReady => mkWk (k_stop s) (k_done s) XClosing (k_runs s) | _ => s end
  | VClose => match k_exit s with XClosing => mkWk (k_stop s) (k_done s) XGone (k_runs s) | _ => s end
  end.
(** A history (worker.py:300-350, 544-568). *)
Definition vrun (s : wk) (l : list vev) : wk := fold_left vstep l s.
