(** "docket watch": the loop of the command and the iteration with a timeout.  No
    proofs in this file.

    [W1] An async generator whose __anext__ is cancelled receives CancelledError at its
         await; subscribe() (execution.py:1097-1161) does not catch it, so the generator
         is finished and every further __anext__ raises StopAsyncIteration
         (CPython's asyncio.wait_for and async generators).
    [W2] Events reach a live subscription; the display is left out. *)
From Verif Require Import Base ZSet Model.

(** Each round of the loop: an event arrives in time, or the second passes without one
    and the poll reads a state (cli/__init__.py:789-810). *)
Inductive round := RState (s : state) | RProgress | RQuiet (polled : state).

(** /repo/src/docket/cli/_support.py:38-48: what the iteration yields.  [live]: the
    wrapped generator is not finished.  None is a timeout. *)
Fixpoint iterate (live : bool) (l : list round) : list (option round * state) :=
  match live, l with
  | false, _ | _, [] => []
  | true, RQuiet s :: l => (None, s) :: iterate false l
  | true, r :: l => (Some r, SScheduled) :: iterate true l
  end.
(** Did the iteration end by itself (StopAsyncIteration), or is it still waiting? *)
Fixpoint exhausted (live : bool) (l : list round) : bool :=
  match live, l with
  | false, _ => true
  | true, [] => false
  | true, RQuiet _ :: l => exhausted false l
  | true, _ :: l => exhausted true l
  end.

(** The states the command stops at (cli/__init__.py:779, 832-837). *)
Definition stops (s : state) : bool := match s with SCompleted | SFailed => true | _ => false end.

(** How the command ends, or that it is still watching; with the state it shows. *)
Inductive watching := WEnded (s : state) | WGoesOn (s : state).

(** cli/__init__.py:792-860: the body of the loop, for what the iteration yields. *)
Fixpoint show (cur : state) (l : list (option round * state)) (ended : bool) : watching :=
  match l with
  | [] => if ended then WEnded cur else WGoesOn cur
  | (None, p) :: l => if state_eqb p cur then show cur l ended else if stops p then WEnded p else show p l ended
  | (Some (RState s), _) :: l => if stops s then WEnded s else show s l ended
  | (Some _, _) :: l => show cur l ended
  end.

(** cli/__init__.py:775-860 *)
Definition watch (cur : state) (l : list round) : watching :=
  if stops cur then WEnded cur else show cur (iterate true l) (exhausted true l).
