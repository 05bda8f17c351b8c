(** What one delivered message makes a worker do to the docket: the events of Execute.v as operations of
    Model.v, between which anybody else may do anything.  No proofs in this file. *)
From Verif Require Import Base Model.
From Verif Require Execute.

(** One event of worker.py:693-734, 1011-1235 as the operations it stands for (the clock readings, times, values and errors are free), each with the
    answer the event presupposes, if it does.  The slot of a ConcurrencyLimit, if the task has one and gets it, is taken while
    the dependencies are entered (_concurrency.py:575-636) and given back when they are left (691-750):
    before the run is cancelled or failed, or after it was completed. *)
Inductive does (h : Z) : Execute.ev -> list (op * option out) -> Prop :=
| d_struck t : does h Execute.EStruck [(ODelKnown h, None); (OTerminal h SCancelled t None None, None)]  (* worker.py:1017-1021 *)
| d_superseded t : does h Execute.ESuperseded [(OClaim h t, Some (OClaimed false))]     (* 1027-1030 *)
| d_started t : does h Execute.KStarted [(OClaim h t, Some (OClaimed true))]            (* 1027-1040 *)
| d_started_slot t cc n t' : does h Execute.KStarted [(OClaim h t, Some (OClaimed true)); (OAcquire h cc n t', Some (OAcquired true))]
| d_parked cc n t : does h Execute.EParked [(OAcquire h cc n t, Some (OAcquired false))]  (* _concurrency.py:575-636 *)
| d_body : does h Execute.EBody [(OBodyStart h, None); (OBodyEnd h, None)]              (* worker.py:1101-1115 *)
| d_put : does h Execute.EPut []
| d_completed t res : does h Execute.ECompleted [(OTerminal h SCompleted t None res, None)]  (* 1132, 1148 *)
| d_failed t err res : does h Execute.EFailed [(OTerminal h SFailed t err res, None)]   (* 1231, 734 *)
| d_cancelled t : does h Execute.ECancelled [(OTerminal h SCancelled t None None, None)]  (* 1167 *)
| d_cancelled_slot t t' : does h Execute.ECancelled [(ORelease h t', None); (OTerminal h SCancelled t None None, None)]
| d_retried w t : does h Execute.ERetried [(OResched h w true t, None)]                 (* _retry.py:99-112 *)
| d_rescheduled w t : does h Execute.ERescheduled [(OResched h w false t, None)]        (* worker.py:707-715 *)
| d_dropped t : does h Execute.EDropped [(OTerminal h SCancelled t None None, None)]    (* 722 *)
| d_next : does h Execute.ENext []       (* replace() of the same key: an operation of the docket, not of this execution *)
| d_kfailed : does h Execute.KFailed []
| d_kfailed_slot t : does h Execute.KFailed [(ORelease h t, None)]
| d_succeeded : does h Execute.KSucceeded []
| d_running n : does h (Execute.KRunning n) []
| d_running_slot n t : n = -1 -> does h (Execute.KRunning n) [(ORelease h t, None)]
| d_finished : does h Execute.KFinished [].

(** worker.py:1011-1235: the events one after the other. *)
Inductive does_all (h : Z) : list Execute.ev -> list (op * option out) -> Prop :=
| da_nil : does_all h [] []
| da_cons v vs l l' : does h v l -> does_all h vs l' -> does_all h (v :: vs) (l ++ l').

(** A history: operations of this execution, and of everybody else. *)
Inductive hop := Own (o : op) (want : option out) | Other (o : op).
Definition hop_op (x : hop) : op := match x with Own o _ | Other o => o end.
