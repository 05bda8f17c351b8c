(** Model of cancel_task (src/docket/_cancellation.py) and of how Timeout.run ends
    (src/docket/dependencies/_timeout.py:94-103), on the event loop of CPython.

    Two asyncio tasks: the caller, which is inside [await cancel_task(task, reason)], and the
    inner task.  The rules for cancelling a task and for resuming it are those of asyncio/tasks.py
    (Task.cancel, Task.__step, Task.__wakeup) and asyncio/futures.py (Future.cancel); they are part of
    what is assumed here, not of /repo.  Everything else is arbitrary: what the inner task's coroutine
    does, in which order the loop runs the two, and who cancels whom when. *)
From Verif Require Import Base.

(** The argument of a CancelledError: cancel() gives none. *)
Definition cmsg := option string.

(** How a coroutine is resumed after an await: with a value, with a CancelledError, or
    with another exception. *)
Inductive resume := RVal | RCancel (m : cmsg) | RExc (e : string).

Section Inner.
(** The inner coroutine: any transition system. [AAwait b plain]: it awaits a future - a [plain] one, which a
    cancel ends at once, or another task, which takes any number of cancels and ends when and as it likes. *)
Variable B : Type.
Inductive action := ARet | ARaise (e : string) | ACancelled (m : cmsg) | AAwait (b : B) (plain : bool).
Variable next : B -> resume -> action.

(** How a task ended. *)
Inductive iend := DRet | DRaise (e : string) | DCancelled (m : cmsg).
(** The inner task: not started, waiting ([f]: what its future ended with, if it has), over. *)
Inductive inner := INew (b : B) | IWait (b : B) (plain : bool) (f : option resume) | IDone (r : iend).
(** How cancel_task ends for its caller. *)
Inductive oend := OReturn | ORaise (e : string) | OCancelled (m : cmsg).

(** [w_imust], [w_omust]: Task._must_cancel with Task._cancel_message, of the inner task and of the caller. *)
Record world := mkW { w_in : inner; w_imust : option cmsg; w_omust : option cmsg; w_out : option oend }.

(** Task.cancel(m) of the inner task; true if it was not over. *)
Definition cancel_inner (w : world) (m : cmsg) : world * bool :=
  match w_in w with
  | IDone _ => (w, false)
  | INew _ => (mkW (w_in w) (Some m) (w_omust w) (w_out w), true)
  | IWait b true None => (mkW (IWait b true (Some (RCancel m))) (w_imust w) (w_omust w) (w_out w), true)
  | IWait b false None => (w, true)
  | IWait b _ (Some _) => (mkW (w_in w) (Some m) (w_omust w) (w_out w), true)
  end.

(** Task.__step of the inner task, once it can go on: a pending cancel replaces what it is
    resumed with, unless that is a CancelledError already.  A coroutine that has not started ends at once when an
    exception is thrown into it. *)
Definition resumed (r : resume) (must : option cmsg) : resume :=
  match must, r with Some m, RCancel m' => RCancel m' | Some m, _ => RCancel m | None, _ => r end.
Definition settle (a : action) : inner :=
  match a with
  | ARet => IDone DRet
  | ARaise e => IDone (DRaise e)
  | ACancelled m => IDone (DCancelled m)
  | AAwait b p => IWait b p None
  end.
Definition step_inner (w : world) : world :=
  match w_in w with
  | INew b =>
      match w_imust w with
      | Some m => mkW (IDone (DCancelled m)) None (w_omust w) (w_out w)
      | None => mkW (settle (next b RVal)) None (w_omust w) (w_out w)
      end
  | IWait b p (Some r) => mkW (settle (next b (resumed r (w_imust w)))) None (w_omust w) (w_out w)
  | IWait _ _ None | IDone _ => w
  end.

(** _cancellation.py:23-41 is_our_cancellation. *)
Definition is_ours (m : cmsg) (reason : string) : bool := match m with Some x => String.eqb x reason | None => false end.

(** _cancellation.py:60-68: what becomes of a CancelledError that [await task] raises; [new]: Python 3.11 or later. *)
Definition caught (new : bool) (reason : string) (m : cmsg) : oend :=
  if is_ours m reason then OReturn else if negb new then OReturn else OCancelled m.
(** _cancellation.py:58-68: [await task] is over; [r]: how the task ended. *)
Definition finish (new : bool) (reason : string) (r : iend) (must : option cmsg) : oend :=
  match r, must with
  | DCancelled m, _ => caught new reason m
  | _, Some m => caught new reason m
  | DRet, None => OReturn
  | DRaise e, None => ORaise e
  end.

(** _cancellation.py:57-59: the start of cancel_task, up to the await: a task that is over is not
    waited for (a cancel of the caller that is pending stays pending); otherwise a cancel of the caller that
    is pending goes to the task the caller now waits for. *)
Definition begin (new : bool) (reason : string) (w : world) : world :=
  let w := fst (cancel_inner w (Some reason)) in
  match w_in w with
  | IDone r => mkW (w_in w) (w_imust w) (w_omust w) (Some (finish new reason r None))
  | _ => match w_omust w with
         | Some m => let w := fst (cancel_inner w m) in mkW (w_in w) (w_imust w) None (w_out w)
         | None => w
         end
  end.

(** What can happen while cancel_task waits. [EFut r]: the future that the inner task awaits ends; [EInner], [EOuter]: the
    loop runs the inner task, the caller, if they can go on; [ECancelOuter m], [ECancelInner m]: somebody cancels them. *)
Inductive cev := EFut (r : resume) | EInner | EOuter | ECancelOuter (m : cmsg) | ECancelInner (m : cmsg).

Definition cstep (new : bool) (reason : string) (w : world) (e : cev) : world :=
  match w_out w with
  | Some _ => w
  | None =>
      match e with
      | EFut r => match w_in w with IWait b p None => mkW (IWait b p (Some r)) (w_imust w) (w_omust w) (w_out w) | _ => w end
      | EInner => step_inner w
      | ECancelInner m => fst (cancel_inner w m)
      | ECancelOuter m => (* the caller waits for the inner task: Task.cancel passes the cancel on to it *)
          match cancel_inner w m with
          | (w', true) => w'
          | (w', false) => mkW (w_in w') (w_imust w') (Some m) (w_out w')
          end
      | EOuter => match w_in w with
                  | IDone r => mkW (w_in w) (w_imust w) None (Some (finish new reason r (w_omust w)))
                  | _ => w
                  end
      end
  end.
Definition crun (new : bool) (reason : string) (w : world) (l : list cev) : world := fold_left (cstep new reason) l (begin new reason w).
End Inner.

(** _timeout.py:94-103 and 81-93: how Timeout.run ends when it leaves its loop with the task not
    over; [late]: because of the deadline, otherwise because it was cancelled itself. *)
Inductive tend := TTimeout | TError (e : string) | TCancelled.
Definition timeout_end (late : bool) (r : oend) : tend :=
  match r with
  | OReturn => if late then TTimeout else TCancelled
  | ORaise e => TError e
  | OCancelled _ => TCancelled
  end.
(** Timeout.run from then on: cancel_task with its reason. *)
Definition timeout_run {B} (next : B -> resume -> action B) (new : bool) (reason : string) (late : bool) (w : world B) (l : list cev) : option tend :=
  option_map (timeout_end late) (w_out B (crun B next new reason w l)).
