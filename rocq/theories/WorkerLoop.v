(** The worker's main loop: worker.py:544-846 and 1377-1388.  One worker; Redis and the
    tasks themselves are the environment. *)
From Verif Require Import Base Model.

(** worker.py:682-685 an asyncio task running _execute (worker.py:1011-1235).
    [TPre]: before the [try] of line 1063 (strike check and claim); [TIn]: inside it;
    [TDone r]: finished; [r] says that an exception other than AdmissionBlocked left
    it, so that [await task] (line 700) raises it. *)
Inductive tstate := TPre | TIn | TDone (raised : bool).
Record task := mkTask { t_id : Z; t_key : key; t_st : tstate }.
Definition is_done (t : task) : bool := match t_st t with TDone _ => true | _ => false end.

(** What a reply to XAUTOCLAIM or XREADGROUP holds: a message without data (lines
    798-799), one that from_message cannot decode (execution.py:587-607: cloudpickle.loads
    of the arguments raises; an unregistered function is replaced by the worker's
    fallback task, worker.py:278), or a task. *)
Inductive rmsg := MEmpty | MBad | MTask (k : key).

(** Where the loop is (lines 782-819). [PAsk src n]: awaiting get_redeliveries
    ([src = true]) or get_new_deliveries with COUNT [n]; [PProc l], [PDrainProc l]:
    process_completed_tasks with the rest [l] of its set.  The finally (836-846):
    [PBeat]: the heartbeat is stopped and removed (838-841); [PDrain]: gather (843);
    [PLast]: gather was cancelled and waits for the tasks it has cancelled; [PExit]: over;
    [PGone]: over because it was cancelled in [PBeat], before gather. *)
Inductive pc :=
| PTop | PProc (todo : list Z) | PRoom | PAsk (src : bool) (count : Z) | PStart (src : bool) (ms : list rmsg) | PAfter | PCheck
| PBeat | PDrain | PDrainProc (todo : list Z) | PLast | PExit | PGone.

(** [l_tasks]: every task ever created (the event loop's view); [l_active]:
    active_tasks (line 615); [l_bykey]: self._tasks_by_key; [l_avail]:
    available_slots; [l_work]: has_work. *)
Record loop := mkLoop {
  l_tasks : list task; l_active : list Z; l_bykey : key -> option Z; l_avail : Z; l_work : bool; l_stop : bool; l_pc : pc; l_next : Z }.

(** worker.py:608-618 and 782 *)
Definition init_loop : loop := mkLoop [] [] (fun _ => None) 0 true false PTop 0.

Definition set_pc (s : loop) (p : pc) : loop :=
  mkLoop (l_tasks s) (l_active s) (l_bykey s) (l_avail s) (l_work s) (l_stop s) p (l_next s).
Definition set_tasks (s : loop) (l : list task) : loop :=
  mkLoop l (l_active s) (l_bykey s) (l_avail s) (l_work s) (l_stop s) (l_pc s) (l_next s).

Definition find_task (l : list task) (i : Z) : option task := find (fun t => t_id t =? i) l.
Definition set_st (l : list task) (i : Z) (x : tstate) : list task :=
  map (fun t => if t_id t =? i then mkTask i (t_key t) x else t) l.

(** worker.py:694 [{task for task in active_tasks if task.done()}]; the order in which
    the set is walked makes no difference to what follows. *)
Definition completed (s : loop) : list Z :=
  filter (fun i => match find_task (l_tasks s) i with Some t => is_done t | None => false end) (l_active s).

(** worker.py:695-699: one completed task leaves the dictionaries.  The entry of its key
    is removed whichever task it names (line 698). *)
Definition pop_task (s : loop) (i : Z) : loop :=
  mkLoop (l_tasks s) (filter (fun j => negb (j =? i)) (l_active s))
    (match find_task (l_tasks s) i with Some t => upd (l_bykey s) (t_key t) None | None => l_bykey s end)
    (l_avail s) (l_work s) (l_stop s) (l_pc s) (l_next s).
(** worker.py:700: does awaiting it raise (AdmissionBlocked is handled, 701-724)? *)
Definition raises (s : loop) (i : Z) : bool :=
  match find_task (l_tasks s) i with Some t => match t_st t with TDone b => b | _ => false end | None => false end.

(** worker.py:669-691 start_task *)
Definition start_task (s : loop) (k : key) : loop :=
  mkLoop (l_tasks s ++ [mkTask (l_next s) k TPre]) (l_active s ++ [l_next s]) (upd (l_bykey s) k (Some (l_next s)))
    (l_avail s - 1) (l_work s) (l_stop s) (l_pc s) (l_next s + 1).

Inductive levent :=
| LGo                                (* the loop goes on to its next await *)
| LReply (ms : list rmsg)            (* Redis answers a request for messages *)
| LLost                              (* ConnectionError instead, 810-820 *)
| LChecked (stream queue : Z)        (* the answer of check_for_work, 620-628 *)
| LEnter (i : Z)                     (* a task has claimed its message and enters the try, 1027-1063 *)
| LFinish (i : Z) (raised : bool)    (* a task ends *)
| LCancel (k : key)                  (* a cancellation message for [k] arrives, 1377-1388 *)
| LStop                              (* self._worker_stopping is set *)
| LAbort                             (* the loop is cancelled (452-469: each SIGTERM and SIGINT does), or a task of the group fails *)
| LRestart.                          (* _run calls _worker_loop again, 550-566 *)

Inductive lout :=
| WRefused | WOk
| WAsk (src : bool) (count : Z)      (* messages are asked for *)
| WStart (i : Z) (k : key)           (* a task is created *)
| WCancelled (i : Z)                 (* a task is cancelled *)
| WNobody                            (* a cancellation finds no task *)
| WCancelAll (l : list Z)            (* these tasks are cancelled by gather *)
| WLeave                             (* the loop ends and drains *)
| WExit
| WGone.                             (* the loop is over, tasks may still run *)

(** A task is cancelled: CancelledError inside the try ends in mark_as_cancelled
    (1163-1172), before it (strike check, claim) nothing catches it.  A body that
    swallows the cancellation is not modelled. *)
Definition struck_down (x : tstate) : tstate := match x with TPre => TDone true | TIn => TDone false | TDone r => TDone r end.
(** 843: cancelling gather cancels its children that are not done. *)
Definition cancel_all (s : loop) : loop :=
  set_tasks s (map (fun t => if existsb (Z.eqb (t_id t)) (l_active s) then mkTask (t_id t) (t_key t) (struck_down (t_st t)) else t) (l_tasks s)).
Definition flying_active (s : loop) : list Z :=
  filter (fun i => match find_task (l_tasks s) i with Some t => negb (is_done t) | None => false end) (l_active s).

Definition ask (s : loop) (src : bool) : loop * lout := (set_pc s (PAsk src (l_avail s)), WAsk src (l_avail s)).

(** One await to the next.  [n] is self.concurrency. *)
Definition go (n : Z) (forever : bool) (s : loop) : loop * lout :=
  match l_pc s with
  | PTop => (* 783-786 *)
      if (forever || l_work s || match l_active s with [] => false | _ => true end) && negb (l_stop s)
      then (set_pc s (PProc (completed s)), WOk) else (set_pc s PBeat, WLeave)
  | PProc [] => (set_pc s PRoom, WOk)
  | PProc (i :: l) => if raises s i then (set_pc (pop_task s i) PBeat, WLeave) else (set_pc (pop_task s i) (PProc l), WOk)
  | PRoom => (* 787-792 *)
      let s := mkLoop (l_tasks s) (l_active s) (l_bykey s) (n - Z.of_nat (length (l_active s))) (l_work s) (l_stop s) (l_pc s) (l_next s) in
      if l_avail s <=? 0 then (set_pc s PTop, WOk) else ask s true
  | PStart src (MEmpty :: ms) => (set_pc s (PStart src ms), WOk)
  | PStart src (MBad :: ms) => (set_pc s PBeat, WLeave)
  | PStart src (MTask k :: ms) => (set_pc (start_task s k) (PStart src ms), WStart (l_next s) k)
  | PStart src [] => (* 805-806 and the next source *)
      if (l_avail s <=? 0) || negb src then (set_pc s PAfter, WOk) else ask s false
  | PAfter => (* 808-809 *)
      if negb forever && match l_active s with [] => true | _ => false end then (set_pc s PCheck, WOk) else (set_pc s PTop, WOk)
  | PBeat => (set_pc s PDrain, WOk)
  | PDrain => (* 842-844: gather waits for every active task *)
      if forallb (fun i => match find_task (l_tasks s) i with Some t => is_done t | None => true end) (l_active s)
      then (set_pc s (PDrainProc (completed s)), WOk) else (s, WRefused)
  | PLast => (* the CancelledError of gather leaves the loop: nothing is processed *)
      if forallb (fun i => match find_task (l_tasks s) i with Some t => is_done t | None => true end) (l_active s)
      then (set_pc s PExit, WExit) else (s, WRefused)
  | PDrainProc [] => (set_pc s PExit, WExit)
  | PDrainProc (i :: l) => if raises s i then (set_pc (pop_task s i) PExit, WExit) else (set_pc (pop_task s i) (PDrainProc l), WOk)
  | PAsk _ _ | PCheck | PExit | PGone => (s, WRefused)
  end.

(** The environment.  Redis returns at most COUNT messages when COUNT is positive, and
    all there are for COUNT 0 (and redis-py passes any number on). *)
Definition lstep (n : Z) (forever : bool) (s : loop) (e : levent) : loop * lout :=
  match e with
  | LGo => go n forever s
  | LReply ms =>
      match l_pc s with
      | PAsk src count => if (0 <? count) && (count <? Z.of_nat (length ms)) then (s, WRefused) else (set_pc s (PStart src ms), WOk)
      | _ => (s, WRefused)
      end
  | LLost => match l_pc s with PAsk _ _ | PCheck => (set_pc s PBeat, WLeave) | _ => (s, WRefused) end
  | LChecked a b =>
      match l_pc s with
      | PCheck => (mkLoop (l_tasks s) (l_active s) (l_bykey s) (l_avail s) ((0 <? a) || (0 <? b)) (l_stop s) PTop (l_next s), WOk)
      | _ => (s, WRefused)
      end
  | LEnter i => match find_task (l_tasks s) i with Some (mkTask _ _ TPre) => (set_tasks s (set_st (l_tasks s) i TIn), WOk) | _ => (s, WRefused) end
  | LFinish i r =>
      match find_task (l_tasks s) i with
      | Some t => if is_done t then (s, WRefused) else (set_tasks s (set_st (l_tasks s) i (TDone r)), WOk)
      | None => (s, WRefused)
      end
  | LCancel k =>
      (* 1382-1388 *)
      match l_bykey s k with
      | Some i =>
          match find_task (l_tasks s) i with
          | Some (mkTask _ _ TPre) => (set_tasks s (set_st (l_tasks s) i (TDone true)), WCancelled i)
          | Some (mkTask _ _ TIn) => (set_tasks s (set_st (l_tasks s) i (TDone false)), WCancelled i)
          | _ => (s, WNobody)
          end
      | None => (s, WNobody)
      end
  | LStop => (mkLoop (l_tasks s) (l_active s) (l_bykey s) (l_avail s) (l_work s) true (l_pc s) (l_next s), WOk)
  | LAbort =>
      match l_pc s with
      | PBeat => (* 838-841.  The heartbeat ends on any cancellation without an error
           (1317-1318), so one that arrives while the loop waits for it has no effect;
           _remove_heartbeat does not catch it (1260).  Then the loop is over, gather is not
           reached; nobody calls the loop again.  (A cancellation that comes before the
           finally, while the TaskGroup or the lifecycles end, is caught in 829 and
           changes nothing: no event.) *)
          (set_pc s PGone, WGone)
      | PDrain => (set_pc (cancel_all s) PLast, WCancelAll (flying_active s))
      | PDrainProc _ => (set_pc s PExit, WExit)
      | PLast | PExit | PGone => (s, WRefused)
      | _ => (set_pc s PBeat, WLeave)
      end
  | LRestart =>
      match l_pc s with
      | PExit => (mkLoop (l_tasks s) [] (l_bykey s) (l_avail s) true false PTop (l_next s), WOk)
      | _ => (s, WRefused)
      end
  end.

Fixpoint lrun (n : Z) (forever : bool) (s : loop) (l : list levent) : loop :=
  match l with [] => s | e :: l => lrun n forever (fst (lstep n forever s e)) l end.
Fixpoint louts (n : Z) (forever : bool) (s : loop) (l : list levent) : list lout :=
  match l with [] => [] | e :: l => snd (lstep n forever s e) :: louts n forever (fst (lstep n forever s e)) l end.
