(** One delivered message inside a worker: Worker._execute and what the worker loop
    does when it has finished.  No proofs in this file.

    [X1] Commands to Redis succeed; that a terminal mark of a superseded run changes
         nothing is Model.v's business.  Result storage may be the user's own
         (docket.py:236-241) and may fail.
    [X2] A dependency is what it does on entering and on leaving, and the handlers it
         offers; the order of several dependencies is the order of entering.
    [X3] Logging, spans and the duration histogram do not fail and are left out.
    [X4] A Runtime (worker.py:1102-1109) is part of what the body does. *)
From Verif Require Import Base.

(** What can be raised: AdmissionBlocked with its two flags (_base.py:53-87),
    asyncio.CancelledError, another BaseException, any other Exception; [pickles]:
    cloudpickle.dumps accepts it. *)
Inductive exn :=
| XBlocked (handled resched : bool)
| XCancelled
| XBase
| XErr (name : string) (pickles : bool).

(** What handle_failure does (_base.py:131-146): schedule another attempt of this
    message and answer True (_retry.py:99-136), answer True without having done so,
    answer False, raise. *)
Inductive fres := FRetry | FTook | FDecline | FThrow (e : exn).
(** What on_complete does (_base.py:158-169): schedule the next run and answer True,
    answer True only, answer False, raise. *)
Inductive cres := CNext | CTook | CDecline | CThrow (e : exn).
(** What __aexit__ does: let the exception through, suppress it, raise another. *)
Inductive xres := Through | Suppress | Throw (e : exn).

(** One dependency: entered with its handlers and its exit (worker dependencies and
    parameters, _resolution.py:166-200), entered as an annotation (203-217: only a
    failure is put into [arguments], so its handlers are never found), or failed to
    enter (172, 200, 214). *)
Inductive dep :=
| DParam (fh : option (exn -> fres)) (ch : option (option exn -> cres)) (ex : option exn -> xres)
| DAnnot (ex : option exn -> xres)
| DFailed (e : exn).

(** What the body does: returns None or a value ([Some pickles]), or raises. *)
Inductive body := BReturn (v : option bool) | BRaise (e : exn).

(** One execution: is_stricken (worker.py:1017), claim (1027), the dependencies, an
    exception that leaves the resolution itself (a cancellation while a dependency is
    entered), the body, execution_ttl <> 0, result_storage.put (None: succeeds). *)
Record env := mkEnv { e_struck : bool; e_claim : bool; e_deps : list dep; e_stop : option exn;
                      e_body : body; e_ttl : bool; e_put : option exn }.

(** What is observable: the marks, another attempt, the next run of a perpetual task,
    the park and the reschedule of admission control, the body, the counters
    (instrumentation.py). *)
Inductive ev :=
| EStruck | ESuperseded | EParked | EBody | EPut
| ECompleted | EFailed | ECancelled | ERetried | ENext | ERescheduled | EDropped
| KStarted | KSucceeded | KFailed | KFinished | KRunning (n : Z).

(** get_single_dependency_of_type(dependencies, FailureHandler), _resolution.py:92-99 *)
Fixpoint failure_handler (l : list dep) : option (exn -> fres) :=
  match l with
  | [] => None
  | DParam (Some h) _ _ :: _ => Some h
  | _ :: l => failure_handler l
  end.
(** get_single_dependency_of_type(dependencies, CompletionHandler) *)
Fixpoint completion_handler (l : list dep) : option (option exn -> cres) :=
  match l with
  | [] => None
  | DParam _ (Some h) _ :: _ => Some h
  | _ :: l => completion_handler l
  end.

(** The exits pushed on the stack, last one first: contextlib's AsyncExitStack. *)
Fixpoint exits (l : list dep) : list (option exn -> xres) :=
  match l with
  | [] => []
  | DParam _ _ x :: l | DAnnot x :: l => exits l ++ [x]
  | DFailed _ :: l => exits l
  end.

(** AsyncExitStack.__aexit__: every exit is called with the exception in flight. *)
Fixpoint unwind (l : list (option exn -> xres)) (o : option exn) : option exn :=
  match l with
  | [] => o
  | x :: l => unwind l (match x o with Through => o | Suppress => None | Throw e => Some e end)
  end.

(** A ConcurrencyLimit parks the task before it raises (_concurrency.py:575-636). *)
Definition entering (l : list dep) : list ev :=
  flat_map (fun d => match d with DFailed (XBlocked true _) => [EParked] | _ => [] end) l.

Fixpoint failures (l : list dep) : list exn :=
  match l with [] => [] | DFailed e :: l => e :: failures l | _ :: l => failures l end.
Definition is_blocked (e : exn) : bool := match e with XBlocked _ _ => true | _ => false end.
(** cloudpickle.dumps(e) at worker.py:1218; AdmissionBlocked holds its Execution, which
    holds the docket and its connections. *)
Definition pickles (e : exn) : bool := match e with XErr _ p => p | _ => false end.

(** worker.py:1065-1090: AdmissionBlocked is raised as such, other failures in a group. *)
Definition dep_failure (l : list dep) : option exn :=
  match find is_blocked (failures l) with
  | Some b => Some b
  | None => match failures l with
            | [] => None
            | fs => Some (XErr "ExceptionGroup" (forallb pickles fs))
            end
  end.

(** worker.py:1115-1148: the body returned [v]. *)
Definition returned (e : env) (v : option bool) : list ev * option exn :=
  match completion_handler (e_deps e) with
  | Some h =>
      match h None with
      | CThrow x => ([], Some x)
      | CNext => ([ENext; ECompleted], None)
      | CTook => ([ECompleted], None)
      | CDecline => match v, e_ttl e with
                    | Some false, true => ([], Some (XErr "PicklingError" true))
                    | Some true, true => match e_put e with Some x => ([], Some x) | None => ([EPut; ECompleted], None) end
                    | _, _ => ([ECompleted], None)
                    end
      end
  | None => match v, e_ttl e with
            | Some false, true => ([], Some (XErr "PicklingError" true))
            | Some true, true => match e_put e with Some x => ([], Some x) | None => ([EPut; ECompleted], None) end
            | _, _ => ([ECompleted], None)
            end
  end.

(** worker.py:1065-1154: inside "async with resolved_dependencies". *)
Definition inside (e : env) : list ev * option exn :=
  match dep_failure (e_deps e) with
  | Some x => ([], Some x)
  | None => match e_body e with
            | BRaise x => ([EBody], Some x)
            | BReturn v => let '(l, o) := returned e v in (EBody :: KSucceeded :: l, o)
            end
  end.

(** worker.py:1064-1154 with the exits: what was done, what is raised, and the
    variable [dependencies] (still {} if the resolution itself was left, 1051). *)
Definition attempt (e : env) : list ev * option exn * list dep :=
  match e_stop e with
  | Some x => (entering (e_deps e), unwind (exits (e_deps e)) (Some x), [])
  | None => let '(l, o) := inside e in
            (entering (e_deps e) ++ l, unwind (exits (e_deps e)) o, e_deps e)
  end.

(** worker.py:1215-1231 *)
Definition mark_failed (e : env) (x : exn) : list ev * option exn :=
  if e_ttl e then
    if pickles x then match e_put e with Some y => ([], Some y) | None => ([EPut; EFailed], None) end
    else ([], Some (XErr "PicklingError" true))
  else ([EFailed], None).

(** worker.py:1196-1231: not retried. *)
Definition give_up (e : env) (ds : list dep) (x : exn) : list ev * option exn :=
  match completion_handler ds with
  | Some h => match h (Some x) with
              | CThrow y => ([], Some y)
              | CNext => let '(l, o) := mark_failed e x in (ENext :: l, o)
              | CTook | CDecline => mark_failed e x
              end
  | None => mark_failed e x
  end.

(** worker.py:1174-1231 *)
Definition failed (e : env) (ds : list dep) (x : exn) : list ev * option exn :=
  let '(l, o) := match failure_handler ds with
                 | Some h => match h x with
                             | FThrow y => ([], Some y)
                             | FRetry => ([ERetried], None)
                             | FTook => ([], None)
                             | FDecline => give_up e ds x
                             end
                 | None => give_up e ds x
                 end in
  (KFailed :: l, o).

(** worker.py:1063-1235: the try statement with its except clauses. *)
Definition handled (e : env) : list ev * option exn :=
  let '(l, o, ds) := attempt e in
  match o with
  | None => (l, None)
  | Some (XBlocked _ _) => (l, o)
  | Some XCancelled => (l ++ [ECancelled], None)
  | Some (XErr n p) => let '(l', o') := failed e ds (XErr n p) in (l ++ l', o')
  | Some XBase => (l, o)
  end.

(** worker.py:1011-1235: Worker._execute, and the exception that leaves it. *)
Definition execute (e : env) : list ev * option exn :=
  if e_struck e then ([EStruck], None)
  else if negb (e_claim e) then ([ESuperseded], None)
  else let '(l, o) := handled e in
       (KStarted :: KRunning 1 :: l ++ [KRunning (-1); KFinished], o).

(** Execution._acked: set by claim when superseded (execution.py:812), by schedule with
    a message (753) and by every terminal mark (878). *)
Definition acks (v : ev) : bool :=
  match v with
  | EStruck | ESuperseded | ECompleted | EFailed | ECancelled | ERetried | ERescheduled | EDropped => true
  | _ => false
  end.

(** worker.py:693-734: one finished task is processed; [Some x]: the exception leaves
    process_completed_tasks and with it the loop of the worker. *)
Definition settle (r : list ev * option exn) : list ev * option exn :=
  let '(l, o) := r in
  match o with
  | Some (XBlocked true _) => (l, None)
  | Some (XBlocked false true) => (l ++ [ERescheduled], None)
  | Some (XBlocked false false) => (l ++ [EDropped], None)
  | None => if existsb acks l then (l, None) else (l ++ [EFailed], None)
  | Some x => (l, Some x)
  end.

Definition whole (e : env) : list ev * option exn := settle (execute e).

(** worker.py:693-734: the finished tasks one after the other, until one raises; the
    rest stays in active_tasks. *)
Fixpoint process (l : list env) : list (list ev) * list env * option exn :=
  match l with
  | [] => ([], [], None)
  | e :: l => let '(v, o) := whole e in
              match o with
              | Some x => ([v], l, Some x)
              | None => let '(vs, rest, o) := process l in (v :: vs, rest, o)
              end
  end.
