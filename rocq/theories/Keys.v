(** Names of the Redis keys of a docket. *)
From Verif Require Import Base Text.

(** The keys of the admission controls that are counters or marks:
    dependencies/_cooldown.py:51-57, _ratelimit.py:116-122, _debounce.py:113-123. *)
Inductive gate := GCooldown | GRate | GWinner | GLastSeen.
Definition gate_key (g : gate) (tag : string) : string :=
  match g with
  | GCooldown => "cooldown:" ++ tag
  | GRate => "ratelimit:" ++ tag
  | GWinner => "debounce:" ++ tag ++ ":{" ++ tag ++ "}:winner"
  | GLastSeen => "debounce:" ++ tag ++ ":{" ++ tag ++ "}:last_seen"
  end%string.

(** docket.py:691-719, worker.py:964, strikelist.py:220, _docket_snapshot.py:97-103,
    _execution_progress.py:94, dependencies/_concurrency.py:530-557; [KSlots], [KWaiters]
    and [KGateArg] are those of a limit on an argument, [KTaskSlots], [KTaskWaiters] and
    [KGate] those of a limit on a whole function.  User-given scopes are left out.
    [KResult] is _result_store.py:55-58 with the default collection (in-memory and cluster
    mode; on a single server the key-value library chooses the name). *)
Inductive skey :=
| KQueue | KStream | KStrikes | KWorkers | KLock
| KKnown (k : string) | KParked (k : string) | KStreamId (k : string) | KRuns (k : string) | KProgress (k : string)
| KWorkerTasks (w : string) | KTaskWorkers (f : string)
| KSlots (arg value : string) | KWaiters (arg value : string)
| KTaskSlots (f : string) | KTaskWaiters (f : string)
| KResult (k : string)
| KGate (g : gate) (f : string) | KGateArg (g : gate) (arg value : string).

Definition suffix (x : skey) : string :=
  match x with
  | KQueue => "queue" | KStream => "stream" | KStrikes => "strikes" | KWorkers => "workers" | KLock => "perpetual:lock"
  | KKnown k => "known:" ++ k
  | KParked k => k
  | KStreamId k => "stream-id:" ++ k
  | KRuns k => "runs:" ++ k
  | KProgress k => "progress:" ++ k
  | KWorkerTasks w => "worker-tasks:" ++ w
  | KTaskWorkers f => "task-workers:" ++ f
  | KSlots a v => "concurrency:" ++ a ++ ":" ++ v
  | KWaiters a v => "concurrency:" ++ a ++ ":" ++ v ++ ":waiters"
  | KTaskSlots f => "concurrency:" ++ f
  | KTaskWaiters f => "concurrency:" ++ f ++ ":waiters"
  | KResult k => "results:" ++ k
  | KGate g f => gate_key g f
  | KGateArg g a v => gate_key g (a ++ ":" ++ v)
  end%string.

(** _redis.py:737-751 prefix, docket.py:217 key. *)
Definition docket_prefix (cluster : bool) (name : string) : string :=
  if cluster then ("{" ++ name ++ "}")%string else name.
(** The gates take the docket's name as it is (_cooldown.py:51, _ratelimit.py:116,
    _debounce.py:113: [self.scope or docket.name]). *)
Definition key_prefix (cluster : bool) (name : string) (x : skey) : string :=
  match x with KGate _ _ | KGateArg _ _ _ => name | _ => docket_prefix cluster name end.
Definition storage_key (cluster : bool) (name : string) (x : skey) : string :=
  (key_prefix cluster name x ++ ":" ++ suffix x)%string.
