# Verification of docket: design

The subject is `/repo` (chrisguidry/docket, Python over Redis with Lua scripts),
read as text.  The model is written in Rocq (Coq 8.16.1) in `rocq/theories`.
`properties.jsonl` states the properties, `MANIFEST.json` maps each to its
theorems, `seeded/LOG.jsonl` records the mutation tests.

## How the system is modelled

* **Store.**  One docket's Redis data as a record: stream (list of id/message in
  id order), consumer group (last delivered id, pending entries with owner and
  delivery time), future queue (sorted set), parked payload hashes, the
  `runs:K` hash of every key (typed record of optional fields plus expiry),
  progress hashes, concurrency slots and waiter streams, the published events.
* **Lua scripts** run atomically in Redis, so each is one Gallina function
  store -> store * reply, written branch by branch.  API methods that make several
  round trips are several operations, so that other operations may interleave.
* **Workers** are a list of in-flight executions (the Python `Execution`
  objects held by worker processes) with a phase: delivered, claimed, in body,
  body ended.  A crash of a worker drops its executions and nothing else.
* **Operations** `op` comprise API calls, scheduler passes, deliveries,
  redeliveries, lease renewals, claims, body start/end, terminal marks,
  reschedules, parks and wakes, crashes, and clock ticks (with key expiry).
  `step : cfg -> sys -> op -> sys * out`; a history is any `list op`, hence
  every interleaving of any number of clients and workers is covered.  An
  operation that is not enabled leaves the state unchanged and says so.
* **Extensions.**  `GetResult.v`, `Progress.v`, `Perpetual.v`, `StrikeSys.v`,
  `Lease.v`, `RunAtMost.v`, `Shared.v`, `Sweep.v` and `SpecLive.v` put further
  state beside this machine (callers that wait, progress hashes, chains of
  perpetual runs, strike lists, renewal timers, infinite fair histories) and step
  it with `step`.
* **Self-contained parts** (parsers, admission scripts, worker loop, binding of
  arguments, URLs, metrics page, ...) are models of their own, each with its own
  specification file.
* Time is `Z` microseconds (milliseconds where the code uses milliseconds);
  identifiers of stream entries are an increasing counter (Redis guarantees
  increasing ids).

Every definition cites the file and lines it models; simplifications are stated
there.  The main ones: floats are exact (`Z`) except in `Instant.v`, which shows
for due times that nothing is lost by that, and in `Durations.v`, which shows what is
lost of the durations of admission controls (C117); pickled values are opaque; telemetry
spans and log lines are not modelled, apart from the counters of `_execute`
(C61) and of the docket's calls (C102), the strike gauge (C86), the log description of a call (C68) and the
metrics page (C71); the Redis server and its atomic scripts are trusted to behave
as documented; storage keys of different kinds are disjoint in `Model.v` (what
that assumes about task keys is property C39, and on a cluster C76).

## Layout

A part `X` has its model in `X.v` (no proofs), the vocabulary of its statements in
`SpecX.v` (no reference to the model's helpers beyond its data and its step
function), lemmas in `XProofs.v`, and in `PropsX.v` the property theorems, each with
`Print Assumptions` and an `Example` that meets its hypotheses.

| files | content | properties |
|---|---|---|
| `Base`, `ZSet`, `Text` | maps over strings, Redis sorted sets, decimal notation (helpers) | |
| `Model` | the docket: store, scripts, API methods, executions, `step` | |
| `GInv`, `KView`, `KSim`, `KInv`, `KLine`, `Hist`, `Steps`, `Steps2`, `Steps3`, `Count`, `QueueInv`, `ClearProofs`, `ClaimedProofs` | invariants of reachable states; the per-key machine and the refinement of `step` to it; counting | |
| `Spec`, `Check` | vocabulary of histories; boolean versions used by examples only | |
| `PropsHist`, `PropsSteps`, `PropsRuns`, `PropsCount`, `PropsClear`, `PropsReuse` | histories and single operations | C01-C05, C07-C12, C14-C17, C20-C22, C44 |
| `SpecConc`, `ConcProofs`, `ConcHist`, `PropsConc`, `WaitProofs`, `PropsWait`, `PropsStranded` | concurrency limits | C23, C24 |
| `Admission`, `SpecAdm`, `AdmProofs`, `PropsAdm` | rate limit, cooldown, debounce | C25-C28, C51 |
| `Retry`, ... `PropsRetry` | retry policies | C13, C48 |
| `Timeout`, `PropsTimeout` | timeouts | C43, C52 |
| `Strike`, `StrikeMixed`, `StrikeSys`, ... `PropsStrike` | strike lists, their wire format, struck tasks | C29-C32 |
| `Keys`, `PropsKeys`; `Slots`, `PropsSlots` | names of Redis keys (tasks, results, limits); their cluster slots | C39; C76 |
| `Json`, `SpecJson`, `PropsJson` | published events | C40 |
| `LuaCall`, `PropsLua` | calls of Lua scripts | C38 |
| `Resolution`, `PropsResolution` | conflicts of single-use dependencies | C42 |
| `Duration`, `PropsDuration`; `Cli`, `SpecCli`, `PropsCli` | command line arguments | C47; C77 |
| `Uuid7`, `PropsUuid` | generated keys | C37 |
| `Agenda`, `PropsAgenda` | `Agenda.scatter` | C36 |
| `GetResult`, `SpecResult`, `ResultProofs`, `PropsResult` | results and waiters | C18, C19 |
| `Progress`, ... `PropsProgress`; `Shared`, ... `PropsShared` | progress; the shared `Progress` object | C41; C63 |
| `Perpetual`, ... `PropsPerpetual` | perpetual and cron tasks, re-seeding | C33, C34, C53 |
| `SpecRecover`, `RecoverProofs`, `PropsRecover` | recovery by a fresh worker | C06 |
| `WorkerLoop`, `SpecLoop`, `LoopProofs`, `PropsLoop` | the worker's main loop and how it shuts down | C35, C54-C56, C97 |
| `Lease`, `LeaseProofs`, `PropsLease` | lease renewal | C49, C57 |
| `RunAtMost`, ... `PropsRunAtMost` | `run_at_most` | C50 |
| `Heartbeat`, ... `PropsHeartbeat`; `Snapshot`, `PropsSnapshot` | worker listings; snapshots | C46; C45 |
| `Execute`, ... `PropsExecute` | `Worker._execute` | C58-C61 |
| `Gates`, `PropsGates` | a run passing the same control again | C62, C64 |
| `Watch`, `PropsWatch` | `docket watch` | C65 |
| `SpecLive`, `LiveProofs`, `PropsLive` | fair infinite histories | C66 |
| `Sweep`, ... `PropsSweep` | the search for abandoned messages | C67 |
| `Logged`, ... `PropsLogged` | log descriptions of calls | C68 |
| `Stats`, ... `PropsStats` | task statistics, testing assertions | C69, C70 |
| `Prom`, ... `PropsProm` | the metrics page | C71 |
| `Lookup`, ... `PropsLookup` | `get_execution` | C72 |
| `Instant`, ... `PropsInstant` | due times as binary floating point | C73 |
| `Wire`, ... `PropsWire` | messages as bytes | C74, C75 |
| `Bind`, ... `PropsBind`, `PropsArgument` | binding of arguments | C78-C80 |
| `Memory`, ... `PropsMemory` | in-memory servers | C81 |
| `Url`, `SpecUrl`, `PropsUrl` | Sentinel and cluster URLs | C82-C84 |
| `StrikeMon`, ... `PropsStrikeMon` | the strike monitor and its gauge | C85, C86 |
| `Registry`, ... `PropsRegistry` | names of functions, seeding loop | C87-C90 |
| `Lifecycle`, ... `PropsLifecycle` | worker-scoped lifecycles | C91 |
| `BodyCall`, `SpecBodyCall`, `BodyCallProofs`, `PropsBodyCall` | the call of a task's function | C92 |
| `Store`, `SpecStore`, `StoreProofs`, `PropsStore` | the key-value store of results | C93 |
| `Depth`, `PropsDepth` | the depth gauges | C94 |
| `Signal`, `SpecSignal`, `SignalProofs`, `PropsSignal` | cancellation signals: channels, patterns, subscribers | C95 |
| `Stack`, `SpecStack`, `StackProofs`, `PropsStack` | entering and leaving a docket: exit stacks | C96 |
| `SpecEvents`, `EventProofs`, `PropsEvents` | state events and records | C98 |
| `CancelTask`, `PropsCancelTask` | `cancel_task` and the end of `Timeout.run` on asyncio's rules for cancelling tasks | C99, C100 |
| `Leaving`, `PropsLeaving` | `Worker.__aenter__`, `__aexit__` and `_run`: the two events, any number of runs (what a run does between two looks is left out) | C101 |
| `ClientCount`, `PropsClientCount` | the counters of `add`, `replace`, `schedule`, `cancel` over `StrikeSys` histories, with lost answers | C102 |
| `WorkerOps`, `PropsWorkerOps` | the events of `_execute` as operations of `Model`, between operations of others; `Model` follows `_execute` up to a second outcome of the same message | C103 |
| `UntilFinished`, `PropsUntilFinished` | `run_until_finished`: `WorkerLoop` and `Model` side by side, joined by the answers of `check_for_work` | C104 |
| `Twice`, `SpecTwice`, `PropsTwice` | executions with more than one outcome: `Model.step` after `reopen`, which treats an execution that is over as one whose body has ended | C105 |
| `Scrape`, `SpecScrape`, `ScrapeProofs`, `PropsScrape` | threads of the metrics server running `collect` at once | C106 |
| `Guard`, `SpecGuard`, `GuardProofs`, `PropsGuard` | the calls a worker makes after parking a task (safeguard add, read, cancel), interleaved with everything of `Model` | C107 |
| `Cleanup`, `SpecCleanup`, `CleanupProofs`, `PropsCleanup` | the cancel subscriber of every worker (read the place, remove it, cancel the safeguard), interleaved with everything of `Model` | C108 |
| `Conditions`, `SpecConditions`, `ConditionsProofs`, `PropsConditions` | the condition list of a strike list and the `run_at_most` calls of several workers in it | C109 |
| `TaskArg`, `SpecTaskArg`, `PropsTaskArg` | TaskArgument objects over the life of a process | C110 |
| `Periodic`, `SpecPeriodic`, `PeriodicProofs`, `PropsPeriodic` | the scheduler and heartbeat loops of several workers, with late timers, slow and failing passes, beside the docket and the registry of workers | C111, C112 |
| `SlotLoop`, `SpecSlotLoop`, `SlotLoopProofs`, `PropsSlotLoop` | the renewal loops of slot holders (`_renew_lease_loop`) beside the docket; a renewal under way when its loop is cancelled is taken not to reach the store any more | C23 |
| `Stray`, `SpecStray`, `StrayProofs`, `PropsStray` | slot renewals between client and store, as the two commands ZADD and EXPIRE; a command that was sent is not called back when its caller is cancelled (asyncio and redis-py, not part of /repo) | C114 |
| `Departed`, `SpecDeparted`, `DepartedProofs`, `PropsDeparted` | workers that come and go: their heartbeat tasks, heartbeats between client and store, withdrawals | C115 |
| `Poll`, `SpecPoll`, `PollProofs`, `PropsPoll` | the worker loop of `WorkerLoop` in time: how long it may stay at each await; XREADGROUP BLOCK answers in time, BLOCK 0 waits for any time (Redis, not part of /repo) | C116 |
| `Durations`, `DurationsProofs`, `PropsDurations` | `int(d.total_seconds() * 1000)` as binary64 arithmetic (rounding to nearest, ties to even; exponent unbounded) and the admission controls of `Admission` with the durations it yields; the error Redis gives for an expiry of 0 | C117 |
| `Announce`, `SpecAnnounce`, `AnnounceProofs`, `PropsAnnounce` | the reports of one run in three steps (request, reply, publication), overlapping in any order; refines `Progress` for one run | C118 |
| `SnapTimes`, `SpecSnapTimes`, `SnapTimesProofs`, `PropsSnapTimes` | the start times of running tasks in a snapshot | C119 |
| `Follow`, `SpecFollow`, `FollowProofs`, `PropsFollow` | a caller of `Execution.subscribe` beside the docket (state events) | C120 |
| `SpecRecord`, `RecordProofs`, `PropsRecord` | what the record of a key says about its runs | C121 |
| `RetentionProofs`, `PropsRetention` | how long the records of finished tasks are kept | C122 |
| `SpecPresence`, `PresenceProofs`, `PropsPresence` | until when the record of a task is there | C123 |
| `Route`, `PropsRoute` | to which server commands, subscriptions and publications go (`_redis.py` client, pubsub, publish), over the attributes of `Stack`; that redis-py's `Redis(connection_pool=None)` means localhost:6379 is assumed | C124 |
| `Pool`, `PropsPool` | the keyword arguments of the connection pool of a Sentinel URL and of the clients of the Sentinels (`_redis_sentinel.py` sentinel_connection_pool), on top of `Url`; closing the pool and the clients (OwnedSentinelConnectionPool.aclose); which options redis-py's parse_url converts, that it unquotes a second time, and that it reads ssl and decode_responses by their truth are assumed | C125, C126 |
| `Register`, `PropsRegister` | registering functions and collections on a docket (`docket.py` register, register_collection, the tasks of a new docket; `worker.py` the loop of Worker.run over them); whether validate_dependencies accepts a function is a flag of the function, what a module contains is an arbitrary function | C127 |
| `CliUrl`, `PropsCliUrl` | the options --url and --docket of every command of the CLI: variable, default, check (`cli/__init__.py`, `cli/_support.py` validate_url); how click looks up a variable is assumed | C128 |
| `Startup`, `PropsStartup` | what a worker logs about its tasks when it starts (`worker.py` _startup_log and the beginning of _run, `execution.py` compact_signature); which annotations have an __origin__ but no first of __args__ (typing.List, tuple[()]) is Python's and a parameter here | C129 |
| `SnapGroup`, `PropsSnapGroup` | a snapshot without consumer group: the error, creating the group, the next attempt (`_docket_snapshot.py` snapshot, `docket.py` _ensure_stream_and_group); the text of redis-py's pipeline errors is assumed | C130 |
| `ReadGroup`, `PropsReadGroup` | the same for a worker that reads (`worker.py` get_redeliveries, get_new_deliveries) | C131 |
| `Reconnect`, `PropsReconnect` | the reconnection loop of a worker in time (`worker.py` _run); how each attempt ends and how long it takes is arbitrary | C132 |
| `Ports`, `PropsPorts` | the health and metrics servers around Worker.run (`instrumentation.py` healthcheck_server, metrics_server; `worker.py` run): sockets and threads, not what they answer | C133 |
| `SeedLock`, `PropsSeedLock` | the lock around the passes that seed automatic tasks | C113 |

## Plan per property

| id | what is modelled | how it is proved |
|---|---|---|
| C01 | `_schedule` non-replace branch, all ops | invariant over histories: the pending copy of a key with `known` set is untouched by any add; refutation for a task parked on a concurrency limit |
| C02 | `_schedule`, `add`, `replace` | direct, for every store |
| C03 | generation counter, `_claim` | monotonicity of generations over histories, then every later start has a generation at least the replacement's |
| C04 | reschedule branch, park/wake | false of the code: refutation by witness; proved for histories without a stale reschedule |
| C05 | all scripts, crash | invariant: `known` set implies a stored copy with the current generation |
| C06 | scheduler, redelivery, delivery, claim | construct the recovery schedule, prove it starts the run |
| C07 | `is_immediate`, scheduler, reschedule with per-process clocks | invariant on stream entries |
| C08 | `_stream_due_tasks` | functional characterisation for every store |
| C09 | delivery, redelivery, claim | invariant: starts of a message <= deliveries of it |
| C10 | whole machine | invariant over restricted histories |
| C11 | whole machine | case analysis over all operations, any state |
| C12 | reschedule branch | counting live copies before and after |
| C13 | `Retry.handle_failure` | induction over outcome sequences; exact characterisation of the decision |
| C14 | `_cancel_task` and the rest | refutation (task moved by the scheduler); proof for tasks still on the future queue or queued directly |
| C15 | `_cancel_task` | direct, any store |
| C16 | `_terminal`, `_claim` | direct, any store, lifted to reachable supersession |
| C17 | all state writes | case analysis; refutation of the last clause |
| C18 | result fields, result store | refutation (value then None); proof for the first run of a key / runs that store a result |
| C19 | subscribe/sync automaton | refutation of wake-up; proof when the subscription is live before the end |
| C20 | `clear` | emptiness and count for every store, alone and with others in between; refutation of re-adding, of running tasks and of tasks that become due meanwhile |
| C21 | all key-specific ops | frame theorem |
| C22 | EXPIRE without PERSIST | refutation; proof when no expiry is pending |
| C23 | slots | invariant under timely renewal; refutation without; timely renewal itself from the renewal loops, with late timers, slow and failing passes and clock errors |
| C24 | park, wake | functional characterisation of the wake loop |
| C25, C26 | `_ratelimit` | invariant over request sequences |
| C27 | `SET NX PX` | induction over requests |
| C28, C51 | `_debounce` | invariant over request sequences |
| C29-C32 | `strikelist.py` | refinement to a set-of-strikes specification where it holds, an exact description of what any sequence blocks (C29_any_sequence), refutations where the specification fails |
| C33, C34, C53 | `on_complete`, reseed | on top of `Model.v` |
| C35, C54-C56, C97 | worker loop, signals | invariants of the loop's sets and counters |
| C36 | `scatter` | arithmetic with the half-even rounding of `timedelta` division |
| C37 | `_vendored_uuid7` | bit-field arithmetic over `Z` |
| C38 | `_lua.py` | induction over parameter lists |
| C39, C76 | key helpers | injectivity proofs and collision witnesses; slots of key lists |
| C40 | `json_escape` | decoder written independently, round trip by induction |
| C41, C63 | progress scripts, the shared object | invariant; refutation by interleaving |
| C42 | `_resolution.py` | soundness and completeness of the detection |
| C43, C52 | `Timeout` | arithmetic over extension sequences; order of events |
| C44, C74, C75 | message fields | round trip through every route, first as fields, then as bytes |
| C45, C46 | snapshot, heartbeats | partition / filter characterisation |
| C47, C77 | CLI arguments | grammar given as an inductive relation, both directions |
| C48 | exponential back-off | arithmetic |
| C49, C57 | renewal timers | invariant on idle times |
| C50 | `run_at_most` | induction over histories with the strike limit |
| C58-C61 | `_execute` and the reading of its outcome | case analysis over scripted bodies, hooks and failures |
| C62, C64 | several passes of one run through a control | induction over passes; refutations |
| C65 | `docket watch` loop | induction over polls |
| C66 | infinite histories | fairness hypotheses, well-founded descent to the start |
| C67 | XAUTOCLAIM sweep | induction over the pending list and cursors |
| C68, C78-C80 | `Signature.bind` | relation of Python's calling rules, binding proved equal to it |
| C69, C70 | statistics, assertions | counting lemmas |
| C71 | exporter | injectivity/legality of names, refutations of collisions |
| C72 | `get_execution` | invariant: the record describes the current run |
| C73 | `timestamp()` | rounding error bounds over `Z` |
| C81 | cache of memory servers | invariant over histories of event loops |
| C82-C84 | URL parsing | grammar of written URLs, parse gives the configuration back |
| C85, C86 | monitor loop | induction over turns and errors |
| C87-C90 | registry, seeding | induction over histories of registrations; refutations by aliases |
| C91 | lifecycle stack | induction over entered classes |
| C92 | `_run_function` call of the body, `resolved_dependencies` names | binding of the merged keywords, parameter by parameter |
| C93 | `ClusterKeyValueStore` | run = last write of every key, by induction over histories |
| C94 | heartbeat gauges over `Model` states | partition of the stream and the queue |
| C95 | Redis pub/sub with glob patterns (`glob` follows Redis's stringmatchlen), any number of dockets and workers | invariants over histories; refutations by names and gaps |
| C96 | exit stacks of Docket, RedisConnection, StrikeList, ResultStorage, with any step of entering failing | composition of per-context lemmas; refutations for every failing step |
| C97 | the main loop's shutdown cancelled a second time | induction over schedules of the loop; nothing is started after the second cancellation; witness of a task left on the stream |
| C98 | every script that publishes, in `Model` | per script: what it appends to the log of events and what it does to the state of every key; composed over `fold_left` for the scheduler and the wake loops; then induction on histories |
| C99, C100 | two asyncio tasks with `Task.cancel`, `Task.__step`, `Future.cancel` (assumed as in CPython 3.10-3.13); the inner coroutine is an arbitrary transition system | invariant over all interleavings; refutations by small coroutines |
| C101 | the two events of a worker, `__aexit__`, any number of runs | invariant (one run in its loops, `_worker_done` set iff none) over orderly histories; three witnesses for the rest |
| C102 | `StrikeSys` with the five docket counters | per-step gain of each counter against the rise of the key's generation; witnesses for the rest |
| C103 | `Execute` events mapped to `Model` operations, interleaved with others | simulation: event acceptor, operation acceptor, phase of the execution; shape of the events by cases |
| C104 | joint histories of `WorkerLoop` and `Model` | C56 for the loop, C05 for the docket, an empty stream and queue leave the lines |
| C105 | histories of `step2` | the invariants of C07-C09, C11, C21, C23 do not look at phases after the body; C103's acceptor with further outcomes |
| C106 | histories of `pstep`: requests of the metrics page, interrupted between the steps of `collect` | invariant on each request (what it has given out against what it took), a second one for requests one at a time; dict facts for the target info |
| C107 | histories of `gstep`: operations of `Model` interleaved with the next call of any worker that has just parked a task | joint invariant: the waiter's entry and record (`Waits`), the safeguard's line (`Line`, from C10), its record and the place of the parking worker (`Reads`); liveness by the ranking argument of C66 with "the task leaves its line" as second goal; four computed histories for the refutations |
| C108 | histories of `xstep`: operations of `Model`, publications and the next call of any worker's subscriber | invariant `Own`: a place in hand is of its key, since entry ids are never reused; `Cleaning`: message before the subscriber, place in hand, or place gone; C05 lifted to the joint machine |
| C109 | histories of `cstep`: beginnings, ends and counts of calls | the list holds the running calls and the strikes; the counts of a running call are those since its beginning; refutations by sharing and by a second call |
| C110 | histories of `ta_step` | the name of an object is the written one or that of its first use; values by `Bind` (C80) |
| C111, C112 | histories of `ustep` and `bstep` | one invariant for a loop (the last pass that counts began at most so long ago), with "the queue holds nothing older" and "the worker is listed" in turn as what the pass achieves; refutation for missed_heartbeats = 1 |
| C113 | histories of `lkstep` | a pass holds the lock or its lifetime is over; refutations by a slow pass and by lock-step passes of two workers with different registries |
| C114 | `astep` | a task enters a slot set only by acquiring or by a renewal that arrives; invariant: free, not held, nothing on its way |
| C115 | histories of `dstep` | whoever is on a task's board knows the task; invariant: at rest and on no board; clock readings on the boards were sent |
| C116 | histories of `tstep` | time left until the head of the loop, the next look, the end: it shrinks by what each await may take; refutation for intervals below a millisecond |
| C117 | every duration up to 2^50 us | relative error 2^-53 of each rounding, hence whole milliseconds up to one; composed with C25, C27, C28; refutations for 1001 ms and for durations below a millisecond |
| C118 | histories of `Announce.astep` | recorded value plus increments on their way = sum; a new value is recorded, on its way or announced; one call at a time: one stage in flight determines the rest |
| C119 | reachable states of `Model` and any history after the message is read | the pending entry of the message has the time of its last delivery or renewal; refutation by every renewal |
| C120 | `Follow`, any interleaving of the docket and the caller | what was handed over is the announcements since the subscription up to the caller's place; with C98 the last of them is the record's state; refutation by an end between read and subscription |
| C121 | every history of `Model` | one lemma on what every operation does to a record, for any relation closed under the field updates; used for worker and start, and for state and end; refutations by reusing a key |
| C122 | every history of `Model` | the lemma of C121 on what every operation does to a record, for the expiry: an invariant for its bounds and one for its absence; refutations by a cancel cut short and by a dropped run, each followed by any lapse of time |
| C123 | every state of `Model` and every history from it | every operation that does not end the record of a key keeps it there and without expiry; induction over the history; refutations by reusing a key and by a clear during a run |
| C124 | every state of `Stack`, every entering and every sequence of uses | what each step of entering does to the attributes; the invariants of C96 for the states outside |
| C125 | every Sentinel URL in the sense of `SpecUrl`, every decoding flag and timeout | C82 (the parser reads what is written) and C84 (no reserved option is left); then which of the three layers of a dict answers |
| C126 | every number of Sentinel clients and every way in which each closing ends | induction over the clients |
| C127 | every sequence of registrations, every environment of modules, every list of collections | induction over the calls: the last accepted call that gives a name decides; collections are sequences of such calls |
| C128 | every command, all options, every environment | cases over the commands; the value of an option against an inductive specification of what it means |
| C129 | every set of registered tasks, all signatures | induction over parameters and tasks against an inductive specification of the line |
| C130 | every server state, every sequence of removals of the group, every number of attempts | induction over the attempts |
| C131 | every server state, every sequence of removals of the group and of refusals, every number of attempts | induction over the attempts |
| C132 | every sequence of attempts, every delay, every moment of the stop | induction over the attempts |
| C133 | every pair of ports, whichever are taken, every body | cases over the two context managers |

Refuted properties are recorded as `..._refuted` theorems (a concrete history in
the model) next to the strongest positive statement found; those positive
statements are called `..._partial` and the property has status "partial".

## What of the code is modelled

| file under `src/docket` | modelled | not modelled |
|---|---|---|
| `docket.py` | `add`, `replace`, `schedule`, `cancel`, `clear`, `get_execution`, `register`, key helpers, strike/restore, scripts `_cancel_task`, entering and leaving, `register_collection` (C127), the counters of the calls (C102) | importing modules, telemetry spans |
| `execution.py` | all scripts, `schedule`, `claim`, terminal marks, `sync`, `subscribe`, `get_result`, `as_message`/`from_message`, `call_repr`, `get_argument`, `compact_signature` (C129) | type-plumbing |
| `worker.py` | `_worker_loop`, scheduler and its loop (C111), redelivery, delivery, leases, heartbeats and their loop (C112), `_execute`, cancellation listener's effect, `run_at_most`, seeding, lifecycles, entering and leaving (C101), the log at the start (C129), reconnecting (C132), the servers around a run (C133) | process signals, structured logging |
| `strikelist.py` | values, operators, strike/restore, matching, wire format, monitor loop, gauge, entering and leaving, the condition list (C109) | |
| `agenda.py` | `scatter`, `add` | |
| `annotations.py` | `annotated_parameters`, `Logged` | |
| `dependencies/*` | retry, timeout, perpetual, cron (times given), concurrency, rate limit, cooldown, debounce, progress, contextual/functional arguments, resolution | `cronsim`, the library `uncalled_for`, logger adapters |
| `_execution_progress.py`, `_docket_snapshot.py`, `_result_store.py` | as cited in `Progress.v`, `Snapshot.v`, `Heartbeat.v`, `GetResult.v`, `Execute.v` | py-key-value |
| `_redis.py`, `_redis_sentinel.py` | URL handling, cache of memory servers, hash-tagged prefix, entering and leaving, arguments of the Sentinel pool and its closing (C125, C126) | the pools themselves, TLS, retries of the client library |
| `_lua.py`, `_uuid7.py`, `_prometheus_exporter.py`, `testing.py` | as cited in `LuaCall.v`, `Uuid7.v`, `Prom.v`, `Scrape.v`, `Stats.v` | rendering by prometheus_client |
| `instrumentation.py` | trace carriers (C75), counters of `_execute` (C61) and of the docket (C102) | meters, span attributes |
| `cli/*` | durations, values and operators of strikes, `watch`, statistics, the docket of each command (C128) | tables, prompts, the other options, commands that only forward |
| `_cancellation.py` | `cancel_task`, `is_our_cancellation` (C99) | |
| `tasks.py`, `_telemetry.py`, `__init__.py` | | all |

## Mutation testing

`seeded/LOG.jsonl` has one line per attempt: hand-written wrong programs, each
with the claim it breaks, and a systematic sweep that edits comparisons,
constants, branches and connectives of every model definition.  An edit that left
all theorems provable led to a tighter theorem (named in the line) or is noted as
not changing the claimed behaviour.

## Trusted base

* The Coq 8.16.1 kernel (with `vm_compute` for concrete examples).
* `Print Assumptions` prints "Closed under the global context" for every theorem
  listed in `MANIFEST.json`: no axiom is used, neither an own one nor one of the
  standard library.  (Loading the standard library also loads
  `Coq.ssr.ssrunder`, whose seven interface constants `Under_rel.*` a listing of the
  whole environment shows; no theorem depends on them.)
* The reading of the code: nothing is executed or extracted, the definitions are
  transcriptions checked by eye, with file and lines cited.
* The behaviour of Redis commands, of Python's standard library and of asyncio as
  stated at the definitions that model them.
