{"id": "C01", "title": "A key that is scheduled, queued or running is never scheduled twice by add", "statement": "While a task with key K has been accepted and not yet started, or is running, every add() of K reports ALREADY_SCHEDULED and leaves the pending schedule (its time, function and arguments) exactly as it was; the call that was accepted first is the one whose arguments will be used.", "quantifier": "for every history of API calls, scheduler passes, deliveries, claims, retries, crashes and clock ticks, and every key", "why_tests_cant": "A test checks one or two adds in a fixed order; the claim is about every point in the life of the first task at which a second add may arrive.", "anchors": ["src/docket/execution.py: _schedule (non-replace branch), Execution.schedule", "src/docket/docket.py: Docket.add"]}
{"id": "C02", "title": "The disposition an add/replace call reports is the truth", "statement": "If the call reports SCHEDULED then exactly one new run of that key, with the given function, arguments and time, has been placed (on the stream when due, on the future queue otherwise) and the key's record shows it; if it reports ALREADY_SCHEDULED or STRUCK then no stored data and no published event changed at all.", "quantifier": "for every reachable docket state, every strike list and every call", "why_tests_cant": "Tests look at a few fields after a few calls; 'nothing else changed' is a statement about the whole store in every state.", "anchors": ["src/docket/execution.py: _schedule, Execution.schedule, Disposition", "src/docket/docket.py: Docket.add, Docket.replace, Docket.schedule"]}
{"id": "C03", "title": "A replaced schedule never starts afterwards", "statement": "Once replace() of key K has been accepted, no run of K that was accepted before it can be claimed and started later, no matter which worker holds a copy of the old message, as long as K's record is retained.", "quantifier": "for every reachable state and every continuation (any number of workers, redeliveries, retries, crashes) during which K's record does not expire", "why_tests_cant": "The race needs an old message in the hands of a stalled worker; the interleavings cannot be enumerated by tests.", "anchors": ["src/docket/execution.py: _schedule (replace branch), _claim, is_superseded"]}
{"id": "C04", "title": "The replacement is what runs", "statement": "After replace(K) has been accepted, and with no further calls for K, the next run of K to start has the replacement's function and arguments.", "quantifier": "for every reachable state and every continuation with no further API call on K", "why_tests_cant": "Requires every interleaving of the replaced run's own retry or admission-control reschedule with the replacement.", "anchors": ["src/docket/execution.py: _schedule (reschedule branch has no supersession check)", "src/docket/dependencies/_retry.py: Retry.handle_failure", "src/docket/worker.py: process_completed_tasks", "src/docket/dependencies/_concurrency.py: _acquire_or_park, _release_and_wake"]}
{"id": "C05", "title": "No accepted task is lost, whatever crashes", "statement": "As long as a key's record says a run is pending, the run's message is stored in the docket: either on the future queue together with its payload, or on the stream from which a worker will receive it. No crash, redelivery, superseded run, retry or cancellation of other keys removes it.", "quantifier": "for every history of operations including worker crashes at any point between two server commands", "why_tests_cant": "Loss shows only under a crash or interleaving at one precise point; a test covers the points its author thought of.", "anchors": ["src/docket/execution.py: _schedule, _claim, _terminal", "src/docket/worker.py: _stream_due_tasks, _worker_loop", "src/docket/docket.py: _cancel_task"]}
{"id": "C06", "title": "A surviving worker can always pick the task up", "statement": "From every reachable state in which a run of K is pending, if all workers die and one fresh worker polls (scheduler pass, redelivery, new deliveries, claim), that run of K is started by it.", "quantifier": "for every reachable state and every pending key", "why_tests_cant": "It is an existential liveness statement over all reachable states, including those left by arbitrary crashes.", "anchors": ["src/docket/worker.py: _scheduler_loop, get_redeliveries, get_new_deliveries, _execute"]}
{"id": "C07", "title": "No task starts before its time", "statement": "A task body never starts before the time it was (re)scheduled for, up to the clock skew between the machines.", "quantifier": "for every history, every task, every retry or reschedule, and every skew bound", "why_tests_cant": "Tests use one clock and a few delays; the claim covers all orders of scheduler passes, replacement of times, retries and deliveries.", "anchors": ["src/docket/execution.py: Execution.schedule (is_immediate)", "src/docket/worker.py: _stream_due_tasks"]}
{"id": "C08", "title": "The scheduler moves exactly the due tasks", "statement": "One scheduler pass at time t appends to the stream exactly the future tasks whose time is at or before t, each once, in time order, removes exactly those from the future queue, and leaves every later task and every other record as it was.", "quantifier": "for every store state and every t", "why_tests_cant": "Exactness over any number of tasks with any times (ties, missing payloads) cannot be sampled.", "anchors": ["src/docket/worker.py: _stream_due_tasks"]}
{"id": "C09", "title": "Each accepted run starts at most once unless redelivered", "statement": "Without redelivery (no worker stalls past redelivery_timeout), each accepted schedule of a key starts the task body at most once; with redelivery, at most once per delivery.", "quantifier": "for every history and every number of workers", "why_tests_cant": "The duplicates arise from interleavings of several workers, schedulers and retries.", "anchors": ["src/docket/worker.py: get_new_deliveries, get_redeliveries, start_task, _execute", "src/docket/execution.py: _claim"]}
{"id": "C10", "title": "One key never runs twice at the same time", "statement": "If nobody calls replace() or cancel()/clear() on K, its record is retained and no message is redelivered, then at no moment are two bodies of tasks with key K running.", "quantifier": "for every history satisfying those conditions, any number of workers", "why_tests_cant": "Mutual exclusion is a property of all interleavings.", "anchors": ["src/docket/execution.py: _schedule, _claim, _terminal", "src/docket/worker.py: _execute, process_completed_tasks"]}
{"id": "C100", "title": "Past its deadline a run ends as timed out, and a cancelled one as cancelled", "statement": "When a task with a Timeout is past its deadline, Timeout.run stops it and raises TimeoutError; when the run was cancelled - before the deadline or while the task is being stopped - it ends with CancelledError.", "quantifier": "for every coroutine, every order of the event loop's steps and every moment of a cancellation", "why_tests_cant": "A race between the deadline and a cancellation, for arbitrary reactions of the task to being cancelled.", "anchors": ["src/docket/dependencies/_timeout.py: Timeout.run", "src/docket/_cancellation.py: cancel_task", "src/docket/worker.py: _handle_cancellation"]}
{"id": "C101", "title": "Leaving a worker waits for its runs", "statement": "Worker.__aexit__ tells the runs of the worker to stop and takes the worker down (shared context, attributes) only when no run is in its loops; a run in its loops ends at its next look at the signal, and __aexit__ never waits when there is nothing to wait for.", "quantifier": "for every number of calls of run_forever/run_until_finished/run_at_most and every interleaving of their starts, looks and ends with __aexit__", "why_tests_cant": "Whether a run starts before, during or after __aexit__ depends on the event loop's scheduling; tests enter, run and leave in one order.", "anchors": ["src/docket/worker.py: Worker.__aenter__", "src/docket/worker.py: Worker.__aexit__", "src/docket/worker.py: Worker._run"]}
{"id": "C102", "title": "The docket's counters tell what the calls did", "statement": "Over all processes, docket_tasks_scheduled is the number of runs the calls of add, replace and schedule placed; docket_tasks_added and docket_tasks_replaced are those placed by add and by replace; docket_tasks_cancelled is the number of tasks that were taken off the docket; docket_tasks_stricken (where=docket) is the number of calls a strike blocked.", "quantifier": "for every history of calls, strikes, cancellations, workers, crashes and lost answers on one docket", "why_tests_cant": "The counters are sums over all calls of all processes in every state of the store; tests look at one call at a time with a mocked counter.", "anchors": ["src/docket/docket.py: Docket.add", "src/docket/docket.py: Docket.replace", "src/docket/docket.py: Docket.schedule", "src/docket/docket.py: Docket.cancel", "src/docket/instrumentation.py: TASKS_ADDED, TASKS_REPLACED, TASKS_SCHEDULED, TASKS_CANCELLED, TASKS_STRICKEN"]}
{"id": "C103", "title": "With one message a worker makes one pass", "statement": "Everything a worker does to the docket with one delivered message is one pass: it strikes it, or finds it superseded, or claims it, possibly takes a slot or waits in line, runs the body, and settles it once; it does nothing more to the docket for a message it has settled than give the slot back. No operation of the pass meets the message in a state it does not expect, whatever other callers and workers do in between.", "quantifier": "for every state with a delivered message, every behaviour of dependencies, body, handlers and storage, and every interleaving with operations of others", "why_tests_cant": "The claim quantifies over all scripts of dependencies and bodies at once with all interleavings of other workers' operations; tests run chosen tasks against chosen neighbours.", "anchors": ["src/docket/worker.py: Worker._execute, _worker_loop process_completed_tasks", "src/docket/execution.py: _schedule, _claim, _terminal", "src/docket/dependencies/_concurrency.py: ConcurrencyLimit"]}
{"id": "C104", "title": "run_until_finished returns when everything is finished", "statement": "When run_until_finished returns by itself, every task accepted before its last look at the docket has been finished, by this worker or another; and it returns once it finds that nothing is left.", "quantifier": "for every history of the worker's loop together with every history of the docket: any callers, other workers, crashes, redeliveries, retries", "why_tests_cant": "The docket is looked at in one moment and through two lengths only; whether they account for every accepted task is an invariant over all interleavings of callers, schedulers and other workers.", "anchors": ["src/docket/worker.py: run_until_finished, _worker_loop, check_for_work", "src/docket/execution.py: _schedule, _claim, _terminal"]}
{"id": "C105", "title": "Further outcomes of a message that has one do no further harm", "statement": "Also where a worker gives a message another outcome after the first (a completed run whose dependencies raise when they are left is retried, or marked as failed): everything the worker does with the message is carried out; no body starts before its time; the scheduler moves exactly the due tasks; the bodies that start are at most as many as the accepted calls, the redeliveries and the reschedules, and each delivery starts at most one; a concurrency limit is not exceeded; messages leave the stream only for a stated reason; other keys are not touched; and a run that was completed is not started again.", "quantifier": "for every history in which executions that are over may be marked or rescheduled again, every worker behaviour, every key and limit", "why_tests_cant": "the second outcome needs a dependency that fails while it is left, after the run was recorded as completed; which guarantees survive it, for all interleavings with other workers, is not visible in single runs", "anchors": ["src/docket/worker.py:693-734", "src/docket/worker.py:1101-1235", "src/docket/execution.py:57-241", "src/docket/execution.py:322-440", "src/docket/dependencies/_retry.py:99-113"]}
{"id": "C106", "title": "Every request of the metrics page gets its own measurements", "statement": "Each request of the metrics page is answered with every point of the metrics collected for it, once, together with the target info; no request fails, and no batch of metrics is shown on two pages or left over.", "quantifier": "for every number of requests, every interleaving of their threads between the steps of collect, every metrics data the SDK hands over and either setting of disable_target_info", "why_tests_cant": "The server answers each request in its own thread and all share one deque; which thread pops which batch depends on preemption between the tests of the deque and its uses, which a test cannot enumerate.", "anchors": ["src/docket/_prometheus_exporter.py: _CustomCollector.collect, add_metrics_data, PrometheusMetricReader._receive_metrics", "src/docket/instrumentation.py: metrics_server"]}
{"id": "C107", "title": "A waiting task always has a safeguard", "statement": "Whenever a task waits for a concurrency slot, its safeguard task is pending and will be run, or the worker that parked the task is about to add it: so even if every holder dies without releasing, the safeguard runs one redelivery timeout later, finds the slots stale and serves the line.", "quantifier": "for every history of the docket and every interleaving of the parking worker's separate calls (add, read of the record, cancel) with the calls of everybody else", "why_tests_cant": "The parking worker makes three or four separate round trips after the park script; whether the safeguard survives depends on what others do between any two of them, on crashes between them and on the expiry of records.", "anchors": ["src/docket/dependencies/_concurrency.py: ConcurrencyLimit.__aenter__ (lines 596-624), _safeguard_wake, _scavenge_and_wake", "src/docket/docket.py: Docket.add, cancel, clear"]}
{"id": "C108", "title": "Cleaning up after a cancellation removes what was cancelled and nothing else", "statement": "When a task that waits for a concurrency slot is cancelled, the workers that listen to cancellations take it out of its waiting line and drop its safeguard. They remove only what belongs to the cancelled task: no place, record or progress of another key, and nothing of a task that is added later under the same key.", "quantifier": "for every history of docket operations, publications and steps of the subscribers of all workers, interleaved between any two calls to Redis, with subscribers that end and workers that die", "why_tests_cant": "Each worker reads the place of the task, runs a script and cancels the safeguard in separate calls, and every worker does so for every cancellation; what goes wrong depends on what others do in between and on which worker is slow.", "anchors": ["src/docket/dependencies/_concurrency.py: ConcurrencyLimit._cancel_subscriber, _cleanup_cancelled_waiter, _cancel_cleanup", "src/docket/docket.py: Docket.cancel, _cancel"]}
{"id": "C109", "title": "run_at_most limits its own worker, and only while it runs", "statement": "While calls of run_at_most are running, a worker finds a key stricken exactly when a strike matches it or when the worker's own call has used up its iterations of that key; asking never fails, and a call that has ended, in whatever order, leaves no trace.", "quantifier": "for every history of beginnings, ends and counted executions of run_at_most calls of any number of workers that share a Docket object", "why_tests_cant": "The condition list is shared by all users of a Docket object; tests run one call at a time, and the outcome depends on how calls of several workers overlap and in which order they end.", "anchors": ["src/docket/strikelist.py: add_condition, remove_condition, is_stricken", "src/docket/worker.py: run_at_most, _execute"]}
{"id": "C11", "title": "Messages leave the stream only for a stated reason", "statement": "A task message disappears from the stream only when: a run delivered from it finished (or was rescheduled or parked), a worker found it superseded, its key was replaced or cancelled, or clear() ran. When a run finishes, its message is neither on the stream nor pending. Once a run has been claimed, cancelling or replacing its key does not remove its message: it leaves only through a run delivered from it, or clear().", "quantifier": "for every store state and every operation", "why_tests_cant": "An 'only when' claim quantifies over all operations and all states.", "anchors": ["src/docket/execution.py: _schedule, _claim, _terminal", "src/docket/docket.py: _cancel_task, Docket.clear", "src/docket/worker.py: process_completed_tasks"]}
{"id": "C110", "title": "A TaskArgument stands for the argument it is declared for", "statement": "A TaskArgument with a name looks up the task's argument of that name, one without a name the argument named like the dependency parameter it is the default of, whatever the process has resolved before; as the default of a parameter of the task itself an unnamed one is an error.", "quantifier": "for every history of resolutions in a process, every object, call and parameter", "why_tests_cant": "The name is stored in the shared default object at its first resolution and kept for the life of the process, so the outcome depends on everything resolved before; a test begins with fresh objects.", "anchors": ["src/docket/dependencies/_contextual.py: _TaskArgument", "src/docket/dependencies/_functional.py: _Depends._resolve_parameters", "src/docket/dependencies/_resolution.py: resolved_dependencies"]}
{"id": "C111", "title": "A due task leaves the future queue within a scheduling period", "statement": "While some worker's scheduler loop runs, with at most f failed passes in a row, no task in the future queue is overdue by f+1 cycles (scheduling_resolution, lateness of the timer, duration of a pass), one pass and the lag of the clocks; and a loop that is neither stopped nor crashed always goes on, whatever its passes raise.", "quantifier": "for every history of the docket beside any number of scheduler loops, every f, every resolution, delay and clock lag", "why_tests_cant": "The bound has to hold for every placement of the passes between clock readings, script runs, adds and reschedules of other processes with lagging clocks; a test sees one schedule of events.", "anchors": ["src/docket/worker.py: _scheduler_loop, _wait_for_event, _stream_due_tasks", "src/docket/execution.py: schedule"]}
{"id": "C112", "title": "A worker that sends its heartbeats is in every listing", "statement": "A worker whose heartbeat loop runs and whose heartbeats arrive is shown by every listing of workers and of its tasks' workers, whatever missed_heartbeats is, whoever else sends, withdraws or lists.", "quantifier": "for every history of heartbeat loops, withdrawals and listings, every interval, delay, number of failures in a row and difference of clocks", "why_tests_cant": "Whether a worker is purged depends on the timing of its loop against the clocks of every other process that sends a heartbeat or lists; tests run one worker with comfortable margins.", "anchors": ["src/docket/worker.py: _heartbeat, _wait_for_event", "src/docket/_docket_snapshot.py: workers, task_workers"]}
{"id": "C113", "title": "Seeding passes exclude each other and shut no worker out", "statement": "No two workers are in a seeding pass at the same time; a lock left by a crash or an endless pass is free again after its lifetime; a pass that gets the lock and ends has met every automatic task of its worker with a live schedule; and a worker that keeps making passes has its automatic tasks seeded.", "quantifier": "for every history of passes, exceptions, crashes and lost schedules of any number of workers", "why_tests_cant": "It takes several workers with different registries whose passes overlap, a crash inside a pass or a pass slower than the lock; tests seed with one worker at a time.", "anchors": ["src/docket/worker.py: _schedule_all_automatic_perpetual_tasks, _reseed_automatic_perpetual_tasks_loop, _automatic_perpetual_is_live"]}
{"id": "C114", "title": "A released slot is free", "statement": "Once the task that holds a concurrency slot has released it, no slot counts as taken for that task until it acquires one again.", "quantifier": "for every history of tasks, acquisitions, renewals on their way, releases, crashes and redeliveries", "why_tests_cant": "The renewal that matters has to be between client and store at the moment the loop is cancelled; tests against a local or in-memory Redis never see a command arrive after a later one.", "anchors": ["src/docket/dependencies/_concurrency.py: _renew_lease_loop, _release_and_wake, ConcurrencyLimit.__aenter__, _ACQUIRE_OR_PARK", "src/docket/_cancellation.py: cancel_task"]}
{"id": "C115", "title": "A listing shows a worker while it works and not afterwards", "statement": "When a worker has stopped and withdrawn its heartbeat, no listing of workers or of a task's workers shows it until it comes back; while it runs tasks, listings show it; and a worker that leaves takes no other worker off a listing.", "quantifier": "for every history of workers that come, register tasks, send heartbeats (which may be lost or late), stop and withdraw, and of listings", "why_tests_cant": "It depends on heartbeats between client and store, on failing withdrawals, on earlier incarnations of a name and on how many workers share one.", "anchors": ["src/docket/worker.py: Worker.__init__, _worker_loop, _heartbeat, _remove_heartbeat", "src/docket/_docket_snapshot.py: workers, task_workers"]}
{"id": "C116", "title": "An idle worker looks around, notices that it is to stop, and finishes, in time", "statement": "However long nothing arrives, a worker in its loop with room for a task looks for abandoned messages once per lap of its loop, leaves the loop within a lap once it is told to stop, and run_until_finished on an empty docket returns; a lap is bounded by the check interval, the requests and the handling of as many tasks as it runs at once.", "quantifier": "for every minimum_check_interval, concurrency, network and processing delay, and every sequence of replies, completions, cancellations and signals", "why_tests_cant": "It bounds the time of every history of the loop; a test waits for one particular interval, and an endless wait shows only as a test that hangs.", "anchors": ["src/docket/worker.py: Worker.__init__, _worker_loop, get_new_deliveries, get_redeliveries, check_for_work"]}
{"id": "C117", "title": "A duration given to an admission control is the one enforced", "statement": "RateLimit(n, per), Cooldown(window) and Debounce(settle) enforce the duration they are given: at most n admissions in every interval of length per, admissions at least window apart, and proceeding only after settle of quiet, whatever positive duration it is.", "quantifier": "for every duration in microseconds up to 2^50 and every sequence of requests with non-decreasing clocks", "why_tests_cant": "The duration becomes whole milliseconds through a floating point product; which durations lose a millisecond depends on their binary expansion (1001 ms does, 1000 and 1002 do not), and tests use a few round values.", "anchors": ["src/docket/dependencies/_ratelimit.py: _ratelimit, RateLimit.__aenter__", "src/docket/dependencies/_cooldown.py: Cooldown.__aenter__", "src/docket/dependencies/_debounce.py: _debounce, Debounce.__aenter__"]}
{"id": "C118", "title": "Whoever follows the progress events of a run knows its progress", "statement": "When no report of a run is on its way, the recorded value is the sum of its increments, and the last progress event shows the recorded value, total and message, also when the body reports from several places at once.", "quantifier": "for every number of overlapping increment(), set_total() and set_message() calls of one run and every order in which requests, replies and publications arrive", "why_tests_cant": "increment() counts and publishes in two round trips and the events are built from attributes of a shared object; which event comes last depends on the order of arrival, and tests report one after the other.", "anchors": ["src/docket/_execution_progress.py: _progress_write, ExecutionProgress.increment, ExecutionProgress.set_total, ExecutionProgress.set_message, ExecutionProgress._publish"]}
{"id": "C119", "title": "A snapshot shows since when each task is running", "statement": "The start time a snapshot shows for a running task is the time at which its message was delivered to the worker that runs it, however long the task has been running.", "quantifier": "for every reachable docket, every message read by a worker and every history afterwards", "why_tests_cant": "The time is computed from Redis' idle time, which the workers' lease renewals reset every quarter of the redelivery timeout; tests take snapshots of tasks that run for milliseconds, before the first renewal.", "anchors": ["src/docket/_docket_snapshot.py: DocketSnapshotMixin.snapshot, RunningExecution", "src/docket/worker.py: Worker._renew_leases"]}
{"id": "C12", "title": "Rescheduling a running task is atomic", "statement": "When a retry or admission control reschedules a run, then before and after that single step exactly one live copy of the task exists: a crash on either side neither loses nor duplicates it.", "quantifier": "for every reachable state and every reschedule", "why_tests_cant": "Needs a crash exactly between acknowledging and rescheduling.", "anchors": ["src/docket/execution.py: _schedule (reschedule branch)", "src/docket/dependencies/_retry.py: Retry.handle_failure"]}
{"id": "C120", "title": "Whoever subscribes to a task is shown its state", "statement": "A caller of Execution.subscribe is given the task's current state first and then every state announced for it, each once and in order, so that having read everything it was shown last what the record says.", "quantifier": "for every reachable docket, every key, and every interleaving of the docket's operations with the first read, the subscription and the reading of messages", "why_tests_cant": "The first read and the SUBSCRIBE are separate requests, with two yields to the caller in between; the tests wait for the ready event before they let the task go on, so nothing happens in the gap.", "anchors": ["src/docket/execution.py: Execution.subscribe, Execution.sync"]}
{"id": "C121", "title": "A record speaks of the latest run", "statement": "The worker, start, end and error that the record of a key shows are those of its latest run: the worker and start of the latest claim, the end and the error of the latest end, and nothing of an earlier run.", "quantifier": "for every history of calls, worker steps, crashes and redeliveries, and every key", "why_tests_cant": "Fields of a Redis hash stay until something removes them, so whether a field is of this run depends on every run the key had before; tests use a fresh key for each task.", "anchors": ["src/docket/execution.py: _schedule, _claim, _terminal, Execution.sync", "src/docket/docket.py: _cancel_task"]}
{"id": "C122", "title": "Records of finished tasks are kept for execution_ttl and no longer", "statement": "A record that says completed, failed or cancelled is removed by the store at the latest execution_ttl after the task ended; no record of a key of which nothing is stored any more is kept for ever.", "quantifier": "for every history of adds, replacements, cancels, reads, claims, ends, perpetual successors, concurrency parking, redeliveries, clears, crashes between requests and lapses of time, for every key and every execution_ttl", "why_tests_cant": "A leak shows only after the ttl has passed and only for particular crash points or reuse of keys; tests look at the ttl of one record right after one run.", "anchors": ["src/docket/execution.py: _terminal", "src/docket/docket.py: _cancel_task, Docket._cancel, Docket.clear", "src/docket/worker.py: _stream_due_tasks"]}
{"id": "C123", "title": "A task that has not ended has its record", "statement": "From the moment a task is accepted until one of its runs is marked as ended, its cancel is complete or a clear applies to it, the docket has a record of the task; no run of it is turned away for want of a record.", "quantifier": "for every state in which a task is accepted, every history of any length that follows (replacements, cancels, clears, crashes, redeliveries, concurrency parking, any lapse of time), every key", "why_tests_cant": "A missing record makes the worker drop the run silently as superseded; it depends on expiries set by earlier uses of the key or by calls about other keys, arbitrarily long before.", "anchors": ["src/docket/execution.py: _schedule, _claim, _terminal", "src/docket/docket.py: _cancel_task, Docket._cancel, Docket.clear", "src/docket/worker.py: _stream_due_tasks"]}
{"id": "C124", "title": "A docket talks to the server of its URL", "statement": "Every request that a call of a docket makes - command, subscription or publication - goes to the server, cluster or in-process server that the docket's URL names; otherwise the call raises.", "quantifier": "for every kind of URL and result storage, every sequence of enterings and leavings with any failures in them, every call", "why_tests_cant": "The choice depends on which attributes earlier enterings, failed enterings and leavings have left; tests run inside the context and against a server on localhost, where a wrong choice goes unnoticed.", "anchors": ["src/docket/_redis.py: RedisConnection.client, RedisConnection.pubsub, RedisConnection.publish, RedisConnection._cluster_pubsub, RedisConnection.__aenter__", "src/docket/docket.py: Docket.redis, Docket._pubsub, Docket._publish, Docket.__aenter__"]}
{"id": "C125", "title": "Connections through Sentinel are what the URL says", "statement": "The data connections of a redis+sentinel:// or rediss+sentinel:// URL use the database of its path and the credentials before its @, whatever the query says; they use TLS exactly if the scheme (or an ssl option) says so; every other query option is used as written and wins over docket's own setting; and what the URL does not mention is docket's setting: the read timeout and decoding asked for, and TCP keepalive. The Sentinels listed are asked with the credentials of sentinel_username and sentinel_password, never those of the data nodes, and with the same TLS and timeouts.", "quantifier": "for every well-formed Sentinel URL, every decoding flag, read timeout, option name and option value", "why_tests_cant": "Tests look at a few URLs; which of three layers of settings wins, for every option name and every value including escapes and blanks, is a statement about all of them.", "anchors": ["src/docket/_redis_sentinel.py: parse_sentinel_url, sentinel_connection_pool", "src/docket/_redis.py: _connection_pool_from_url"]}
{"id": "C126", "title": "Leaving a docket closes its clients of the Sentinels", "statement": "When a docket on a Sentinel URL is left, every client of a Sentinel daemon is asked to close, whichever of the other closings fail, and no such failure reaches the one who leaves.", "quantifier": "for every number of Sentinels and every way in which closing the pool and each client may end", "why_tests_cant": "Closing hardly ever fails in a test (the error branch of close_resource is marked 'no cover'), and which clients are left open depends on which closing fails first.", "anchors": ["src/docket/_redis_sentinel.py: aclose", "src/docket/_redis.py: close_resource"]}
{"id": "C127", "title": "A registered function is found under its name", "statement": "After registering functions and collections (by register, register_collection or Worker.run), every registered function is found under each name it was registered with; a call that fails registers nothing; and names that were not given keep their meaning.", "quantifier": "for every sequence of registrations, every content of the modules, every list of collection paths and every name", "why_tests_cant": "Tests register a few functions of different names; the claim is about all sequences, with names that coincide and functions that are refused.", "anchors": ["src/docket/docket.py: register, register_collection", "src/docket/worker.py: run"]}
{"id": "C128", "title": "All commands of the CLI work on the same docket", "statement": "With the same options and the same environment all commands of the CLI work on the same docket on the same server: the ones of --docket and --url, else of DOCKET_NAME and DOCKET_URL, else the defaults. A URL of the memory backend, which other processes cannot see, is refused, and no other is.", "quantifier": "for every command, all values of the options, every environment and every URL", "why_tests_cant": "The tests pass --url and --docket to each command; that all eleven commands agree for every environment, and which spellings of a memory URL get through, is not looked at.", "anchors": ["src/docket/cli/__init__.py: worker, strike, clear, restore, trace, fail, sleep, snapshot, watch, list_workers, workers_for_task", "src/docket/cli/_support.py: validate_url"]}
{"id": "C129", "title": "A worker starts with any registered tasks and says which it has", "statement": "A worker gets to work whatever functions are registered, after logging one line for each of them, in order, with its name and signature: the parameters with their types and defaults, and ... for dependencies.", "quantifier": "for every list of registered tasks and every signature: names, annotations, defaults and dependencies", "why_tests_cant": "The tests register a handful of signatures; annotations are arbitrary objects, and the log is written outside of any exception handler.", "anchors": ["src/docket/worker.py: _run, _startup_log", "src/docket/execution.py: compact_signature"]}
{"id": "C13", "title": "Retry limits and delays are respected", "statement": "A task with Retry(attempts=n, delay=d) is started at most n times for one accepted schedule (absent redelivery), each retry is placed no earlier than d after the failure, and it is retried after every failure before the n-th; with attempts=None it is always retried.", "quantifier": "for every n, d, every sequence of outcomes", "why_tests_cant": "Unbounded sequences of attempts and all parameter values.", "anchors": ["src/docket/dependencies/_retry.py: Retry, ExponentialRetry"]}
{"id": "C130", "title": "A snapshot comes to an end", "statement": "A snapshot of a docket whose consumer group is missing creates the group and answers at the next attempt, or after as many attempts as the group is removed in between; and a snapshot that cannot be taken because the server refuses a command raises an exception instead of trying for ever.", "quantifier": "for every state of the server, every sequence of removals of the group by others, every error text and every number of attempts", "why_tests_cant": "Tests see one missing group; errors of other kinds and groups removed again and again between the attempts need faults that the test server does not have.", "anchors": ["src/docket/_docket_snapshot.py: snapshot", "src/docket/docket.py: _ensure_stream_and_group"]}
{"id": "C131", "title": "A worker creates a missing consumer group and reads", "statement": "A worker that finds the consumer group of its docket missing creates it and reads again, as often as the group is removed in between, and has its messages by the first attempt before which nobody removes it; any other error of reading, at whichever attempt, and any error of creating the group ends the call with an exception.", "quantifier": "for every state of the server, every sequence of removals of the group and of refusals, every error text and every number of attempts", "why_tests_cant": "Tests see one missing group; repeated removal and other errors of the server between the attempts are not produced by them (the branches are marked 'no cover').", "anchors": ["src/docket/worker.py: get_redeliveries, get_new_deliveries", "src/docket/docket.py: _ensure_stream_and_group"]}
{"id": "C132", "title": "A worker reconnects after reconnection_delay until it is told to stop", "statement": "After a connection error a running worker starts its next attempt exactly reconnection_delay later and counts the disruption, however many errors there are; the first attempt that ends in another way ends the run in that way. Once told to stop it starts no attempt, ends without waiting further, or with the attempt that is under way, and counts no more disruptions.", "quantifier": "for every sequence of attempts, their ends and durations, every delay and every moment at which the worker is told to stop", "why_tests_cant": "Tests produce one or two disruptions; sequences of any length and a stop at any moment of an attempt or a wait are not run through.", "anchors": ["src/docket/worker.py: _run, _wait_for_event"]}
{"id": "C133", "title": "The health and metrics ports are open exactly while the worker runs", "statement": "Worker.run listens on the ports asked for, and serves them, while the worker runs; if a port cannot be had it raises without starting the worker; and when it has ended, in whatever way, no port is open and no server thread is left.", "quantifier": "for every choice of ports (also none or twice the same), every set of ports taken by others and every way in which the worker ends", "why_tests_cant": "Tests start the servers on free ports and end normally; ports that are taken and workers that raise combine with both servers in more ways than are tried.", "anchors": ["src/docket/instrumentation.py: healthcheck_server, metrics_server", "src/docket/worker.py: run"]}
{"id": "C14", "title": "A cancelled task that has not started never starts", "statement": "After cancel(K) on a task that is scheduled or queued and not yet picked up by a worker, that run of K never starts.", "quantifier": "for every reachable state and every continuation without a new add/replace of K", "why_tests_cant": "Depends on where the message is (future queue, stream, moved by the scheduler, parked on a concurrency limit) and on the interleaving.", "anchors": ["src/docket/docket.py: _cancel_task, Docket.cancel", "src/docket/worker.py: _stream_due_tasks", "src/docket/dependencies/_concurrency.py: _release_and_wake"]}
{"id": "C15", "title": "Cancel is safe to repeat and frees the key", "statement": "cancel(K) twice has the same stored effect as once, never turns a completed or failed task into a cancelled one, touches no other key, and a later add(K) is accepted.", "quantifier": "for every store state", "why_tests_cant": "All states, including cancelling keys that do not exist.", "anchors": ["src/docket/docket.py: _cancel_task, Docket._cancel"]}
{"id": "C16", "title": "A superseded run cannot disturb its successor", "statement": "When a run that has been replaced finishes, fails or is cancelled, the successor's record (state, time, arguments, worker) and its progress are unchanged, its message stays, and only the superseded run's own message is removed.", "quantifier": "for every reachable state and every superseded run", "why_tests_cant": "All interleavings of predecessor completion with successor scheduling, claiming and progress reporting.", "anchors": ["src/docket/execution.py: _terminal, _claim"]}
{"id": "C17", "title": "Reported states follow the life cycle", "statement": "The state an observer reads for a key changes only along scheduled->queued->running->completed/failed/cancelled, back to scheduled/queued through a new schedule, retry or park, and to cancelled by cancel; a run that finished is not reported as pending again without a new schedule.", "quantifier": "for every history and key", "why_tests_cant": "Every pair of consecutive observations in every history.", "anchors": ["src/docket/execution.py: ExecutionState, _schedule, _claim, _terminal", "src/docket/worker.py: _stream_due_tasks"]}
{"id": "C18", "title": "get_result returns the latest run's outcome", "statement": "After the latest run of K completed, get_result returns the value that run returned (None if it returned None); after it failed it raises that run's exception.", "quantifier": "for every history of runs of the same key", "why_tests_cant": "Sequences of runs with different outcomes on the same key (value then None, failure then success).", "anchors": ["src/docket/execution.py: Execution.get_result, Execution.sync, _terminal", "src/docket/worker.py: _execute (result storage)"]}
{"id": "C19", "title": "A waiter on a result is woken when the task ends", "statement": "If get_result is waiting on K and K's run then reaches completed, failed or cancelled, the waiter is released.", "quantifier": "for every interleaving of the waiter's read and subscription with the run's progress", "why_tests_cant": "The lost-wakeup window lies between reading the state and subscribing.", "anchors": ["src/docket/execution.py: Execution.subscribe, Execution.get_result", "src/docket/docket.py: _cancel_task"]}
{"id": "C20", "title": "clear() empties the docket", "statement": "clear() removes every scheduled and queued task, returns how many there were, leaves running tasks unaffected, and afterwards each cleared key can be added again.", "quantifier": "for every store state", "why_tests_cant": "All mixes of scheduled, queued, delivered and running tasks.", "anchors": ["src/docket/docket.py: Docket.clear"]}
{"id": "C21", "title": "Tasks with different keys do not interfere", "statement": "No operation on key A (add, replace, cancel, claim, finish, retry, park) changes the record, schedule, payload, progress or messages of any other key B.", "quantifier": "for every store state, all pairs of distinct keys", "why_tests_cant": "All pairs of keys in all states.", "anchors": ["src/docket/execution.py: _schedule, _claim, _terminal", "src/docket/docket.py: _cancel_task, key helpers"]}
{"id": "C22", "title": "Reusing a key does not endanger the new run", "statement": "A task accepted under a key that was used before (completed, failed or cancelled within execution_ttl) runs like a task under a fresh key.", "quantifier": "for every schedule time and every execution_ttl", "why_tests_cant": "Needs the new run to be due after the old record's expiry; tests use short delays.", "anchors": ["src/docket/execution.py: _terminal (EXPIRE), _schedule (no PERSIST), _claim", "src/docket/docket.py: Docket._cancel"]}
{"id": "C23", "title": "A concurrency limit is never exceeded", "statement": "With ConcurrencyLimit(n), at most n task bodies of the same group run at once, as long as every holder renews its lease in time.", "quantifier": "for every history of acquisitions, releases, renewals, crashes and redeliveries, every n", "why_tests_cant": "All interleavings of workers acquiring, releasing and scavenging.", "anchors": ["src/docket/dependencies/_concurrency.py: _acquire_or_park, _release_and_wake, _scavenge_and_wake, _renew_lease_loop"]}
{"id": "C24", "title": "Tasks waiting for a concurrency slot are not lost and wake in order", "statement": "A task blocked by a concurrency limit is stored atomically in the waiting line; each release hands the free capacity to the oldest waiters, in order, each waiter forwarded exactly once with its own arguments; cancelled waiters are dropped and never run.", "quantifier": "for every waiting line, capacity and state", "why_tests_cant": "Arbitrary lines, capacities and mixtures of cancelled waiters.", "anchors": ["src/docket/dependencies/_concurrency.py: _acquire_or_park, _release_and_wake, _scavenge_and_wake, _cancel_cleanup"]}
{"id": "C25", "title": "The rate limit holds in every window", "statement": "With RateLimit(n, per=w), any half-open interval of length w contains at most n admitted executions.", "quantifier": "for every sequence of requests with non-decreasing clock readings and every n, w", "why_tests_cant": "A sliding-window bound is about every window of every arrival sequence.", "anchors": ["src/docket/dependencies/_ratelimit.py: _ratelimit, RateLimit"]}
{"id": "C26", "title": "Blocked rate-limited tasks come back when a slot opens, and no earlier", "statement": "The delay reported to a blocked task is positive, and a retry made that much later (with no other admission in between) is admitted, while any earlier retry is blocked.", "quantifier": "for every window log the limiter produced under that limit, n > 0, w > 0 and time", "why_tests_cant": "Every log and every retry time.", "anchors": ["src/docket/dependencies/_ratelimit.py: _ratelimit"]}
{"id": "C27", "title": "Cooldown spaces executions", "statement": "Two executions admitted by the same Cooldown(w) are at least w apart, the first request after a quiet period is admitted, and blocked ones do not extend the cooldown.", "quantifier": "for every sequence of requests", "why_tests_cant": "Every arrival sequence.", "anchors": ["src/docket/dependencies/_cooldown.py: Cooldown.__aenter__"]}
{"id": "C28", "title": "Debounce fires once, after quiet", "statement": "Debounce(s) lets a task proceed at t only if no other submission of the group was seen in (t-s, t], and between two proceeds a new burst must have started; submissions that are not the elected one are dropped; the elected one is never dropped.", "quantifier": "for every sequence of submissions with non-decreasing clock readings, record retained", "why_tests_cant": "Every burst pattern.", "anchors": ["src/docket/dependencies/_debounce.py: _debounce, Debounce"]}
{"id": "C29", "title": "A strike blocks exactly what it names", "statement": "After strike(function, parameter, op, value), exactly the calls it describes (in addition to those blocked before) are blocked, and restore with the same arguments undoes exactly that strike.", "quantifier": "for every sequence of strike/restore instructions and every call", "why_tests_cant": "Sequences of overlapping strikes; all values and operators.", "anchors": ["src/docket/strikelist.py: StrikeList._strike, _restore, _matches_task_or_parameter_strike, _is_match"]}
{"id": "C30", "title": "All workers agree on strikes", "statement": "Two processes that have read the same instruction stream block the same tasks, whether or not one of them issued the instructions itself.", "quantifier": "for every instruction stream and every interleaving of local application with the monitor", "why_tests_cant": "The order of local application and monitor delivery is a race.", "anchors": ["src/docket/strikelist.py: StrikeList.send_instruction, _read_strikes, update"]}
{"id": "C31", "title": "Strike instructions survive the wire", "statement": "A strike or restore instruction read back from the stream has the same direction, function, parameter, operator and value as the one sent.", "quantifier": "for every instruction", "why_tests_cant": "All instructions, including missing or empty function and parameter.", "anchors": ["src/docket/strikelist.py: StrikeInstruction.as_message, from_message"]}
{"id": "C32", "title": "Struck tasks are neither scheduled nor started", "statement": "While a strike matching a call is in force in a process, add/replace in that process reports STRUCK and stores nothing, and a worker that receives a matching message finishes it as cancelled without running its body.", "quantifier": "for every strike list, every call, every store state", "why_tests_cant": "All combinations of strikes, calls and states.", "anchors": ["src/docket/docket.py: Docket.add, Docket.replace, Docket.schedule", "src/docket/worker.py: _execute"]}
{"id": "C33", "title": "A perpetual task has exactly one successor", "statement": "Each finished run of a Perpetual task that was not cancelled and not superseded places exactly one next run of the same key at max(now, now+every-duration) (or the time the task chose), with the task's chosen arguments; a superseded run places none; a cancelled one removes the key.", "quantifier": "for every duration, interval, outcome and state", "why_tests_cant": "All timings and races with replace().", "anchors": ["src/docket/dependencies/_perpetual.py: Perpetual.on_complete", "src/docket/worker.py: _execute"]}
{"id": "C34", "title": "Automatic tasks are re-seeded without duplication", "statement": "Re-seeding never adds a second pending run for an automatic task that is scheduled, queued or running, and puts it back when its chain is gone.", "quantifier": "for every reachable state and any number of workers re-seeding", "why_tests_cant": "Races between several workers and the running task.", "anchors": ["src/docket/worker.py: _schedule_all_automatic_perpetual_tasks, _automatic_perpetual_is_live"]}
{"id": "C35", "title": "A worker never exceeds its concurrency", "statement": "A worker with concurrency n never has more than n tasks in flight, and never asks for more messages than it has free slots.", "quantifier": "for every sequence of polls, deliveries and completions", "why_tests_cant": "Every sequence of partial batches from redelivery and new deliveries.", "anchors": ["src/docket/worker.py: _worker_loop, get_redeliveries, get_new_deliveries, start_task, process_completed_tasks"]}
{"id": "C36", "title": "Agenda.scatter spreads tasks over the window", "statement": "scatter places every task of the agenda exactly once, in order, evenly spaced from the start to start+over, never before the start, and none after start+over when there is no jitter; it places nothing if the window is not positive or a task name is unknown.", "quantifier": "for every number of tasks, window length and jitter", "why_tests_cant": "Rounding of the interval depends on the numbers.", "anchors": ["src/docket/agenda.py: Agenda.scatter"]}
{"id": "C37", "title": "Generated keys are well-formed time-ordered UUIDs", "statement": "Every generated key is a version-7, variant-10 UUID whose 48-bit prefix is the millisecond clock; keys generated by one process in later calls are greater; two calls never return the same key.", "quantifier": "for every clock behaviour (including standing still and stepping back) and every random input", "why_tests_cant": "All clock sequences and random bits.", "anchors": ["src/docket/_uuid7.py: _vendored_uuid7"]}
{"id": "C38", "title": "Lua scripts see exactly the arguments that were passed", "statement": "For every script declaration, each named local in the generated preamble is bound to the value the caller passed for that parameter, flattened collections come last and in order, and integers/booleans/strings come back unchanged.", "quantifier": "for every parameter list and every value", "why_tests_cant": "All declarations and values.", "anchors": ["src/docket/_lua.py: _encode_scalar, _expand_args, _generate_preamble, redis_script"]}
{"id": "C39", "title": "Storage keys of different things are different", "statement": "The storage keys of the queue, the stream, the strikes, the worker listings, the records and results of distinct tasks, and the keys of distinct limits (concurrency, rate, cooldown, debounce) are pairwise distinct, within a docket and between dockets.", "quantifier": "for every pair of task keys, function names, argument names and values (any strings), in both modes", "why_tests_cant": "All strings as task keys and values.", "anchors": ["src/docket/docket.py: Docket.key, queue_key, stream_key, known_task_key, parked_task_key, runs_key, stream_id_key, results_collection", "src/docket/dependencies/_concurrency.py:530-557", "src/docket/dependencies/_cooldown.py:51-57", "src/docket/dependencies/_ratelimit.py:116-122", "src/docket/dependencies/_debounce.py:113-123", "src/docket/_result_store.py:54-57"]}
{"id": "C40", "title": "Published state events are valid JSON naming the right key", "statement": "The event the scheduler and the concurrency release publish for a task decodes to an object whose key is exactly the task's key, for every key without control characters other than newline, carriage return and tab.", "quantifier": "for every key string", "why_tests_cant": "All strings, including quotes and backslashes in any order.", "anchors": ["src/docket/worker.py: _stream_due_tasks (json_escape)", "src/docket/dependencies/_concurrency.py: _release_and_wake (json_escape)"]}
{"id": "C41", "title": "Progress belongs to the current run", "statement": "The progress seen for a key starts at 0 when a run is claimed, equals the sum of the increments of that run, and finishing a superseded run does not remove its successor's progress.", "quantifier": "for every sequence of claims, increments and completions", "why_tests_cant": "Interleavings of predecessor and successor.", "anchors": ["src/docket/_execution_progress.py: ExecutionProgress, _progress_write", "src/docket/execution.py: _claim, _terminal"]}
{"id": "C42", "title": "Conflicting single-use dependencies are always rejected", "statement": "A task (or task plus worker dependencies) with two dependencies sharing a 'single' base class is rejected, and one without such a pair is accepted.", "quantifier": "for every class hierarchy and every set of dependencies", "why_tests_cant": "All hierarchies.", "anchors": ["src/docket/dependencies/_resolution.py: _single_bases, detect_single_conflicts, validate_worker_dependencies"]}
{"id": "C43", "title": "Timeouts measure from start plus extensions", "statement": "A task with Timeout(d) is cancelled once it has run for d plus the sum of its extensions, not earlier, and remaining() reports exactly the time left.", "quantifier": "for every sequence of extensions and every clock reading", "why_tests_cant": "All sequences of extensions.", "anchors": ["src/docket/dependencies/_timeout.py: Timeout"]}
{"id": "C44", "title": "A worker receives exactly what was submitted", "statement": "The execution a worker builds from a message has the same key, function name, arguments, time and attempt as the submitted call, whether it came straight through the stream, through the future queue, a retry or a waiting line.", "quantifier": "for every call and every route", "why_tests_cant": "All routes and field values.", "anchors": ["src/docket/execution.py: Execution.as_message, Execution.from_message", "src/docket/worker.py: _stream_due_tasks", "src/docket/dependencies/_concurrency.py: _acquire_or_park"]}
{"id": "C45", "title": "A snapshot accounts for every task once", "statement": "A snapshot lists each stored task in exactly one of future (not yet delivered) and running, and its total is the number of stored tasks.", "quantifier": "for every store state", "why_tests_cant": "All store states.", "anchors": ["src/docket/_docket_snapshot.py: snapshot"]}
{"id": "C46", "title": "Worker listings show exactly the live workers", "statement": "workers() lists a worker iff its last heartbeat is within missed_heartbeats intervals, and heartbeats of others never remove a live worker.", "quantifier": "for every sequence of heartbeats and times", "why_tests_cant": "All heartbeat sequences.", "anchors": ["src/docket/_docket_snapshot.py: workers, task_workers", "src/docket/worker.py: _heartbeat"]}
{"id": "C47", "title": "Duration arguments are parsed as documented", "statement": "The CLI duration parser accepts exactly the documented forms and returns the number of seconds they denote.", "quantifier": "for every input string", "why_tests_cant": "All strings.", "anchors": ["src/docket/cli/_support.py: duration"]}
{"id": "C48", "title": "Exponential back-off stays within its bounds", "statement": "The delays of ExponentialRetry double from the minimum delay and never exceed the maximum delay.", "quantifier": "for every attempt number, minimum and maximum", "why_tests_cant": "All attempt numbers and parameter combinations.", "anchors": ["src/docket/dependencies/_retry.py: ExponentialRetry.__aenter__"]}
{"id": "C49", "title": "A healthy worker keeps its messages", "statement": "If a worker renews its leases every redelivery_timeout/4 (and no step is delayed by more than that), no other worker is handed one of its in-flight messages.", "quantifier": "for every history of polls and renewals", "why_tests_cant": "All interleavings of renewal and redelivery.", "anchors": ["src/docket/worker.py: _renew_leases, get_redeliveries"]}
{"id": "C50", "title": "run_at_most bounds each key", "statement": "run_at_most({K: n}) starts K at most n times during the call, and other keys are not limited.", "quantifier": "for every history of deliveries in the call", "why_tests_cant": "All interleavings of concurrent deliveries of the same key.", "anchors": ["src/docket/worker.py: run_at_most, _execute"]}
{"id": "C51", "title": "A debounced group recovers when its elected task is gone", "statement": "If the elected task of a debounced group never comes back (for example because it was cancelled), a later submission of the group is elected in its place, so the group keeps firing.", "quantifier": "for every sequence of submissions with non-decreasing clock readings", "why_tests_cant": "It is about every later arrival pattern, in particular steady streams that never pause.", "anchors": ["src/docket/dependencies/_debounce.py: _debounce, Debounce"]}
{"id": "C52", "title": "A timeout does not change the outcome of a body that ends in time", "statement": "If a task with a Timeout dependency ends before its deadline, its return value or exception is what the worker sees.", "quantifier": "for every outcome of the body and every order of the event loop's callbacks", "why_tests_cant": "It depends on the order of callbacks at the deadline and on every kind of exception.", "anchors": ["src/docket/dependencies/_timeout.py: Timeout.run"]}
{"id": "C53", "title": "Cron tasks run at the times of their expression", "statement": "The runs of a Cron task are placed at times that match its expression: the next run at the first matching time after the finished run was entered, a re-seeded one at the first matching time after the time the worker last gave out; no run starts at any other time and no matching time is served twice.", "quantifier": "for every expression, duration, body and interleaving", "why_tests_cant": "All durations, clock differences between workers and re-seeding moments.", "anchors": ["src/docket/dependencies/_cron.py: Cron", "src/docket/worker.py: _schedule_all_automatic_perpetual_tasks"]}
{"id": "C54", "title": "A cancellation reaches the running task", "statement": "While a task of key K runs at a worker, a cancellation message for K received by that worker cancels it.", "quantifier": "for every sequence of polls, deliveries, completions and cancellations", "why_tests_cant": "The table of running tasks depends on the order in which a predecessor is cleared and its successor delivered.", "anchors": ["src/docket/worker.py: start_task, process_completed_tasks, _handle_cancellation"]}
{"id": "C55", "title": "A worker survives its tasks", "statement": "A worker running forever does not leave its loop because of the messages it reads, the way its tasks end, or their cancellation.", "quantifier": "for every sequence of replies, completions and cancellations", "why_tests_cant": "All interleavings of cancellations with the steps of a task.", "anchors": ["src/docket/worker.py: _worker_loop, _execute, _handle_cancellation"]}
{"id": "C56", "title": "A worker leaves nothing behind", "statement": "When the worker loop is over no task is in flight; run_until_finished ends by itself only after it saw the stream and the schedule empty, and starts nothing after that.", "quantifier": "for every sequence of replies, completions, cancellations and disconnections", "why_tests_cant": "All ways of leaving the loop.", "anchors": ["src/docket/worker.py: _worker_loop, check_for_work, run_until_finished"]}
{"id": "C57", "title": "A worker that is shutting down keeps its messages", "statement": "While a worker that was told to stop (or lost its connection) waits for its running tasks, no other worker is handed their messages.", "quantifier": "for every history", "why_tests_cant": "Needs a drain longer than the redelivery timeout with another worker polling.", "anchors": ["src/docket/worker.py: _worker_loop (finally), _renew_leases"]}
{"id": "C58", "title": "A delivered message gets exactly one outcome", "statement": "Every message a worker takes on ends in exactly one of: stricken, superseded, completed, failed, cancelled, retried, parked, rescheduled, dropped; and the outcome is the one that belongs to what the body did.", "quantifier": "for every combination of what strikes, claims, dependencies, handlers, body, exits and result storage do", "why_tests_cant": "The outcome depends on which of a dozen steps raises, including clean-up after success; tests try a few combinations.", "anchors": ["src/docket/worker.py: _execute, process_completed_tasks", "src/docket/dependencies/_resolution.py: resolved_dependencies"]}
{"id": "C59", "title": "A run that returned is not run again by its Retry", "statement": "Once the body of a run has returned normally, the run is not counted as failed and its failure handler is not asked to retry it.", "quantifier": "for every execution", "why_tests_cant": "Needs a failure after the body: an unpicklable value, a storage error, a raising clean-up.", "anchors": ["src/docket/worker.py: _execute", "src/docket/_result_store.py: put"]}
{"id": "C60", "title": "No task ends its worker", "statement": "Whatever a task body raises, the worker settles the message and goes on with the other finished tasks.", "quantifier": "for every list of finished executions", "why_tests_cant": "Tests raise ordinary exceptions; the exception classes that break the handler are not tried.", "anchors": ["src/docket/worker.py: _execute, process_completed_tasks"]}
{"id": "C61", "title": "The counters of a worker balance", "statement": "Each claimed message is counted once as started and once as finished, a message that was not claimed is not counted, and the gauge of running tasks returns to its old value.", "quantifier": "for every execution, however it ends, and every list of finished executions", "why_tests_cant": "All exit paths including BaseException.", "anchors": ["src/docket/worker.py: _execute"]}
{"id": "C62", "title": "Admission control does not drop a run it has let in", "statement": "A run that Cooldown or RateLimit has let in and that comes back (retried, parked by a concurrency limit and woken, redelivered after a crash) is not dropped by that same control on account of its own earlier admission.", "quantifier": "for every window, limit and drop setting, and every sequence of deliveries of the run, whatever its body, its Retry and its ConcurrencyLimit do and whenever its worker dies", "why_tests_cant": "It depends on the interplay of several dependencies and on the time between deliveries; tests exercise each control with tasks that succeed at once.", "anchors": ["src/docket/dependencies/_cooldown.py:47-79", "src/docket/dependencies/_ratelimit.py:112-170", "src/docket/dependencies/_resolution.py:166-217", "src/docket/worker.py:693-734"]}
{"id": "C63", "title": "Progress reported through the dependency is the reporting run's", "statement": "What the body of a run reports through its Progress dependency is recorded and published as the progress of that run and of no other.", "quantifier": "for every history of any number of workers, runs, crashes and reports", "why_tests_cant": "The default object of the parameter is shared by all runs of the task in a process, so only overlapping runs of one task show the difference; the tests run one at a time.", "anchors": ["src/docket/dependencies/_progress.py:32-70", "src/docket/dependencies/_resolution.py:190-201", "src/docket/_execution_progress.py:124-205"]}
{"id": "C64", "title": "A run that is held back gives back its own rate-limit place", "statement": "When another admission control holds back a run that a RateLimit has admitted, exactly the place of that run is given back; so the limit is kept, and a request is turned away only if the limit is used up by runs that went ahead.", "quantifier": "for every limit, window and sequence of admissions and hold-backs of runs of one task in a worker", "why_tests_cant": "The object remembers one admission for all runs of the task in the process; only interleaved admissions of several runs show it.", "anchors": ["src/docket/dependencies/_ratelimit.py:97-103", "src/docket/dependencies/_ratelimit.py:140-170", "src/docket/dependencies/_resolution.py:190-201"]}
{"id": "C65", "title": "docket watch follows a task until it is finished", "statement": "The watch command ends only when it has been told that the task has ended (completed, failed or cancelled), then ends at once and shows that state, and until then shows the newest state known, falling back to polling in seconds without an event.", "quantifier": "for every initial state and every sequence of events and quiet seconds", "why_tests_cant": "The polling fallback finishes the event generator; the tests of the helper stop at the first timeout, and the loop is excluded from coverage.", "anchors": ["src/docket/cli/_support.py:21-49", "src/docket/cli/__init__.py:774-853", "src/docket/execution.py:1097-1161"]}
{"id": "C66", "title": "An accepted task is eventually started", "statement": "In every infinite history that is fair (time passes, scheduler passes and reads recur, entries that stay pending are offered for redelivery again and again, no worker sits forever on an unstarted execution, finitely many crashes) an accepted call eventually starts its body, if until then its record is kept, nobody calls the docket about its key, and no execution of it is settled, rescheduled or sent to a waiting line first. The same holds for any current message on the stream or in the future queue, also one abandoned in a crash.", "quantifier": "for every infinite fair history, every position in it and every accepted call or stored current message", "why_tests_cant": "A liveness claim about infinite histories with arbitrary interleavings of crashes, renewals and redeliveries; a test observes a finite prefix of one schedule.", "anchors": ["src/docket/docket.py:439-529", "src/docket/worker.py:491-560", "src/docket/worker.py:620-660", "src/docket/worker.py:887-923", "src/docket/execution.py:651-890"]}
{"id": "C67", "title": "A searching worker finds every abandoned message", "statement": "A message whose worker has been silent for the redelivery timeout is claimed by the next worker with a free slot that searches for abandoned messages, or at least after finitely many such searches.", "quantifier": "for every reachable state, every abandoned message, every worker and number of free slots, and every sequence of searches", "why_tests_cant": "The search is cut off by Redis after ten pending entries per free slot and always restarts at the oldest entry; tests have a handful of pending entries.", "anchors": ["src/docket/worker.py:630-649", "src/docket/worker.py:782-806", "src/docket/worker.py:887-923"]}
{"id": "C68", "title": "The log shows only arguments marked for logging", "statement": "The line a worker logs for a call shows the arguments of parameters annotated with Logged and nothing of the others: two calls that differ only in arguments bound to unmarked parameters, or in the contents of arguments bound to length-only parameters, give the same line.", "quantifier": "for every signature, every way of passing the arguments that Python accepts, and every two calls that differ only in what may not be logged", "why_tests_cant": "It compares all pairs of calls over all signatures; the tests print a few lines for ordinary functions and never pass surplus positional arguments or keyword arguments shadowing a positional-only parameter.", "anchors": ["src/docket/annotations.py: Annotation.annotated_parameters, Logged.format", "src/docket/execution.py: Execution.call_repr"]}
{"id": "C69", "title": "Task statistics count every stored task under its own name", "statement": "The statistics of a snapshot give, for every task name, the number of running and of waiting tasks of that name, their sum, and the earliest and latest times; the total of a name is the number of stored messages that name it.", "quantifier": "for every reachable docket of at most 1000 messages, every snapshot and every task name", "why_tests_cant": "The tests check a handful of tasks registered under the names of their functions; the claim is about all lists and all registrations.", "anchors": ["src/docket/cli/_support.py: get_task_stats, TaskStats", "src/docket/_docket_snapshot.py: RunningExecution, snapshot", "src/docket/docket.py: Docket.register"]}
{"id": "C70", "title": "The testing assertions tell what is scheduled", "statement": "assert_task_scheduled passes exactly if a task that fits the criteria is scheduled, assert_task_not_scheduled exactly if none is, assert_task_count exactly for the number of them, and assert_no_tasks exactly if nothing is scheduled.", "quantifier": "for every reachable docket of at most 1000 messages and all criteria", "why_tests_cant": "The helpers are only tested on freshly scheduled tasks; the claim covers every state a docket can be in, including tasks waiting for a concurrency slot and tasks of crashed workers.", "anchors": ["src/docket/testing.py: _matches_criteria, assert_task_scheduled, assert_task_not_scheduled, assert_task_count, assert_no_tasks"]}
{"id": "C71", "title": "The metrics page shows every measurement once, under valid names", "statement": "A scrape of the metrics endpoint shows each data point the SDK hands over exactly once, with its labels and value, in one family per metric; names and labels are valid and distinct, and histogram buckets are cumulative.", "quantifier": "for every batch of metrics with arbitrary names, descriptions, units and attributes, and every list of bounds and counts", "why_tests_cant": "The grouping relies on a joined string being unambiguous for all descriptions and attribute names; tests use a few plain names and a single batch.", "anchors": ["src/docket/_prometheus_exporter.py: sanitize_full_name, sanitize_attribute, map_unit, _convert_buckets, _CustomCollector.collect, _translate_to_prometheus", "src/docket/docket.py: TASKS_CANCELLED in replace and cancel"]}
{"id": "C72", "title": "get_execution gives back the task that was scheduled", "statement": "While a run of key K is scheduled, queued, waiting for a slot or running, and nothing superseded it, get_execution(K) returns a handle with that run's function, name, arguments, time and attempt; it never returns arguments nobody submitted; once a task was accepted it is found as long as its record is kept; and the state, worker, times, error and result it shows are those stored when it was read.", "quantifier": "for every history of calls and worker steps, every registry of task functions, and every change of the store between the two reads of get_execution", "why_tests_cant": "the handle is rebuilt from a hash that adds, replaces, retries, parking, waking and cancels all write in part; a test can check only a few orders of these", "anchors": ["src/docket/docket.py:615-693", "src/docket/execution.py:1032-1075", "src/docket/execution.py:113-241", "src/docket/dependencies/_concurrency.py:103-141"]}
{"id": "C73", "title": "Due times are exact to the microsecond", "statement": "For due times from 1970 to 2242-03-16 (2^33 seconds): a scheduler pass at time now hands out exactly the keys whose last due time is <= now, each once, in order of their due times, and the time shown by the record of an execution is the microsecond that was asked for - although the store keeps every time as a binary floating-point number of seconds. At any later date the calendar has, no task is ever left behind when its time has come.", "quantifier": "for every history of parkings, moves, removals and scheduler passes, every time of each, and every now in the range", "why_tests_cant": "datetime.timestamp() rounds nearly every instant; exactness of comparison and of the way back is a fact about 8.6*10^15 instants and all pairs of them, and it stops holding from 2^33 seconds on", "anchors": ["src/docket/execution.py:139", "src/docket/execution.py:224", "src/docket/execution.py:729", "src/docket/worker.py:183", "src/docket/worker.py:221", "src/docket/worker.py:862", "src/docket/docket.py:671"]}
{"id": "C74", "title": "A task arrives byte for byte as it was sent", "statement": "However often a task is parked, moved by the scheduler, put among the waiters of a concurrency limit, woken or sent again for a retry, the worker that takes it reads the key, the function name, the argument bytes, the due time (to the microsecond, with its offset), the attempt and the generation that the last of these steps gave it, and nothing else changes; a key or name that cannot be encoded is refused before anything is stored; two different tasks never have the same message. (For keys scheduled fewer than 10^14 times.)", "quantifier": "for every Unicode key and function name, all argument bytes, every calendar time 0001-9999 with any offset of a whole number of microseconds below a day, every attempt number and every sequence of steps", "why_tests_cant": "UTF-8, ISO times with optional parts and Lua's number printing have many corner cases (four-byte characters, offsets with seconds and microseconds, years below 1000); tests use a handful of ASCII keys and UTC times", "anchors": ["src/docket/execution.py:567-610", "src/docket/execution.py:86-140", "src/docket/execution.py:202-224", "src/docket/worker.py:183-204", "src/docket/dependencies/_concurrency.py:103-127", "src/docket/dependencies/_concurrency.py:233-240"]}
{"id": "C75", "title": "The trace of the caller reaches the worker", "statement": "The trace context in which a task was scheduled last is the one the worker extracts from the message it takes, so the span of the run is linked to the span of the caller.", "quantifier": "for every trace context and every way of the task through stream, future queue and waiters", "why_tests_cant": "tests look at tasks that run at once; the field is lost only in the copies made by Lua scripts for later due times and for concurrency waiters", "anchors": ["src/docket/execution.py:689-690", "src/docket/execution.py:604", "src/docket/execution.py:652-654", "src/docket/worker.py:195-203", "src/docket/dependencies/_concurrency.py:557", "src/docket/instrumentation.py:138-157"]}
{"id": "C76", "title": "On a cluster, the keys of each script are in one slot", "statement": "In Redis Cluster mode all keys that one Lua script touches - declared or computed inside the script, for every task key, concurrency limit and scope - hash to the same slot, so no script is refused with CROSSSLOT; the whole docket shares one slot.", "quantifier": "for every docket name, task key, function name, limit, scope and argument value", "why_tests_cant": "the slot depends on the first pair of braces in the key, and names, keys, scopes and argument values are arbitrary text; the cluster code paths are excluded from coverage in the repository", "anchors": ["src/docket/_redis.py:737-751", "src/docket/docket.py:197-217", "src/docket/docket.py:691-710", "src/docket/dependencies/_debounce.py:112-123", "src/docket/dependencies/_concurrency.py:522-554", "src/docket/worker.py:186-211"]}
{"id": "C77", "title": "A strike on the command line means what it says", "statement": "docket strike FUNCTION PARAMETER OPERATOR VALUE blocks exactly the calls whose function is the one named (any, for * or an empty word) and whose argument compares so with the value written - a bare text, or int:, bool:, datetime.timedelta:, str: and a value - and docket restore with the same words lifts it.", "quantifier": "for every function, parameter, operator, value and call", "why_tests_cant": "values are arbitrary text cut at the last colon; the tests try nine values, none of them a text with a colon or a between", "anchors": ["src/docket/cli/_support.py:156-181", "src/docket/cli/__init__.py:227-288", "src/docket/cli/__init__.py:318-379", "src/docket/docket.py:779-828"]}
{"id": "C78", "title": "A parameter strike sees the argument however it was passed", "statement": "A call is blocked by a strike on parameter p exactly when a value its body would get as p matches the strike, whether that value is passed by position, by keyword, as an extra keyword, left at its default, or resolved by a dependency.", "quantifier": "for every signature Python takes, every accepted call and every list of strikes", "why_tests_cant": "Tests strike a handful of calls, nearly all with keyword arguments; the claim is about every parameter kind and every way of passing.", "anchors": ["src/docket/strikelist.py:381-418", "src/docket/execution.py:623-626"]}
{"id": "C79", "title": "Each distinct value of an annotated parameter has its own limit", "statement": "Under an Annotated ConcurrencyLimit, Cooldown, RateLimit or Debounce, two calls are counted together exactly when their bodies get the same value for that parameter, and calls with other values do not influence the answers.", "quantifier": "for every signature, every two accepted calls however their arguments are passed, and every interleaving of calls", "why_tests_cant": "The tests pass the annotated argument by keyword; the positional and defaulted cases, and all pairs of values, are not exercised.", "anchors": ["src/docket/dependencies/_resolution.py:209-218", "src/docket/dependencies/_concurrency.py:501-541", "src/docket/dependencies/_cooldown.py:41-57", "src/docket/dependencies/_ratelimit.py:106-122", "src/docket/dependencies/_debounce.py:103-123", "docs/task-behaviors.md:335-430"]}
{"id": "C80", "title": "TaskArgument gives a dependency the value the body gets", "statement": "A dependency that declares TaskArgument for a parameter receives exactly the value that the task's body receives for that parameter; it fails (or, if optional, yields None) only if there is no such argument.", "quantifier": "for every signature, every accepted call however its arguments are passed, and every parameter name", "why_tests_cant": "The tests pass the argument explicitly; the interplay of positions, keywords, defaults and catch-all parameters has unboundedly many shapes.", "anchors": ["src/docket/dependencies/_contextual.py:93-126", "src/docket/dependencies/_functional.py:34-50", "src/docket/execution.py:623-626", "docs/dependency-injection.md:89-130"]}
{"id": "C81", "title": "In-memory servers are shared exactly within one event loop and URL", "statement": "Dockets with the same memory:// URL on the same event loop get the same in-process server until the cache is cleared; a server is never given to another loop or URL, not even when a new loop has the address of an old one; and no server is handed out after it was closed.", "quantifier": "for every history of loops created, closed and collected, lookups and clears from any threads", "why_tests_cant": "Reuse of an object's address after garbage collection cannot be forced, and interleavings of threads around the lock are not enumerable.", "anchors": ["src/docket/_redis.py:547-609", "src/docket/_redis.py:837-852", "docs/testing.md:20-60"]}
{"id": "C82", "title": "A Sentinel URL means the configuration written in it", "statement": "Every Sentinel configuration (TLS, data-node credentials with any characters, one or more hosts or bracketed IPv6 addresses with or without ports, service, database, Sentinel credentials, connection options), written in the documented URL grammar with percent-escapes wherever needed or wanted, is read back exactly; no URL has two meanings.", "quantifier": "for every configuration and every way of writing it in the documented grammar", "why_tests_cant": "The tests parse a few dozen URLs; credentials, hosts and queries range over all texts and escapings.", "anchors": ["src/docket/_redis_sentinel.py:67-85", "src/docket/_redis_sentinel.py:106-211", "docs/production.md:138-178"]}
{"id": "C83", "title": "Cluster connections all use the credentials of the URL", "statement": "With a redis+cluster:// or rediss+cluster:// URL, the connections for commands and those for publications and subscriptions log in with the user name, password and TLS setting written in the URL.", "quantifier": "for every user name and password, with or without escapes, every host part and path", "why_tests_cant": "The cluster tests use generated credentials without special characters; the node pool is excluded from coverage.", "anchors": ["src/docket/_redis.py:754-806", "docs/production.md:108-124"]}
{"id": "C84", "title": "Malformed Sentinel URLs are refused", "statement": "parse_sentinel_url raises ValueError for a missing host, malformed port, missing service name or malformed database index, and query parameters never replace the database or the credentials.", "quantifier": "for every text", "why_tests_cant": "Only a handful of malformed URLs can be listed.", "anchors": ["src/docket/_redis_sentinel.py:106-211"]}
{"id": "C85", "title": "The strike monitor applies every instruction once, in order, and announces loading truthfully", "statement": "The monitor of a process applies every instruction in the strike stream exactly once and in the order sent, whatever connection errors occur; wait_for_strikes_loaded returns only once every instruction sent before it has been applied, and does return as long as reads succeed.", "quantifier": "for every content of the strike stream, every interleaving of sending, reading and connection errors", "why_tests_cant": "Tests send a few well-formed instructions; the error branches of the monitor are excluded from coverage.", "anchors": ["src/docket/strikelist.py:276-287", "src/docket/strikelist.py:543-620", "src/docket/worker.py:956-959"]}
{"id": "C86", "title": "docket_strikes_in_effect counts the strikes in force", "statement": "For every rule, the series of docket_strikes_in_effect labelled with it is 1 while the rule is in force and 0 otherwise.", "quantifier": "for every sequence of strikes and restores and every rule", "why_tests_cant": "Tests strike and restore once each; repeated strikes and restores of rules not in force are not tried.", "anchors": ["src/docket/strikelist.py:96-106", "src/docket/strikelist.py:611-617", "src/docket/instrumentation.py:113-117", "docs/production.md:417"]}
{"id": "C87", "title": "A worker runs the function that was submitted", "statement": "For every message, first submission, retry or successor of a Perpetual, a worker that knows the name in the message runs the function that the caller submitted.", "quantifier": "for every number of processes, every sequence of registrations (with and without names), submissions by function or name, retries and perpetuations", "why_tests_cant": "Tests register distinct functions in one process; functions of equal names and aliases across processes are not combined.", "anchors": ["src/docket/docket.py:284-299", "src/docket/docket.py:375-403", "src/docket/execution.py:587-605", "src/docket/dependencies/_perpetual.py:128-142"]}
{"id": "C88", "title": "A task keeps the name it was submitted under", "statement": "Every later message of a task, from a retry or from a Perpetual, carries the function name of the first, so that strikes and workers that know it by that name keep applying.", "quantifier": "for every history of registrations, submissions, retries and perpetuations in any number of processes", "why_tests_cant": "Tests of aliases run a task once; no test combines an alias with a Perpetual, a strike or a second worker.", "anchors": ["src/docket/execution.py:475", "src/docket/execution.py:571", "src/docket/dependencies/_perpetual.py:136-139", "src/docket/docket.py:496-513"]}
{"id": "C89", "title": "A struck function starts under none of its names", "statement": "While docket.strike(f) is in force, no execution of f starts, whatever name it was submitted under.", "quantifier": "for every function, every name it is registered under, every sequence of strikes and restores", "why_tests_cant": "Tests strike functions registered under their own names.", "anchors": ["src/docket/docket.py:779-828", "src/docket/strikelist.py:381-418"]}
{"id": "C90", "title": "A worker that starts seeds every automatic task", "statement": "The loop that seeds automatic Perpetual tasks goes through all registered functions without error, and adds every automatic one that is not live under its own name, and nothing else.", "quantifier": "for every registry, every set of automatic functions and every registration made by other coroutines meanwhile", "why_tests_cant": "Tests register automatic tasks under their own names and register nothing while the loop runs.", "anchors": ["src/docket/worker.py:956-987", "src/docket/worker.py:764-765", "src/docket/docket.py:284-299"]}
{"id": "C91", "title": "The lifecycle of every dependency class in use is entered once and always left", "statement": "During the life of a worker, worker_lifecycle of every dependency class used by its tasks or by itself is entered exactly once, and everything entered is left again in reverse order.", "quantifier": "for every set of tasks and dependencies, however deeply nested, every failure to enter and every reconnection", "why_tests_cant": "Tests use one class with a lifecycle, declared directly by a task registered beforehand.", "anchors": ["src/docket/worker.py:568-605", "src/docket/worker.py:736-748"]}
{"id": "C92", "title": "The body of a task gets the arguments the caller gave, the dependencies' values and the defaults", "statement": "When a worker runs a task, each parameter of its function has the value the caller passed for it, by position or by keyword, else the value of its dependency, else its default; star parameters have exactly the remaining arguments; no call that Python would take ends in a TypeError.", "quantifier": "for every signature, all positional and keyword arguments and all dependency values", "why_tests_cant": "Tests override dependencies by keyword only and use no positional-only or oddly named dependency parameters.", "anchors": ["src/docket/worker.py:1092-1113", "src/docket/dependencies/_resolution.py:184-207"]}
{"id": "C93", "title": "The result store gives back what was put into it", "statement": "The built-in key-value store answers for every key of every collection the last value put there, unless it was deleted or its time to live has passed; the operations on many keys do what the operations on single keys do, one after the other; ttl answers the value and the time it has left.", "quantifier": "for every history of put, delete, put_many, delete_many and passing time, by any number of clients", "why_tests_cant": "All histories, collections and times to live; tests use whole seconds and simple collection names.", "anchors": ["src/docket/_result_store.py:54-176"]}
{"id": "C94", "title": "The depth gauges count the due tasks and the future tasks", "statement": "With every heartbeat docket_queue_depth shows how many tasks are due to be executed now and docket_schedule_depth how many are scheduled for the future; no task is counted by both.", "quantifier": "for every reachable state of the docket and every clock reading", "why_tests_cant": "Tests count a handful of tasks while no worker runs any, and none due at the very moment of the heartbeat.", "anchors": ["src/docket/worker.py:1302-1315", "src/docket/instrumentation.py:119-128"]}
{"id": "C95", "title": "A cancellation signal reaches the workers of its docket, and no others", "statement": "When a task is cancelled, every worker of this docket that runs a task under this key receives the signal and cancels its asyncio task, and cleans up after a parked one; a worker never cancels or cleans up because of a cancellation on another docket that shares the server.", "quantifier": "for all docket names and task keys, any number of dockets and workers, on a single server or a cluster, all orders of subscriptions, errors, reconnections, cancellations, task starts and ends", "why_tests_cant": "Depends on how names and keys read as Redis patterns and on every interleaving of publications with reconnections; tests use one docket with a simple name.", "anchors": ["src/docket/docket.py:591-613,712-714", "src/docket/worker.py:1338-1388", "src/docket/dependencies/_concurrency.py:675-717", "src/docket/_redis.py:887-897"]}
{"id": "C96", "title": "What entering a docket opens is closed again", "statement": "However a docket is used, every pool, client and background task that entering it opened is closed exactly once, in the reverse order, when the block is left or when entering fails; and the docket can be entered again afterwards.", "quantifier": "for all connection modes and result storages, any number of uses one after another, failures at any step of entering, whatever the blocks and closings raise", "why_tests_cant": "The clean-up depends on which step of a nested entering failed and on what was entered before; tests enter dockets that connect.", "anchors": ["src/docket/docket.py:219-262", "src/docket/_redis.py:537-545,652-704", "src/docket/strikelist.py:231-266", "src/docket/_result_store.py:196-240", "src/docket/_cancellation.py:48-74"]}
{"id": "C97", "title": "A worker that shuts down lets its tasks finish", "statement": "After SIGTERM or SIGINT (or a cancellation of its run) a worker starts no further task, its running tasks go on until they end by themselves or are cancelled by key, and only then it exits; what does not finish in time stays for other workers.", "quantifier": "for every sequence of replies, completions, cancellations, disconnections and signals", "why_tests_cant": "Signals can arrive at every await of the shutdown, more than once; the signal handlers are excluded from coverage.", "anchors": ["src/docket/worker.py:444-491", "src/docket/worker.py:829-846", "src/docket/worker.py:1163-1172", "docs/production.md:77"]}
{"id": "C98", "title": "Whoever follows the state events of a key knows its state", "statement": "Every operation announces each key at most once, and afterwards the record of every key shows the state last announced for it, or the state it had before if nothing was announced. So over any history the last state event about a key is the key's recorded state. (Not so for a cancel, which announces nothing; for a superseded run that ends, which is announced although the record is not changed; and for records that are dropped.)", "quantifier": "for every reachable state, every operation and every key; for every history", "why_tests_cant": "A test follows the events of one task through one life; the claim relates the event log to the stored record after every interleaving of operations on all keys, including scripts that move several tasks at once.", "anchors": ["src/docket/execution.py: _schedule, _claim, _terminal", "src/docket/execution.py: Execution.subscribe", "src/docket/worker.py: _stream_due_tasks", "src/docket/dependencies/_concurrency.py: _acquire_or_park, _release_and_wake, _scavenge_and_wake", "src/docket/docket.py: _cancel_task"]}
{"id": "C99", "title": "cancel_task suppresses its own cancellation and nothing else", "statement": "cancel_task(task, reason) is over only when the task is over. It returns normally if the task returned or ended because of this cancellation; every other end of the task reaches the caller; and a cancellation of the caller itself that arrives meanwhile reaches the caller as a CancelledError.", "quantifier": "for every coroutine of the inner task, every order in which the event loop runs the two tasks and every moment and number of cancellations from outside", "why_tests_cant": "The outcome depends on the interleaving of cancellations with the event loop's steps (the code marks the branches 'no cover - race condition'), and on what an arbitrary coroutine does with a CancelledError.", "anchors": ["src/docket/_cancellation.py: is_our_cancellation, cancel_task"]}
