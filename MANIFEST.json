{
 "claims": [
  {
   "property": "C01",
   "status": "partial",
   "theorems": [
    "C01_pending_key_refuses_adds_partial",
    "C01_parked_key_refuted",
    "C01_struck_copy_refuted"
   ],
   "note": "Proved for every history in which the pending run is not found stricken, not parked on a concurrency limit and no superseded run reschedules itself. Refuted in full: a task waiting for a concurrency slot, or one whose old copy was struck, can be added again while it is still to run."
  },
  {
   "property": "C02",
   "status": "proved",
   "theorems": [
    "C02_add_truth",
    "C02_replace_truth",
    "C02_refused_exactly",
    "C02_struck_changes_nothing"
   ],
   "note": "Both calls characterised for every reachable state, including exactly when add is turned down; with strike lists, a call that reports STRUCK changes nothing and any other outcome is that of the docket."
  },
  {
   "property": "C03",
   "status": "partial",
   "theorems": [
    "C03_replaced_copy_never_starts_partial",
    "C03_later_starts_carry_partial",
    "C03_waiter_refuted"
   ],
   "note": "No stored or delivered copy of an older message ever starts after replace (all histories keeping the record); without waiters and stale reschedules everything that starts later carries the replacement's or a later call's payload. Refuted for a task waiting in a concurrency line, which survives replace."
  },
  {
   "property": "C04",
   "status": "partial",
   "theorems": [
    "C04_replacement_is_what_runs_partial",
    "C04_stale_retry_refuted"
   ],
   "note": "Proved when no superseded run reschedules itself and nobody waits under the key; refuted otherwise (the retry of the replaced run supersedes the replacement)."
  },
  {
   "property": "C05",
   "status": "partial",
   "theorems": [
    "C05_accepted_not_lost_partial",
    "C05_stale_retry_refuted",
    "C05_clear_race_refuted"
   ],
   "note": "Proved for all histories without a stale reschedule; refuted by a retry of the replaced run, and by clear() racing with add()."
  },
  {
   "property": "C06",
   "status": "partial",
   "theorems": [
    "C06_recovers_partial",
    "C06_waiting_recovers_partial",
    "C06_expired_record_refuted"
   ],
   "note": "Proved for runs on the stream (including those claimed or executing at the crash) and for future runs that fall due, as long as the run's record has not expired; for the head of a waiting line once the scavenger runs. False in full: a run that inherits the expiry of an earlier run's record is dropped as superseded after the redelivery wait."
  },
  {
   "property": "C07",
   "status": "proved",
   "theorems": [
    "C07_not_before_time"
   ],
   "note": "For every history whose clocks are at most skew ahead of the true time; retries and reschedules included."
  },
  {
   "property": "C08",
   "status": "proved",
   "theorems": [
    "C08_scheduler_moves_exactly_due",
    "C08_before_epoch_refuted"
   ],
   "note": "For every reachable state whose history's clocks read non-negative times; before the epoch it is false (C08_before_epoch_refuted)."
  },
  {
   "property": "C09",
   "status": "proved",
   "theorems": [
    "C09_starts_bounded",
    "C09_once_per_delivery"
   ],
   "note": "starts_bounded counts starts against accepted calls, redeliveries and reschedules for any set of messages of one key determined by function and arguments; once_per_delivery is per stream entry. Both hold for every history, with no condition."
  },
  {
   "property": "C10",
   "status": "partial",
   "theorems": [
    "C10_one_at_a_time_partial",
    "C10_parked_refuted"
   ],
   "note": "Proved for histories in which no run of the key is parked on a concurrency limit; refuted when parking is allowed (the parked run leaves no known field, a later schedule is accepted and resets the state of the running key)."
  },
  {
   "property": "C100",
   "status": "partial",
   "theorems": [
    "C100_timed_out_partial",
    "C100_cancelled_partial",
    "C100_cancel_lost_refuted",
    "C100_other_ends_refuted"
   ],
   "note": "Exact ends are proved for runs that are not cancelled while being stopped, and for runs cancelled before the deadline; refuted: a cancellation while the task is being stopped is lost and the run counts as timed out; a task's own CancelledError or error replaces the timeout."
  },
  {
   "property": "C101",
   "status": "partial",
   "theorems": [
    "C101_waits_partial",
    "C101_stops_partial",
    "C101_never_stuck_partial",
    "C101_two_runs_refuted",
    "C101_late_start_refuted",
    "C101_signal_taken_back_refuted"
   ],
   "note": "Proved for orderly use: a run starts only while no other runs and before the worker is left. False without it (three witnesses): with two runs at once the first to end sets _worker_done and the worker is taken down under the other; a run called before but started during the take-down works on a closed shared context; and a run that starts while __aexit__ waits clears the signal to stop, so that __aexit__ waits for as long as the runs find work."
  },
  {
   "property": "C102",
   "status": "partial",
   "theorems": [
    "C102_scheduled_partial",
    "C102_stricken",
    "C102_added_partial",
    "C102_lost_refuted",
    "C102_refused_refuted",
    "C102_nothing_cancelled_refuted"
   ],
   "note": "Runs placed are read off the store (the generation of the key asked for rises). Exact for scheduled, replaced (= placed by replace) and stricken when no answer of the store is lost; each lost answer costs at most one. False in general: a lost answer is placed and not counted; added counts refused calls (any number for one run); cancelled and replaced count where nothing was there to cancel or replace."
  },
  {
   "property": "C103",
   "status": "partial",
   "theorems": [
    "C103_until_settled",
    "C103_one_pass_partial",
    "C103_settled_twice_refuted"
   ],
   "note": "until_settled: no condition on the execution; every beginning of its events with at most one outcome is accepted operation by operation, whatever others do in between. one_pass_partial: the whole of it, under the conditions of C58 (one outcome). Refuted without them: a clean-up that raises after completion makes the worker settle the message twice, and the script of the second settlement starts the completed run again. This is also the point up to which the docket model (Model.v) follows _execute."
  },
  {
   "property": "C104",
   "status": "partial",
   "theorems": [
    "C104_finished_partial",
    "C104_leaves_iff_empty",
    "C104_waiting_refuted"
   ],
   "note": "finished_partial: for every joint history of the worker's loop and of the docket, every call accepted before the last look whose key is left alone (as in C05) has been finished by some worker, or waits in a concurrency line; nothing is in flight. leaves_iff_empty: after a look the loop ends exactly if stream and queue were empty. Refuted in full: a task stranded in a concurrency line (see C24) is on neither, the run ends and leaves it behind."
  },
  {
   "property": "C105",
   "status": "partial",
   "theorems": [
    "C105_carried_out_partial",
    "C105_not_before_time",
    "C105_scheduler_moves_exactly_due",
    "C105_starts_bounded",
    "C105_once_per_delivery",
    "C105_limit_never_exceeded",
    "C105_leaves_only_for_a_reason",
    "C105_frame",
    "C105_completed_runs_again_refuted"
   ],
   "note": "Twice.v lets an execution that is over be marked or rescheduled again (the docket model refuses that), so that the worker of Execute.v is followed to the end. All parts are proved for every such history, except that a completed run can start again (C105_completed_runs_again_refuted); that everything is carried out is for messages put in a waiting line at most once, and a second reschedule carries the attempt number of the first."
  },
  {
   "property": "C106",
   "status": "partial",
   "theorems": [
    "C106_batch_taken_once",
    "C106_page_exact",
    "C106_ends",
    "C106_nothing_left",
    "C106_own_page_partial",
    "C106_none_fails_partial",
    "C106_target_info",
    "C106_empty_page_refuted",
    "C106_fails_refuted"
   ],
   "note": "For all interleavings: every batch is taken by at most one request, in order, and none is left when all are over (C106_batch_taken_once, C106_nothing_left, C106_ends); what a page shows is exactly what its request took (C106_page_exact). Own batch once, no failure: only when requests come one at a time (C106_own_page_partial, C106_none_fails_partial). Refuted for overlapping requests: one gets an empty page and the other everything twice (C106_empty_page_refuted), or one dies with IndexError between test and popleft (C106_fails_refuted). The target info is characterised in C106_target_info."
  },
  {
   "property": "C107",
   "status": "partial",
   "theorems": [
    "C107_guarded_partial",
    "C107_safeguard_starts",
    "C107_safeguard_serves",
    "C107_late_cancel_refuted",
    "C107_parker_dies_refuted",
    "C107_cleared_refuted",
    "C107_own_end_refuted",
    "C107_leftover_cancelled"
   ],
   "note": "Proved: once the parking worker's add of the safeguard is accepted while the task waits, the safeguard stays stored, live and with the right line and limit, and that worker never cancels it, in every interleaving that leaves the task and its safeguard alone (C107_guarded_partial); in a fair history it starts unless the task leaves its line first (C107_safeguard_starts); and its pass, when all slots are stale, empties the slots and serves the line (C107_safeguard_serves). A worker that finds the task served in the meantime takes the safeguard off the queue again, whatever others do in between (C107_leftover_cancelled). The full statement is false: a worker that parked the task earlier can cancel the safeguard on which a later parking relies (C107_late_cancel_refuted); the worker can die before adding it (C107_parker_dies_refuted); clear() removes safeguards but not waiters (C107_cleared_refuted); with execution_ttl 0 the end of a safeguard's run deletes the record of its successor (C107_own_end_refuted). In each case the task then waits forever with no holder."
  },
  {
   "property": "C108",
   "status": "partial",
   "theorems": [
    "C108_own_place",
    "C108_others_untouched",
    "C108_cleaned_partial",
    "C108_not_lost_partial",
    "C108_safeguard_dropped",
    "C108_readded_lost_refuted",
    "C108_progress_lost_refuted",
    "C108_forgotten_refuted",
    "C108_no_record_refuted"
   ],
   "note": "Joint machine of the docket and the subscribers of all workers. A subscriber's script removes only the place that was stored for the key, however old its reading is (C108_own_place; also the reason why the model's guarded script is the real one), and its steps touch no other key but the safeguard (C108_others_untouched); a cancelled waiter is out of its line once a subscribed worker has gone through the message, while its record lives (C108_cleaned_partial); a task added when no cancellation of its key is on its way is not lost (C108_not_lost_partial); the safeguard is dropped. Refuted: a slow worker's clean-up removes the waiting task that was added under the same key after the cancellation, which is then lost though shown as scheduled; it deletes the progress of a running later task; it makes the record forget the new place, so a later cancellation is not cleaned up; with execution_ttl 0 the record is gone before anybody reads the place."
  },
  {
   "property": "C109",
   "status": "partial",
   "theorems": [
    "C109_no_trace",
    "C109_verdict_partial",
    "C109_one_worker_partial",
    "C109_other_worker_refuted",
    "C109_second_call_refuted"
   ],
   "note": "Proved: whatever calls there were (overlapping, ended in any order), when none is running the answer is that of the strikes; when no worker makes two calls at once, asking never fails and the answer is yes exactly when a strike matches or some running call has reached its limit; so with one worker exactly its own call decides. Refuted: the condition list belongs to the shared Docket object, so a limit reached by one worker strikes the key for all others (their deliveries are discarded); and a second call of the same worker loses the counts of the first, so asking raises KeyError."
  },
  {
   "property": "C11",
   "status": "proved",
   "theorems": [
    "C11_leaves_only_for_a_reason",
    "C11_finished_entry_gone",
    "C11_running_stays"
   ],
   "note": "For every reachable state and every operation."
  },
  {
   "property": "C110",
   "status": "partial",
   "theorems": [
    "C110_named",
    "C110_inferred_partial",
    "C110_first_use",
    "C110_shared_refuted",
    "C110_task_parameter_refuted",
    "C110_task_parameter"
   ],
   "note": "Proved: a named object always looks up its name; an unnamed one that is used for one parameter name looks up that name, after any history; in general the first use decides for the life of the process. Refuted: an object that is the default of two differently named parameters gives the second the first one's argument, and lets a task with a bare TaskArgument through that would otherwise fail."
  },
  {
   "property": "C111",
   "status": "proved",
   "theorems": [
    "C111_due_leaves_in_time",
    "C111_goes_on"
   ],
   "note": "Loops of any number of workers beside all operations of the docket; each pass reads its clock, runs its script and gets its reply at separate moments and may raise at either. The bound is reached (C111_case)."
  },
  {
   "property": "C112",
   "status": "partial",
   "theorems": [
    "C112_listed_partial",
    "C112_one_interval_refuted"
   ],
   "note": "Proved when f+1 cycles, one pass and the difference of the clocks fit in the allowed age (the defaults leave room for three failures in a row). With missed_heartbeats = 1 the age is one interval, shorter than a cycle, and a healthy worker disappears between two heartbeats (C112_one_interval_refuted)."
  },
  {
   "property": "C113",
   "status": "partial",
   "theorems": [
    "C113_exclusive_partial",
    "C113_frees",
    "C113_pass_seeds",
    "C113_slow_pass_refuted",
    "C113_shut_out_refuted"
   ],
   "note": "Proved: within the lifetime of the lock passes exclude each other; a refused lock was taken less than its lifetime ago, whatever crashed; a pass that gets the lock and ends has met each of its automatic tasks live. False in full: a pass slower than 10 s does not keep others out (slow_pass), and since a pass that finds the lock taken is given up, a worker that alone knows an automatic task and always comes just after another never seeds it, for any number of minutes (shut_out)."
  },
  {
   "property": "C114",
   "status": "partial",
   "theorems": [
    "C114_released_partial",
    "C114_stale_given_up",
    "C114_stray_renewal_refuted",
    "C114_no_expiry_refuted"
   ],
   "note": "With no renewal for the task on its way and no second holder, the slot stays free whatever happens (C114_released_partial). The full statement is false: cancelling the renewal loop does not call back a ZADD that was already sent, and ZADD without XX takes the slot again; nobody holds it, yet other tasks of the group and the same task scheduled anew are put to wait (C114_stray_renewal_refuted) until it is older than the redelivery timeout (C114_stale_given_up). The set the stray ZADD makes has no expiry, since the EXPIRE that follows it is not sent any more, so the slot does not end by itself (C114_no_expiry_refuted)."
  },
  {
   "property": "C115",
   "status": "partial",
   "theorems": [
    "C115_left_partial",
    "C115_gone_in_time",
    "C115_others_stay",
    "C115_stray_heartbeat_refuted",
    "C115_failed_withdrawal_refuted",
    "C115_older_tasks_refuted",
    "C115_same_name_refuted",
    "C115_draining_refuted"
   ],
   "note": "Proved: a worker at rest, with no heartbeat on its way, that withdraws from all the tasks known under its name is on no listing until it comes back; whatever is lost, late or fails, it is on none the allowed age after its last heartbeat; workers of other names stay. False otherwise (five witnesses): a heartbeat on its way when the heartbeat task is cancelled lists the worker again; a withdrawal that fails is only logged; a worker started again with fewer tasks leaves its old entries; of two workers with the same default name (hostname#pid) the one that leaves withdraws the other; and a worker that shuts down withdraws before it waits for its tasks, so it runs them unlisted."
  },
  {
   "property": "C116",
   "status": "partial",
   "theorems": [
    "C116_stops_partial",
    "C116_looks_partial",
    "C116_finishes_partial",
    "C116_blocks_forever_refuted"
   ],
   "note": "Proved for minimum_check_interval of at least one millisecond, with the lap 2*interval + 3 round trips + (3*concurrency+6) local steps. False below it: the interval is turned into whole milliseconds, 0 becomes XREADGROUP BLOCK 0, which waits for a message for any time; the worker then neither looks for abandoned messages nor notices that it is to stop, and run_until_finished on an empty docket never returns (C116_blocks_forever_refuted)."
  },
  {
   "property": "C117",
   "status": "partial",
   "theorems": [
    "C117_rounding",
    "C117_whole_seconds",
    "C117_rate_partial",
    "C117_rate_seconds_partial",
    "C117_rate_short_refuted",
    "C117_rate_below_refuted",
    "C117_cooldown_partial",
    "C117_cooldown_admits_partial",
    "C117_cooldown_below_refuted",
    "C117_debounce_partial",
    "C117_debounce_seconds_partial",
    "C117_debounce_short_refuted",
    "C117_debounce_below_refuted"
   ],
   "note": "The milliseconds in force are the declared duration rounded down, or one less when it is a whole number of milliseconds (whole seconds are exact). So from one millisecond up a cooldown keeps its full spacing, and a rate limit and a debounce hold for every duration shorter than the declared one, and for whole seconds exactly. Refuted: with 1001 ms the rate limit admits twice within 1001 ms and the debounce proceeds after 1000 ms; below a millisecond the rate limit admits any number at once, and every task under a cooldown or debounce fails because Redis refuses an expiry of 0."
  },
  {
   "property": "C118",
   "status": "partial",
   "theorems": [
    "C118_recorded",
    "C118_largest_announced_partial",
    "C118_one_by_one_partial",
    "C118_next_increment_partial",
    "C118_overlapping_increments_refuted",
    "C118_message_takes_back_refuted",
    "C118_wrong_total_stays_refuted"
   ],
   "note": "For every overlap the recorded value is the sum of the increments, no event shows more than what is recorded and the recorded value has been announced; an increment made on its own always tells the recorded value; and if reports are made one by one the last event shows everything recorded. Refuted: with two overlapping increments the last event can show the smaller value, a message set during an increment takes the shown value back, and two overlapping set_total() calls can leave the object with the wrong total, which every later event repeats. One run reports under its key (otherwise C41); requests do not fail."
  },
  {
   "property": "C119",
   "status": "partial",
   "theorems": [
    "C119_not_before_partial",
    "C119_until_renewed_partial",
    "C119_starts_anew_refuted",
    "C119_renewed_refuted"
   ],
   "note": "Proved: the time shown is never before the delivery nor in the future, and until the lease of the message is first renewed it is the time of the delivery up to a millisecond. Refuted for every task that is still running when its worker renews its leases: from then on snapshots show it as started at the renewal or later (the record of the execution keeps the right time). The process taking the snapshot and Redis have the same clock. See C121 for the record."
  },
  {
   "property": "C12",
   "status": "proved",
   "theorems": [
    "C12_resched_atomic"
   ],
   "note": "For every current run in every history that keeps the key's record: one live copy before, one after."
  },
  {
   "property": "C120",
   "status": "partial",
   "theorems": [
    "C120_relays_partial",
    "C120_catches_up_partial",
    "C120_undisturbed_partial",
    "C120_next_event_heals_partial",
    "C120_gap_refuted"
   ],
   "note": "From the acknowledged subscription on, exactly the announcements of the key are handed over, in order; a caller that has read everything was shown the record's state if nothing was announced in the gap between its first read and the subscription, or if anything was announced since (histories without what C98 excepts: cancel, superseded run, dropped record). False in general: an end inside the gap is lost and the caller is shown 'running' until the key is used again."
  },
  {
   "property": "C121",
   "status": "partial",
   "theorems": [
    "C121_latest_claim_partial",
    "C121_running_partial",
    "C121_ended_partial",
    "C121_pending_refuted",
    "C121_ended_before_begun_refuted",
    "C121_completed_with_error_refuted"
   ],
   "note": "For every history: worker and start are those of the latest claim or both missing, they are present while the record says running, and a terminal state and its time are those of the latest end. False for the rest: a key that is used again shows worker, start, end and error of the run before while it waits, an end earlier than its start while it runs, and the old error after it completed."
  },
  {
   "property": "C122",
   "status": "partial",
   "theorems": [
    "C122_bounded_partial",
    "C122_finished_expires_partial",
    "C122_gone_partial",
    "C122_cancelled_kept_refuted",
    "C122_dropped_run_kept_refuted"
   ],
   "note": "Every expiry lies between now and now + execution_ttl; a record that says completed, failed or cancelled has one unless a cancel of its key never sent its second request, and so is gone once execution_ttl has passed (for every history). Refuted in general: cancel() sends EXPIRE in a request of its own, and a caller that dies in between leaves the cancelled record for ever; and the scheduler's HSET makes a new record without expiry for a key whose old record has expired (C22): the run is dropped as superseded and the record says queued for ever."
  },
  {
   "property": "C123",
   "status": "partial",
   "theorems": [
    "C123_there_partial",
    "C123_heard_partial",
    "C123_reused_key_refuted",
    "C123_cleared_refuted"
   ],
   "note": "Proved for every key without a record, or with one that is not to expire, and every history that follows: the record is there, without an expiry, until a run is marked as ended, cancel() sends its second request or a clear applies to the key; runs are turned away only for a newer generation. Refuted in general: an add does not lift the expiry that an earlier use of the key set, so the record goes while the new task is stored (C22); and clear() sets an expiry on the record of a task that is running, so that the end of a run that takes longer than execution_ttl is not recorded."
  },
  {
   "property": "C124",
   "status": "partial",
   "theorems": [
    "C124_inside_partial",
    "C124_strikes_partial",
    "C124_outside_refuted",
    "C124_add_outside_refuted",
    "C124_half_entered_refuted"
   ],
   "note": "Inside the block every call asks the server of the URL, from whatever state the docket was entered and in every mode; strike and restore never ask another. Refuted outside the block: client(), pubsub() and publish() do not ask whether the connection is open and hand redis-py a pool that is None, for which it takes localhost:6379 - before the first entering for all calls but add, replace and strike, after a leaving also for add and replace; and after an entering that failed for want of a primary node, commands go to the cluster and publications to localhost. That redis-py takes localhost:6379 is assumed (environment)."
  },
  {
   "property": "C125",
   "status": "partial",
   "theorems": [
    "C125_login_partial",
    "C125_options_partial",
    "C125_sentinels_partial",
    "C125_false_is_true_refuted",
    "C125_unescaped_twice_refuted",
    "C125_no_timeout_refuted"
   ],
   "note": "Proved for every well-formed Sentinel URL: database and credentials (C125_login_partial); other options without % win, unmentioned ones are docket's, TLS is that of the scheme when there is no ssl option (C125_options_partial); credentials and TLS of the Sentinels' clients, which get nothing else (C125_sentinels_partial). Refuted in full: decode_responses=false and ssl=false are the truthy text \"false\" and turn decoding and TLS on (C125_false_is_true_refuted); an option value with a % in it is unescaped twice (C125_unescaped_twice_refuted); a connect timeout in the URL is not used for the Sentinels (C125_no_timeout_refuted). That redis-py converts neither option and unquotes again is assumed, not modelled."
  },
  {
   "property": "C126",
   "status": "partial",
   "theorems": [
    "C126_all_partial",
    "C126_quiet_partial",
    "C126_left_open_refuted"
   ],
   "note": "Proved: if the pool itself closes and the closing is not cancelled, every client is asked once, in order, and nothing is raised (C126_all_partial); in every case only a cancellation gets out, from the closing that was begun last (C126_quiet_partial). Refuted: if closing the data connections fails, no client of a Sentinel is closed, and the failure is only logged (C126_left_open_refuted)."
  },
  {
   "property": "C127",
   "status": "partial",
   "theorems": [
    "C127_last_partial",
    "C127_run_partial",
    "C127_bad_path_partial",
    "C127_replaced_refuted",
    "C127_half_refuted"
   ],
   "note": "Proved: a name means the function of the last accepted call that gave it, else what it meant before (C127_last_partial); Worker.run with collections of valid functions of pairwise different names finds each under its name and changes no other (C127_run_partial); a path without colon or of something missing registers nothing (C127_bad_path_partial). Refuted in full: a function of the same name as a standard or earlier task replaces it without an error (C127_replaced_refuted); a collection with an invalid function raises but stays registered up to it (C127_half_refuted)."
  },
  {
   "property": "C128",
   "status": "partial",
   "theorems": [
    "C128_meant_partial",
    "C128_agree_partial",
    "C128_refused_partial",
    "C128_memory_partial",
    "C128_watch_refuted",
    "C128_memory_refuted"
   ],
   "note": "Proved: every command but watch uses --url or DOCKET_URL and --docket or DOCKET_NAME (C128_meant_partial), so they agree, and watch agrees if --url is given (C128_agree_partial); a command is refused exactly for a URL beginning with memory://, except worker and watch (C128_refused_partial), and such a URL is one of the memory backend (C128_memory_partial). Refuted: watch reads DOCKET_REDIS_URL instead, so with DOCKET_URL set it looks on localhost (C128_watch_refuted); watch accepts memory://, and every command accepts Memory:// (C128_memory_refuted)."
  },
  {
   "property": "C129",
   "status": "partial",
   "theorems": [
    "C129_starts_partial",
    "C129_annotation_refuted",
    "C129_type_refuted"
   ],
   "note": "Proved (C129_starts_partial): the worker gets to work exactly if no parameter has an annotation with an __origin__ but no first argument or a default whose repr fails, and then each line is the one specified. Refuted: one task with a parameter annotated typing.List keeps the worker from starting (C129_annotation_refuted); list[int] is shown as int (C129_type_refuted)."
  },
  {
   "property": "C13",
   "status": "partial",
   "theorems": [
    "C13_attempt_numbers",
    "C13_each_attempt_once",
    "C13_starts_limited",
    "C13_failure_is_retried_partial",
    "C13_last_failure_is_final",
    "C13_retry_at_not_early",
    "C13_exponential_forever_refuted",
    "C13_policy",
    "C13_retry_at_exact"
   ],
   "note": "Attempt numbers, number of starts, and the retry after each failure are proved for every history and policy. What fails: ExponentialRetry.forever() stops retrying at attempt 48 with the default minimum delay, because the uncapped delay overflows timedelta."
  },
  {
   "property": "C130",
   "status": "partial",
   "theorems": [
    "C130_ends_partial",
    "C130_raises_partial",
    "C130_for_ever_refuted"
   ],
   "note": "Proved: if the client may use XPENDING and XGROUP CREATE, the snapshot answers by the first attempt before which nobody removes the group again (C130_ends_partial); if the group is missing and cannot be created it raises at once (C130_raises_partial). Refuted: any other error of XPENDING (for example NOPERM) is taken for a missing group, since the error text of a pipeline contains the command, and the snapshot calls itself without end - in Python until the recursion limit (C130_for_ever_refuted)."
  },
  {
   "property": "C131",
   "status": "proved",
   "theorems": [
    "C131_there",
    "C131_created",
    "C131_raises",
    "C131_not_created"
   ],
   "note": "C131_there: with the group there one command suffices. C131_created: the group is created and read from, however often it is removed. C131_raises, C131_not_created: other errors end the call. An error is one of a missing group if its text contains NOGROUP, as in the code. Connection errors are not part of this."
  },
  {
   "property": "C132",
   "status": "proved",
   "theorems": [
    "C132_reconnects",
    "C132_stops",
    "C132_counted"
   ],
   "note": "C132_reconnects: spacing, counting and end without a stop. C132_stops: no attempt at or after the stop, and when the run ends. C132_counted: exactly the connection errors before the stop are counted. Time is that of an event loop without delays of its own; cancellation of the run is C97/C101."
  },
  {
   "property": "C133",
   "status": "partial",
   "theorems": [
    "C133_open_partial",
    "C133_taken_partial",
    "C133_thread_left_refuted"
   ],
   "note": "Proved: with ports that can be had the worker runs with all of them open, its result is that of the run, afterwards none is open and after a normal end no thread is left (C133_open_partial); otherwise the run raises whatever the worker would do, and no port stays open (C133_taken_partial). Refuted: if the worker raises, or the second port cannot be had, the server thread is not ended (C133_thread_left_refuted)."
  },
  {
   "property": "C14",
   "status": "partial",
   "theorems": [
    "C14_cancelled_never_starts_partial",
    "C14_cancelled_after_move_refuted"
   ],
   "note": "Proved when everything stored under the key is what its record points at and no worker has an unfinished delivery. False for a future task the scheduler has moved (no stream_id on the record): refuted."
  },
  {
   "property": "C15",
   "status": "partial",
   "theorems": [
    "C15_cancel_idempotent",
    "C15_cancel_keeps_outcome",
    "C15_cancel_frees_key",
    "C15_cancel_touches_no_other",
    "C15_add_between_round_trips_refuted"
   ],
   "note": "Idempotence, preserved outcomes, no effect on other keys and acceptance of a later add are proved for every state. Refuted for an add that falls between cancel's two round trips with execution_ttl=0: it is accepted and then dropped."
  },
  {
   "property": "C16",
   "status": "partial",
   "theorems": [
    "C16_superseded_run_harmless_partial",
    "C16_retry_refuted"
   ],
   "note": "Proved for claims and terminal marks of superseded runs in every reachable state; refuted when the superseded run fails and is retried."
  },
  {
   "property": "C17",
   "status": "partial",
   "theorems": [
    "C17_state_changes_allowed_partial",
    "C17_finished_reported_again_refuted"
   ],
   "note": "The transition table is proved for every operation from every reachable state; the last clause is refuted (a redelivered copy claimed after completion)."
  },
  {
   "property": "C18",
   "status": "partial",
   "theorems": [
    "C18_answer_partial",
    "C18_cancelled_partial",
    "C18_none_gives_old_value_refuted",
    "C18_replaced_run_overwrites_refuted",
    "C18_value_expires_first_refuted",
    "C18_answers_while_running_refuted",
    "C18_error_text"
   ],
   "note": "Told the truth: stored outcome, mark, and any caller (subscribed before or asking later) within execution_ttl is given exactly what the body did, provided the run is the only one of its key between storing and marking and, for a None result, no earlier run left a result key. Each missing case is refuted by a concrete history: None after a value gives the old value; a replaced run overwrites the replacement's stored result; the stored value expires before the record; a replaced run's end releases a caller with None while the replacement runs. C18_cancelled_partial covers cancelled runs: a caller who looks while the record says cancelled is told so."
  },
  {
   "property": "C19",
   "status": "partial",
   "theorems": [
    "C19_subscribed_released_partial",
    "C19_reader_released_partial",
    "C19_lost_wakeup_refuted",
    "C19_cancel_not_announced_refuted"
   ],
   "note": "A subscribed caller is released after finitely many of its own turns once a worker marks a run of the key, whatever is interleaved, and so is a caller that reads a terminal record. The full statement is false: a mark between the read and the subscription is lost, and cancel() publishes nothing; in both cases the caller provably waits for ever unless the key is scheduled again."
  },
  {
   "property": "C20",
   "status": "partial",
   "theorems": [
    "C20_clear_partial",
    "C20_key_stays_taken_refuted",
    "C20_running_task_lost_refuted",
    "C20_any_moment_partial",
    "C20_cleared_runs_refuted"
   ],
   "note": "C20_clear_partial: in every reachable state, clear() (its three round trips run without interference) empties the stream and the future queue, returns exactly the number of entries, and leaves executions, waiting lines and other records alone. C20_any_moment_partial: the same account with arbitrary operations of others (including other clear() calls) between the round trips. Refuted: with an execution_ttl the record of a cleared key keeps its known mark, so the key cannot be added again; the message of a running task is removed as well, so that task is lost when its worker dies; and a scheduled task that becomes due between the round trips is counted as cleared but runs. C123_cleared_refuted: clear() also puts an expiry on the record of a task that is running."
  },
  {
   "property": "C21",
   "status": "proved",
   "theorems": [
    "C21_frame"
   ],
   "note": "Frame theorem for every operation that is about one key, every reachable state."
  },
  {
   "property": "C22",
   "status": "partial",
   "theorems": [
    "C22_safe_until_expiry_partial",
    "C22_fresh_key_has_no_expiry_partial",
    "C22_expired_record_refuted",
    "C22_expired_after_cancel_refuted"
   ],
   "note": "safe until the old record's EXPIRE deadline (safe_until_expiry), and a fresh key has no deadline; refuted beyond: the expiry set for the earlier run is not removed by scheduling the key again, so a run due later is dropped as superseded."
  },
  {
   "property": "C23",
   "status": "proved",
   "theorems": [
    "C23_limit_never_exceeded",
    "C23_no_slot_while_full",
    "C23_limit_with_renewal_loops",
    "C23_slot_kept_by_loop"
   ],
   "note": "all histories from the empty database. C23_limit_never_exceeded takes the timely renewal as a hypothesis on every step (C23_late_holder shows it is needed); C23_limit_with_renewal_loops derives it from the holders' renewal loops (sleep, late wake-up, slow or failing passes, clocks off by a bounded amount) whenever fails+1 periods and the rest fit into the redelivery timeout; with redelivery after 300 s and renewal every 75 s two failed renewals in a row are harmless, three are not (C23_three_failed_renewals)."
  },
  {
   "property": "C24",
   "status": "partial",
   "theorems": [
    "C24_parked_atomically_partial",
    "C24_release_serves_oldest_partial",
    "C24_scavenge_serves_oldest_partial",
    "C24_served_are_the_scheduled",
    "C24_cancelled_waiter_never_runs_partial",
    "C24_capacity_wasted_refuted",
    "C24_cancelled_waiter_runs_refuted",
    "C24_reserved_name_lost_refuted",
    "C24_stranded_refuted"
   ],
   "note": "parking is one atomic step; release and scavenging serve exactly the oldest waiters up to the free capacity, in order, once each, unchanged, with an accepted generation; a cancelled waiter never runs unless the key is scheduled again. Refuted: a cancelled waiter uses up freed capacity; a cancelled waiter runs with old arguments when the key is re-added for the future; a waiter named like another waiter's safeguard is lost. And a waiter whose safeguard found the holder alive is stranded when the holder then dies and its redelivered message ends without releasing (C24_stranded_refuted: whatever workers do by themselves afterwards)."
  },
  {
   "property": "C25",
   "status": "partial",
   "theorems": [
    "C25_window_bound_partial",
    "C25_same_key_refuted",
    "C25_clock_behind_refuted"
   ],
   "note": "Proved for requests of distinct (key, millisecond) and worker clocks within half a window of the server clock used for expiry. False without these: entries are named by key and millisecond so a repeat counts once, and a clock running behind prunes too much or too little."
  },
  {
   "property": "C26",
   "status": "proved",
   "theorems": [
    "C26_retry_after_exact",
    "C26_lowered_limit_refuted",
    "C26_zero_limit_refuted"
   ],
   "note": "For every log the limiter produced with a constant positive limit. Two boundary facts are recorded: after lowering the limit the delay is too short, and a limit of zero makes the script fail."
  },
  {
   "property": "C27",
   "status": "proved",
   "theorems": [
    "C27_admits_exactly_after_quiet",
    "C27_spacing"
   ],
   "note": "Server-side key expiry, non-decreasing server times."
  },
  {
   "property": "C28",
   "status": "proved",
   "theorems": [
    "C28_proceeds_after_quiet",
    "C28_new_burst_between_proceeds",
    "C28_elected_not_dropped",
    "C28_delay_exact"
   ],
   "note": "Non-decreasing clocks; the record of the group retained where the statement needs it."
  },
  {
   "property": "C29",
   "status": "partial",
   "theorems": [
    "C29_blocks_exactly_partial",
    "C29_strike_adds_partial",
    "C29_restore_undoes_partial",
    "C29_parameters",
    "C29_operators",
    "C29_full_strike_lost_refuted",
    "C29_full_strike_ignored_refuted",
    "C29_restore_removes_other_refuted",
    "C29_unhashable_refuted",
    "C29_compare",
    "C29_ignored",
    "C29_any_sequence",
    "C29_only_described",
    "C29_parameter_blocks"
   ],
   "note": "Exact for instruction sequences that do not strike a function both as a whole and by a parameter, and C29_any_sequence says exactly what every sequence blocks; as stated it is false for mixed sequences, and unhashable values are ignored (refutations)."
  },
  {
   "property": "C30",
   "status": "partial",
   "theorems": [
    "C30_agree_partial",
    "C30_readers_agree",
    "C30_late_local_refuted",
    "C30_mixed_refuted"
   ],
   "note": "True for unmixed streams when every local application precedes the monitor reading it, and for processes that only read; false for late local application and for mixed strikes (refutations)."
  },
  {
   "property": "C31",
   "status": "partial",
   "theorems": [
    "C31_round_trip_partial",
    "C31_same",
    "C31_same_effect",
    "C31_empty_name_refuted"
   ],
   "note": "Exact except that an empty function or parameter name comes back as absent, which has the same effect. Pickling of values is taken to be faithful."
  },
  {
   "property": "C32",
   "status": "partial",
   "theorems": [
    "C32_add_struck_partial",
    "C32_add_clear_partial",
    "C32_never_starts_partial",
    "C32_finished_as_cancelled",
    "C32_after_check_refuted",
    "C32_finished_no_other_way",
    "C32_any_instructions",
    "C32_never_starts_any"
   ],
   "note": "The partial theorems are for processes whose instructions do not mix whole-function and parameter strikes; C32_any_instructions and C32_never_starts_any hold for all instructions, with what C29_any_sequence says is blocked. A strike that takes effect between the check and the start does not stop the run (refutation)."
  },
  {
   "property": "C33",
   "status": "partial",
   "theorems": [
    "C33_successor_partial",
    "C33_superseded_places_none",
    "C33_stopped_partial",
    "C33_replace_lost_refuted",
    "C33_stop_removes_replacement_refuted"
   ],
   "note": "Proved: the successor (time, arguments, exactly one, survives the marking of the old run), superseded runs place none, perpetual.cancel() in the only run of the key removes it. The full statement is false: a replace() accepted between on_complete's check and its own replace() is lost, and perpetual.cancel() in a superseded run removes the run that superseded it."
  },
  {
   "property": "C34",
   "status": "partial",
   "theorems": [
    "C34_seed_step",
    "C34_no_second_run_partial",
    "C34_puts_back",
    "C34_parked_is_reseeded_refuted",
    "C34_never_put_back_refuted"
   ],
   "note": "Proved: what a re-seeding step can do, no second run while a run is pending or running (any number of workers, any interleaving), and putting back a task whose key is neither known nor running. The full statement is false: a run parked on a concurrency limit does not count as scheduled, and a record left 'known' by a clear() race is never put back."
  },
  {
   "property": "C35",
   "status": "proved",
   "theorems": [
    "C35_concurrency"
   ],
   "note": "Redis honours COUNT; asyncio is the interleaving of the loop's awaits with task steps."
  },
  {
   "property": "C36",
   "status": "partial",
   "theorems": [
    "C36_window",
    "C36_unknown_name",
    "C36_each_once",
    "C36_even_partial",
    "C36_exact",
    "C36_single",
    "C36_jitter",
    "C36_not_before",
    "C36_after_end_refuted",
    "C36_functions",
    "C36_functions_refuted",
    "C36_known_names"
   ],
   "note": "Times are exact up to rounding of the interval to a microsecond; because of it the last task can be placed after the end of the window. Also: which function the placed messages name."
  },
  {
   "property": "C37",
   "status": "partial",
   "theorems": [
    "C37_well_formed",
    "C37_increasing_partial",
    "C37_distinct_partial",
    "C37_clock_back_refuted",
    "C37_many_calls_refuted",
    "C37_milliseconds_refuted"
   ],
   "note": "Version and variant always hold. Order and uniqueness hold while the clock does not go back and no tick sees more than 2^14 calls; refuted otherwise, given equal random bytes. The 48-bit prefix is the clock in 2^-12 s, not in milliseconds."
  },
  {
   "property": "C38",
   "status": "partial",
   "theorems": [
    "C38_keys",
    "C38_scalars",
    "C38_variadic",
    "C38_others_refused",
    "C38_large_refuted",
    "C38_shadowed_refuted"
   ],
   "note": "Floats are not modelled. Two exceptions are shown: integers beyond 2^53 are rounded by Lua, and a parameter called like the start index of the variadic one is hidden."
  },
  {
   "property": "C39",
   "status": "partial",
   "theorems": [
    "C39_distinct_partial",
    "C39_records",
    "C39_parked_refuted",
    "C39_waiters_refuted",
    "C39_dockets_refuted",
    "C39_dockets",
    "C39_functions_refuted",
    "C39_braces_refuted"
   ],
   "note": "Distinct keys never share a Redis key within the records, and dockets never share one, under the stated name conditions; user-chosen keys that contain the helper suffixes collide, shown by the refuted theorems."
  },
  {
   "property": "C40",
   "status": "proved",
   "theorems": [
    "C40_wake_event",
    "C40_due_event",
    "C40_control_characters_refuted"
   ],
   "note": "Keys with quotes, backslashes, newlines, tabs and other printable text; the refuted theorem shows that other control characters, which the statement excludes, break the JSON."
  },
  {
   "property": "C41",
   "status": "partial",
   "theorems": [
    "C41_progress_is_reported_partial",
    "C41_reports_defined",
    "C41_events_partial",
    "C41_removed_at_end_partial",
    "C41_replaced_run_counts_refuted",
    "C41_progress_left_behind_refuted"
   ],
   "note": "Progress starts at 0 of 100 at the claim, then equals the sum of the reported increments with the last total and message, survives the end of superseded earlier runs, published events show the stored progress, and it is removed at the end of the run. Reports are counted whichever run of the key makes them: a replaced run that keeps reporting pollutes its successor's progress (refuted), and can leave progress behind forever (refuted)."
  },
  {
   "property": "C42",
   "status": "partial",
   "theorems": [
    "C42_detected_iff",
    "C42_detected",
    "C42_unmarked_refuted",
    "C42_executions_partial",
    "C42_missed_refuted",
    "C42_carried_over_refuted",
    "C42_worker_mapping",
    "C42_worker_sequence"
   ],
   "note": "The check is exact for hierarchies where no subclass unmarks a single base, and executions are judged exactly when no dependency is passed in kwargs or fails to enter. Refuted otherwise: the verdict is memoised per function although it depends on the kwargs. Task-only conflicts are checked at registration by the library uncalled-for, which is not modelled."
  },
  {
   "property": "C43",
   "status": "partial",
   "theorems": [
    "C43_not_early",
    "C43_on_time_partial",
    "C43_remaining",
    "C43_negative_extension_refuted",
    "C43_any_extensions"
   ],
   "note": "Never early, and remaining() is exact, for all extensions; on time for non-negative extensions; with a negative extension the cancellation can be late (refuted), but never later than the latest moment the timeout ever stood at (C43_any_extensions). Clock as integers."
  },
  {
   "property": "C44",
   "status": "proved",
   "theorems": [
    "C44_submitted_is_received",
    "C44_delivered_is_stored"
   ],
   "note": "Routes: stream, future queue, retry, waiting line, redelivery. Byte encoding of the fields is not part of this theorem."
  },
  {
   "property": "C45",
   "status": "partial",
   "theorems": [
    "C45_lists_partial",
    "C45_total_partial",
    "C45_moved_refuted",
    "C45_waiting_refuted",
    "C45_unregistered_refuted",
    "C45_truncated_refuted"
   ],
   "note": "Proved for every reachable docket with at most 1000 stream messages and 1000 pending, and any history between the snapshot's two reads: total = stream + queue at the first read; each stream message listed exactly once (running with its owner iff delivered, else future); each queued task whose payload remains listed exactly once; with nothing in between total = number listed. Refuted beyond: a task moved between the reads is counted but not listed, tasks waiting for a concurrency slot are neither, an unregistered function makes the snapshot fail, more than 1000 messages are cut off. Not modelled: times and the worker list in the result."
  },
  {
   "property": "C46",
   "status": "partial",
   "theorems": [
    "C46_listed_partial",
    "C46_exactly_live_partial",
    "C46_names_partial",
    "C46_shorter_age_refuted",
    "C46_clock_ahead_refuted",
    "C46_stale_names_refuted",
    "C46_names_expire_refuted",
    "C46_names_gone"
   ],
   "note": "Proved for dockets with the same allowed age and clock readings that never go back: a listing (all workers, or those of a task) shows each worker once, exactly those whose last heartbeat, not withdrawn, is young enough, with that time; heartbeats, removals and listings of others never remove a live worker; also with events between the purge and the read. Names shown are announced ones and include those of the last heartbeat while the key lives. Refuted otherwise: a docket with a shorter age or a clock ahead removes live workers; names of a previous incarnation stay; with a fractional age a live worker is shown without tasks."
  },
  {
   "property": "C47",
   "status": "partial",
   "theorems": [
    "C47_documented",
    "C47_nothing_else_partial",
    "C47_signs_refuted",
    "C47_alphabet",
    "C47_limit"
   ],
   "note": "All documented forms are parsed exactly and nothing else is accepted among texts without signs, underscores and spaces; with those, other texts (even negative durations) are accepted."
  },
  {
   "property": "C48",
   "status": "partial",
   "theorems": [
    "C48_doubles_within_bounds_partial",
    "C48_defined",
    "C48_first_delay_refuted",
    "C48_overflow_refuted",
    "C48_defined_iff"
   ],
   "note": "Delays double from the minimum and stay within the maximum while they are defined and minimum <= maximum. False otherwise: the first delay ignores the maximum, and from attempt 69 at the latest (48 with the default minimum) the computation overflows."
  },
  {
   "property": "C49",
   "status": "proved",
   "theorems": [
    "C49_in_flight_is_kept"
   ],
   "note": "Timers may be late by a parameter, and up to a given number of renewals in a row may fail, as long as that many periods fit in the timeout."
  },
  {
   "property": "C50",
   "status": "partial",
   "theorems": [
    "C50_bound_partial",
    "C50_one_by_one_partial",
    "C50_others_unlimited",
    "C50_overlap_refuted",
    "C50_parked_run_counts"
   ],
   "note": "Proved: with at most W executions of the key between strike check and count at any time, the worker starts it at most n+W-1 times (n when one by one, 0 when n<=0), from every reachable state and for every interleaving of the docket; keys without a limit are not affected. Refuted in general: a second delivery checked before the first claim's reply is counted starts n+1 runs. Also shown: a run that is only parked uses up an iteration. Modelled: the limit of one worker's call; other strikes are an arbitrary verdict."
  },
  {
   "property": "C51",
   "status": "partial",
   "theorems": [
    "C51_recovers_after_pause_partial",
    "C51_cancelled_winner_refuted"
   ],
   "note": "A pause of ten settle periods lets the group recover. Without a pause it is false: after the elected task is cancelled a steady stream of submissions is dropped for ever."
  },
  {
   "property": "C52",
   "status": "partial",
   "theorems": [
    "C52_outcome_reported_partial",
    "C52_own_timeout_refuted",
    "C52_race_refuted"
   ],
   "note": "Holds for every outcome other than a TimeoutError that is handed over before the timer fires. A TimeoutError raised by the body itself is swallowed and the task counts as successful; the same happens to any outcome if the timer fires just before the hand-over."
  },
  {
   "property": "C53",
   "status": "partial",
   "theorems": [
    "C53_next_run_matches_partial",
    "C53_seed_matches",
    "C53_overdue_refuted",
    "C53_clock_behind_refuted",
    "C53_reseed_in_the_past_refuted"
   ],
   "note": "Proved: the time of the next run and of re-seeded runs. The full statement is false: an overdue next run starts at once, a worker whose clock is behind serves a time twice, and re-seeding uses the time at which the worker started."
  },
  {
   "property": "C54",
   "status": "partial",
   "theorems": [
    "C54_cancel_reaches_partial",
    "C54_successor_unreachable_refuted",
    "C54_cancels_exactly"
   ],
   "note": "C54_cancels_exactly says for every history which task a cancellation reaches: the one of the key created last, if it is in flight and none of the key was cleared since. So the statement holds when the worker never starts a task of K while an earlier one of K is still in its table, and is false otherwise: clearing the predecessor removes the successor's entry."
  },
  {
   "property": "C55",
   "status": "partial",
   "theorems": [
    "C55_survives_partial",
    "C55_cancel_in_claim_refuted",
    "C55_bad_message_refuted"
   ],
   "note": "Proved for decodable messages, tasks from which no exception escapes, and cancellations of tasks past their claim; a cancellation during the claim, or an undecodable message, ends the worker loop."
  },
  {
   "property": "C56",
   "status": "partial",
   "theorems": [
    "C56_drained_partial",
    "C56_until_finished",
    "C56_left_behind_refuted"
   ],
   "note": "false if the loop is cancelled a second time while the heartbeat is removed: gather is never reached and tasks go on running after the loop is over"
  },
  {
   "property": "C57",
   "status": "partial",
   "theorems": [
    "C57_grace_partial",
    "C57_draining_worker_refuted"
   ],
   "note": "Kept for redelivery_timeout after the last renewal; false beyond: the renewal loop ends at shutdown while the tasks are still awaited."
  },
  {
   "property": "C58",
   "status": "partial",
   "theorems": [
    "C58_one_outcome_partial",
    "C58_right_outcome_partial",
    "C58_cleanup_raises_refuted",
    "C58_two_gates_refuted",
    "C58_cancelled_while_entering_refuted",
    "C58_no_outcome_refuted"
   ],
   "note": "Exactly one outcome, and the right one, as long as nothing but the task goes wrong, no clean-up of a dependency raises, and at most one gate blocks. Refuted in general: a clean-up that raises after success gives completed and retried; two gates give parked and dropped; cancelling while entering gives parked and cancelled; an unpicklable exception gives none."
  },
  {
   "property": "C59",
   "status": "partial",
   "theorems": [
    "C59_returned_not_retried_partial",
    "C59_unpicklable_value_refuted",
    "C59_storage_refuses_refuted"
   ],
   "note": "Holds if the value can be pickled and stored, completion handlers answer and no exit raises. Refuted: an unpicklable value or a refusing storage turns a successful run into a retried one."
  },
  {
   "property": "C60",
   "status": "partial",
   "theorems": [
    "C60_worker_goes_on_partial",
    "C60_all_settled_partial",
    "C60_unpicklable_exception_refuted",
    "C60_handler_raises_refuted"
   ],
   "note": "Holds if all raised exceptions can be pickled, handlers answer and storage works. Refuted: an exception that cannot be pickled, or a failure handler that raises, leaves process_completed_tasks and ends the worker with the message unacknowledged."
  },
  {
   "property": "C61",
   "status": "proved",
   "theorems": [
    "C61_counters_balance",
    "C61_counters_balance_worker"
   ],
   "note": "For every execution and every list of finished executions."
  },
  {
   "property": "C62",
   "status": "partial",
   "theorems": [
    "C62_comes_back_later_partial",
    "C62_retry_refuted",
    "C62_parked_refuted",
    "C62_crash_refuted",
    "C62_ratelimit_keeps",
    "C62_ratelimit_parked_partial",
    "C62_ratelimit_retry_refuted"
   ],
   "note": "Proved for runs that come back after the cooldown window, for RateLimit without drop, and for RateLimit with drop when the run is only parked. Refuted: Cooldown drops its own run retried, woken or redelivered within the window (for every window and delay), and RateLimit(drop=True) drops a retried run. The run is alone in its group."
  },
  {
   "property": "C63",
   "status": "partial",
   "theorems": [
    "C63_own_progress_partial",
    "C63_other_run_refuted",
    "C63_after_the_end_refuted"
   ],
   "note": "Proved while a worker has at most one run of the task at a time; refuted for two overlapping runs of one task in one worker, also after the other run has ended."
  },
  {
   "property": "C64",
   "status": "partial",
   "theorems": [
    "C64_own_place_partial",
    "C64_window_bound_partial",
    "C64_limit_exceeded_refuted",
    "C64_place_lost_refuted"
   ],
   "note": "Proved when the held-back run is the last the object admitted; refuted otherwise, in both directions (limit exceeded, place lost)."
  },
  {
   "property": "C65",
   "status": "partial",
   "theorems": [
    "C65_follows_partial",
    "C65_quiet_second_refuted",
    "C65_cancelled_refuted",
    "C65_ended",
    "C65_polled"
   ],
   "note": "Proved while an event arrives in every second; refuted for every quiet second (the command ends although the poll shows an unfinished task) and for cancelled tasks."
  },
  {
   "property": "C66",
   "status": "proved",
   "theorems": [
    "C66_accepted_call_starts",
    "C66_stored_message_starts"
   ],
   "note": "Proved over infinite histories from the empty docket: fairness and the undisturbed condition are stated in SpecLive.v. Redelivery of each pending entry is a fairness assumption here; that the XAUTOCLAIM scan of a busy docket can miss an entry is a separate property."
  },
  {
   "property": "C67",
   "status": "partial",
   "theorems": [
    "C67_found_partial",
    "C67_found_in_turn_partial",
    "C67_pending_order_partial",
    "C67_hidden_partial",
    "C67_abandoned_forever_refuted"
   ],
   "note": "True when fewer than ten times the free slots of pending entries come before the message, in one search or in several (C67_found_partial, C67_found_in_turn_partial); false in general: ten live older entries hide a younger abandoned one from every worker with one free slot, forever (refuted). The limits of XAUTOCLAIM are those of Redis 7 (count, ten attempts per requested entry)."
  },
  {
   "property": "C68",
   "status": "partial",
   "theorems": [
    "C68_only_marked_partial",
    "C68_marked_shown_partial",
    "C68_marked_keyword_shown",
    "C68_starred_leak_refuted",
    "C68_keyword_leak_refuted",
    "C68_length_only_leak_refuted",
    "C68_marked_hidden_refuted"
   ],
   "note": "True when the names call_repr pairs with the arguments are the ones Python binds: at most one surplus positional argument (or nothing marked after the starred parameter), no keyword argument named like a marked positional-only parameter, length-only arguments that have a length. Each missing condition is refuted by a concrete signature: call_repr pairs the i-th argument with the i-th name of the signature, which runs from *rest into keyword-only names; it looks keyword arguments up by name only; length_only falls back to repr. The converse (marked arguments are shown) holds for all but the second and later arguments of a marked starred parameter. repr(), len() and the kind of container are data of a value."
  },
  {
   "property": "C69",
   "status": "partial",
   "theorems": [
    "C69_counts",
    "C69_total_partial",
    "C69_alias_refuted",
    "C69_rows_partial"
   ],
   "note": "C69_counts: exact for all lists of executions. C69_rows_partial, C69_total_partial: running, queued and total are the numbers of stored messages, if every task is registered under its function's __name__. Refuted without that: a running execution is copied into the snapshot without its task name, so a task registered under another name moves to another row when it starts."
  },
  {
   "property": "C70",
   "status": "partial",
   "theorems": [
    "C70_scheduled_partial",
    "C70_consistent",
    "C70_waiting_refuted",
    "C70_crashed_refuted",
    "C70_count_partial"
   ],
   "note": "Exact for messages that are stored and handed to no worker (C70_scheduled_partial, C70_count_partial), and the four helpers agree on every snapshot (C70_consistent). Refuted for other tasks still to run: one waiting for a concurrency slot (recorded state: scheduled) and one whose worker crashed before starting it are not seen."
  },
  {
   "property": "C71",
   "status": "partial",
   "theorems": [
    "C71_every_point_once_partial",
    "C71_families_distinct",
    "C71_names_valid",
    "C71_sanitize_idempotent",
    "C71_buckets",
    "C71_one_family_refuted",
    "C71_label_collision_refuted",
    "C71_two_batches_refuted",
    "C71_names_kept"
   ],
   "note": "Proved for one queued batch and non-empty attribute names: every supported point exactly once (the joined family id is shown unambiguous for all descriptions), families distinct in type, name, description, labels and unit, names valid, buckets cumulative. Refuted: one family per metric (docket_tasks_cancelled is counted with a task label by replace and without by cancel), distinct labels for distinct attributes (a.b and a_b), and once only when two batches are queued. Rendering by prometheus_client and the target-info family are not modelled."
  },
  {
   "property": "C72",
   "status": "partial",
   "theorems": [
    "C72_describes_run_partial",
    "C72_from_a_call",
    "C72_found",
    "C72_up_to_date",
    "C72_attempt_refuted",
    "C72_alias_refuted",
    "C72_line_refuted",
    "C72_claim_stored",
    "C72_outcome_stored"
   ],
   "note": "Proved: function, arguments and time of a current run are given back over histories that keep the record and leave waiting lines undisturbed; arguments always come from a submitted call; accepted tasks are found while their record is kept; state fields are those stored. Refuted: the attempt is always 1; the name of a task scheduled under an alias is lost; adding a key again while it waits for a slot makes the handle show the later call while the earlier one runs."
  },
  {
   "property": "C73",
   "status": "proved",
   "theorems": [
    "C73_due_exactly",
    "C73_due_once",
    "C73_due_in_order",
    "C73_recorded",
    "C73_never_late",
    "C73_after_2242_refuted"
   ],
   "note": "Doubles as m/2^k with rounding to nearest even; timestamp() and fromtimestamp() exactly as CPython computes them. C73_after_2242_refuted shows that the bound of the statement is sharp: beyond it a task can run a microsecond early and its record can show another microsecond. Decimal printing and reading of a double (repr, strtod) is taken as exact, as repr guarantees."
  },
  {
   "property": "C74",
   "status": "proved",
   "theorems": [
    "C74_arrives",
    "C74_refused",
    "C74_distinct",
    "C74_counter_refuted"
   ],
   "note": "UTF-8, isoformat/fromisoformat and numerals are modelled code point by code point; arguments are the bytes cloudpickle produced (its own round trip is outside). The bound on the counter is needed: C74_counter_refuted shows that Lua writes 10^14 as 1e+14, which int() refuses."
  },
  {
   "property": "C75",
   "status": "partial",
   "theorems": [
    "C75_immediate_partial",
    "C75_parked_refuted",
    "C75_waited_refuted"
   ],
   "note": "True for tasks that go straight to the stream. False in general: the scheduler copies only seven fields of a parked task (C75_parked_refuted) and the concurrency limit rebuilds the message without injecting the trace (C75_waited_refuted); in both cases the worker sees no trace at all."
  },
  {
   "property": "C76",
   "status": "partial",
   "theorems": [
    "C76_one_slot_partial",
    "C76_docket_slot",
    "C76_debounce_partial",
    "C76_empty_name_refuted",
    "C76_debounce_empty_dict_refuted"
   ],
   "note": "Proved for every docket name that is not empty and does not begin with a closing brace, and for Debounce on names and values without an opening brace. False otherwise: an empty docket name spreads its keys (C76_empty_name_refuted), and Debounce on an argument with the value {} has its two keys in different slots (C76_debounce_empty_dict_refuted)."
  },
  {
   "property": "C77",
   "status": "partial",
   "theorems": [
    "C77_value",
    "C77_one_meaning",
    "C77_number",
    "C77_text_partial",
    "C77_whole",
    "C77_colon_refuted",
    "C77_between_refuted",
    "C77_text"
   ],
   "note": "Proved: the documented forms of texts without a colon, integers, booleans and timedeltas are read as the values they denote, no form has two meanings, strikes with integers and with texts without a colon (every operator) block exactly the calls described and are lifted by the restore, and a strike without a parameter strikes the whole function. The rest of the statement is false: a text with a colon cannot be struck (what precedes the last colon is taken for a type, so http://x raises), and with these types the between operator never matches a number."
  },
  {
   "property": "C78",
   "status": "partial",
   "theorems": [
    "C78_bound",
    "C78_seen_partial",
    "C78_however",
    "C78_equal",
    "C78_shadowed_refuted",
    "C78_dependency_refuted",
    "C78_any_strikes_partial"
   ],
   "note": "C78_seen_partial: a call is blocked exactly when a strike in force concerns its function or a value its body gets (by position, keyword, extra keyword or default); C78_any_strikes_partial: the same without conditions on the list of strikes; C78_however: calls that give the body the same arguments fare the same; C78_equal: the special case of equality; C78_bound: calls Python refuses are not looked into. The full statement is false: C78_shadowed_refuted (an extra keyword called like a positional-only or the var-keyword parameter is not seen) and C78_dependency_refuted (for a parameter left to a dependency the strike sees the Dependency object)."
  },
  {
   "property": "C79",
   "status": "partial",
   "theorems": [
    "C79_keyword_partial",
    "C79_concurrency_partial",
    "C79_independent_partial",
    "C79_position_refuted",
    "C79_default_refuted",
    "C79_sort_refuted"
   ],
   "note": "C79_keyword_partial: arguments passed by keyword are grouped exactly by value, for all four limits; C79_concurrency_partial: for ConcurrencyLimit also arguments passed by position; C79_independent_partial: answers to calls with one value are those of a limit of their own. The full statement is false: C79_position_refuted (Cooldown, RateLimit and Debounce count all values passed by position or by default together, so one customer's task blocks another's), C79_default_refuted (ConcurrencyLimit fails the task when the argument is left at its default), C79_sort_refuted (1 and \"1\" are counted together)."
  },
  {
   "property": "C80",
   "status": "partial",
   "theorems": [
    "C80_passed_partial",
    "C80_default_refuted"
   ],
   "note": "Proved: what TaskArgument gives is exactly what the caller passed, which the body gets, and it gives None only if optional. Refuted: an argument left at its default, or collected by **kwargs, reaches the body but not the dependency."
  },
  {
   "property": "C81",
   "status": "proved",
   "theorems": [
    "C81_isolated",
    "C81_shared",
    "C81_open"
   ],
   "note": "Loops are objects with identity and address; addresses are unique among live objects and may be used again afterwards. Each block under the lock is one step."
  },
  {
   "property": "C82",
   "status": "proved",
   "theorems": [
    "C82_written",
    "C82_one_meaning"
   ],
   "note": "Texts are UTF-8 bytes without control characters; which texts urlparse takes for bracketed addresses is a parameter; redis-py's conversion of option values is not modelled. Host names in lower case (urlparse lowers them)."
  },
  {
   "property": "C83",
   "status": "partial",
   "theorems": [
    "C83_data_partial",
    "C83_pubsub_partial",
    "C83_escaped_refuted",
    "C83_rest_unchanged"
   ],
   "note": "Proved: commands always use the credentials of the URL; pub/sub does when nothing is percent-escaped. Refuted: _create_node_pool passes the user name and password without decoding the escapes, so p%40ss%2F logs in for commands and fails for pub/sub."
  },
  {
   "property": "C84",
   "status": "partial",
   "theorems": [
    "C84_wellformed_partial",
    "C84_index_refuted"
   ],
   "note": "Proved for every text: whatever is accepted has named hosts, ports in range, a service, and no option overriding database or credentials. Refuted: -1 and 1_0 are taken for database indexes and further path segments are ignored."
  },
  {
   "property": "C85",
   "status": "partial",
   "theorems": [
    "C85_once_partial",
    "C85_loaded",
    "C85_reaches_partial",
    "C85_undecodable_refuted"
   ],
   "note": "Proved for streams in which this process can decode every entry: exactly once, in order, under any connection losses (once), and enough reads reach the end and announce it (reaches); that the announcement is truthful holds without that condition (loaded). False in full (undecodable_refuted): one entry a process cannot decode hides every later instruction from it for ever, keeps wait_for_strikes_loaded waiting, and makes the entries before it apply again on every attempt."
  },
  {
   "property": "C86",
   "status": "partial",
   "theorems": [
    "C86_turns_partial",
    "C86_count_refuted"
   ],
   "note": "Proved when the instructions of a rule take turns, strike first. False in full (count_refuted): striking twice and restoring once leaves the series at 1 with nothing in force; restoring a rule not in force gives -1."
  },
  {
   "property": "C87",
   "status": "partial",
   "theorems": [
    "C87_submitted_partial",
    "C87_own_process",
    "C87_same_name_refuted"
   ],
   "note": "Proved when processes agree on what names mean and functions answer to their own names (submitted_partial); the submitting process itself always finds the very function (own_process). False in full (same_name_refuted): of two functions with the same __name__ the one registered last runs for both."
  },
  {
   "property": "C88",
   "status": "partial",
   "theorems": [
    "C88_retry",
    "C88_perpetual_partial",
    "C88_alias_refuted"
   ],
   "note": "Retries keep the name unconditionally (retry); Perpetuals do where functions go by their own names only (perpetual_partial). False in full (alias_refuted): a Perpetual submitted under an alias goes on under the name of its function, so a strike of the alias misses it and a worker knowing only the alias runs the fallback."
  },
  {
   "property": "C89",
   "status": "partial",
   "theorems": [
    "C89_plain_partial",
    "C89_alias_refuted",
    "C89_any_strikes_partial"
   ],
   "note": "Proved where functions go by their own names: plain_partial for strikes not mixed with parameter strikes, any_strikes_partial for any sequence, with C29's account of when a function is wholly struck. False in full (alias_refuted): strike(f) names f.__name__, which an execution under an alias does not carry."
  },
  {
   "property": "C90",
   "status": "partial",
   "theorems": [
    "C90_seeds_partial",
    "C90_only",
    "C90_alias_refuted",
    "C90_meanwhile_refuted"
   ],
   "note": "Proved when automatic functions are registered under their own names and nothing is registered meanwhile; that nothing else is added holds always (only). False in full: an automatic function registered under an alias only (alias_refuted), or a registration by another coroutine (meanwhile_refuted), makes the loop over docket.tasks raise RuntimeError and the rest is not seeded; at start this ends the worker."
  },
  {
   "property": "C91",
   "status": "partial",
   "theorems": [
    "C91_once_partial",
    "C91_left",
    "C91_inner_refuted",
    "C91_lifetime_refuted"
   ],
   "note": "Leaving in reverse order is proved for every failure and reconnection (left); exactly once per run of the loop when dependencies are not nested (once_partial). False in full: nested dependencies are not looked at (inner_refuted), tasks registered later are missed and reconnections enter again (lifetime_refuted)."
  },
  {
   "property": "C92",
   "status": "partial",
   "theorems": [
    "C92_gets_partial",
    "C92_override",
    "C92_by_position_refuted",
    "C92_positional_only_refuted",
    "C92_name_refuted"
   ],
   "note": "Proved: for every signature and every call Python accepts, where dependency parameters are not given by position, the worker's call succeeds and every parameter (stars included) has exactly the value it should. Refuted otherwise: a dependency argument given by position is a TypeError, a positional-only dependency parameter makes every call one, and one named __worker_dep__... gets the dependency object."
  },
  {
   "property": "C93",
   "status": "partial",
   "theorems": [
    "C93_get_partial",
    "C93_get_many_partial",
    "C93_ttl_partial",
    "C93_delete_partial",
    "C93_short_refuted",
    "C93_fraction_refuted",
    "C93_collision_refuted",
    "C93_put_many_refuted",
    "C93_ttl_refuted",
    "C93_put_returns"
   ],
   "note": "Proved for unambiguous collections and times to live of at least a second, counted in whole seconds: get, get_many, ttl (to the nearest second), delete, delete_many. Refuted: a ttl below a second is refused by Redis, fractions of seconds are lost, collection and key are joined ambiguously, put_many with unequal lengths stores a part before it raises (and ignores values without keys), and ttl can combine one value with another's expiry."
  },
  {
   "property": "C94",
   "status": "partial",
   "theorems": [
    "C94_depths_partial",
    "C94_running_refuted",
    "C94_twice_refuted",
    "C94_parked_refuted"
   ],
   "note": "Proved what the gauges count in every reachable state: undelivered, running and due tasks; tasks due now and later. Refuted as documented: running tasks count as due, a task due at the very moment counts twice, a task waiting for a concurrency slot is not counted at all."
  },
  {
   "property": "C95",
   "status": "partial",
   "theorems": [
    "C95_reaches_partial",
    "C95_only_partial",
    "C95_name_refuted",
    "C95_star_refuted",
    "C95_colon_refuted",
    "C95_gap_refuted",
    "C95_cleanup_refuted"
   ],
   "note": "Holds for names without the characters * ? [ \\ (arrival) and without ':' (single server) or '}' (cluster) as well (no foreign signals), while the listener is subscribed. Refuted: a name with [..] misses its own cancellations; 'app*' obeys those of 'app-two'; docket 'a' obeys those of docket 'a:cancel'; a signal sent during the one-second pause after an error is lost; the subscriber that cleans up parked tasks never comes back from an error."
  },
  {
   "property": "C96",
   "status": "partial",
   "theorems": [
    "C96_closed_partial",
    "C96_inside",
    "C96_failed_entering_refuted",
    "C96_entered_twice_refuted"
   ],
   "note": "Holds for uses whose entering goes well or fails at the very first connection: the log of openings and closings is well nested and the docket can be entered again (C96_closed_partial; C96_inside says what is open inside). False when a later step of __aenter__ fails: Python does not call __aexit__, so pools and the strike monitor stay open and every later entering is refused as not reentrant (C96_failed_entering_refuted); and entering a docket twice replaces its exit stack before the refusal, so that leaving it closes nothing (C96_entered_twice_refuted)."
  },
  {
   "property": "C97",
   "status": "partial",
   "theorems": [
    "C97_starts_nothing",
    "C97_finish_partial",
    "C97_second_signal_refuted"
   ],
   "note": "false for a second signal while the worker waits for its tasks: gather cancels them all, they are recorded as cancelled and acknowledged, and no other worker gets them"
  },
  {
   "property": "C98",
   "status": "partial",
   "theorems": [
    "C98_events_tell_partial",
    "C98_history_told_partial",
    "C98_cancel_untold_partial",
    "C98_cancelled_untold_refuted",
    "C98_superseded_told_refuted"
   ],
   "note": "Proved for every operation that is not a cancel of the key, the end of a superseded run of it, or one that drops its record; the cancel (no event) and the superseded run (event without change) are refuted with witnesses."
  },
  {
   "property": "C99",
   "status": "partial",
   "theorems": [
    "C99_waits",
    "C99_outcome_partial",
    "C99_cancelled_only",
    "C99_heard_partial",
    "C99_cancel_lost_refuted",
    "C99_old_python_refuted",
    "C99_stops"
   ],
   "note": "Waiting for the task, the outcome when nobody cancels the caller, and where a CancelledError can come from are proved; a cancellation of the caller is heard only in the situations of C99_heard_partial: for a task that just passes the cancellation on it is always lost (refuted for every history), and on Python 3.10 always."
  }
 ]
}