(** Executable model of one docket: its Redis data, the Lua scripts and API
    methods that act on it, and the executions held by workers.
    No proofs in this file.

    Conventions and simplifications (referred to below):
    [S1] time is Z microseconds; Redis scores and timestamps are exact.
    [S2] function name, pickled args and kwargs are opaque strings; telemetry
         headers injected into messages are omitted.
    [S3] Lua scripts are atomic (Redis runs them one at a time).
    [S4] storage keys of different kinds are disjoint (see C39 for what this
         asks of task keys).
    [S5] the Redis lock taken around the _schedule script
         (/repo/src/docket/execution.py:717-718) is omitted: the script it
         guards is already one atomic step. *)
From Verif Require Import Base ZSet.

(** Task key, /repo/src/docket/execution.py:553-556. *)
Definition key := string.
(** Redis stream entry id; ids increase ([xadd] below), so a counter (Z). *)
Definition sid := Z.

(** /repo/src/docket/execution.py:402-421 class ExecutionState *)
Inductive state := SScheduled | SQueued | SRunning | SCompleted | SFailed | SCancelled.

Definition state_eqb (a b : state) : bool :=
  match a, b with
  | SScheduled, SScheduled | SQueued, SQueued | SRunning, SRunning
  | SCompleted, SCompleted | SFailed, SFailed | SCancelled, SCancelled => true
  | _, _ => false
  end.

(** /repo/src/docket/execution.py:932-975: [terminal_states] of get_result. *)
Definition terminal_state (s : state) : bool :=
  match s with SCompleted | SFailed | SCancelled => true | _ => false end.

(** /repo/src/docket/execution.py:567-576 Execution.as_message: the fields of a
    task message.  [S1][S2]; [m_when] is the ISO time, [m_gen] the generation. *)
Record msg := mkMsg {
  m_key : key; m_when : Z; m_fn : string; m_args : string; m_kwargs : string;
  m_attempt : Z; m_gen : Z }.

(** /repo/src/docket/execution.py:118-122, 200-203: splice the new generation
    into the message. *)
Definition with_gen (m : msg) (g : Z) : msg :=
  mkMsg (m_key m) (m_when m) (m_fn m) (m_args m) (m_kwargs m) (m_attempt m) g.

(** The hash [runs:K]: fields written at /repo/src/docket/execution.py:127-135,
    210-218, 289-293, 371-376, /repo/src/docket/docket.py:108-114 and
    /repo/src/docket/dependencies/_concurrency.py:131-138, each present or not;
    [r_expire] is the key's expiry time, if any. *)
Record runs := mkRuns {
  r_state : option state; r_gen : option Z; r_when : option Z; r_known : option Z;
  r_sid : option sid; r_fn : option string; r_args : option string; r_kwargs : option string;
  r_worker : option string; r_started : option Z; r_completed : option Z;
  r_error : option string; r_result : option string;
  r_wstream : option string; r_wid : option sid;
  r_expire : option Z }.

(** An empty hash: what HSET/HINCRBY start from when the key does not exist. *)
Definition empty_runs : runs :=
  mkRuns None None None None None None None None None None None None None None None None.

(** HINCRBY runs generation / HSET of single fields; each names the HSET/HDEL
    sites it models. *)
Definition rset_gen (g : Z) (r : runs) : runs :=    (* execution.py:119, 200 *)
  mkRuns (r_state r) (Some g) (r_when r) (r_known r) (r_sid r) (r_fn r) (r_args r) (r_kwargs r)
    (r_worker r) (r_started r) (r_completed r) (r_error r) (r_result r) (r_wstream r) (r_wid r) (r_expire r).
Definition rset_state (s : state) (r : runs) : runs :=  (* worker.py:208 *)
  mkRuns (Some s) (r_gen r) (r_when r) (r_known r) (r_sid r) (r_fn r) (r_args r) (r_kwargs r)
    (r_worker r) (r_started r) (r_completed r) (r_error r) (r_result r) (r_wstream r) (r_wid r) (r_expire r).
Definition rset_expire (e : option Z) (r : runs) : runs :=  (* EXPIRE, execution.py:379, docket.py:774 *)
  mkRuns (r_state r) (r_gen r) (r_when r) (r_known r) (r_sid r) (r_fn r) (r_args r) (r_kwargs r)
    (r_worker r) (r_started r) (r_completed r) (r_error r) (r_result r) (r_wstream r) (r_wid r) e.

(** execution.py:127-135 and 210-218: HSET of an immediate schedule. *)
Definition rset_queued (when : Z) (i : sid) (m : msg) (r : runs) : runs :=
  mkRuns (Some SQueued) (r_gen r) (Some when) (Some when) (Some i)
    (Some (m_fn m)) (Some (m_args m)) (Some (m_kwargs m))
    (r_worker r) (r_started r) (r_completed r) (r_error r) (r_result r) (r_wstream r) (r_wid r) (r_expire r).
(** execution.py:140-147 and 227-234: HSET of a future schedule. *)
Definition rset_scheduled (when : Z) (m : msg) (r : runs) : runs :=
  mkRuns (Some SScheduled) (r_gen r) (Some when) (Some when) (r_sid r)
    (Some (m_fn m)) (Some (m_args m)) (Some (m_kwargs m))
    (r_worker r) (r_started r) (r_completed r) (r_error r) (r_result r) (r_wstream r) (r_wid r) (r_expire r).
(** HDEL stream_id: execution.py:148, _concurrency.py:139. *)
Definition rdel_sid (r : runs) : runs :=
  mkRuns (r_state r) (r_gen r) (r_when r) (r_known r) None (r_fn r) (r_args r) (r_kwargs r)
    (r_worker r) (r_started r) (r_completed r) (r_error r) (r_result r) (r_wstream r) (r_wid r) (r_expire r).
(** HDEL worker started_at: execution.py:154. *)
Definition rdel_worker (r : runs) : runs :=
  mkRuns (r_state r) (r_gen r) (r_when r) (r_known r) (r_sid r) (r_fn r) (r_args r) (r_kwargs r)
    None None (r_completed r) (r_error r) (r_result r) (r_wstream r) (r_wid r) (r_expire r).
(** HDEL known stream_id: execution.py:309, docket.py:108, worker.py:1004. *)
Definition rdel_known (r : runs) : runs :=
  mkRuns (r_state r) (r_gen r) (r_when r) None None (r_fn r) (r_args r) (r_kwargs r)
    (r_worker r) (r_started r) (r_completed r) (r_error r) (r_result r) (r_wstream r) (r_wid r) (r_expire r).
(** execution.py:289-293: HSET of a claim. *)
Definition rset_running (w : string) (t : Z) (r : runs) : runs :=
  mkRuns (Some SRunning) (r_gen r) (r_when r) (r_known r) (r_sid r) (r_fn r) (r_args r) (r_kwargs r)
    (Some w) (Some t) (r_completed r) (r_error r) (r_result r) (r_wstream r) (r_wid r) (r_expire r).
(** execution.py:371-376: HSET of a terminal mark; extra fields only when given
    (execution.py:848-858). *)
Definition rset_terminal (s : state) (t : Z) (err res : option string) (r : runs) : runs :=
  mkRuns (Some s) (r_gen r) (r_when r) (r_known r) (r_sid r) (r_fn r) (r_args r) (r_kwargs r)
    (r_worker r) (r_started r) (Some t)
    (match err with Some _ => err | None => r_error r end)
    (match res with Some _ => res | None => r_result r end)
    (r_wstream r) (r_wid r) (r_expire r).
(** docket.py:113: HSET of a cancellation. *)
Definition rset_cancelled (t : Z) (r : runs) : runs :=
  mkRuns (Some SCancelled) (r_gen r) (r_when r) (r_known r) (r_sid r) (r_fn r) (r_args r) (r_kwargs r)
    (r_worker r) (r_started r) (Some t) (r_error r) (r_result r) (r_wstream r) (r_wid r) (r_expire r).
(** _concurrency.py:131-138: HSET of a park (known is not written). *)
Definition rset_parked (c : string) (i : sid) (m : msg) (r : runs) : runs :=
  mkRuns (Some SScheduled) (r_gen r) (r_when r) (r_known r) (r_sid r)
    (Some (m_fn m)) (Some (m_args m)) (Some (m_kwargs m))
    (r_worker r) (r_started r) (r_completed r) (r_error r) (r_result r) (Some c) (Some i) (r_expire r).
(** _concurrency.py:242-243: HSET state/stream_id, HDEL waiter fields of a wake. *)
Definition rset_woken (i : sid) (r : runs) : runs :=
  mkRuns (Some SQueued) (r_gen r) (r_when r) (r_known r) (Some i) (r_fn r) (r_args r) (r_kwargs r)
    (r_worker r) (r_started r) (r_completed r) (r_error r) (r_result r) None None (r_expire r).
(** _concurrency.py:406: HDEL waiter_stream waiter_entry_id. *)
Definition rdel_waiter (r : runs) : runs :=
  mkRuns (r_state r) (r_gen r) (r_when r) (r_known r) (r_sid r) (r_fn r) (r_args r) (r_kwargs r)
    (r_worker r) (r_started r) (r_completed r) (r_error r) (r_result r) None None (r_expire r).

(** The hash [progress:K], /repo/src/docket/_execution_progress.py:73-98 and
    execution.py:301-306 (generation tag). *)
Record prog := mkProg {
  p_current : Z; p_total : Z; p_gen : option Z; p_message : option string; p_updated : option Z }.

(** A pending entry of the consumer group: entry id, consumer, time of last
    delivery, delivery count (Redis PEL). *)
Record pent := mkPent { pe_id : sid; pe_owner : string; pe_time : Z; pe_count : Z }.

(** All Redis data of one docket.
    [d_stream] key "stream" (docket.py:696); [d_last], [d_pel] its consumer group
    (docket.py:721-735); [d_queue] key "queue" (docket.py:691); [d_parked] payload
    hashes (docket.py:702); [d_runs] (docket.py:708); [d_prog]
    (_execution_progress.py:89); [d_lknown], [d_lsid] legacy keys known:K and
    stream-id:K (docket.py:699, 705); [d_pubs] everything published on state
    channels, oldest first; [d_slots], [d_slotexp] concurrency slot sorted sets
    and their expiry; [d_wait] all waiter entries, tagged with the concurrency key
    of their stream and in the order of arrival
    (_concurrency.py:554). *)
Record db := mkDb {
  d_now : Z; d_next : sid; d_stream : list (sid * msg); d_last : sid; d_pel : list pent;
  d_queue : zset; d_parked : key -> option msg; d_runs : key -> option runs;
  d_prog : key -> option prog; d_lknown : key -> bool; d_lsid : key -> option sid;
  d_pubs : list (key * state);
  d_slots : string -> zset; d_slotexp : string -> option Z; d_wait : list (string * (sid * msg)) }.

(** The empty docket: nothing stored yet (docket.py:721-735 creates the stream
    and group with start id 0-0). *)
Definition init_db : db :=
  mkDb 0 1 [] 0 [] [] (fun _ => None) (fun _ => None) (fun _ => None) (fun _ => false)
    (fun _ => None) [] (fun _ => []) (fun _ => None) [].

(** Field updates (record infrastructure for the commands below). *)
Definition set_now (d : db) x := mkDb x (d_next d) (d_stream d) (d_last d) (d_pel d) (d_queue d) (d_parked d) (d_runs d) (d_prog d) (d_lknown d) (d_lsid d) (d_pubs d) (d_slots d) (d_slotexp d) (d_wait d).
Definition set_next (d : db) x := mkDb (d_now d) x (d_stream d) (d_last d) (d_pel d) (d_queue d) (d_parked d) (d_runs d) (d_prog d) (d_lknown d) (d_lsid d) (d_pubs d) (d_slots d) (d_slotexp d) (d_wait d).
Definition set_stream (d : db) x := mkDb (d_now d) (d_next d) x (d_last d) (d_pel d) (d_queue d) (d_parked d) (d_runs d) (d_prog d) (d_lknown d) (d_lsid d) (d_pubs d) (d_slots d) (d_slotexp d) (d_wait d).
Definition set_last (d : db) x := mkDb (d_now d) (d_next d) (d_stream d) x (d_pel d) (d_queue d) (d_parked d) (d_runs d) (d_prog d) (d_lknown d) (d_lsid d) (d_pubs d) (d_slots d) (d_slotexp d) (d_wait d).
Definition set_pel (d : db) x := mkDb (d_now d) (d_next d) (d_stream d) (d_last d) x (d_queue d) (d_parked d) (d_runs d) (d_prog d) (d_lknown d) (d_lsid d) (d_pubs d) (d_slots d) (d_slotexp d) (d_wait d).
Definition set_queue (d : db) x := mkDb (d_now d) (d_next d) (d_stream d) (d_last d) (d_pel d) x (d_parked d) (d_runs d) (d_prog d) (d_lknown d) (d_lsid d) (d_pubs d) (d_slots d) (d_slotexp d) (d_wait d).
Definition set_parked (d : db) x := mkDb (d_now d) (d_next d) (d_stream d) (d_last d) (d_pel d) (d_queue d) x (d_runs d) (d_prog d) (d_lknown d) (d_lsid d) (d_pubs d) (d_slots d) (d_slotexp d) (d_wait d).
Definition set_runs (d : db) x := mkDb (d_now d) (d_next d) (d_stream d) (d_last d) (d_pel d) (d_queue d) (d_parked d) x (d_prog d) (d_lknown d) (d_lsid d) (d_pubs d) (d_slots d) (d_slotexp d) (d_wait d).
Definition set_prog (d : db) x := mkDb (d_now d) (d_next d) (d_stream d) (d_last d) (d_pel d) (d_queue d) (d_parked d) (d_runs d) x (d_lknown d) (d_lsid d) (d_pubs d) (d_slots d) (d_slotexp d) (d_wait d).
Definition set_legacy (d : db) x y := mkDb (d_now d) (d_next d) (d_stream d) (d_last d) (d_pel d) (d_queue d) (d_parked d) (d_runs d) (d_prog d) x y (d_pubs d) (d_slots d) (d_slotexp d) (d_wait d).
Definition set_pubs (d : db) x := mkDb (d_now d) (d_next d) (d_stream d) (d_last d) (d_pel d) (d_queue d) (d_parked d) (d_runs d) (d_prog d) (d_lknown d) (d_lsid d) x (d_slots d) (d_slotexp d) (d_wait d).
Definition set_slots (d : db) x := mkDb (d_now d) (d_next d) (d_stream d) (d_last d) (d_pel d) (d_queue d) (d_parked d) (d_runs d) (d_prog d) (d_lknown d) (d_lsid d) (d_pubs d) x (d_slotexp d) (d_wait d).
Definition set_slotexp (d : db) x := mkDb (d_now d) (d_next d) (d_stream d) (d_last d) (d_pel d) (d_queue d) (d_parked d) (d_runs d) (d_prog d) (d_lknown d) (d_lsid d) (d_pubs d) (d_slots d) x (d_wait d).
Definition set_wait (d : db) x := mkDb (d_now d) (d_next d) (d_stream d) (d_last d) (d_pel d) (d_queue d) (d_parked d) (d_runs d) (d_prog d) (d_lknown d) (d_lsid d) (d_pubs d) (d_slots d) (d_slotexp d) x.

(** ** Redis commands used by the scripts *)

(** XADD stream * message; returns the new id. *)
Definition xadd (d : db) (m : msg) : db * sid :=
  (set_next (set_stream d (d_stream d ++ [(d_next d, m)])) (d_next d + 1), d_next d).
(** XDEL on a list of entries. *)
Definition del_entry (i : sid) (l : list (sid * msg)) : list (sid * msg) :=
  filter (fun e => negb (fst e =? i)) l.
(** XDEL stream id. *)
Definition xdel (d : db) (i : sid) : db := set_stream d (del_entry i (d_stream d)).
(** XACK stream group id. *)
Definition xack (d : db) (i : sid) : db :=
  set_pel d (filter (fun p => negb (pe_id p =? i)) (d_pel d)).
(** HGETALL runs:K (an absent hash reads as empty). *)
Definition rget (d : db) (k : key) : runs := default empty_runs (d_runs d k).
(** HSET runs:K (creates the hash). *)
Definition hset (d : db) (k : key) (f : runs -> runs) : db :=
  set_runs d (upd (d_runs d) k (Some (f (rget d k)))).
(** HDEL runs:K (no effect on an absent hash; the deletions used here never
    remove the last field, since every writer sets state or generation). *)
Definition hdel (d : db) (k : key) (f : runs -> runs) : db :=
  set_runs d (upd (d_runs d) k (option_map f (d_runs d k))).
(** DEL runs:K. *)
Definition del_runs (d : db) (k : key) : db := set_runs d (upd (d_runs d) k None).
(** EXPIRE runs:K seconds. *)
Definition expire_runs (d : db) (k : key) (secs : Z) : db :=
  hdel d k (rset_expire (Some (d_now d + secs * 1000000))).
(** HINCRBY runs:K generation 1. *)
Definition hincr_gen (d : db) (k : key) : db * Z :=
  let g := default 0 (r_gen (rget d k)) + 1 in (hset d k (rset_gen g), g).
(** DEL known:K stream-id:K (legacy keys). *)
Definition del_legacy (d : db) (k : key) : db :=
  set_legacy d (upd (d_lknown d) k false) (upd (d_lsid d) k None).
(** PUBLISH state:K. *)
Definition publish (d : db) (k : key) (s : state) : db := set_pubs d (d_pubs d ++ [(k, s)]).
(** DEL progress:K. *)
Definition del_prog (d : db) (k : key) : db := set_prog d (upd (d_prog d) k None).
(** ZADD queue / HSET parked: execution.py:138-139, 221-224. *)
Definition park_future (d : db) (k : key) (when : Z) (m : msg) : db :=
  set_queue (set_parked d (upd (d_parked d) k (Some m))) (zadd when k (d_queue d)).
(** ZREM queue, DEL parked: execution.py:175-176, docket.py:98-99. *)
Definition unpark_future (d : db) (k : key) : db :=
  set_queue (set_parked d (upd (d_parked d) k None)) (zrem k (d_queue d)).

Inductive reply := ROk | RExists | RSuperseded.

(** ** /repo/src/docket/execution.py:57-241 _schedule *)

(** execution.py:118-149 / 199-235: increment the generation and place the
    message, on the stream or in the future queue.  [clear_sid] is true in the
    reschedule branch, which also deletes stream_id (line 148); the plain
    branch (line 227-234) leaves it. *)
Definition place (d : db) (k : key) (when : Z) (imm clear_sid : bool) (m : msg) : db :=
  let '(d, g) := hincr_gen d k in
  let m := with_gen m g in
  if imm then
    let '(d, i) := xadd d m in hset d k (rset_queued when i m)
  else
    let d := hset (park_future d k when m) k (rset_scheduled when m) in
    if clear_sid then hdel d k rdel_sid else d.

(** execution.py:113-159: re-route the message being processed. *)
Definition lua_reschedule (d : db) (k : key) (when : Z) (imm : bool) (mid : sid) (m : msg) : db :=
  let d := xdel (xack d mid) mid in
  let d := place d k when imm true m in
  let d := hdel d k rdel_worker in
  publish d k (if imm then SQueued else SScheduled).

(** execution.py:162-181: replacement removes the existing task first. *)
Definition lua_replace_existing (d : db) (k : key) : db :=
  let existing := match r_sid (rget d k) with Some i => Some i | None => d_lsid d k end in
  let d := match existing with Some i => xdel d i | None => d end in
  del_legacy (unpark_future d k) k.

(** execution.py:184-196: does the task already exist? *)
Definition lua_exists (d : db) (k : key) : bool :=
  if is_some (r_known (rget d k)) then true
  else match r_state (rget d k) with
       | Some SRunning => true
       | _ => d_lknown d k
       end.

(** execution.py:57-241 _schedule, the whole script. *)
Definition lua_schedule (d : db) (k : key) (when : Z) (imm repl : bool)
    (mid : option sid) (m : msg) : db * reply :=
  match mid with
  | Some i => (lua_reschedule d k when imm i m, ROk)
  | None =>
      if negb repl && lua_exists d k then (d, RExists)
      else
        let d := if repl then lua_replace_existing d k else d in
        let d := place d k when imm false m in
        (publish d k (if imm then SQueued else SScheduled), ROk)
  end.

(** ** /repo/src/docket/execution.py:244-318 _claim *)

(** execution.py:268-286: generation > 0 and the hash is gone or newer. *)
Definition superseded (d : db) (k : key) (gen : Z) : bool :=
  (0 <? gen) && match r_gen (rget d k) with None => true | Some c => gen <? c end.

Definition lua_claim (d : db) (k : key) (w : string) (t : Z) (gen : Z) (mid : sid) : db * reply :=
  if superseded d k gen then (xdel (xack d mid) mid, RSuperseded)
  else
    let d := hset d k (rset_running w t) in
    let d := set_prog d (upd (d_prog d) k (Some (mkProg 0 100 (Some gen) None None))) in
    let d := hdel d k rdel_known in
    let d := del_legacy d k in
    (publish d k SRunning, ROk).

(** ** /repo/src/docket/execution.py:321-393 _terminal *)

(** execution.py:358-361: the superseded run removes the progress hash only if it
    is untagged or tagged with its own or an older generation. *)
Definition prog_mine (d : db) (k : key) (gen : Z) : bool :=
  match d_prog d k with
  | None => true
  | Some p => match p_gen p with None => true | Some g => g <=? gen end
  end.

Definition lua_terminal (d : db) (k : key) (gen : Z) (s : state) (t : Z) (ttl : Z)
    (err res : option string) (mid : sid) : db * reply :=
  if superseded d k gen then
    let d := publish d k s in
    let d := if prog_mine d k gen then del_prog d k else d in
    (xdel (xack d mid) mid, RSuperseded)
  else
    let d := hset d k (rset_terminal s t err res) in
    let d := if 0 <? ttl then expire_runs d k ttl else del_runs d k in
    let d := publish d k s in
    let d := del_prog d k in
    (xdel (xack d mid) mid, ROk).

(** ** /repo/src/docket/docket.py:66-118 _cancel_task *)
Definition lua_cancel (d : db) (k : key) (t : Z) : db :=
  let existing := match r_sid (rget d k) with Some i => Some i | None => d_lsid d k end in
  let d := match existing with Some i => xdel d i | None => d end in
  let d := del_legacy (unpark_future d k) k in
  let d := del_prog d k in
  let d := hdel d k rdel_known in
  match r_state (rget d k) with
  | Some SCompleted | Some SFailed | Some SCancelled => d
  | _ => hset d k (rset_cancelled t)
  end.

(** docket.py:771-777: the second round trip of Docket._cancel. *)
Definition cancel_finish (d : db) (k : key) (ttl : Z) : db :=
  if 0 <? ttl then expire_runs d k ttl else del_runs d k.

(** ** /repo/src/docket/worker.py:155-226 _stream_due_tasks *)

(** worker.py:185-217: body of the loop for one due key.  The re-added message has
    the same seven fields (generation defaults to 0 only for messages of older
    versions, which [msg] does not represent). *)
Definition stream_one (d : db) (k : key) : db :=
  match d_parked d k with
  | None => d
  | Some m =>
      let '(d, _) := xadd d m in
      let d := set_parked d (upd (d_parked d) k None) in
      let d := hset d (m_key m) (rset_state SQueued) in
      publish d (m_key m) SQueued
  end.

(** worker.py:179-224: the whole script; returns (total_work, due_work). *)
Definition lua_stream_due (d : db) (t : Z) : db * (Z * Z) :=
  let total := zcard (d_queue d) in
  let due := map snd (zrangebyscore 0 t (d_queue d)) in
  let moved := filter (fun k => is_some (d_parked d k)) due in
  let d' := fold_left stream_one due d in
  let n := Z.of_nat (length moved) in
  ((if 0 <? n then set_queue d' (zremrangebyscore 0 t (d_queue d')) else d'), (total, n)).

(** ** /repo/src/docket/dependencies/_concurrency.py *)

(** XRANGE of the waiter stream of [c]. *)
Definition waiters (d : db) (c : string) : list (sid * msg) :=
  map snd (filter (fun e => String.eqb (fst e) c) (d_wait d)).
(** XDEL on the waiter stream of [c]. *)
Definition del_waiter (c : string) (i : sid) (d : db) : db :=
  set_wait d (filter (fun e => negb (String.eqb (fst e) c && (fst (snd e) =? i))) (d_wait d)).

(** _concurrency.py:103-141: park the task on the waiter stream of [c]. *)
Definition lua_park (d : db) (c : string) (k : key) (mid : sid) (m : msg) : db :=
  let d := xdel (xack d mid) mid in
  let '(d, g) := hincr_gen d k in
  let m := with_gen m g in
  let i := d_next d in
  let d := set_next (set_wait d (d_wait d ++ [(c, (i, m))])) (i + 1) in
  let d := hset d k (rset_parked c i m) in
  let d := hdel d k rdel_sid in
  publish d k SScheduled.

(** _concurrency.py:78-79, 84-85, 93-94: take the slot (the expiry is dropped
    by Redis when the set becomes empty; every later ZADD sets it again). *)
Definition take_slot (d : db) (c : string) (z : zset) (k : key) (t ttl : Z) : db :=
  set_slotexp (set_slots d (upd (d_slots d) c (zadd t k z)))
    (upd (d_slotexp d) c (Some (d_now d + ttl * 1000000))).

(** _concurrency.py:44-145 _acquire_or_park; true = acquired, false = parked. *)
Definition lua_acquire_or_park (d : db) (c : string) (maxc : Z) (k : key) (t : Z) (redel : bool)
    (stale ttl : Z) (mid : sid) (m : msg) : db * bool :=
  let z := d_slots d c in
  match zscore k z with
  | Some st =>
      if redel && (st <=? stale) then (take_slot d c z k t ttl, true)
      else (lua_park d c k mid m, false)
  | None =>
      if zcard z <? maxc then (take_slot d c z k t ttl, true)
      else match zrangebyscore 0 stale z with
           | (_, k0) :: _ => (take_slot d c (zrem k0 z) k t ttl, true)
           | [] => (lua_park d c k mid m, false)
           end
  end.

(** _concurrency.py:604, 225: key of the safeguard task of a parked task. *)
Definition safeguard_key (k : key) : key := ("__safeguard__:" ++ k)%string.

(** _concurrency.py:229-231, 248-250: drop the safeguard of a waiter. *)
Definition drop_safeguard (d : db) (k : key) : db :=
  del_runs (unpark_future d (safeguard_key k)) (safeguard_key k).

(** _concurrency.py:203-255: body of the wake loop for one waiter entry. *)
Definition wake_one (c : string) (d : db) (e : sid * msg) : db :=
  let '(wid, m) := e in
  let k := m_key m in
  match r_state (rget d k) with
  | Some SScheduled =>
      let '(d, g) := hincr_gen d k in
      let '(d, i) := xadd d (with_gen m g) in
      let d := del_waiter c wid d in
      let d := hset d k (rset_woken i) in
      let d := drop_safeguard d k in
      publish d k SQueued
  | _ =>
      let d := del_waiter c wid d in
      drop_safeguard d k
  end.

(** _concurrency.py:200-256: wake up to [cap] oldest waiters. *)
Definition wake (d : db) (c : string) (cap : Z) : db :=
  if 0 <? cap then fold_left (wake_one c) (firstn (Z.to_nat cap) (waiters d c)) d else d.

(** _concurrency.py:194-197: evict all stale slots. *)
Definition evict_stale (d : db) (c : string) (stale : Z) : db :=
  set_slots d (upd (d_slots d) c (zremrangebyscore 0 stale (d_slots d c))).

(** _concurrency.py:148-265 _release_and_wake *)
Definition lua_release (d : db) (c : string) (k : key) (maxc stale : Z) : db :=
  let d := set_slots d (upd (d_slots d) c (zrem k (d_slots d c))) in
  let d := match waiters d c with [] => d | _ => evict_stale d c stale end in
  wake d c (maxc - zcard (d_slots d c)).

(** _concurrency.py:268-379 _scavenge_and_wake.  A negative capacity makes the
    real script fail inside XRANGE (after the eviction); [wake] then wakes
    nobody, as the real one does. *)
Definition lua_scavenge (d : db) (c : string) (maxc stale : Z) : db :=
  match waiters d c with
  | [] => d
  | _ => let d := evict_stale d c stale in wake d c (maxc - zcard (d_slots d c))
  end.

(** _concurrency.py:382-408 _cancel_cleanup, with the line and the entry that
    _cleanup_cancelled_waiter read before (736-743), possibly long before.  The entry is
    one that was stored for [k]: the step does nothing when the place belongs to another
    key, which never happens (Cleanup.v, C108).  The read, and the cancel of the
    safeguard at line 755, are steps of their own there. *)
Definition own_place (d : db) (k : key) (c : string) (i : sid) : bool :=
  forallb (fun e => negb (String.eqb (fst e) c && (fst (snd e) =? i)) || String.eqb (m_key (snd (snd e))) k) (d_wait d).
Definition cancel_cleanup (d : db) (k : key) (c : string) (i : sid) : db :=
  if own_place d k c i then
    let d := del_waiter c i d in
    let d := del_prog d k in
    hdel d k rdel_waiter
  else d.

(** _concurrency.py:793-802: one renewal of a slot lease. *)
Definition renew_slot (d : db) (c : string) (k : key) (t ttl : Z) : db :=
  take_slot d c (d_slots d c) k t ttl.

(** ** Time: expiry of keys with a TTL (Redis) *)
Definition expired (now : Z) (e : option Z) : bool :=
  match e with None => false | Some x => x <=? now end.

Definition tick (d : db) (dt : Z) : db :=
  let now := d_now d + dt in
  let d := set_now d now in
  let d := set_runs d (fun k => match d_runs d k with
                                | Some r => if expired now (r_expire r) then None else Some r
                                | None => None end) in
  let d := set_slots d (fun c => if expired now (d_slotexp d c) then [] else d_slots d c) in
  set_slotexp d (fun c => if expired now (d_slotexp d c) then None else d_slotexp d c).

(** ** /repo/src/docket/docket.py:837-907 Docket.clear *)

(** docket.py:852-871: what clear has read before it changes anything: the number of
    messages and the scheduled keys, in one pipeline, and then the keys of the messages. *)
Record clear_snap := mkClear { cs_count : Z; cs_queue_keys : list key; cs_stream_keys : list key }.
(** Where a clear is: between the two reads (861), after both. *)
Inductive clearing := CCounted (n : Z) (qs : list key) | CRead (sn : clear_snap).

(** docket.py:852-861: XLEN, ZCARD, ZRANGE *)
Definition clear_count (d : db) : clearing := CCounted (Z.of_nat (length (d_stream d))) (map snd (d_queue d)).
(** docket.py:863-871: XRANGE, if there were messages *)
Definition clear_keys (d : db) (c : clearing) : clearing :=
  match c with
  | CCounted n qs => CRead (mkClear n qs (if 0 <? n then map (fun e => m_key (snd e)) (d_stream d) else []))
  | CRead sn => CRead sn
  end.

(** docket.py:889-893, 898-902 *)
Definition clear_run (ttl : Z) (d : db) (k : key) : db :=
  if 0 <? ttl then expire_runs d k ttl else del_runs d k.

(** docket.py:881-893 *)
Definition clear_scheduled (ttl : Z) (d : db) (k : key) : db :=
  clear_run ttl (del_legacy (set_parked d (upd (d_parked d) k None)) k) k.

(** docket.py:873-907: the second pipeline and the returned count. *)
Definition clear_apply (ttl : Z) (d : db) (s : clear_snap) : db * Z :=
  let d := if 0 <? cs_count s then set_stream d [] else d in
  let d := set_queue d [] in
  let d := fold_left (clear_scheduled ttl) (cs_queue_keys s) d in
  let d := fold_left (clear_run ttl) (cs_stream_keys s) d in
  (d, cs_count s + Z.of_nat (length (cs_queue_keys s))).

(** ** Workers *)

(** Progress of an Execution object inside a worker: received (worker.py:669-691),
    found stricken and forgotten (worker.py:1017-1019), claimed (worker.py:1027),
    body running (worker.py:1101-1113), body over or dependencies unwinding
    (worker.py:1115-1235), acknowledged. *)
Inductive phase := PDelivered | PStruck | PClaimed | PBody | PEnded | PDone.

(** /repo/src/docket/execution.py:457-509: an Execution held by a worker.
    [x_id] identifies the Python object; [x_slot] is the concurrency slot its
    ConcurrencyLimit holds. *)
Record exec := mkExec {
  x_id : Z; x_worker : string; x_mid : sid; x_msg : msg; x_redel : bool; x_phase : phase;
  x_slot : option (string * Z) }.

(** The system: the store, the executions in worker processes, a counter for
    their identities, and the clear() calls under way, by caller. *)
Record sys := mkSys { s_db : db; s_execs : list exec; s_nextx : Z; s_clear : string -> option clearing }.

Definition init_sys : sys := mkSys init_db [] 0 (fun _ => None).
(** The clear of caller [w] that is about to change the docket (docket.py:873). *)
Definition ready_clear (s : sys) (w : string) : option clear_snap :=
  match s_clear s w with Some (CRead sn) => Some sn | _ => None end.

(** Docket and worker settings: execution_ttl in whole seconds
    (execution.py:854-858), redelivery_timeout. *)
Record cfg := mkCfg { c_ttl : Z; c_redeliver : Z }.

(** A call passed to add/replace: key, time, function, arguments
    (docket.py:393-403: attempt 1, generation 0 before splicing). *)
Record call := mkCall { a_key : key; a_when : Z; a_fn : string; a_args : string; a_kwargs : string }.

(** docket.py:393-403 with execution.py:567-576 *)
Definition call_msg (a : call) : msg :=
  mkMsg (a_key a) (a_when a) (a_fn a) (a_args a) (a_kwargs a) 1 0.

(** execution.py:424-446 class Disposition (LOADED is the default of executions
    not produced by a scheduling call). *)
Inductive disposition := DScheduled | DAlreadyScheduled | DStruck.

(** docket.py:393-442 add / 503-552 replace with execution.py:656-756
    Execution.schedule, for a call that no strike matches; [t] is the caller's
    clock. *)
Definition do_schedule (d : db) (a : call) (repl : bool) (t : Z) : db * disposition :=
  let '(d, r) := lua_schedule d (a_key a) (a_when a) (a_when a <=? t) repl None (call_msg a) in
  (d, match r with RExists => DAlreadyScheduled | _ => DScheduled end).

(** Update of one execution object. *)
Definition upd_exec (l : list exec) (h : Z) (f : exec -> exec) : list exec :=
  map (fun x => if x_id x =? h then f x else x) l.
Definition get_exec (l : list exec) (h : Z) : option exec := find (fun x => x_id x =? h) l.
Definition with_phase (p : phase) (x : exec) : exec :=
  mkExec (x_id x) (x_worker x) (x_mid x) (x_msg x) (x_redel x) p (x_slot x).
(** worker.py:1064: leaving the dependency context means the body will not start. *)
Definition unwind (x : exec) : exec :=
  match x_phase x with PClaimed => with_phase PEnded x | _ => x end.
Definition with_slot (o : option (string * Z)) (x : exec) : exec :=
  mkExec (x_id x) (x_worker x) (x_mid x) (x_msg x) (x_redel x) (x_phase x) o.

(** worker.py:651-667 XREADGROUP ">" COUNT 1 (a batch of n is n of these). *)
Definition next_new (d : db) : option (sid * msg) := find (fun e => d_last d <? fst e) (d_stream d).

Definition read_group (d : db) (w : string) : db * option (sid * msg) :=
  match next_new d with
  | None => (d, None)
  | Some (i, m) => (set_pel (set_last d i) (d_pel d ++ [mkPent i w (d_now d) 1]), Some (i, m))
  end.

(** XRANGE stream id id. *)
Definition lookup_entry (i : sid) (l : list (sid * msg)) : option msg :=
  option_map snd (find (fun e => fst e =? i) l).

(** worker.py:630-649 XAUTOCLAIM of one pending entry: handed over when it has been idle for
    at least redelivery_timeout; entries no longer in the stream are dropped from the pending
    list, however long they have been idle (Redis 7 looks for the entry first). *)
Definition claimable (c : cfg) (d : db) (p : pent) : bool :=
  negb (is_some (lookup_entry (pe_id p) (d_stream d))) || (c_redeliver c <=? d_now d - pe_time p).
Definition autoclaim (c : cfg) (d : db) (w : string) (i : sid) : db * option (sid * msg) :=
  match find (fun p => pe_id p =? i) (d_pel d) with
  | None => (d, None)
  | Some p =>
      if claimable c d p then
        match lookup_entry i (d_stream d) with
        | Some m =>
            (set_pel d (map (fun p => if pe_id p =? i then mkPent i w (d_now d) (pe_count p + 1) else p)
                          (d_pel d)), Some (i, m))
        | None => (xack d i, None)
        end
      else (d, None)
  end.

(** worker.py:887-923 XCLAIM idle=0 of the worker's in-flight messages: pending
    entries get the worker as owner and a fresh delivery time; those no longer in
    the stream are dropped from the pending list (Redis 7). *)
Definition renew (d : db) (w : string) (ids : list sid) : db :=
  set_pel d (map (fun p => if existsb (Z.eqb (pe_id p)) ids
                           then mkPent (pe_id p) w (d_now d) (pe_count p + 1) else p)
               (filter (fun p => negb (existsb (Z.eqb (pe_id p)) ids)
                                 || is_some (lookup_entry (pe_id p) (d_stream d))) (d_pel d))).

(** worker.py:1000-1009 _delete_known_task *)
Definition delete_known (d : db) (k : key) : db := del_legacy (hdel d k rdel_known) k.

(** Every atomic event that can happen to the docket.  The clock [t] of an
    operation is the clock of the process performing it.
    OAdd/OReplace docket.py:355-554; OCancel/OCancelFinish docket.py:740-777 (two
    round trips); OClearRead/OClearKeys/OClearApply docket.py:837-907 (three, by a caller [w]); OScheduler
    worker.py:848-885; ORead/OAutoclaim/ORenew worker.py:630-667, 887-923;
    OClaim worker.py:1027; OBodyStart/OBodyEnd worker.py:1101-1115; ODelKnown
    worker.py:1017-1019; OTerminal execution.py:823-905; OResched _retry.py:99-112
    ([bump]) and worker.py:707-715, with [when] chosen by the worker; OAcquire/ORelease/ORenewSlot/OScavenge/
    OCancelCleanup _concurrency.py; OCrash: all executions of a worker vanish;
    OTick: time passes. *)
Inductive op :=
| OTick (dt : Z)
| OAdd (a : call) (t : Z)
| OReplace (a : call) (t : Z)
| OCancel (k : key) (t : Z)
| OCancelFinish (k : key)
| OClearRead (w : string)
| OClearKeys (w : string)
| OClearApply (w : string)
| OScheduler (t : Z)
| ORead (w : string)
| OAutoclaim (w : string) (i : sid)
| ORenew (w : string)
| OClaim (h : Z) (t : Z)
| OBodyStart (h : Z)
| OBodyEnd (h : Z)
| ODelKnown (h : Z)
| OTerminal (h : Z) (s : state) (t : Z) (err res : option string)
| OResched (h : Z) (when : Z) (bump : bool) (t : Z)
| OAcquire (h : Z) (c : string) (maxc : Z) (t : Z)
| ORelease (h : Z) (t : Z)
| ORenewSlot (h : Z) (t : Z)
| OScavenge (c : string) (maxc : Z) (t : Z)
| OCancelCleanup (k : key) (cc : string) (i : sid)
| OCrash (w : string).

(** What an observer sees of a step. *)
Inductive out :=
| ORefused                      (* the operation is not possible now *)
| ODone
| ODisp (dis : disposition)
| OCount (n : Z)
| OMoved (total due : Z)
| ODelivered (h : Z) (i : sid) (m : msg)
| OClaimed (b : bool)
| OStarted (m : msg) (i : sid)        (* a task body starts *)
| OAcquired (b : bool).

(** Terminal states a mark may carry: execution.py:907-930. *)
Definition is_mark (s : state) : bool := terminal_state s.

(** execution.py:578-610 / worker.py:674-691: a delivered message becomes an
    execution object. *)
Definition deliver (s : sys) (r : db * option (sid * msg)) (w : string) (redel : bool) : sys * out :=
  match r with
  | (d, None) => (mkSys d (s_execs s) (s_nextx s) (s_clear s), ODone)
  | (d, Some (i, m)) =>
      (mkSys d (s_execs s ++ [mkExec (s_nextx s) w i m redel PDelivered None]) (s_nextx s + 1) (s_clear s),
       ODelivered (s_nextx s) i m)
  end.

Definition set_db (s : sys) (d : db) : sys := mkSys d (s_execs s) (s_nextx s) (s_clear s).
Definition set_execs (s : sys) (d : db) (l : list exec) : sys := mkSys d l (s_nextx s) (s_clear s).

(** Terminal marks: a stricken task is cancelled without being claimed
    (worker.py:1021), after the claim admission control drops the task
    (worker.py:722) or a dependency failed (worker.py:1174-1231), after the body
    any of the three (worker.py:1132, 1148, 1167, 1231, 734). *)
Definition may_finish (p : phase) (s : state) : bool :=
  match p with
  | PStruck => state_eqb s SCancelled
  | PClaimed | PEnded => is_mark s
  | _ => false
  end.
(** Phases in which an execution can be rescheduled: admission control or a failed
    dependency (worker.py:707-715, 1186-1192), or a failed body. *)
Definition may_resched (p : phase) : bool :=
  match p with PClaimed | PEnded => true | _ => false end.

(** _retry.py:106-107, worker.py:714: the execution's own copy of the message is
    updated before rescheduling. *)
Definition resched_msg (m : msg) (when : Z) (bump : bool) : msg :=
  mkMsg (m_key m) when (m_fn m) (m_args m) (m_kwargs m)
    (if bump then m_attempt m + 1 else m_attempt m) (m_gen m).

(** Slot key lifetime, _concurrency.py:562-565. *)
Definition slot_ttl (c : cfg) : Z := Z.max 1 (c_redeliver c * 4 / 1000000).

Definition step (c : cfg) (s : sys) (o : op) : sys * out :=
  let d := s_db s in
  let xs := s_execs s in
  match o with
  | OTick dt => if 0 <=? dt then (set_db s (tick d dt), ODone) else (s, ORefused)
  | OAdd a t => let '(d, r) := do_schedule d a false t in (set_db s d, ODisp r)
  | OReplace a t => let '(d, r) := do_schedule d a true t in (set_db s d, ODisp r)
  | OCancel k t => (set_db s (lua_cancel d k t), ODone)
  | OCancelFinish k => (set_db s (cancel_finish d k (c_ttl c)), ODone)
  | OClearRead w => (mkSys d xs (s_nextx s) (upd (s_clear s) w (Some (clear_count d))), ODone)
  | OClearKeys w => (mkSys d xs (s_nextx s) (upd (s_clear s) w (option_map (clear_keys d) (s_clear s w))), ODone)
  | OClearApply w =>
      match ready_clear s w with
      | None => (s, ORefused)
      | Some sn => let '(d, n) := clear_apply (c_ttl c) d sn in
                   (mkSys d xs (s_nextx s) (upd (s_clear s) w None), OCount n)
      end
  | OScheduler t => let '(d, (a, b)) := lua_stream_due d t in (set_db s d, OMoved a b)
  | ORead w => deliver s (read_group d w) w false
  | OAutoclaim w i => deliver s (autoclaim c d w i) w true
  | ORenew w =>
      (set_db s (renew d w (map x_mid (filter (fun x => String.eqb (x_worker x) w &&
           match x_phase x with PDone => false | _ => true end) xs))), ODone)
  | OClaim h t =>
      match get_exec xs h with
      | Some x =>
          match x_phase x with
          | PDelivered =>
              let '(d, r) := lua_claim d (m_key (x_msg x)) (x_worker x) t (m_gen (x_msg x)) (x_mid x) in
              match r with
              | RSuperseded => (set_execs s d (upd_exec xs h (with_phase PDone)), OClaimed false)
              | _ => (set_execs s d (upd_exec xs h (with_phase PClaimed)), OClaimed true)
              end
          | _ => (s, ORefused)
          end
      | None => (s, ORefused)
      end
  | OBodyStart h =>
      match get_exec xs h with
      | Some x => match x_phase x with
                  | PClaimed => (set_execs s d (upd_exec xs h (with_phase PBody)), OStarted (x_msg x) (x_mid x))
                  | _ => (s, ORefused) end
      | None => (s, ORefused)
      end
  | OBodyEnd h =>
      match get_exec xs h with
      | Some x => match x_phase x with
                  | PBody => (set_execs s d (upd_exec xs h (with_phase PEnded)), ODone)
                  | _ => (s, ORefused) end
      | None => (s, ORefused)
      end
  | ODelKnown h =>
      match get_exec xs h with
      | Some x => match x_phase x with
                  | PDelivered => (set_execs s (delete_known d (m_key (x_msg x)))
                                     (upd_exec xs h (with_phase PStruck)), ODone)
                  | _ => (s, ORefused) end
      | None => (s, ORefused)
      end
  | OTerminal h st t err res =>
      match get_exec xs h with
      | Some x =>
          if may_finish (x_phase x) st then
            let '(d, r) := lua_terminal d (m_key (x_msg x)) (m_gen (x_msg x)) st t (c_ttl c) err res (x_mid x) in
            (set_execs s d (upd_exec xs h (with_phase PDone)), ODone)
          else (s, ORefused)
      | None => (s, ORefused)
      end
  | OResched h when bump t =>
      match get_exec xs h with
      | Some x =>
          if may_resched (x_phase x) then
            let m := resched_msg (x_msg x) when bump in
            let '(d, r) := lua_schedule d (m_key m) when (when <=? t) bump (Some (x_mid x)) m in
            (set_execs s d (upd_exec xs h (with_phase PDone)), ODone)
          else (s, ORefused)
      | None => (s, ORefused)
      end
  | OAcquire h cc maxc t =>
      match get_exec xs h with
      | Some x =>
          match x_phase x, x_slot x with
          | PClaimed, None =>
              let '(d, b) := lua_acquire_or_park d cc maxc (m_key (x_msg x)) t (x_redel x)
                               (t - c_redeliver c) (slot_ttl c) (x_mid x) (x_msg x) in
              (set_execs s d (upd_exec xs h (if b then with_slot (Some (cc, maxc)) else with_phase PDone)),
               OAcquired b)
          | _, _ => (s, ORefused)
          end
      | None => (s, ORefused)
      end
  | ORelease h t =>
      match get_exec xs h with
      | Some x =>
          match x_slot x, x_phase x with
          | Some (cc, maxc), (PClaimed | PEnded | PDone) =>
              (set_execs s (lua_release d cc (m_key (x_msg x)) maxc (t - c_redeliver c))
                 (upd_exec xs h (fun x => with_slot None (unwind x))), ODone)
          | _, _ => (s, ORefused)
          end
      | None => (s, ORefused)
      end
  | ORenewSlot h t =>
      match get_exec xs h with
      | Some x =>
          match x_slot x with
          | Some (cc, _) => (set_db s (renew_slot d cc (m_key (x_msg x)) t (slot_ttl c)), ODone)
          | None => (s, ORefused)
          end
      | None => (s, ORefused)
      end
  | OScavenge cc maxc t => (set_db s (lua_scavenge d cc maxc (t - c_redeliver c)), ODone)
  | OCancelCleanup k cc i => (set_db s (cancel_cleanup d k cc i), ODone)
  | OCrash w => (mkSys d (filter (fun x => negb (String.eqb (x_worker x) w)) xs) (s_nextx s) (s_clear s), ODone)
  end.

(** Histories: any list of operations, from any state. *)
Fixpoint run (c : cfg) (s : sys) (l : list op) : sys * list out :=
  match l with
  | [] => (s, [])
  | o :: l => let '(s, r) := step c s o in let '(s, rs) := run c s l in (s, r :: rs)
  end.
Definition final (c : cfg) (s : sys) (l : list op) : sys := fst (run c s l).
Definition outs (c : cfg) (s : sys) (l : list op) : list out := snd (run c s l).
