(** Vocabulary of the property statements about histories.  These definitions
    are specification, not model: they only talk about operations, their
    visible outcomes and the stored data. *)
From Verif Require Import Base ZSet Model.

(** [along c P s l]: [P] holds at every step of the history [l] from [s]. *)
Fixpoint along (c : cfg) (P : sys -> op -> Prop) (s : sys) (l : list op) : Prop :=
  match l with
  | [] => True
  | o :: l => P s o /\ along c P (fst (step c s o)) l
  end.

(** The step does not make the record of [k] disappear (it expires, or is
    deleted because execution_ttl is 0, or by cancel/clear with ttl 0). *)
Definition keeps (c : cfg) (k : key) (s : sys) (o : op) : Prop :=
  d_runs (s_db s) k <> None -> d_runs (s_db (fst (step c s o))) k <> None.

(** The states a docket can be in after a history in which the record of [k]
    was never dropped. *)
Definition reachable_keeping (c : cfg) (k : key) (s : sys) : Prop :=
  exists l, along c (keeps c k) init_sys l /\ s = final c init_sys l.

(** Task keys that are not names of docket's own safeguard tasks. *)
Definition ordinary (k : key) : Prop := forall k', k <> safeguard_key k'.

(** The execution [h] is of key [k] and has not been superseded. *)
Definition current_run (k : key) (s : sys) (h : Z) : Prop :=
  forall x, get_exec (s_execs s) h = Some x -> m_key (x_msg x) = k ->
    superseded (s_db s) k (m_gen (x_msg x)) = false.

(** A message carries the function and arguments of a call. *)
Definition carries (a : call) (m : msg) : Prop :=
  m_fn m = a_fn a /\ m_args m = a_args a /\ m_kwargs m = a_kwargs a.

(** A message stored in the docket: on the stream, on the future queue (payload
    and queue entry), or in a concurrency waiting line from which the next
    release forwards it. *)
Definition on_stream (s : sys) (i : sid) (m : msg) : Prop := In (i, m) (d_stream (s_db s)).
Definition in_future (s : sys) (m : msg) : Prop :=
  d_parked (s_db s) (m_key m) = Some m /\ zscore (m_key m) (d_queue (s_db s)) = Some (m_when m).
Definition in_line (s : sys) (cc : string) (i : sid) (m : msg) : Prop :=
  In (cc, (i, m)) (d_wait (s_db s)) /\ r_state (rget (s_db s) (m_key m)) = Some SScheduled.
Definition stored (s : sys) (m : msg) : Prop :=
  (exists i, on_stream s i m) \/ in_future s m \/ (exists cc i, in_line s cc i m).

(** The run [m] is not superseded: a worker that claims it may start it. *)
Definition live (s : sys) (m : msg) : Prop := superseded (s_db s) (m_key m) (m_gen m) = false.

(** Nobody calls the docket about [k]: no add, replace, cancel of [k], no clear. *)
Definition no_calls (k : key) (o : op) : Prop :=
  match o with
  | OAdd a _ | OReplace a _ => a_key a <> k
  | OCancel k' _ | OCancelFinish k' | OCancelCleanup k' _ _ => k' <> k
  | OClearApply _ => False
  | _ => True
  end.

(** Only a run that is still current reschedules itself or joins a waiting line. *)
Definition no_stale_resched (k : key) (s : sys) (o : op) : Prop :=
  match o with
  | OResched h _ _ _ | OAcquire h _ _ _ => current_run k s h
  | _ => True
  end.

(** No further add or replace of [k]. *)
Definition no_schedule (k : key) (o : op) : Prop :=
  match o with OAdd a _ | OReplace a _ => a_key a <> k | _ => True end.

(** A current run of [k] is marked completed, failed or cancelled by this step. *)
Definition finishes (k : key) (s : sys) (o : op) : Prop :=
  match o with
  | OTerminal h st _ _ _ =>
      exists x, get_exec (s_execs s) h = Some x /\ m_key (x_msg x) = k /\
        may_finish (x_phase x) st = true /\ superseded (s_db s) k (m_gen (x_msg x)) = false
  | _ => False
  end.

(** Nobody waits under [k] in a concurrency line. *)
Definition not_waiting (k : key) (s : sys) : Prop :=
  forall cc i m, In (cc, (i, m)) (d_wait (s_db s)) -> m_key m <> k.

(** [s] starts, in the step [o], the body of message [m] delivered as entry [i]. *)
Definition starts (c : cfg) (s : sys) (o : op) (m : msg) (i : sid) : Prop :=
  snd (step c s o) = OStarted m i.

(** Some copy of the message [m] exists: stored, or held by a worker. *)
Definition present (s : sys) (m : msg) : Prop :=
  (exists i, on_stream s i m) \/ d_parked (s_db s) (m_key m) = Some m \/
  (exists cc i, In (cc, (i, m)) (d_wait (s_db s))) \/ (exists x, In x (s_execs s) /\ x_msg x = m).

(** A worker had already claimed the entry [i] with message [m]. *)
Definition claimed_in (s : sys) (m : msg) (i : sid) : Prop :=
  exists x, In x (s_execs s) /\ x_phase x = PClaimed /\ x_msg x = m /\ x_mid x = i.

(** [a] is passed to add or replace of [k] somewhere in [l]. *)
Definition called_in (k : key) (l : list op) (a : call) : Prop :=
  a_key a = k /\ exists t, In (OAdd a t) l \/ In (OReplace a t) l.

(** The call [o] schedules [a] and reports SCHEDULED. *)
Definition accepts (c : cfg) (s : sys) (o : op) (a : call) : Prop :=
  (exists t, o = OAdd a t \/ o = OReplace a t) /\ snd (step c s o) = ODisp DScheduled.

(** No replace, cancel or clear that concerns [k]; adding [k] again is allowed. *)
Definition only_adds (k : key) (o : op) : Prop :=
  match o with
  | OReplace a _ => a_key a <> k
  | OCancel k' _ | OCancelFinish k' | OCancelCleanup k' _ _ => k' <> k
  | OClearApply _ => False
  | _ => True
  end.

(** No execution of [k] is found stricken, and none is parked on a concurrency limit. *)
Definition not_struck_nor_parked (c : cfg) (k : key) (s : sys) (o : op) : Prop :=
  match o with
  | ODelKnown h => forall x, get_exec (s_execs s) h = Some x -> m_key (x_msg x) <> k
  | OAcquire h _ _ _ => forall x, get_exec (s_execs s) h = Some x -> m_key (x_msg x) = k ->
                          snd (step c s o) <> OAcquired false
  | _ => True
  end.

(** No leftover future entry of [k] when a task that is due at once is added. *)
Definition no_leftover (k : key) (s : sys) (o : op) : Prop :=
  forall a t, o = OAdd a t -> a_when a <= t -> d_parked (s_db s) k = None.

(** ** Vocabulary for single steps *)

(** The message of a first attempt of the call [a]. *)
Definition first_attempt (a : call) (m : msg) : Prop :=
  m_key m = a_key a /\ m_when m = a_when a /\ carries a m /\ m_attempt m = 1.

(** The record of [k] describes the call: state, time, function, arguments. *)
Definition record_shows (s : sys) (a : call) (st : state) : Prop :=
  exists r, d_runs (s_db s) (a_key a) = Some r /\ r_state r = Some st /\ r_when r = Some (a_when a) /\
    r_known r = Some (a_when a) /\ r_fn r = Some (a_fn a) /\ r_args r = Some (a_args a) /\ r_kwargs r = Some (a_kwargs a).

(** Where messages are stored. *)
Inductive spot := AtStream (i : sid) | AtFuture | AtLine (cc : string) (i : sid).
Definition stored_at (s : sys) (p : spot) (m : msg) : Prop :=
  match p with
  | AtStream i => on_stream s i m
  | AtFuture => d_parked (s_db s) (m_key m) = Some m
  | AtLine cc i => In (cc, (i, m)) (d_wait (s_db s))
  end.

(** Nothing of key [k] differs between two systems. *)
Definition same_for (k : key) (s s' : sys) : Prop :=
  d_runs (s_db s') k = d_runs (s_db s) k /\
  d_prog (s_db s') k = d_prog (s_db s) k /\
  (forall p m, m_key m = k -> stored_at s' p m <-> stored_at s p m) /\
  zscore k (d_queue (s_db s')) = zscore k (d_queue (s_db s)) /\
  (forall x, m_key (x_msg x) = k -> In x (s_execs s') <-> In x (s_execs s)).

(** The one key an operation is about, if it is about one. *)
Definition op_key (s : sys) (o : op) : option key :=
  match o with
  | OAdd a _ | OReplace a _ => Some (a_key a)
  | OCancel k _ | OCancelFinish k | OCancelCleanup k _ _ => Some k
  | OClaim h _ | OBodyStart h | OBodyEnd h | ODelKnown h | OTerminal h _ _ _ _ | OResched h _ _ _
  | OAcquire h _ _ _ | ORenewSlot h _ => option_map (fun x => m_key (x_msg x)) (get_exec (s_execs s) h)
  | _ => None
  end.

(** Where a call due at [a_when a] is placed by a caller whose clock reads [t],
    and the state it then shows. *)
Definition placed_at (s : sys) (a : call) (t : Z) : spot :=
  if a_when a <=? t then AtStream (d_next (s_db s)) else AtFuture.
Definition placed_state (a : call) (t : Z) : state := if a_when a <=? t then SQueued else SScheduled.

(** A spot that holds what was scheduled before under key [k]: its place in the
    future queue, or the stream entry its record points at. *)
Definition held_by_schedule (s : sys) (k : key) (p : spot) (m : msg) : Prop :=
  match p with
  | AtFuture => m_key m = k
  | AtStream i => r_sid (rget (s_db s) k) = Some i
  | AtLine _ _ => False
  end.

(** Messages with consecutive entry ids from [n]. *)
Fixpoint numbered (n : sid) (ms : list msg) : list (sid * msg) :=
  match ms with [] => [] | m :: ms => (n, m) :: numbered (n + 1) ms end.

(** In non-decreasing time order. *)
Fixpoint in_time_order (ms : list msg) : Prop :=
  match ms with [] => True | m :: ms' => (forall m', In m' ms' -> m_when m <= m_when m') /\ in_time_order ms' end.

(** The stated reasons for the entry [i] with message [m] to leave the stream. *)
Definition leaves_for_a_reason (c : cfg) (s : sys) (o : op) (i : sid) (m : msg) : Prop :=
  (exists x, In x (s_execs s) /\ x_mid x = i /\ x_msg x = m /\
     ((exists st t e r, o = OTerminal (x_id x) st t e r /\ may_finish (x_phase x) st = true) \/
      (exists w b t, o = OResched (x_id x) w b t /\ may_resched (x_phase x) = true) \/
      (exists cc mx t, o = OAcquire (x_id x) cc mx t /\ snd (step c s o) = OAcquired false) \/
      (exists t, o = OClaim (x_id x) t /\ snd (step c s o) = OClaimed false /\ superseded (s_db s) (m_key m) (m_gen m) = true))) \/
  (exists t, o = OCancel (m_key m) t) \/ (exists a t, o = OReplace a t /\ a_key a = m_key m) \/ (exists w, o = OClearApply w).

(** Two stores with the same content (the maps are compared key by key). *)
Definition same_store (d d' : db) : Prop :=
  d_now d = d_now d' /\ d_next d = d_next d' /\ d_stream d = d_stream d' /\ d_last d = d_last d' /\ d_pel d = d_pel d' /\
  d_queue d = d_queue d' /\ (forall k, d_parked d k = d_parked d' k) /\ (forall k, d_runs d k = d_runs d' k) /\
  (forall k, d_prog d k = d_prog d' k) /\ (forall k, d_lknown d k = d_lknown d' k) /\ (forall k, d_lsid d k = d_lsid d' k) /\
  d_pubs d = d_pubs d' /\ (forall c, d_slots d c = d_slots d' c) /\ (forall c, d_slotexp d c = d_slotexp d' c) /\ d_wait d = d_wait d'.

(** What an observer reads as the state of [k]. *)
Definition state_of (s : sys) (k : key) : option state := r_state (rget (s_db s) k).

(** The life cycle: the operations that may give [k] the state [st'] when it
    was [st], and what they require. *)
Definition allowed (c : cfg) (s : sys) (o : op) (k : key) (st st' : option state) : Prop :=
  let run_of h (P : exec -> Prop) := exists x, get_exec (s_execs s) h = Some x /\ m_key (x_msg x) = k /\ P x in
  match st' with
  | None =>                              (* the record expired or was deleted *)
      match o with
      | OTick _ | OClearApply _ => True
      | OCancelFinish k' => k' = k
      | OTerminal h _ _ _ _ => c_ttl c <= 0 /\ run_of h (fun _ => True)
      | _ => False
      end
  | Some SScheduled =>                   (* new schedule, retry, park *)
      match o with
      | OAdd a t | OReplace a t => a_key a = k /\ t < a_when a
      | OResched h w _ t => t < w /\ run_of h (fun x => may_resched (x_phase x) = true)
      | OAcquire h _ _ _ => snd (step c s o) = OAcquired false /\ run_of h (fun x => x_phase x = PClaimed)
      | _ => False
      end
  | Some SQueued =>                      (* due schedule or retry; moved; woken *)
      match o with
      | OAdd a t | OReplace a t => a_key a = k /\ a_when a <= t
      | OResched h w _ t => w <= t /\ run_of h (fun x => may_resched (x_phase x) = true)
      | OScheduler t => exists m, in_future s m /\ m_key m = k /\ m_when m <= t
      | ORelease _ _ | OScavenge _ _ _ => st = Some SScheduled /\ exists cc i m, In (cc, (i, m)) (d_wait (s_db s)) /\ m_key m = k
      | _ => False
      end
  | Some SRunning =>                     (* claimed *)
      match o with
      | OClaim h _ => run_of h (fun x => x_phase x = PDelivered /\ superseded (s_db s) k (m_gen (x_msg x)) = false)
      | _ => False
      end
  | Some f =>                            (* finished, or cancelled *)
      match o with
      | OTerminal h f' _ _ _ => f' = f /\ run_of h (fun x => may_finish (x_phase x) f = true /\ superseded (s_db s) k (m_gen (x_msg x)) = false)
      | OCancel k' _ => k' = k /\ f = SCancelled /\ st <> Some SCompleted /\ st <> Some SFailed
      | _ => False
      end
  end.

(** ** Vocabulary for clocks, origins and counts *)

(** The clock reading a process passes to an operation. *)
Definition op_clock (o : op) : option Z :=
  match o with
  | OAdd _ t | OReplace _ t | OCancel _ t | OScheduler t | OClaim _ t | OTerminal _ _ t _ _ | OResched _ _ _ t
  | OAcquire _ _ _ t | ORelease _ t | ORenewSlot _ t | OScavenge _ _ t => Some t
  | _ => None
  end.

(** No process's clock is ahead of the true time by more than [skew]. *)
Definition clock_within (skew : Z) (s : sys) (o : op) : Prop :=
  forall t, op_clock o = Some t -> t <= d_now (s_db s) + skew.

(** The clocks read a time after the epoch. *)
Definition after_epoch (s : sys) (o : op) : Prop := forall t, op_clock o = Some t -> 0 <= t.

(** What a message says, apart from the generation docket adds: it is the content
    of a call in the history [l], or of a retry in [l] of such a message. *)
Inductive came_from (l : list op) : msg -> Prop :=
| from_call a t m : In (OAdd a t) l \/ In (OReplace a t) l -> first_attempt a m -> came_from l m
| from_retry m0 h w b t m : came_from l m0 -> In (OResched h w b t) l ->
    m_key m = m_key m0 -> m_fn m = m_fn m0 -> m_args m = m_args m0 -> m_kwargs m = m_kwargs m0 ->
    m_when m = w -> m_attempt m = (if b then m_attempt m0 + 1 else m_attempt m0) -> came_from l m.

(** Sum over a history of a number read off each step. *)
Fixpoint total (c : cfg) (f : sys -> op -> out -> Z) (s : sys) (l : list op) : Z :=
  match l with
  | [] => 0
  | o :: l => f s o (snd (step c s o)) + total c f (fst (step c s o)) l
  end.

(** Starts of bodies of messages that satisfy [p]; accepted calls, redeliveries
    and reschedules of such. *)
Definition n_starts (p : msg -> bool) (s : sys) (o : op) (r : out) : Z :=
  match r with OStarted m _ => if p m then 1 else 0 | _ => 0 end.
Definition n_accepted (p : msg -> bool) (s : sys) (o : op) (r : out) : Z :=
  match o, r with
  | OAdd a _, ODisp DScheduled | OReplace a _, ODisp DScheduled => if p (call_msg a) then 1 else 0
  | _, _ => 0
  end.
Definition n_redelivered (p : msg -> bool) (s : sys) (o : op) (r : out) : Z :=
  match o, r with OAutoclaim _ _, ODelivered _ _ m => if p m then 1 else 0 | _, _ => 0 end.
Definition n_retried (p : msg -> bool) (s : sys) (o : op) (r : out) : Z :=
  match o with
  | OResched h _ _ _ => match get_exec (s_execs s) h with
                        | Some x => if may_resched (x_phase x) && p (x_msg x) then 1 else 0
                        | None => 0 end
  | _ => 0
  end.

(** A property of key, function and arguments alone. *)
Definition of_payload (p : msg -> bool) : Prop :=
  forall m m', m_key m = m_key m' -> m_fn m = m_fn m' -> m_args m = m_args m' -> m_kwargs m = m_kwargs m' -> p m = p m'.

(** The step redelivers a message of [k]. *)
Definition redelivers (c : cfg) (k : key) (s : sys) (o : op) : Prop :=
  exists w i h m, o = OAutoclaim w i /\ snd (step c s o) = ODelivered h i m /\ m_key m = k.

(** A run of [k] is sent to a concurrency waiting line by this step. *)
Definition parks (c : cfg) (k : key) (s : sys) (o : op) : Prop :=
  exists h cc mx t x, o = OAcquire h cc mx t /\ get_exec (s_execs s) h = Some x /\ m_key (x_msg x) = k /\
    snd (step c s o) = OAcquired false.

(** The body of the execution [h] of key [k] is running. *)
Definition body_running (s : sys) (k : key) (h : Z) : Prop :=
  exists x, get_exec (s_execs s) h = Some x /\ m_key (x_msg x) = k /\ x_phase x = PBody.

(** Starts and deliveries of the stream entry [i]. *)
Definition n_started (i : sid) (s : sys) (o : op) (r : out) : Z :=
  match r with OStarted _ j => if j =? i then 1 else 0 | _ => 0 end.
Definition n_redelivered_entry (i : sid) (s : sys) (o : op) (r : out) : Z :=
  match o, r with OAutoclaim _ _, ODelivered _ j _ => if j =? i then 1 else 0 | _, _ => 0 end.
