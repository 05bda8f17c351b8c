(** Vocabulary of the concurrency-limit properties (C23, C24): specification, not
    model. *)
From Verif Require Import Base ZSet Model GInv Spec.

(** The executions that hold a slot of the limit [cc]. *)
Definition holds (cc : string) (x : exec) : bool :=
  match x_slot x with Some (c, _) => String.eqb c cc | None => false end.
Definition holders (cc : string) (s : sys) : list exec := filter (holds cc) (s_execs s).

(** Every taker of a slot of [cc] uses the limit [n]. *)
Definition limit_is (n : Z) (cc : string) (o : op) : Prop :=
  match o with OAcquire _ cc' maxc _ => cc' = cc -> maxc = n | _ => True end.

(** Every holder renewed in time: for whoever looks, its slot is younger than the
    redelivery timeout, and the slot set does not expire under it. *)
Definition renewed (c : cfg) (cc : string) (s : sys) (o : op) : Prop :=
  forall x, In x (holders cc s) ->
    (forall t st, op_clock o = Some t -> zscore (m_key (x_msg x)) (d_slots (s_db s) cc) = Some st -> t - c_redeliver c < st) /\
    (forall dt e, o = OTick dt -> d_slotexp (s_db s) cc = Some e -> d_now (s_db s) + dt < e).

(** The leases of the limit [cc] as the history tells them: for every execution, the
    holder's clock and the server's time when it last asked for its slot and got it, or renewed it. *)
Definition set_lease (L : Z -> option (Z * Z)) (h : Z) (v : Z * Z) : Z -> option (Z * Z) :=
  fun h' => if h' =? h then Some v else L h'.
Definition touch (c : cfg) (cc : string) (s : sys) (o : op) (L : Z -> option (Z * Z)) : Z -> option (Z * Z) :=
  match o with
  | OAcquire h cc' _ t =>
      match snd (step c s o) with
      | OAcquired true => if String.eqb cc' cc then set_lease L h (t, d_now (s_db s)) else L
      | _ => L
      end
  | ORenewSlot h t => match L h with Some _ => set_lease L h (t, d_now (s_db s)) | None => L end
  | _ => L
  end.

(** Whoever holds a slot of [cc] took or renewed it less than the redelivery timeout
    before [o] happens, by the clock of whoever performs [o] and by the server's. *)
Definition timely_at (c : cfg) (cc : string) (s : sys) (L : Z -> option (Z * Z)) (o : op) : Prop :=
  forall x t0 n0, In x (holders cc s) -> L (x_id x) = Some (t0, n0) ->
    (forall t, op_clock o = Some t -> t < t0 + c_redeliver c) /\
    (forall dt, o = OTick dt -> d_now (s_db s) + dt < n0 + c_redeliver c).
Fixpoint timely_from (c : cfg) (cc : string) (s : sys) (L : Z -> option (Z * Z)) (l : list op) : Prop :=
  match l with
  | [] => True
  | o :: l => timely_at c cc s L o /\ timely_from c cc (fst (step c s o)) (touch c cc s o L) l
  end.
Definition timely (c : cfg) (cc : string) (l : list op) : Prop := timely_from c cc init_sys (fun _ => None) l.

(** In the history [l] the execution [h] asked for a slot of [cc] and got it. *)
Definition acquired_in (c : cfg) (l : list op) (cc : string) (h : Z) : Prop :=
  exists l1 maxc t l2, l = l1 ++ OAcquire h cc maxc t :: l2 /\
    snd (step c (final c init_sys l1) (OAcquire h cc maxc t)) = OAcquired true.

(** After [l] the body of the execution [x] is running, in the group limited by [cc]. *)
Definition runs_in_group (c : cfg) (l : list op) (cc : string) (x : exec) : Prop :=
  In x (s_execs (final c init_sys l)) /\ x_phase x = PBody /\ acquired_in c l cc (x_id x).

(** The waiting line of a limit, oldest first. *)
Definition line (cc : string) (s : sys) : list (sid * msg) :=
  map snd (filter (fun e => String.eqb (fst e) cc) (d_wait (s_db s))).

(** Which entries of a line go on when they are served in order: those whose task
    is recorded as scheduled when its turn comes; serving one makes its key queued. *)
Fixpoint served (sched : key -> bool) (ws : list msg) : list msg :=
  match ws with
  | [] => []
  | m :: ws => if sched (m_key m) then m :: served (fun k => sched k && negb (String.eqb k (m_key m))) ws
               else served sched ws
  end.
Definition scheduled (s : sys) (k : key) : bool :=
  match r_state (rget (s_db s) k) with Some SScheduled => true | _ => false end.

(** The same task, time, arguments and attempt (the generation is docket's). *)
Definition same_task (m m' : msg) : Prop :=
  m_key m = m_key m' /\ m_when m = m_when m' /\ m_fn m = m_fn m' /\ m_args m = m_args m' /\ m_kwargs m = m_kwargs m' /\
  m_attempt m = m_attempt m'.

(** No waiter's key is the reserved name of another waiter's safeguard task. *)
Definition no_reserved_names (ms : list msg) : Prop :=
  forall m m', In m ms -> In m' ms -> m_key m <> ("__safeguard__:" ++ m_key m')%string.

(** The line [cc] was served [n] entries: they left it; those due went, in order, to the
    end of the stream, recorded as queued there with the generation they carry, and
    no longer as waiting; the other lines are as before. *)
Definition served_line (cc : string) (n : nat) (s s' : sys) : Prop :=
  line cc s' = skipn n (line cc s) /\
  (forall cc', cc' <> cc -> line cc' s' = line cc' s) /\
  exists new, d_stream (s_db s') = d_stream (s_db s) ++ new /\
    Forall2 same_task (map snd new) (served (scheduled s) (map snd (firstn n (line cc s)))) /\
    forall i m, In (i, m) new ->
      let r := rget (s_db s') (m_key m) in
      r_state r = Some SQueued /\ r_gen r = Some (m_gen m) /\ r_sid r = Some i /\ r_wstream r = None /\ r_wid r = None.
