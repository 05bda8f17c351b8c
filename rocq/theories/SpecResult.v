(** Vocabulary for the properties of get_result. *)
From Verif Require Import Base ZSet Model Spec GetResult.

Definition rreachable (c : cfg) (q : rsys) : Prop := exists l, q = rfinal c init_rsys l.

(** [P] holds at every step of the history [l] from [q]. *)
Fixpoint ralong (c : cfg) (P : rsys -> rop -> Prop) (q : rsys) (l : list rop) : Prop :=
  match l with
  | [] => True
  | o :: l => P q o /\ ralong c P (rstep c q o) l
  end.

(** What a caller should be told about a run whose body did [b]. *)
Definition told (b : result) : answer :=
  match b with
  | Returned v => AReturn (option_map DValue v)
  | Raised e _ => ARaise (DExn e)
  end.

(** The execution a step is about. *)
Definition op_exec (o : op) : option Z :=
  match o with
  | OClaim h _ | OBodyStart h | OBodyEnd h | ODelKnown h | OTerminal h _ _ _ _ | OResched h _ _ _
  | OAcquire h _ _ _ | ORelease h _ | ORenewSlot h _ => Some h
  | _ => None
  end.
Definition rop_exec (o : rop) : option Z :=
  match o with
  | ROp o => op_exec o
  | RReturn h _ | RFailEarly h _ _ | RPut h | RMark h _ => Some h
  | _ => None
  end.

(** Nobody calls the docket about [k], and the record of [k] is not dropped. *)
Definition undisturbed (c : cfg) (k : key) (q : rsys) (o : rop) : Prop :=
  match o with ROp o => no_calls k o /\ keeps c k (q_sys q) o | _ => True end.

(** The execution [h] is the only unfinished run of [k], is claimed and current, and
    nothing else of [k] is stored anywhere. *)
Definition only_run (k : key) (h : Z) (s : sys) : Prop :=
  exists x, get_exec (s_execs s) h = Some x /\ m_key (x_msg x) = k /\ (x_phase x = PClaimed \/ x_phase x = PEnded) /\
    live s (x_msg x) /\
    (forall y, In y (s_execs s) -> m_key (x_msg y) = k -> x_id y <> h -> x_phase y = PDone) /\
    (forall p m, stored_at s p m -> m_key m = k -> p = AtStream (x_mid x)).

(** A step between storing the outcome of [h] and marking it: somebody else's, and
    [h] is the only run of its key before and after. *)
Definition leaves_alone (c : cfg) (k : key) (h : Z) (q : rsys) (o : rop) : Prop :=
  undisturbed c k q o /\ rop_exec o <> Some h /\ only_run k h (q_sys (rstep c q o)).

(** The caller [i], if it asks about [k], has not yet taken its final look at the
    record; if it only starts now, its handle does not claim to know the outcome. *)
Definition undecided (k : key) (i : Z) (q : rsys) : Prop :=
  forall w, q_wait q i = Some w -> w_key w = k ->
    match w_pc w with WFetch | WDone _ => False | _ => True end.
Definition fresh_handle (k : key) (i : Z) (o : rop) : Prop :=
  match o with RGet j k' v => j = i -> k' = k -> terminal_state (v_state v) = false | _ => True end.

(** The caller [i] asks about [k] and has been given [a]. *)
Definition answered (k : key) (i : Z) (q : rsys) (a : answer) : Prop :=
  exists w, q_wait q i = Some w /\ w_key w = k /\ w_pc w = WDone a.
Definition released (i : Z) (q : rsys) : Prop :=
  exists w a, q_wait q i = Some w /\ w_pc w = WDone a.

(** How often caller [i] gets to proceed in [l]. *)
Definition turns (i : Z) (l : list rop) : nat :=
  length (filter (fun o => match o with RWait j => j =? i | _ => false end) l).

(** A worker marks an execution of [k] completed, failed or cancelled in this step
    (it may have been superseded). *)
Definition ends_a_run (c : cfg) (k : key) (q : rsys) (o : rop) : Prop :=
  exists h x t, get_exec (s_execs (q_sys q)) h = Some x /\ m_key (x_msg x) = k /\
    ((exists st er re, o = ROp (OTerminal h st t er re) /\ may_finish (x_phase x) st = true) \/
     (o = RMark h t /\ (x_phase x = PClaimed \/ x_phase x = PEnded) /\
      exists b, q_body q h = Some b /\ q_put q h = is_some (stored_data c b))).

(** No further add or replace of [k]. *)
Definition no_new_run (k : key) (o : rop) : Prop := match o with ROp o => no_schedule k o | _ => True end.
