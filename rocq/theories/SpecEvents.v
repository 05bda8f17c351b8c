(** Vocabulary of the state events (C98): what somebody who follows them believes. *)
From Verif Require Import Base ZSet Model GInv Spec.

(** The state of [k] for an observer who believed [st] and is told [evs]: the last one
    told of [k], if any (execution.py:1097-1190 relays every event of the key's channel). *)
Fixpoint told (k : key) (evs : list (key * state)) (st : option state) : option state :=
  match evs with
  | [] => st
  | e :: evs => told k evs (if String.eqb (fst e) k then Some (snd e) else st)
  end.

(** What a step published. *)
Definition published (s s' : sys) (evs : list (key * state)) : Prop := d_pubs (s_db s') = d_pubs (s_db s) ++ evs.

(** The operations that may drop the record of [k]: its time to live is over, it was
    cancelled or finished on a docket that keeps none, clear(), or it is the record of a safeguard
    task whose task was woken. *)
Definition may_drop (c : cfg) (s : sys) (o : op) (k : key) : Prop :=
  match o with
  | OTick _ => exists r e, d_runs (s_db s) k = Some r /\ r_expire r = Some e
  | OCancelFinish k' => k' = k /\ c_ttl c <= 0
  | OClearApply _ => c_ttl c <= 0
  | OTerminal h _ _ _ _ => c_ttl c <= 0 /\ exists x, get_exec (s_execs s) h = Some x /\ m_key (x_msg x) = k
  | ORelease _ _ | OScavenge _ _ _ => exists k', k = safeguard_key k'
  | _ => False
  end.

(** A run that was superseded reports its end. *)
Definition stale_report (s : sys) (o : op) (k : key) : Prop :=
  exists h st t e r x, o = OTerminal h st t e r /\ get_exec (s_execs s) h = Some x /\ m_key (x_msg x) = k /\
    superseded (s_db s) k (m_gen (x_msg x)) = true.

(** Nothing is done to [k] that the events do not tell. *)
Definition tells_all (c : cfg) (k : key) (s : sys) (o : op) : Prop :=
  (forall t, o <> OCancel k t) /\ ~ may_drop c s o k /\ ~ stale_report s o k.
