(** Vocabulary of C121: the claims and the ends of runs of a key in a history. *)
From Verif Require Import Base ZSet Model GInv Spec.

(** Operation [o] claims a run of [k] for worker [w] at time [t]. *)
Definition claims (c : cfg) (k : key) (s : sys) (o : op) (v : string * Z) : Prop :=
  exists h x, o = OClaim h (snd v) /\ get_exec (s_execs s) h = Some x /\ m_key (x_msg x) = k /\ x_worker x = fst v /\
    snd (step c s o) = OClaimed true.

(** Operation [o] ends the current run of [k] with [st] at time [t]: a mark of a run that
    is not superseded, or a cancel of a key whose last run has not ended. *)
Definition ends (c : cfg) (k : key) (s : sys) (o : op) (v : state * Z) : Prop :=
  (exists h e r x, o = OTerminal h (fst v) (snd v) e r /\ get_exec (s_execs s) h = Some x /\ m_key (x_msg x) = k /\
     may_finish (x_phase x) (fst v) = true /\ superseded (s_db s) k (m_gen (x_msg x)) = false /\ 0 < c_ttl c) \/
  (o = OCancel k (snd v) /\ fst v = SCancelled /\ ~ exists st, state_of s k = Some st /\ terminal_state st = true).

(** [v] is what the last operation of history [l] that is an [E] was about. *)
Definition latest {A} (c : cfg) (E : sys -> op -> A -> Prop) (l : list op) (v : A) : Prop :=
  exists l1 o l2, l = l1 ++ o :: l2 /\ E (final c init_sys l1) o v /\
    forall l3 o' l4 v', l2 = l3 ++ o' :: l4 -> ~ E (final c init_sys (l1 ++ o :: l3)) o' v'.
