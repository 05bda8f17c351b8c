(** Vocabulary for infinite histories: fair ones, in which everybody who can go on
    eventually does. *)
From Verif Require Import Base ZSet Model Spec.

(** The state after the first [n] operations of the infinite history [h]. *)
Fixpoint at_ (c : cfg) (s : sys) (h : nat -> op) (n : nat) : sys :=
  match n with O => s | S n => fst (step c (at_ c s h n) (h n)) end.

(** A fair history: time passes without bound; again and again somebody runs a
    scheduler pass, with a clock at most [skew] behind; again and again somebody
    asks for new messages; an entry that stays pending is looked at for redelivery
    again and again; no worker keeps an execution forever without starting its body
    or settling it; only finitely many workers crash. *)
Record fair (c : cfg) (skew : Z) (h : nat -> op) : Prop := mkFair {
  f_time : forall n T, exists j, (n <= j)%nat /\ T <= d_now (s_db (at_ c init_sys h j));
  f_sched : forall n, exists j t, (n <= j)%nat /\ h j = OScheduler t /\ d_now (s_db (at_ c init_sys h j)) - skew <= t;
  f_read : forall n, exists j w, (n <= j)%nat /\ h j = ORead w;
  f_redeliver : forall n i, exists j, (n <= j)%nat /\
    (~ In i (map pe_id (d_pel (s_db (at_ c init_sys h j)))) \/ exists w, h j = OAutoclaim w i);
  f_worker : forall n x, x_phase x = PDelivered \/ x_phase x = PClaimed ->
    exists j, (n <= j)%nat /\ ~ In x (s_execs (at_ c init_sys h j));
  f_crash : exists n, forall j w, (n <= j)%nat -> h j <> OCrash w }.

(** The step leaves the pending run of [k] alone: the record of [k] stays, nobody
    calls the docket about [k], and no execution of [k] reschedules itself or is sent to
    a waiting line, nor, unless superseded, is found stricken, marked as finished, or
    gives back its concurrency slot. *)
Definition undisturbed (c : cfg) (k : key) (s : sys) (o : op) : Prop :=
  keeps c k s o /\ no_calls k o /\
  forall h x, get_exec (s_execs s) h = Some x -> m_key (x_msg x) = k ->
    match o with
    | OResched h' _ _ _ => h' <> h
    | OAcquire h' _ _ _ => h' = h -> snd (step c s o) <> OAcquired false
    | ODelKnown h' | OTerminal h' _ _ _ _ | ORelease h' _ => h' = h -> superseded (s_db s) k (m_gen (x_msg x)) = true
    | _ => True
    end.

(** In the [n]-th step a body of the call [a] starts, in its first attempt. *)
Definition call_starts (c : cfg) (h : nat -> op) (a : call) (n : nat) : Prop :=
  exists m i, first_attempt a m /\ starts c (at_ c init_sys h n) (h n) m i.
