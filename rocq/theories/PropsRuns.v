(** When tasks start, what they carry, and what cancelling them does (C07, C08,
    C14, C44). *)
From Verif Require Import Base ZSet Model GInv Spec Check Hist Steps Steps2 Steps3 PropsHist PropsSteps.

(** ** C07: no task starts before its time *)

(** Whatever happened before, if no clock that took part in the history was ahead
    of the true time by more than [skew], a body that starts was scheduled for at
    most [skew] after the true time. *)
Theorem C07_not_before_time c skew l o m i : along c (clock_within skew) init_sys l ->
  starts c (final c init_sys l) o m i -> m_when m <= d_now (s_db (final c init_sys l)) + skew.
Proof. exact (not_before_time c skew l o m i). Qed.
Print Assumptions C07_not_before_time.

(** A task for time 10 is moved by a scheduler whose clock is 4 ahead, starts at
    true time 6, fails and is rescheduled for time 30. *)
Definition ex_skewed : list op :=
  [OAdd (ex_call 10 "f" "x") 3; OTick 6; OScheduler 10; ORead "w1"; OClaim 0 7].
Definition ex_skewed_retry : list op :=
  ex_skewed ++ [OBodyStart 0; OBodyEnd 0; OResched 0 30 true 9; OTick 20; OScheduler 30; ORead "w2"; OClaim 1 26].
Example C07_case :
  along ex_cfg (clock_within 4) init_sys ex_skewed /\
  starts ex_cfg (final ex_cfg init_sys ex_skewed) (OBodyStart 0) (mkMsg "k" 10 "f" "x" "" 1 1) 1 /\
  d_now (s_db (final ex_cfg init_sys ex_skewed)) = 6 /\
  along ex_cfg (clock_within 4) init_sys ex_skewed_retry /\
  starts ex_cfg (final ex_cfg init_sys ex_skewed_retry) (OBodyStart 1) (mkMsg "k" 30 "f" "x" "" 2 2) 2 /\
  d_now (s_db (final ex_cfg init_sys ex_skewed_retry)) = 26.
Proof.
  split; [history (fun s => clockb (fun t => t <=? d_now (s_db s) + 4))|]. split; [vm_compute; reflexivity|]. split; [vm_compute; reflexivity|].
  split; [history (fun s => clockb (fun t => t <=? d_now (s_db s) + 4))|]. split; vm_compute; reflexivity.
Qed.

(** ** C08: the scheduler moves exactly the due tasks *)

Theorem C08_scheduler_moves_exactly_due c s t l : along c after_epoch init_sys l -> s = final c init_sys l ->
  let s' := fst (step c s (OScheduler t)) in
  exists ms,
    snd (step c s (OScheduler t)) = OMoved (zcard (d_queue (s_db s))) (Z.of_nat (length ms)) /\
    d_stream (s_db s') = d_stream (s_db s) ++ numbered (d_next (s_db s)) ms /\
    NoDup (map m_key ms) /\ in_time_order ms /\
    (forall m, In m ms <-> in_future s m /\ m_when m <= t) /\
    (forall m, in_future s' m <-> in_future s m /\ t < m_when m) /\
    (forall k, d_runs (s_db s') k =
       if existsb (fun m => String.eqb (m_key m) k) ms then Some (rset_state SQueued (rget (s_db s) k)) else d_runs (s_db s) k) /\
    (forall k, (forall w, zscore k (d_queue (s_db s)) = Some w -> t < w) ->
       zscore k (d_queue (s_db s')) = zscore k (d_queue (s_db s)) /\ d_parked (s_db s') k = d_parked (s_db s) k) /\
    d_wait (s_db s') = d_wait (s_db s) /\ d_prog (s_db s') = d_prog (s_db s) /\ s_execs s' = s_execs s /\
    d_pubs (s_db s') = d_pubs (s_db s) ++ map (fun m => (m_key m, SQueued)) ms.
Proof. exact (scheduler_moves_exactly_due c s t l). Qed.
Print Assumptions C08_scheduler_moves_exactly_due.

Definition ex_three : list op :=
  [OAdd (mkCall "a" 30 "f" "" "") 3; OAdd (mkCall "b" 10 "f" "" "") 3; OAdd (mkCall "c" 20 "f" "" "") 3; OAdd (mkCall "d" 3 "f" "" "") 3].
Example C08_case :
  along ex_cfg after_epoch init_sys ex_three /\
  (let s := final ex_cfg init_sys ex_three in
   snd (step ex_cfg s (OScheduler 20)) = OMoved 3 2 /\
   map (fun e => m_key (snd e)) (d_stream (s_db (fst (step ex_cfg s (OScheduler 20))))) = ["d"; "b"; "c"]%string).
Proof. split; [history (fun (s : sys) => clockb (fun t => 0 <=? t))|]. intros s. split; vm_compute; reflexivity. Qed.

(** Without the condition on the clocks the statement is false: ZRANGEBYSCORE asks
    for scores from 0, so a schedule for a time before the epoch is never moved. *)
Theorem C08_before_epoch_refuted :
  let s := final ex_cfg init_sys [OAdd (ex_call (-1) "f" "x") (-2)] in
  in_future s (mkMsg "k" (-1) "f" "x" "" 1 1) /\ snd (step ex_cfg s (OScheduler 5)) = OMoved 1 0.
Proof. intros s. split; [split|]; vm_compute; reflexivity. Qed.
Print Assumptions C08_before_epoch_refuted.

(** ** C14: a cancelled task that has not started never starts *)

(** If everything stored under [k] is what [k]'s record points at (a message that
    add() or replace() put on the stream, or a future payload) and no unfinished
    delivery of [k] exists, then cancel() removes every copy, and no run of [k]
    starts in any continuation without a new add() or replace() of [k].
    Missing from the full statement: tasks the scheduler has moved, delivered but
    not yet claimed, or waiting for a concurrency slot; there it is false. *)
Theorem C14_cancelled_never_starts_partial c s k t l o m i : reachable c s ->
  (forall p m, stored_at s p m -> m_key m = k -> held_by_schedule s k p m) ->
  (forall x, In x (s_execs s) -> m_key (x_msg x) = k -> x_phase x = PDone) ->
  let s1 := fst (step c s (OCancel k t)) in
  (forall p m, m_key m = k -> ~ stored_at s1 p m) /\
  (along c (fun _ o => no_schedule k o) s1 l -> starts c (final c s1 l) o m i -> m_key m <> k).
Proof. exact (cancelled_never_starts c s k t l o m i). Qed.
Print Assumptions C14_cancelled_never_starts_partial.

(** "k" ran before; it is added again for time 10 and cancelled. *)
Lemma future_only s k m : d_stream (s_db s) = [] -> d_wait (s_db s) = [] -> map x_phase (s_execs s) = [PDone] ->
  d_parked (s_db s) (m_key m) = Some m -> zscore (m_key m) (d_queue (s_db s)) = Some (m_when m) ->
  (forall p m, stored_at s p m -> m_key m = k -> held_by_schedule s k p m) /\
  (forall x, In x (s_execs s) -> m_key (x_msg x) = k -> x_phase x = PDone) /\ in_future s m.
Proof.
  intros E1 E2 E3 E4 E5. split; [|split; [|split; assumption]].
  - intros [i| |cc i] m' H E; simpl in H |- *; unfold on_stream in H; rewrite ?E1, ?E2 in H; try contradiction. exact E.
  - intros x H _. apply (in_map x_phase) in H. rewrite E3 in H. destruct H as [<-|[]]. reflexivity.
Qed.
Example C14_case :
  let s := final ex_cfg init_sys (ex_past ++ [OAdd (ex_call 10 "f" "x") 3]) in
  (forall p m, stored_at s p m -> m_key m = "k"%string -> held_by_schedule s "k" p m) /\
  (forall x, In x (s_execs s) -> m_key (x_msg x) = "k"%string -> x_phase x = PDone) /\
  in_future s (mkMsg "k" 10 "f" "x" "" 1 2).
Proof.
  intros s. apply (future_only s "k"); vm_compute; reflexivity.
Qed.
(** The same for a task that is already on the stream. *)
Lemma queued_only s i m k : d_stream (s_db s) = [(i, m)] -> d_wait (s_db s) = [] -> r_sid (rget (s_db s) k) = Some i ->
  (forall p m, stored_at s p m -> m_key m = k -> held_by_schedule s k p m) /\ on_stream s i m.
Proof.
  intros E1 E2 E3. split; [|unfold on_stream; rewrite E1; left; reflexivity].
  intros [j| |cc j] m' H E; simpl in H |- *; unfold on_stream in H; rewrite ?E1, ?E2 in H; try contradiction; [|exact E].
  destruct H as [H|[]]. injection H as <- <-. exact E3.
Qed.
Example C14_case_queued :
  let s := final ex_cfg init_sys (ex_past ++ [OAdd (ex_call 3 "f" "x") 3]) in
  (forall p m, stored_at s p m -> m_key m = "k"%string -> held_by_schedule s "k" p m) /\
  on_stream s 2 (mkMsg "k" 3 "f" "x" "" 1 2).
Proof. intros s. apply (queued_only s 2 (mkMsg "k" 3 "f" "x" "" 1 2) "k"); vm_compute; reflexivity. Qed.

(** A future task that the scheduler has moved to the stream and no worker has
    picked up: cancel() marks the record as cancelled, and the task then runs. *)
Definition ex_moved : list op := [OAdd (ex_call 10 "f" "x") 3; OScheduler 10].
Definition ex_then : list op := [OCancelFinish "k"; ORead "w1"; OClaim 0 12].
Theorem C14_cancelled_after_move_refuted :
  let s := final ex_cfg init_sys ex_moved in
  state_of s "k" = Some SQueued /\ s_execs s = [] /\
  let s1 := fst (step ex_cfg s (OCancel "k" 11)) in
  state_of s1 "k" = Some SCancelled /\ along ex_cfg (fun _ o => no_schedule "k" o) s1 ex_then /\
  starts ex_cfg (final ex_cfg s1 ex_then) (OBodyStart 0) (mkMsg "k" 10 "f" "x" "" 1 1) 1.
Proof.
  intros s. split; [vm_compute; reflexivity|]. split; [vm_compute; reflexivity|]. intros s1. split; [vm_compute; reflexivity|].
  split; [history (fun (_ : sys) o => no_scheduleb "k" o)|vm_compute; reflexivity].
Qed.
Print Assumptions C14_cancelled_after_move_refuted.

(** ** C44: a worker receives exactly what was submitted *)

(** Every message that is anywhere in the docket or in a worker's hands is, apart
    from the generation, the content of an add()/replace() call in the history or
    of a reschedule in the history of such a message (new time, attempt counted). *)
Theorem C44_submitted_is_received c l m : present (final c init_sys l) m -> came_from l m.
Proof. exact (submitted_is_received c l m). Qed.
Print Assumptions C44_submitted_is_received.

(** A delivery or redelivery hands out the message of the stream entry unchanged,
    and the run that starts later is of that message. *)
Theorem C44_delivered_is_stored c s o h i m : snd (step c s o) = ODelivered h i m ->
  on_stream s i m /\ exists x, In x (s_execs (fst (step c s o))) /\ x_id x = h /\ x_mid x = i /\ x_msg x = m.
Proof. exact (delivered_is_stored c s o h i m). Qed.
Print Assumptions C44_delivered_is_stored.

Example C44_case :
  let s := final ex_cfg init_sys ex_skewed_retry in
  present s (mkMsg "k" 30 "f" "x" "" 2 2) /\
  snd (step ex_cfg (final ex_cfg init_sys [OAdd (ex_call 10 "f" "x") 3; OScheduler 10]) (ORead "w1")) = ODelivered 0 1 (mkMsg "k" 10 "f" "x" "" 1 1).
Proof. intros s. split; [|vm_compute; reflexivity]. left. exists 2. vm_compute. left. reflexivity. Qed.
