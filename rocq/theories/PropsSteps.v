(** Properties of single operations from every reachable state (C02, C08, C11,
    C12, C15, C16, C17, C21). *)
From Verif Require Import Base ZSet Model GInv Spec Check Hist ClaimedProofs Steps Steps2 PropsHist.

(** ** C02: the disposition is the truth *)

(** add(): if it reports SCHEDULED, exactly one message is new, a first attempt of
    the call, on the stream when due and on the future queue otherwise, it can be
    claimed, and the record and the published event show it; nothing else that
    is stored is touched (a payload left on the future queue under the same key
    is overwritten).  Otherwise nothing changed at all. *)
Theorem C02_add_truth c s a t s' r : step c s (OAdd a t) = (s', ODisp r) ->
  match r with
  | DScheduled =>
      exists m, first_attempt a m /\ record_shows s' a (placed_state a t) /\ live s' m /\
        (forall p m', stored_at s' p m' <->
           (p = placed_at s a t /\ m' = m) \/
           (stored_at s p m' /\ ~ (p = AtFuture /\ p = placed_at s a t /\ m_key m' = a_key a))) /\
        (forall k, zscore k (d_queue (s_db s')) =
           if String.eqb (a_key a) k then (if a_when a <=? t then zscore k (d_queue (s_db s)) else Some (a_when a))
           else zscore k (d_queue (s_db s))) /\
        d_pubs (s_db s') = d_pubs (s_db s) ++ [(a_key a, placed_state a t)] /\
        s_execs s' = s_execs s /\ d_pel (s_db s') = d_pel (s_db s)
  | _ => s' = s
  end.
Proof. exact (add_truth c s a t s' r). Qed.
Print Assumptions C02_add_truth.

(** replace() always reports SCHEDULED, and then what is stored is the new message
    and everything stored before except what was scheduled under that key. *)
Theorem C02_replace_truth c s a t : reachable c s ->
  exists s', step c s (OReplace a t) = (s', ODisp DScheduled) /\
  exists m, first_attempt a m /\ record_shows s' a (placed_state a t) /\ live s' m /\
    (forall p m', stored_at s' p m' <->
       (p = placed_at s a t /\ m' = m) \/ (stored_at s p m' /\ ~ held_by_schedule s (a_key a) p m')) /\
    (forall p m', stored_at s p m' -> held_by_schedule s (a_key a) p m' -> m_key m' = a_key a) /\
    (forall k, zscore k (d_queue (s_db s')) =
       if String.eqb (a_key a) k then (if a_when a <=? t then None else Some (a_when a)) else zscore k (d_queue (s_db s))) /\
    d_pubs (s_db s') = d_pubs (s_db s) ++ [(a_key a, placed_state a t)] /\
    s_execs s' = s_execs s /\ d_pel (s_db s') = d_pel (s_db s).
Proof. intros R. exact (replace_truth c s a t (reachable_GInv c s R)). Qed.
Print Assumptions C02_replace_truth.

(** add() is turned down exactly when the record of the key says that it is
    scheduled or queued and not yet claimed ("known" is set), or that it is running. *)
Theorem C02_refused_exactly c s a t : reachable c s ->
  snd (step c s (OAdd a t)) = ODisp DAlreadyScheduled <->
  exists r, d_runs (s_db s) (a_key a) = Some r /\ (r_known r <> None \/ r_state r = Some SRunning).
Proof.
  intros R. destruct (reachable_GInv c s R) as [GD _]. destruct (di_legacy _ GD (a_key a)) as [L _].
  cbn [step]. unfold do_schedule, lua_schedule, lua_exists, rget. cbn [negb andb]. rewrite L.
  destruct (d_runs (s_db s) (a_key a)) as [r|]; cbn [default].
  - destruct (r_known r) as [w|] eqn:Ew; cbn [is_some].
    + split; [|reflexivity]. intros _. exists r. split; [reflexivity|]. left. rewrite Ew. discriminate.
    + destruct (r_state r) as [[]|] eqn:Es; cbn [snd]; (split; [|try reflexivity]); intros H; try discriminate H;
        try (exists r; split; [reflexivity|now right]); destruct H as (r' & [= <-] & [H|H]); congruence.
  - cbn. split; [discriminate|]. intros (r & H & _). discriminate H.
Qed.
Print Assumptions C02_refused_exactly.

Example C02_case :
  let s := final ex_cfg init_sys ex_past in
  snd (step ex_cfg s (OAdd (ex_call 10 "f" "x") 3)) = ODisp DScheduled /\
  snd (step ex_cfg s (OAdd (ex_call 3 "f" "x") 3)) = ODisp DScheduled /\
  (let s1 := fst (step ex_cfg s (OAdd (ex_call 10 "f" "x") 3)) in
   snd (step ex_cfg s1 (OAdd (ex_call 3 "g" "") 4)) = ODisp DAlreadyScheduled /\
   snd (step ex_cfg s1 (OReplace (ex_call 3 "g" "") 4)) = ODisp DScheduled /\
   d_stream (s_db (fst (step ex_cfg s1 (OReplace (ex_call 3 "g" "") 4)))) = [(2, mkMsg "k" 3 "g" "" "" 1 3)]).
Proof. intros s. split; [vm_compute; reflexivity|]. split; [vm_compute; reflexivity|]. intros s1. split; [vm_compute; reflexivity|]. split; vm_compute; reflexivity. Qed.

(** ** C11: messages leave the stream only for a stated reason *)

Theorem C11_leaves_only_for_a_reason c s o i m : reachable c s -> on_stream s i m ->
  on_stream (fst (step c s o)) i m \/ leaves_for_a_reason c s o i m.
Proof. intros R. exact (leaves_only_for_a_reason c s o i m (reachable_GInv c s R)). Qed.
Print Assumptions C11_leaves_only_for_a_reason.

(** When a run is marked finished, its message is neither on the stream nor
    pending. *)
Theorem C11_finished_entry_gone c s h x st t e r :
  get_exec (s_execs s) h = Some x -> may_finish (x_phase x) st = true ->
  let s' := fst (step c s (OTerminal h st t e r)) in
  (forall m, ~ on_stream s' (x_mid x) m) /\ ~ In (x_mid x) (map pe_id (d_pel (s_db s'))).
Proof. exact (finished_entry_gone c s h x st t e r). Qed.
Print Assumptions C11_finished_entry_gone.

(** Two tasks on the stream; "k" is delivered, crashes away and stays; the other
    one finishes and its entry goes. *)
Definition ex_two : list op :=
  [OAdd (ex_call 0 "f" "x") 0; OAdd (mkCall "o" 0 "f" "" "") 0; ORead "w1"; ORead "w2"; OCrash "w1"; OClaim 1 1; OBodyStart 1; OBodyEnd 1].
Example C11_case :
  let s := final ex_cfg init_sys ex_two in
  on_stream s 1 (mkMsg "k" 0 "f" "x" "" 1 1) /\ on_stream s 2 (mkMsg "o" 0 "f" "" "" 1 1) /\
  let s' := fst (step ex_cfg s (OTerminal 1 SFailed 2 (Some "e") None)) in
  map fst (d_stream (s_db s')) = [1] /\ map pe_id (d_pel (s_db s')) = [1].
Proof. intros s. split; [vm_compute; auto|]. split; [vm_compute; auto|]. intros s'. split; vm_compute; reflexivity. Qed.

(** While a run is claimed its message leaves only by something done to a run
    delivered from it, or by clear(): cancelling or replacing the key leaves it
    where it is, so a worker that dies while running still loses nothing. *)
Theorem C11_running_stays c s o x m : reachable c s -> In x (s_execs s) ->
  x_phase x = PClaimed \/ x_phase x = PBody \/ x_phase x = PEnded -> on_stream s (x_mid x) m ->
  on_stream (fst (step c s o)) (x_mid x) m \/ (exists w, o = OClearApply w) \/
  exists y, In y (s_execs s) /\ x_mid y = x_mid x /\
    match o with OTerminal h _ _ _ _ | OResched h _ _ _ | OAcquire h _ _ _ | OClaim h _ => h = x_id y | _ => False end.
Proof.
  intros R X P H. assert (B : began (x_phase x) = true) by (destruct P as [-> |[-> | ->]]; reflexivity).
  destruct (C11_leaves_only_for_a_reason c s o (x_mid x) m R H) as [S|[(y & Y & M & _ & D)|[(t & E)|[(a & t & E & _)|E]]]]; auto.
  - right; right. exists y. split; [exact Y|]. split; [exact M|].
    destruct D as [(st & t & e & r & -> & _)|[(w & b & t & -> & _)|[(cc & mx & t & -> & _)|(t & -> & _)]]]; reflexivity.
  - left. apply (running_stays c s o x m R X B H). left. eauto.
  - left. apply (running_stays c s o x m R X B H). right. eauto.
Qed.
Print Assumptions C11_running_stays.

(** "o" runs from message 2 and is cancelled and replaced: message 2 stays, the
    replacement is message 3. *)
Example C11_running_case :
  let s := final ex_cfg init_sys ex_two in
  (exists x, In x (s_execs s) /\ x_phase x = PEnded /\ x_mid x = 2) /\
  map fst (d_stream (s_db (final ex_cfg s [OCancel "o" 3; OReplace (mkCall "o" 0 "f" "" "") 4]))) = [1; 2; 3].
Proof. split; [|vm_compute; reflexivity]. eexists. split; [vm_compute; left; reflexivity|]. split; reflexivity. Qed.

(** ** C12: rescheduling a running task is atomic *)

(** A current run of [k] that reschedules itself: before the step the only live
    copy of [k] that can be stored is the run's own entry (kept pending until
    then, see C05), after it there is exactly one, the next attempt with the same
    function and arguments at the chosen time. *)
Theorem C12_resched_atomic c k s h x w b t :
  reachable_keeping c k s -> get_exec (s_execs s) h = Some x -> m_key (x_msg x) = k ->
  may_resched (x_phase x) = true -> superseded (s_db s) k (m_gen (x_msg x)) = false ->
  let s' := fst (step c s (OResched h w b t)) in
  (forall p m, stored_at s p m -> m_key m = k -> live s m -> p = AtStream (x_mid x) /\ m = x_msg x) /\
  exists p m, stored_at s' p m /\ live s' m /\ m_key m = k /\
    p = (if w <=? t then AtStream (d_next (s_db s)) else AtFuture) /\ (p = AtFuture -> in_future s' m) /\
    m_when m = w /\ m_attempt m = (if b then m_attempt (x_msg x) + 1 else m_attempt (x_msg x)) /\
    m_fn m = m_fn (x_msg x) /\ m_args m = m_args (x_msg x) /\ m_kwargs m = m_kwargs (x_msg x) /\
    (forall p' m', stored_at s' p' m' -> m_key m' = k -> live s' m' -> p' = p /\ m' = m).
Proof. exact (resched_atomic c k s h x w b t). Qed.
Print Assumptions C12_resched_atomic.

Definition ex_failing : list op := ex_running ++ [OBodyEnd 0].
Example C12_case :
  let s := final ex_cfg init_sys ex_failing in
  reachable_keeping ex_cfg "k" s /\
  (exists x, get_exec (s_execs s) 0 = Some x /\ m_key (x_msg x) = "k" /\ may_resched (x_phase x) = true /\
     superseded (s_db s) "k" (m_gen (x_msg x)) = false) /\
  d_stream (s_db s) = [(1, mkMsg "k" 0 "f" "old" "" 1 1)] /\
  d_stream (s_db (fst (step ex_cfg s (OResched 0 3 true 4)))) = [(2, mkMsg "k" 3 "f" "old" "" 2 2)] /\
  in_future (fst (step ex_cfg s (OResched 0 9 true 4))) (mkMsg "k" 9 "f" "old" "" 2 2).
Proof.
  intros s. split; [exists ex_failing; split; [history (keepsb ex_cfg "k")|reflexivity]|].
  split; [eexists; split; [vm_compute; reflexivity|split; [reflexivity|split; vm_compute; reflexivity]]|].
  split; [vm_compute; reflexivity|]. split; [vm_compute; reflexivity|]. split; vm_compute; reflexivity.
Qed.

(** ** C15: cancel is safe to repeat and frees the key *)

Theorem C15_cancel_idempotent d k t t' : same_store (lua_cancel (lua_cancel d k t) k t') (lua_cancel d k t).
Proof. exact (cancel_idempotent d k t t'). Qed.
Print Assumptions C15_cancel_idempotent.

Theorem C15_cancel_keeps_outcome d k t r : d_runs d k = Some r -> r_state r = Some SCompleted \/ r_state r = Some SFailed ->
  exists r', d_runs (lua_cancel d k t) k = Some r' /\ r_state r' = r_state r /\ r_result r' = r_result r /\ r_error r' = r_error r /\
    r_completed r' = r_completed r.
Proof. exact (cancel_keeps_outcome d k t r). Qed.
Print Assumptions C15_cancel_keeps_outcome.

(** After cancel(k), before ([fin] = false) or after its second round trip, add of
    [k] is accepted, from every state. *)
Theorem C15_cancel_frees_key c s k t a t' (fin : bool) : a_key a = k ->
  let s1 := fst (step c s (OCancel k t)) in
  let s2 := if fin then fst (step c s1 (OCancelFinish k)) else s1 in
  snd (step c s2 (OAdd a t')) = ODisp DScheduled.
Proof. exact (cancel_frees_key c s k t a t' fin). Qed.
Print Assumptions C15_cancel_frees_key.

(** cancel(k) touches no other key (both round trips): see C21. *)
Theorem C15_cancel_touches_no_other c s k k' t : reachable c s -> k' <> k ->
  same_for k' s (fst (step c s (OCancel k t))) /\ same_for k' s (fst (step c s (OCancelFinish k))).
Proof. intros R N. split; apply (frame c s _ k k' (reachable_GInv c s R)); auto. Qed.
Print Assumptions C15_cancel_touches_no_other.

Example C15_case :
  let s := final ex_cfg init_sys [OAdd (ex_call 10 "f" "x") 0; OCancel "k" 1] in
  state_of s "k" = Some SCancelled /\ d_queue (s_db s) = [] /\
  state_of (final ex_cfg init_sys (ex_past ++ [OCancel "k" 9])) "k" = Some SCompleted.
Proof. intros s. split; [vm_compute; reflexivity|]. split; vm_compute; reflexivity. Qed.

(** cancel() is two round trips; with execution_ttl 0 the second deletes the record.
    An add accepted in between is then never run: its copy on the stream is
    refused by the worker that receives it. *)
Theorem C15_add_between_round_trips_refuted :
  exists c k a t l h i m, a_key a = k /\ c_ttl c = 0 /\
    outs c init_sys l = [ODone; ODisp DScheduled; ODone; ODelivered h i m; OClaimed false] /\ carries a m /\
    d_stream (s_db (final c init_sys l)) = [] /\ In (OCancel k t) l.
Proof.
  exists (mkCfg 0 300000000), "k", (ex_call 0 "f" "x"), 1, [OCancel "k" 1; OAdd (ex_call 0 "f" "x") 2; OCancelFinish "k"; ORead "w1"; OClaim 0 3], 0, 1,
    (mkMsg "k" 0 "f" "x" "" 1 1).
  split; [reflexivity|]. split; [reflexivity|]. split; [vm_compute; reflexivity|]. split; [repeat split|]. split; [vm_compute; reflexivity|]. left; reflexivity.
Qed.
Print Assumptions C15_add_between_round_trips_refuted.

(** ** C16: a superseded run cannot disturb its successor *)

(** When a superseded run is claimed or marked completed, failed or cancelled:
    no record of any key changes, no schedule, no progress but its own or an
    older one, and of the stored messages only the run's own entry is removed;
    every live message stays. *)
Theorem C16_superseded_run_harmless_partial c s h x o : reachable c s ->
  get_exec (s_execs s) h = Some x -> superseded (s_db s) (m_key (x_msg x)) (m_gen (x_msg x)) = true ->
  (exists st t e r, o = OTerminal h st t e r) \/ (exists t, o = OClaim h t) ->
  let s' := fst (step c s o) in
  (forall k, d_runs (s_db s') k = d_runs (s_db s) k) /\
  (forall k, zscore k (d_queue (s_db s')) = zscore k (d_queue (s_db s))) /\
  (forall k pr g, d_prog (s_db s) k = Some pr -> p_gen pr = Some g -> m_gen (x_msg x) < g \/ k <> m_key (x_msg x) -> d_prog (s_db s') k = Some pr) /\
  (s' = s \/ forall p m, stored_at s' p m <-> stored_at s p m /\ p <> AtStream (x_mid x)) /\
  (forall p m, stored_at s p m -> live s m -> stored_at s' p m).
Proof. intros R. exact (superseded_run_harmless c s h x o (reachable_GInv c s R)). Qed.
Print Assumptions C16_superseded_run_harmless_partial.

(** "k" runs, is replaced, the replacement runs too, and then the first run ends. *)
Definition ex_superseded : list op :=
  ex_running ++ [OReplace (ex_call 0 "f" "new") 2; ORead "w2"; OClaim 1 3; OBodyStart 1; OBodyEnd 0].
Example C16_case :
  let s := final ex_cfg init_sys ex_superseded in
  (exists x, get_exec (s_execs s) 0 = Some x /\ superseded (s_db s) (m_key (x_msg x)) (m_gen (x_msg x)) = true /\
     may_finish (x_phase x) SFailed = true) /\
  let s' := fst (step ex_cfg s (OTerminal 0 SFailed 5 (Some "e") None)) in
  state_of s' "k" = Some SRunning /\ d_stream (s_db s') = [(2, mkMsg "k" 0 "f" "new" "" 1 2)] /\ is_some (d_prog (s_db s') "k") = true.
Proof.
  intros s. split; [eexists; split; [vm_compute; reflexivity|split; vm_compute; reflexivity]|]. intros s'.
  split; [vm_compute; reflexivity|]. split; vm_compute; reflexivity.
Qed.

(** Failing is not harmless when the superseded run is retried: the retry takes
    over the record and its generation, and the replacement, alive before, is
    superseded. *)
Theorem C16_retry_refuted :
  exists c s h x w t k m i, reachable c s /\ get_exec (s_execs s) h = Some x /\ m_key (x_msg x) = k /\
    superseded (s_db s) k (m_gen (x_msg x)) = true /\
    on_stream s i m /\ m_key m = k /\ live s m /\
    let s' := fst (step c s (OResched h w true t)) in
    state_of s' k <> state_of s k /\ on_stream s' i m /\ ~ live s' m.
Proof.
  exists ex_cfg, (final ex_cfg init_sys ex_superseded), 0. eexists. exists 9, 6, "k", (mkMsg "k" 0 "f" "new" "" 1 2), 2.
  split; [eexists; reflexivity|]. split; [vm_compute; reflexivity|]. split; [reflexivity|]. split; [vm_compute; reflexivity|].
  split; [vm_compute; auto|]. split; [reflexivity|]. split; [vm_compute; reflexivity|]. intros s'.
  split; [vm_compute; discriminate|]. split; [vm_compute; auto|]. vm_compute; discriminate.
Qed.
Print Assumptions C16_retry_refuted.

(** ** C17: reported states follow the life cycle *)

(** From every reachable state, an operation leaves the state of [k] as it is or
    changes it along the table [allowed] of Spec. *)
Theorem C17_state_changes_allowed_partial c s o k : ordinary k -> reachable c s ->
  let st := state_of s k in let st' := state_of (fst (step c s o)) k in
  st' = st \/ allowed c s o k st st'.
Proof. exact (state_changes_allowed c s o k). Qed.
Print Assumptions C17_state_changes_allowed_partial.

Example C17_case :
  map (fun n => state_of (final ex_cfg init_sys (firstn n (ex_past ++ OAdd (ex_call 10 "f" "x") 3 :: ex_life))) "k")
    [0; 1; 3; 6; 7; 9; 14; 18; 19]%nat
  = [None; Some SQueued; Some SRunning; Some SCompleted; Some SScheduled; Some SQueued; Some SRunning; Some SScheduled; Some SQueued].
Proof. vm_compute. reflexivity. Qed.

(** The last clause is false: a run can complete while its message has been handed
    to a second worker, which then reports it as running again, and no call asked
    for it. *)
Theorem C17_finished_reported_again_refuted :
  exists c k l o, let s := final c init_sys l in
    state_of s k = Some SCompleted /\ (forall m, ~ stored s m) /\ o = OClaim 1 300000009 /\
    state_of (fst (step c s o)) k = Some SRunning /\ starts c (fst (step c s o)) (OBodyStart 1) (mkMsg k 0 "f" "old" "" 1 1) 1.
Proof.
  exists ex_cfg, "k", (ex_running ++ [OTick 300000000; OAutoclaim "w2" 1; OBodyEnd 0; OTerminal 0 SCompleted 300000005 None None]), (OClaim 1 300000009).
  intros s. split; [vm_compute; reflexivity|]. split.
  - intros m [(i & H)|[[H _]|(cc & i & H & _)]]; try (vm_compute in H; contradiction).
    assert (E : d_parked (s_db s) (m_key m) = None) by (vm_compute; reflexivity). rewrite E in H. discriminate H.
  - split; [reflexivity|]. split; vm_compute; reflexivity.
Qed.
Print Assumptions C17_finished_reported_again_refuted.

(** ** C21: different keys do not interfere *)

Theorem C21_frame c s o k k' : reachable c s -> op_key s o = Some k -> k' <> k -> same_for k' s (fst (step c s o)).
Proof. intros R. exact (frame c s o k k' (reachable_GInv c s R)). Qed.
Print Assumptions C21_frame.

Example C21_case :
  let s := final ex_cfg init_sys ex_two in
  op_key s (OTerminal 1 SFailed 2 None None) = Some "o" /\ op_key s (OReplace (mkCall "o" 0 "g" "" "") 1) = Some "o" /\
  d_stream (s_db (fst (step ex_cfg s (OReplace (mkCall "o" 9 "g" "" "") 1)))) =
    [(1, mkMsg "k" 0 "f" "x" "" 1 1); (2, mkMsg "o" 0 "f" "" "" 1 1)] /\
  d_stream (s_db (fst (step ex_cfg s (OTerminal 1 SFailed 2 None None)))) = [(1, mkMsg "k" 0 "f" "x" "" 1 1)].
Proof. intros s. split; [vm_compute; reflexivity|]. split; [vm_compute; reflexivity|]. split; vm_compute; reflexivity. Qed.
