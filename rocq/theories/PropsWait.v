(** C24: waiting lines of concurrency limits. *)
From Verif Require Import Base ZSet Model GInv KView KSim Spec Check KInv Hist SpecConc WaitProofs PropsHist.

(** A run that gets no slot is, in the one step that refuses it, taken off the
    stream and its pending list and put at the end of the line, with its own task, time, arguments
    and attempt; its record says scheduled and points at the entry, with the
    generation the entry carries; every other line, stream entry and all slots are
    as before; the worker is done with it. *)
Theorem C24_parked_atomically_partial c s h x cc maxc t : reachable c s -> get_exec (s_execs s) h = Some x ->
  snd (step c s (OAcquire h cc maxc t)) = OAcquired false ->
  let s' := fst (step c s (OAcquire h cc maxc t)) in
  exists i m, same_task m (x_msg x) /\ line cc s' = line cc s ++ [(i, m)] /\ (forall cc', cc' <> cc -> line cc' s' = line cc' s) /\
    (forall e, In e (d_wait (s_db s)) -> fst (snd e) < i) /\
    (forall j m', on_stream s' j m' <-> on_stream s j m' /\ j <> x_mid x) /\ ~ In (x_mid x) (map pe_id (d_pel (s_db s'))) /\
    d_slots (s_db s') = d_slots (s_db s) /\
    let r := rget (s_db s') (m_key m) in
    r_state r = Some SScheduled /\ r_gen r = Some (m_gen m) /\ r_sid r = None /\ r_wstream r = Some cc /\ r_wid r = Some i /\
    exists x', get_exec (s_execs s') h = Some x' /\ x_phase x' = PDone.
Proof. exact (park_atomic c s h x cc maxc t). Qed.
Print Assumptions C24_parked_atomically_partial.

(** A release frees the slot of the releasing run and, if somebody waits, the slots
    not renewed for the redelivery timeout; it then serves as many of the oldest
    waiters as there are free slots: they leave the line, and those whose task is
    still recorded as scheduled are appended to the stream in order, each once, with its own
    task, time, arguments and attempt, recorded as queued with the generation it
    carries (so a worker will accept it).  No other line changes.
    Missing from the full statement: waiters dropped at their turn use up
    capacity (false, below), and keys named like a safeguard task (false, below). *)
Theorem C24_release_serves_oldest_partial c s h x cc maxc t : reachable c s -> get_exec (s_execs s) h = Some x -> x_slot x = Some (cc, maxc) ->
  x_phase x <> PBody -> x_phase x <> PDelivered -> x_phase x <> PStruck ->
  let s' := fst (step c s (ORelease h t)) in
  let free := Z.to_nat (maxc - Z.of_nat (length (d_slots (s_db s') cc))) in
  no_reserved_names (map snd (firstn free (line cc s))) ->
  served_line cc free s s' /\
  (forall st k, In (st, k) (d_slots (s_db s') cc) <->
     In (st, k) (d_slots (s_db s) cc) /\ k <> m_key (x_msg x) /\ (line cc s = [] \/ ~ (0 <= st <= t - c_redeliver c))).
Proof. exact (release_serves c s h x cc maxc t). Qed.
Print Assumptions C24_release_serves_oldest_partial.

(** The same for the scavenging pass that safeguard tasks run. *)
Theorem C24_scavenge_serves_oldest_partial c s cc maxc t : reachable c s ->
  let s' := fst (step c s (OScavenge cc maxc t)) in
  let free := Z.to_nat (maxc - Z.of_nat (length (d_slots (s_db s') cc))) in
  no_reserved_names (map snd (firstn free (line cc s))) ->
  served_line cc free s s' /\
  (forall st k, In (st, k) (d_slots (s_db s') cc) <->
     In (st, k) (d_slots (s_db s) cc) /\ (line cc s = [] \/ ~ (0 <= st <= t - c_redeliver c))).
Proof. exact (scavenge_serves c s cc maxc t). Qed.
Print Assumptions C24_scavenge_serves_oldest_partial.

(** Served from a line without doubled keys, the ones that go on are exactly the
    scheduled ones. *)
Theorem C24_served_are_the_scheduled sched ws : NoDup (map m_key ws) ->
  served sched ws = filter (fun m => sched (m_key m)) ws.
Proof.
  revert sched. induction ws as [|m ws IH]; intros sched N; [reflexivity|]. cbn [map] in N. inversion N as [|? ? N1 N2]; subst.
  cbn [served filter]. destruct (sched (m_key m)) eqn:E; [|now apply IH]. f_equal. rewrite IH by exact N2.
  apply filter_ext_in. intros m' H. destruct (String.eqb_spec (m_key m') (m_key m)) as [Eq|_]; [|apply andb_true_r].
  exfalso. apply N1. rewrite <- Eq. now apply in_map.
Qed.
Print Assumptions C24_served_are_the_scheduled.

(** A cancelled waiter never runs: if what is stored under [k] is only in waiting
    lines (or is what the record points at) and no worker has an unfinished run of [k], then
    after cancel() no run of [k] starts, and no message of [k] returns to the stream,
    in any continuation without a new add() or replace() of [k]. *)
Theorem C24_cancelled_waiter_never_runs_partial c s k t l o m i : reachable c s ->
  (forall p m, stored_at s p m -> m_key m = k -> held_by_schedule s k p m \/ exists cc j, p = AtLine cc j) ->
  (forall x, In x (s_execs s) -> m_key (x_msg x) = k -> x_phase x = PDone) ->
  let s1 := fst (step c s (OCancel k t)) in
  along c (fun _ o => no_schedule k o) s1 l ->
  (starts c (final c s1 l) o m i -> m_key m <> k) /\
  (forall j m', on_stream (final c s1 l) j m' -> m_key m' <> k).
Proof. exact (cancelled_waiter_never_starts c s k t l o m i). Qed.
Print Assumptions C24_cancelled_waiter_never_runs_partial.

(** ** Cases *)

(** Limit 2, both slots held; "k", "b", "e" wait; "k" is cancelled; then one holder
    crashed long ago when the other releases: two are free, "k" is dropped, "b" forwarded. *)
Definition ex_line : list op :=
  [OAdd (mkCall "o" 0 "f" "" "") 0; OAdd (mkCall "p" 0 "f" "" "") 0; OAdd (ex_call 0 "f" "x") 0;
   OAdd (mkCall "b" 0 "g" "y" "") 0; OAdd (mkCall "e" 0 "g" "z" "") 0;
   ORead "w1"; ORead "w2"; ORead "w1"; ORead "w1"; ORead "w1";
   OClaim 0 1; OAcquire 0 "c" 2 1; OBodyStart 0; OClaim 1 1; OAcquire 1 "c" 2 1; OBodyStart 1;
   OClaim 2 2; OAcquire 2 "c" 2 2; OClaim 3 2; OAcquire 3 "c" 2 3; OClaim 4 2].
Definition ex_line2 : list op := ex_line ++ [OAcquire 4 "c" 2 3; OCrash "w2"; OBodyEnd 0; OCancel "k" 4].
Example C24_case_park :
  let s := final ex_cfg init_sys ex_line in
  snd (step ex_cfg s (OAcquire 4 "c" 2 3)) = OAcquired false /\ length (line "c" s) = 2%nat /\
  option_map x_phase (get_exec (s_execs s) 4) = Some PClaimed.
Proof. split; [|split]; vm_compute; reflexivity. Qed.

Definition ex_line2_state := final ex_cfg init_sys ex_line2.
Example C24_case_release :
  let s := ex_line2_state in
  let s' := fst (step ex_cfg s (ORelease 0 300000100)) in
  option_map x_slot (get_exec (s_execs s) 0) = Some (Some ("c"%string, 2)) /\
  option_map x_phase (get_exec (s_execs s) 0) = Some PEnded /\
  map (fun e => m_key (snd e)) (line "c" s) = ["k"; "b"; "e"]%string /\ d_slots (s_db s') "c" = [] /\
  map (fun e => (m_key (snd e), m_args (snd e))) (d_stream (s_db s')) = [("o", ""); ("p", ""); ("b", "y")]%string /\
  map (fun e => m_key (snd e)) (line "c" s') = ["e"]%string.
Proof. intros s s'. repeat match goal with |- _ /\ _ => split end; vm_compute; reflexivity. Qed.
Lemma reserved_free ms :
  forallb (fun m => forallb (fun m' => negb (String.eqb (m_key m) ("__safeguard__:" ++ m_key m')%string)) ms) ms = true -> no_reserved_names ms.
Proof.
  rewrite forallb_forall. intros H m m' H1 H2 E. specialize (H m H1). rewrite forallb_forall in H. specialize (H m' H2). rewrite E, String.eqb_refl in H. discriminate H.
Qed.
Example C24_case_names : no_reserved_names (map snd (line "c" ex_line2_state)).
Proof. apply reserved_free. vm_compute. reflexivity. Qed.
Lemma only_in_line s k cc : (forall e, In e (d_stream (s_db s)) -> m_key (snd e) <> k) -> d_parked (s_db s) k = None ->
  (forall e, In e (d_wait (s_db s)) -> fst e = cc) ->
  forall p m, stored_at s p m -> m_key m = k -> held_by_schedule s k p m \/ exists cc j, p = AtLine cc j.
Proof.
  intros H1 H2 H3 [j| |cc' j] m H E; cbn in H.
  - exfalso. apply (H1 (j, m)); [exact H|exact E].
  - rewrite E, H2 in H. discriminate.
  - right. eauto.
Qed.
Example C24_case_cancel :
  let s := final ex_cfg init_sys (ex_line ++ [OCrash "w9"]) in
  (forall p m, stored_at s p m -> m_key m = "k"%string -> held_by_schedule s "k" p m \/ exists cc j, p = AtLine cc j) /\
  (forall x, In x (s_execs s) -> m_key (x_msg x) = "k"%string -> x_phase x = PDone) /\
  map (fun e => m_key (snd e)) (line "c" s) = ["k"; "b"]%string.
Proof.
  intros s. split; [|split; [|vm_compute; reflexivity]].
  2: { intros x H E. assert (X : forallb (fun x => negb (String.eqb (m_key (x_msg x)) "k") || match x_phase x with PDone => true | _ => false end) (s_execs s) = true) by (vm_compute; reflexivity).
    rewrite forallb_forall in X. apply X in H. rewrite E in H. cbn in H. destruct (x_phase x); congruence. }
  apply (only_in_line s "k" "c").
  - intros e H. assert (X : forallb (fun e => negb (String.eqb (m_key (snd e)) "k")) (d_stream (s_db s)) = true) by (vm_compute; reflexivity).
    rewrite forallb_forall in X. apply X in H. intros Y. rewrite Y in H. discriminate H.
  - vm_compute. reflexivity.
  - intros e H. assert (X : forallb (fun e => String.eqb (fst e) "c") (d_wait (s_db s)) = true) by (vm_compute; reflexivity).
    rewrite forallb_forall in X. apply X in H. now apply String.eqb_eq.
Qed.

(** ** What is false *)

(** A cancelled waiter at the head uses up the freed capacity: after the
    release the only slot is free and nobody has it, yet "b" still waits, scheduled, and
    no message is on its way. *)
Definition ex_wasted : list op :=
  [OAdd (mkCall "o" 0 "f" "" "") 0; OAdd (ex_call 0 "f" "x") 0; OAdd (mkCall "b" 0 "g" "y" "") 0; ORead "w1"; ORead "w1"; ORead "w1";
   OClaim 0 1; OAcquire 0 "c" 1 1; OBodyStart 0; OClaim 1 2; OAcquire 1 "c" 1 2; OClaim 2 2; OAcquire 2 "c" 1 2;
   OCancel "k" 3; OBodyEnd 0; OTerminal 0 SCompleted 4 None None; ORelease 0 4].
Theorem C24_capacity_wasted_refuted :
  let s := final ex_cfg init_sys ex_wasted in
  d_slots (s_db s) "c" = [] /\ d_stream (s_db s) = [] /\ holders "c" s = [] /\
  map (fun e => m_key (snd e)) (line "c" s) = ["b"]%string /\ scheduled s "b" = true.
Proof. repeat split; vm_compute; reflexivity. Qed.
Print Assumptions C24_capacity_wasted_refuted.

(** A cancelled waiter does run, with its old arguments, if the key is added again
    for the future before its turn comes. *)
Definition ex_revived : list op :=
  ex_parked ++ [OCancel "k" 3; OCancelFinish "k"; OAdd (ex_call 1000 "f" "new") 4; OBodyStart 0; OBodyEnd 0; ORelease 0 5; ORead "w1"; OClaim 2 6; OAcquire 2 "c" 1 6].
Theorem C24_cancelled_waiter_runs_refuted :
  starts ex_cfg (final ex_cfg init_sys ex_revived) (OBodyStart 2) (mkMsg "k" 0 "f" "old" "" 1 4) 4.
Proof. vm_compute. reflexivity. Qed.
Print Assumptions C24_cancelled_waiter_runs_refuted.

(** A waiting task whose key is the reserved name of another waiter's safeguard is
    lost when that other one is served: its record is deleted, so it is
    dropped at its own turn, though nobody cancelled it. *)
Definition ex_reserved : list op :=
  [OAdd (mkCall "o" 0 "f" "" "") 0; OAdd (ex_call 0 "f" "x") 0; OAdd (mkCall "__safeguard__:k" 0 "g" "y" "") 0; ORead "w1"; ORead "w1"; ORead "w1";
   OClaim 0 1; OAcquire 0 "c" 1 1; OBodyStart 0; OClaim 1 2; OAcquire 1 "c" 1 2; OClaim 2 2; OAcquire 2 "c" 1 2].
Definition ex_reserved_end : list op :=
  [OBodyEnd 0; OTerminal 0 SCompleted 4 None None; ORelease 0 4; ORead "w1"; OClaim 3 5; OAcquire 3 "c" 1 5; OBodyStart 3; OBodyEnd 3;
   OTerminal 3 SCompleted 6 None None; ORelease 3 6].
Theorem C24_reserved_name_lost_refuted :
  let s := final ex_cfg init_sys ex_reserved in
  let s' := final ex_cfg s ex_reserved_end in
  map (fun e => m_key (snd e)) (line "c" s) = ["k"; "__safeguard__:k"]%string /\ scheduled s "__safeguard__:k" = true /\
  d_stream (s_db s') = [] /\ d_wait (s_db s') = [] /\ d_parked (s_db s') "__safeguard__:k" = None /\
  ~ In (OStarted (mkMsg "__safeguard__:k" 0 "g" "y" "" 1 2) 6) (outs ex_cfg s ex_reserved_end).
Proof.
  intros s s'. split; [vm_compute; reflexivity|]. split; [vm_compute; reflexivity|]. split; [vm_compute; reflexivity|]. split; [vm_compute; reflexivity|].
  split; [vm_compute; reflexivity|].
  assert (N : existsb (fun o => match o with OStarted m _ => String.eqb (m_key m) "__safeguard__:k" | _ => false end) (outs ex_cfg s ex_reserved_end) = false)
    by (vm_compute; reflexivity).
  intros H. rewrite existsb_false in N. apply N in H. discriminate H.
Qed.
Print Assumptions C24_reserved_name_lost_refuted.
