(** Properties of histories: what add, replace and crashes do to the pending
    run of a key (C01, C03, C04, C05). *)
From Verif Require Import Base ZSet Model GInv Spec Check Hist.

(** Concrete settings used in the examples: execution_ttl 900 s, redelivery
    after 300 s. *)
Definition ex_cfg : cfg := mkCfg 900 300000000.
Definition ex_call (w : Z) (f x : string) : call := mkCall "k" w f x "".

Lemma ex_ordinary : ordinary "k". Proof. intros k' H. discriminate H. Qed.

(** ** C01: a pending key is not scheduled twice *)

(** After a call [a] of add or replace has been accepted for [k], at every later
    point of a history in which the run did not finish, [k]'s record was kept,
    nobody replaced, cancelled or cleared [k], no superseded run rescheduled
    itself and no run of [k] was found stricken or parked on a concurrency
    limit: add() of [k] reports ALREADY_SCHEDULED and changes nothing at all, and
    the message stored for [k] is a live one with [a]'s function and arguments.
    Missing from the full statement: stricken and concurrency-parked runs (there
    it is false, see below) and keys that already have a waiter. *)
Theorem C01_pending_key_refuses_adds_partial c k s o a l a' t' :
  reachable_keeping c k s -> a_key a = k -> accepts c s o a -> not_waiting k s -> no_leftover k s o ->
  let s1 := fst (step c s o) in
  along c (fun s o => keeps c k s o /\ only_adds k o /\ no_stale_resched k s o /\ ~ finishes k s o /\
                      not_struck_nor_parked c k s o) s1 l ->
  a_key a' = k ->
  step c (final c s1 l) (OAdd a' t') = (final c s1 l, ODisp DAlreadyScheduled) /\
  exists m, m_key m = k /\ carries a m /\ stored (final c s1 l) m /\ live (final c s1 l) m.
Proof. exact (pending_key_refuses_adds c k s o a l a' t'). Qed.
Print Assumptions C01_pending_key_refuses_adds_partial.

(** An earlier run of "k" completes; then "k" is added for time 10; later it is
    added again, moved, delivered, lost in a crash, redelivered, claimed, started,
    fails and is rescheduled. *)
Definition ex_past : list op :=
  [OAdd (ex_call 0 "old" "") 0; ORead "w1"; OClaim 0 1; OBodyStart 0; OBodyEnd 0; OTerminal 0 SCompleted 2 None None].
Definition ex_life : list op :=
  [OAdd (ex_call 3 "g" "other") 3; OScheduler 10; ORead "w1"; OCrash "w1"; OTick 300000000; OAutoclaim "w2" 2;
   OClaim 2 300000011; OBodyStart 2; OAdd (ex_call 3 "g" "other") 300000012; OBodyEnd 2;
   OResched 2 300000020 true 300000015; OScheduler 300000021].

Lemma ex_past_kept : reachable_keeping ex_cfg "k" (final ex_cfg init_sys ex_past).
Proof. exists ex_past. split; [history (keepsb ex_cfg "k")|reflexivity]. Qed.

Example C01_case :
  accepts ex_cfg (final ex_cfg init_sys ex_past) (OAdd (ex_call 10 "f" "x") 3) (ex_call 10 "f" "x") /\
  not_waiting "k" (final ex_cfg init_sys ex_past) /\
  no_leftover "k" (final ex_cfg init_sys ex_past) (OAdd (ex_call 10 "f" "x") 3) /\
  along ex_cfg (fun s o => keeps ex_cfg "k" s o /\ only_adds "k" o /\ no_stale_resched "k" s o /\ ~ finishes "k" s o /\
                      not_struck_nor_parked ex_cfg "k" s o)
    (fst (step ex_cfg (final ex_cfg init_sys ex_past) (OAdd (ex_call 10 "f" "x") 3))) ex_life.
Proof.
  split; [split; [eexists; left; reflexivity|vm_compute; reflexivity]|].
  split; [intros cc i m H; vm_compute in H; contradiction|].
  split; [intros a t E H; injection E as <- <-; vm_compute in H; exfalso; apply H; reflexivity|].
  history (fun s o => keepsb ex_cfg "k" s o && only_addsb "k" o && no_staleb "k" s o && nofinishb "k" s o && not_struckb ex_cfg "k" s o).
Qed.
Example C01_case_starts :
  nth 7 (outs ex_cfg (fst (step ex_cfg (final ex_cfg init_sys ex_past) (OAdd (ex_call 10 "f" "x") 3))) ex_life) ODone
  = OStarted (mkMsg "k" 10 "f" "x" "" 1 2) 2.
Proof. vm_compute. reflexivity. Qed.

(** "o" holds the only slot of the limit "c"; "k" is claimed and parked on it. *)
Definition ex_parked : list op :=
  [OAdd (mkCall "o" 0 "f" "" "") 0; ORead "w1"; OClaim 0 1; OAcquire 0 "c" 1 1;
   OAdd (ex_call 0 "f" "old") 1; ORead "w1"; OClaim 1 2; OAcquire 1 "c" 1 2].

(** The full statement is false: a task waiting for a concurrency slot is still
    to run, yet add() of its key is accepted. *)
Theorem C01_parked_key_refuted :
  exists c l a t, let s := final c init_sys l in
    (exists m, stored s m /\ live s m /\ m_key m = a_key a) /\
    snd (step c s (OAdd a t)) = ODisp DScheduled.
Proof.
  exists ex_cfg, ex_parked, (ex_call 5 "f" "second"), 3. split; [|vm_compute; reflexivity].
  exists (mkMsg "k" 0 "f" "old" "" 1 2). repeat split. right; right. exists "c", 3. split; vm_compute; auto.
Qed.
Print Assumptions C01_parked_key_refuted.

(** The full statement is false also without concurrency limits: an execution of
    an old message that a strike catches in one worker deletes the mark of the
    newer schedule of its key. *)
Definition ex_struck : list op :=
  [OAdd (ex_call 0 "f" "old") 0; ORead "w1"; OReplace (ex_call 100 "f" "new") 1; ODelKnown 0].
Theorem C01_struck_copy_refuted :
  exists c l a t, let s := final c init_sys l in
    (exists m, stored s m /\ live s m /\ m_key m = a_key a) /\
    snd (step c s (OAdd a t)) = ODisp DScheduled.
Proof.
  exists ex_cfg, ex_struck, (ex_call 5 "f" "second"), 3. split; [|vm_compute; reflexivity].
  exists (mkMsg "k" 100 "f" "new" "" 1 2). repeat split. right; left. split; vm_compute; auto.
Qed.
Print Assumptions C01_struck_copy_refuted.

(** ** C03: a replaced schedule never starts afterwards *)

(** Whatever happens after replace() of [k] (while [k]'s record is kept), a
    run of [k] that starts later either had already been claimed when replace()
    was called, or its message did not exist then: no copy of an older message,
    stored or in the hands of a worker, is ever started. *)
Theorem C03_replaced_copy_never_starts_partial c k s a t l o m i :
  reachable_keeping c k s -> a_key a = k ->
  let s1 := fst (step c s (OReplace a t)) in
  along c (keeps c k) s1 l -> starts c (final c s1 l) o m i -> m_key m = k ->
  claimed_in s m i \/ ~ present s m.
Proof. exact (replaced_copy_never_starts c k s a t l o m i). Qed.
Print Assumptions C03_replaced_copy_never_starts_partial.

(** New messages of [k] may not resurrect the old call either: if nobody waits
    under [k] in a concurrency line and no superseded run reschedules itself,
    everything that starts later and was not claimed before carries the
    function and arguments of the replacement or of a later add/replace. *)
Theorem C03_later_starts_carry_partial c k s a t l o m i :
  reachable_keeping c k s -> a_key a = k -> not_waiting k s ->
  let s1 := fst (step c s (OReplace a t)) in
  along c (fun s o => keeps c k s o /\ no_stale_resched k s o) s1 l ->
  starts c (final c s1 l) o m i -> m_key m = k ->
  claimed_in s m i \/ carries a m \/ exists a', called_in k l a' /\ carries a' m.
Proof. exact (later_starts_carry c k s a t l o m i). Qed.
Print Assumptions C03_later_starts_carry_partial.

(** A copy of the old message is delivered to "w1" when "k" is replaced; the copy
    is redelivered, refused, and the replacement starts. *)
Definition ex_before : list op := [OAdd (ex_call 0 "f" "old") 0; ORead "w1"].
Definition ex_after : list op :=
  [OClaim 0 2; OTick 300000000; OScheduler 100; ORead "w2"; OClaim 1 300000001].
Example C03_case :
  reachable_keeping ex_cfg "k" (final ex_cfg init_sys ex_before) /\ not_waiting "k" (final ex_cfg init_sys ex_before) /\
  let s1 := fst (step ex_cfg (final ex_cfg init_sys ex_before) (OReplace (ex_call 100 "f" "new") 1)) in
  along ex_cfg (fun s o => keeps ex_cfg "k" s o /\ no_stale_resched "k" s o) s1 ex_after /\
  outs ex_cfg s1 (ex_after ++ [OBodyStart 0]) =
    [OClaimed false; ODone; OMoved 1 1; ODelivered 1 2 (mkMsg "k" 100 "f" "new" "" 1 2); OClaimed true; ORefused] /\
  starts ex_cfg (final ex_cfg s1 ex_after) (OBodyStart 1) (mkMsg "k" 100 "f" "new" "" 1 2) 2.
Proof.
  split; [exists ex_before; split; [history (keepsb ex_cfg "k")|reflexivity]|].
  split; [intros cc i m H; vm_compute in H; contradiction|].
  split; [history (fun s o => keepsb ex_cfg "k" s o && no_staleb "k" s o)|]. split; vm_compute; reflexivity.
Qed.

(** A waiter in a concurrency line survives replace(): when the slot is
    released it is forwarded with a newer generation and starts, with the old
    arguments. *)
Theorem C03_waiter_refuted :
  exists c k s a t l o m i, reachable c s /\ a_key a = k /\ m_key m = k /\
    let s1 := fst (step c s (OReplace a t)) in
    along c (fun s o => keeps c k s o /\ no_stale_resched k s o) s1 l /\
    starts c (final c s1 l) o m i /\ ~ claimed_in s m i /\ ~ carries a m /\
    exists m0, in_line s "c" 3 m0 /\ m_key m0 = k /\ carries (mkCall k (m_when m) (m_fn m0) (m_args m0) (m_kwargs m0)) m.
Proof.
  exists ex_cfg, "k", (final ex_cfg init_sys ex_parked), (ex_call 1000 "f" "new"), 5,
    [OBodyStart 0; OBodyEnd 0; ORelease 0 6; ORead "w1"; OClaim 2 7], (OBodyStart 2), (mkMsg "k" 0 "f" "old" "" 1 4), 4.
  split; [eexists; reflexivity|]. split; [reflexivity|]. split; [reflexivity|].
  split; [history (fun s o => keepsb ex_cfg "k" s o && no_staleb "k" s o)|]. split; [vm_compute; reflexivity|].
  split; [intros (x & H & _ & E & _); vm_compute in H; repeat destruct H as [<-|H]; try contradiction; discriminate E|].
  split; [intros (_ & E & _); discriminate E|].
  exists (mkMsg "k" 0 "f" "old" "" 1 2). split; [split; vm_compute; auto|]. repeat split.
Qed.
Print Assumptions C03_waiter_refuted.

(** ** C04: the replacement is what runs *)

(** After replace() of [k], with no later add/replace of [k], every run of [k] that
    starts later, and was not already claimed by a worker, has the replacement's
    function and arguments (no waiter under [k], no superseded run rescheduling
    itself: the other two cases are refuted above and below). *)
Theorem C04_replacement_is_what_runs_partial c k s a t l o m i :
  reachable_keeping c k s -> a_key a = k -> not_waiting k s ->
  let s1 := fst (step c s (OReplace a t)) in
  along c (fun s o => keeps c k s o /\ no_stale_resched k s o /\ no_schedule k o) s1 l ->
  starts c (final c s1 l) o m i -> m_key m = k ->
  claimed_in s m i \/ carries a m.
Proof. exact (replacement_is_what_runs c k s a t l o m i). Qed.
Print Assumptions C04_replacement_is_what_runs_partial.

Example C04_case :
  let s1 := fst (step ex_cfg (final ex_cfg init_sys ex_before) (OReplace (ex_call 100 "f" "new") 1)) in
  along ex_cfg (fun s o => keeps ex_cfg "k" s o /\ no_stale_resched "k" s o /\ no_schedule "k" o) s1 ex_after /\
  starts ex_cfg (final ex_cfg s1 ex_after) (OBodyStart 1) (mkMsg "k" 100 "f" "new" "" 1 2) 2.
Proof. split; [history (fun s o => keepsb ex_cfg "k" s o && no_staleb "k" s o && no_scheduleb "k" o)|]. vm_compute; reflexivity. Qed.

(** "k" is running when it is replaced; the old run then fails and its retry
    supersedes the replacement, which is dropped; the old arguments run. *)
Definition ex_running : list op := [OAdd (ex_call 0 "f" "old") 0; ORead "w1"; OClaim 0 1; OBodyStart 0].
Definition ex_stale_retry : list op :=
  [OBodyEnd 0; OResched 0 3 true 4; ORead "w1"; OClaim 1 5; ORead "w1"; OClaim 2 6].
Theorem C04_stale_retry_refuted :
  exists c k s a t l o m i, reachable c s /\ a_key a = k /\ m_key m = k /\ not_waiting k s /\
    let s1 := fst (step c s (OReplace a t)) in
    along c (fun s o => keeps c k s o /\ no_calls k o) s1 l /\
    starts c (final c s1 l) o m i /\ ~ claimed_in s m i /\ ~ carries a m.
Proof.
  exists ex_cfg, "k", (final ex_cfg init_sys ex_running), (ex_call 0 "f" "new"), 2, ex_stale_retry, (OBodyStart 2),
    (mkMsg "k" 3 "f" "old" "" 2 3), 3.
  split; [eexists; reflexivity|]. split; [reflexivity|]. split; [reflexivity|].
  split; [intros cc i m H; vm_compute in H; contradiction|].
  split; [history (fun s o => keepsb ex_cfg "k" s o && no_callsb "k" o)|]. split; [vm_compute; reflexivity|].
  split; [intros (x & H & _ & E & _); vm_compute in H; repeat destruct H as [<-|H]; try contradiction; discriminate E|].
  intros (_ & E & _); discriminate E.
Qed.
Print Assumptions C04_stale_retry_refuted.

(** ** C05: no accepted task is lost *)

(** From the moment a call [a] for [k] is accepted and until a current run of [k]
    finishes or somebody calls add/replace/cancel/clear for [k]: in every
    history, with crashes, redeliveries, superseded runs, retries, parks, wakes
    and calls for other keys, a live message with [a]'s function and arguments is
    stored: on the stream, on the future queue with its payload, or in a waiting
    line.  Missing from the full statement: superseded runs that reschedule
    themselves (refuted below), and keys with a waiter left from before. *)
Theorem C05_accepted_not_lost_partial c k s o a l :
  reachable_keeping c k s -> a_key a = k -> accepts c s o a -> not_waiting k s -> no_leftover k s o ->
  let s1 := fst (step c s o) in
  along c (fun s o => keeps c k s o /\ no_calls k o /\ no_stale_resched k s o /\ ~ finishes k s o) s1 l ->
  exists m, m_key m = k /\ carries a m /\ stored (final c s1 l) m /\ live (final c s1 l) m.
Proof. exact (accepted_not_lost c k s o a l). Qed.
Print Assumptions C05_accepted_not_lost_partial.

(** Parked on a limit, woken, delivered, lost in a crash, redelivered, started. *)
Definition ex_long : list op :=
  [ORead "w1"; OClaim 1 2; OAcquire 1 "c" 1 2; OBodyStart 0; OCrash "w2"; OBodyEnd 0; ORelease 0 3; ORead "w2"; OCrash "w2";
   OTick 300000000; OAutoclaim "w1" 4; OClaim 3 300000004; OAcquire 3 "c" 1 300000005; OBodyStart 3; OBodyEnd 3;
   OResched 3 300000020 true 300000015].
Example C05_case :
  let s := final ex_cfg init_sys [OAdd (mkCall "o" 0 "f" "" "") 0; ORead "w1"; OClaim 0 1; OAcquire 0 "c" 1 1] in
  reachable_keeping ex_cfg "k" s /\ accepts ex_cfg s (OAdd (ex_call 0 "f" "x") 1) (ex_call 0 "f" "x") /\ not_waiting "k" s /\
  no_leftover "k" s (OAdd (ex_call 0 "f" "x") 1) /\
  let s1 := fst (step ex_cfg s (OAdd (ex_call 0 "f" "x") 1)) in
  along ex_cfg (fun s o => keeps ex_cfg "k" s o /\ no_calls "k" o /\ no_stale_resched "k" s o /\ ~ finishes "k" s o) s1 ex_long /\
  nth 2 (outs ex_cfg s1 ex_long) ODone = OAcquired false /\
  nth 13 (outs ex_cfg s1 ex_long) ODone = OStarted (mkMsg "k" 0 "f" "x" "" 1 3) 4.
Proof.
  intros s.
  split; [exists [OAdd (mkCall "o" 0 "f" "" "") 0; ORead "w1"; OClaim 0 1; OAcquire 0 "c" 1 1]; split; [history (keepsb ex_cfg "k")|reflexivity]|].
  split; [split; [eexists; left; reflexivity|vm_compute; reflexivity]|].
  split; [intros cc i m H; vm_compute in H; contradiction|].
  split; [intros a t _ _; vm_compute; reflexivity|].
  intros s1. split; [history (fun s o => keepsb ex_cfg "k" s o && no_callsb "k" o && no_staleb "k" s o && nofinishb "k" s o)|]. split; vm_compute; reflexivity.
Qed.

(** The full statement is false: an accepted replacement is dropped because the
    run it replaced retries; afterwards no message with its arguments exists, and
    it never started. *)
Theorem C05_stale_retry_refuted :
  exists c k s o a l, reachable c s /\ a_key a = k /\ accepts c s o a /\ not_waiting k s /\
    let s1 := fst (step c s o) in
    along c (fun s o => keeps c k s o /\ no_calls k o /\ ~ finishes k s o) s1 l /\
    (forall m, m_key m = k -> carries a m -> ~ stored (final c s1 l) m) /\
    (forall m i, In (OStarted m i) (outs c s1 l) -> ~ carries a m).
Proof.
  exists ex_cfg, "k", (final ex_cfg init_sys ex_running), (OReplace (ex_call 0 "f" "new") 2), (ex_call 0 "f" "new"), ex_stale_retry.
  split; [eexists; reflexivity|]. split; [reflexivity|].
  split; [split; [eexists; right; reflexivity|vm_compute; reflexivity]|].
  split; [intros cc i m H; vm_compute in H; contradiction|].
  intros s1. split; [history (fun s o => keepsb ex_cfg "k" s o && no_callsb "k" o && nofinishb "k" s o)|]. split.
  - intros m E (_ & A & _) [(i & H)|[[H _]|(cc & i & H & _)]].
    + vm_compute in H. repeat destruct H as [H|H]; try contradiction; injection H as _ <-; discriminate A.
    + rewrite E in H. vm_compute in H. discriminate H.
    + vm_compute in H. contradiction.
  - intros m i H. assert (N : existsb (fun o => match o with OStarted _ _ => true | _ => false end) (outs ex_cfg s1 ex_stale_retry) = false)
      by (vm_compute; reflexivity).
    rewrite existsb_false in N. apply N in H. discriminate H.
Qed.
Print Assumptions C05_stale_retry_refuted.

(** clear() racing with add(): the accepted future task stays recorded as
    scheduled and known, but is on no queue; nothing will ever run it and add() of
    the key is refused. *)
Theorem C05_clear_race_refuted :
  exists c k a l, a_key a = k /\ In (ODisp DScheduled) (outs c init_sys l) /\
    let s := final c init_sys l in
    r_state (rget (s_db s) k) = Some SScheduled /\ (forall m, m_key m = k -> ~ stored s m) /\
    snd (step c s (OAdd a 5)) = ODisp DAlreadyScheduled.
Proof.
  exists ex_cfg, "k", (ex_call 100 "f" "x"), [OClearRead "c"; OClearKeys "c"; OAdd (ex_call 100 "f" "x") 0; OClearApply "c"].
  split; [reflexivity|]. split; [vm_compute; auto|]. split; [vm_compute; reflexivity|]. split; [|vm_compute; reflexivity].
  intros m E [(i & H)|[[_ H]|(cc & i & H & _)]]; [|rewrite E in H|]; vm_compute in H; try contradiction; discriminate H.
Qed.
Print Assumptions C05_clear_race_refuted.
