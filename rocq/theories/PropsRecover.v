(** C06: pending runs survive the death of all workers. *)
From Verif Require Import Base ZSet Model GInv Spec Check PropsHist PropsReuse SpecConc SpecRecover RecoverProofs.

(** In any reachable state, let all workers die and the redelivery timeout pass; a fresh
    worker then polls once, with room for the whole stream.  A run stored on the
    stream (delivered, claimed or even executing before the crash, or not yet), or in the
    future and due by the time of the poll, whose record still stands, is handed to
    that worker; and whenever the worker gets to it, whatever others it starts before,
    its claim succeeds and it starts.
    Missing from the full statement: a run in a waiting line (next theorem), and a run
    whose record expired (refuted below). *)
Theorem C06_recovers_partial c s w dt t n i m :
  reachable c s -> c_redeliver c <= dt -> 0 <= dt ->
  on_stream s i m \/ (in_future s m /\ 0 <= m_when m <= t) ->
  let s1 := final c s (crash_all s ++ [OTick dt]) in
  live s1 m -> (length (d_stream (s_db (fst (step c s1 (OScheduler t))))) <= n)%nat ->
  let s2 := final c s1 (poll w s1 t n) in
  s_execs s1 = [] /\
  exists h i', handed s2 w h i' m /\
    forall l t', Forall (starts_another h) l ->
      starts c (fst (step c (final c s2 l) (OClaim h t'))) (OBodyStart h) m i'.
Proof.
  intros R D D0 O s1 L N s2. destruct (after_crash c s dt D0) as (E0 & E1 & E2 & E3 & E4 & E5). fold s1 in E0, E1, E2, E3, E4, E5.
  split; [exact E0|].
  destruct (poll_recovers c s1 w t n i m) as (h & i' & H & L2).
  - apply reach_final. exact R.
  - intros p Hp. rewrite E2 in Hp. pose proof (past c s p R Hp). lia.
  - unfold on_stream, in_future. rewrite E1, E3, E4. exact O.
  - exact L.
  - exact N.
  - exists h, i'. split; [exact H|]. intros l t' A. destruct (others_keep c h w i' m l s2 A H L2) as [H' L']. exact (claim_starts c _ w h i' m t' H' L').
Qed.
Print Assumptions C06_recovers_partial.

(** The dead workers' slots are stale too: the scavenger, which a safeguard task of the
    line runs, frees them, and the runs at the head of the line are handed to the
    fresh worker and start. *)
Theorem C06_waiting_recovers_partial c s w dt cc maxc t0 t n i m :
  reachable c s -> c_redeliver c <= dt -> 0 <= dt ->
  let s1 := final c s (crash_all s ++ [OTick dt]) in
  In (i, m) (firstn (Z.to_nat maxc) (line cc s1)) -> r_state (rget (s_db s1) (m_key m)) = Some SScheduled ->
  (forall i' m', In (i', m') (line cc s1) -> m_key m' = m_key m -> m' = m) ->
  no_reserved_names (map snd (line cc s1)) ->
  (forall st k, In (st, k) (d_slots (s_db s1) cc) -> 0 <= st <= t0 - c_redeliver c) ->
  let s2 := fst (step c s1 (OScavenge cc maxc t0)) in
  (length (d_stream (s_db (fst (step c s2 (OScheduler t))))) <= n)%nat ->
  let s3 := final c s2 (poll w s2 t n) in
  exists h i' m', same_task m' m /\ handed s3 w h i' m' /\
    forall l t', Forall (starts_another h) l ->
      starts c (fst (step c (final c s3 l) (OClaim h t'))) (OBodyStart h) m' i'.
Proof.
  intros R D D0 s1 H S U Nr A s2 N s3. destruct (after_crash c s dt D0) as (E0 & E1 & E2 & E3 & E4 & E5). fold s1 in E0, E1, E2, E3, E4, E5.
  assert (R1 : reachable c s1) by (apply reach_final; exact R).
  destruct (scavenge_recovers c s1 cc maxc t0 i m R1 H A Nr U S) as (i' & m' & O & Sm & L & P1 & P2). fold s2 in O, L, P1, P2.
  destruct (poll_recovers c s2 w t n i' m') as (h & i2 & H2 & L2).
  - change s2 with (final c s1 [OScavenge cc maxc t0]). apply reach_final. exact R1.
  - intros p Hp. rewrite P1, E2 in Hp. pose proof (past c s p R Hp). lia.
  - left. exact O.
  - exact L.
  - exact N.
  - exists h, i2, m'. split; [exact Sm|]. split; [exact H2|]. intros l t' B. destruct (others_keep c h w i2 m' l s3 B H2 L2) as [H' L'].
    exact (claim_starts c _ w h i2 m' t' H' L').
Qed.
Print Assumptions C06_waiting_recovers_partial.

(** A worker dies while it executes "k"; a fresh worker executes it. *)
Definition ex_dies : list op := [OAdd (ex_call 0 "f" "one") 0; ORead "w1"; OClaim 0 1; OBodyStart 0].
Example C06_case :
  let m := mkMsg "k" 0 "f" "one" "" 1 1 in
  let s := final ex_cfg init_sys ex_dies in
  let s1 := final ex_cfg s (crash_all s ++ [OTick 300000000]) in
  on_stream s 1 m /\ live s1 m /\ length (d_stream (s_db (fst (step ex_cfg s1 (OScheduler 300000000))))) = 1%nat /\
  outs ex_cfg s1 (poll "w2" s1 300000000 1 ++ [OClaim 1 300000001; OBodyStart 1]) =
    [OMoved 0 0; ODelivered 1 1 m; ODone; OClaimed true; OStarted m 1].
Proof. intros m s s1. split; [vm_compute; auto|]. repeat split; vm_compute; reflexivity. Qed.

(** A waiter for a slot whose holder dies: its turn comes. *)
Definition ex_k2 : call := mkCall "k2" 0 "f" "two" "".
Definition ex_waits : list op :=
  [OAdd (ex_call 0 "f" "one") 0; OAdd ex_k2 0; ORead "w1"; OClaim 0 1; OAcquire 0 "c" 1 1; OBodyStart 0; ORead "w1"; OClaim 1 1; OAcquire 1 "c" 1 1].
Example C06_waiting_case :
  let s := final ex_cfg init_sys ex_waits in
  let s1 := final ex_cfg s (crash_all s ++ [OTick 300000000]) in
  let s2 := fst (step ex_cfg s1 (OScavenge "c" 1 300000001)) in
  line "c" s1 = [(3, mkMsg "k2" 0 "f" "two" "" 1 2)] /\ r_state (rget (s_db s1) "k2") = Some SScheduled /\
  d_slots (s_db s1) "c" = [(1, "k"%string)] /\ length (d_stream (s_db (fst (step ex_cfg s2 (OScheduler 300000002))))) = 2%nat /\
  outs ex_cfg s2 (poll "w2" s2 300000002 2 ++ [OClaim 2 300000001; OBodyStart 2; OClaim 3 3; OBodyStart 3]) =
    [OMoved 0 0; ODelivered 2 1 (mkMsg "k" 0 "f" "one" "" 1 1); ODelivered 3 4 (mkMsg "k2" 0 "f" "two" "" 1 3); ODone; OClaimed true;
     OStarted (mkMsg "k" 0 "f" "one" "" 1 1) 1; OClaimed true; OStarted (mkMsg "k2" 0 "f" "two" "" 1 3) 4].
Proof. intros s s1 s2. repeat split; vm_compute; reflexivity. Qed.

(** The full statement is false: the second run of "k" inherits the expiry of the first
    one's record (see C22).  Its worker starts it and dies; by the time of the
    redelivery the record is gone, the fresh worker's claim says SUPERSEDED and deletes
    the message: the run is pending in [s], is handed over, and is dropped. *)
Theorem C06_expired_record_refuted :
  let m := mkMsg "k" 600000000 "f" "two" "" 1 2 in
  let s := final ex_cfg init_sys (ex_used ++ [ex_again 600000000] ++ ex_in_time) in
  let s1 := final ex_cfg s (crash_all s ++ [OTick 303000000]) in
  on_stream s 2 m /\ live s m /\
  outs ex_cfg s1 (poll "w2" s1 903000000 1 ++ [OClaim 2 903000000; OBodyStart 2]) =
    [OMoved 0 0; ODelivered 2 2 m; ODone; OClaimed false; ORefused] /\
  forall m', m_key m' = "k"%string -> ~ stored (final ex_cfg s1 (poll "w2" s1 903000000 1 ++ [OClaim 2 903000000])) m'.
Proof.
  intros m s s1. split; [vm_compute; auto|]. split; [vm_compute; reflexivity|]. split; [vm_compute; reflexivity|].
  set (s' := final ex_cfg s1 _). assert (A : d_stream (s_db s') = [] /\ d_wait (s_db s') = [] /\ d_parked (s_db s') "k" = None) by (repeat split; vm_compute; reflexivity).
  destruct A as (A1 & A2 & A3). intros m' E [(i & H)|[[H _]|(cc & i & H & _)]].
  - unfold on_stream in H. rewrite A1 in H. exact H.
  - rewrite E, A3 in H. discriminate H.
  - rewrite A2 in H. exact H.
Qed.
Print Assumptions C06_expired_record_refuted.
