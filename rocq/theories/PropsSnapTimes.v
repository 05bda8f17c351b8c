(** C119: the times a snapshot shows for running tasks. *)
From Verif Require Import Base ZSet Model GInv Spec RecoverProofs Snapshot PropsSnapshot SnapTimes SpecSnapTimes SnapTimesProofs PropsHist.

(** ** C119: a snapshot shows since when each task is running

    The process that takes the snapshot and Redis have the same clock in these statements. *)

(** A message is read by a worker; whatever happens then, a snapshot that lists it as
    running never shows a time before it was read, nor one in the future. *)
Theorem C119_not_before_partial c s w h i m l reg d2 sn m' w' : reachable c s ->
  snd (step c s (ORead w)) = ODelivered h i m ->
  let s' := final c (fst (step c s (ORead w))) l in
  snapshot reg (s_db s') d2 = Some sn -> In (i, m', w') (sn_running sn) ->
  exists t, In (i, m', w', Some t) (running_since (s_db s') (d_now (s_db s')) sn) /\ d_now (s_db s) <= t <= d_now (s_db s').
Proof.
  intros R D s' S I. destruct (delivered_entry c s w h i m R D) as [X _].
  destruct (listed_started reg (s_db s') d2 (d_now (s_db s')) sn i m' w' S I) as (t & E & J).
  exists t. split; [assumption|]. apply (shown c s' i (d_now (s_db s)) _); auto.
  - unfold s'. apply reach_final. destruct R as [l0 ->]. exists (l0 ++ [ORead w]). now rewrite final_app, final_cons.
  - apply since_final. exact X.
Qed.
Print Assumptions C119_not_before_partial.

(** While its lease is not renewed and it is not handed over again, the time shown is the one at
    which it was read, up to a millisecond.  Missing from the full statement: tasks that run longer than
    a quarter of the redelivery timeout, whose lease is renewed (false, below). *)
Theorem C119_until_renewed_partial c s w h i m l reg d2 sn m' w' : reachable c s ->
  snd (step c s (ORead w)) = ODelivered h i m ->
  let s1 := fst (step c s (ORead w)) in let s' := final c s1 l in
  along c (not_renewed i) s1 l ->
  snapshot reg (s_db s') d2 = Some sn -> In (i, m', w') (sn_running sn) ->
  exists t, In (i, m', w', Some t) (running_since (s_db s') (d_now (s_db s')) sn) /\ d_now (s_db s) <= t < d_now (s_db s) + 1000.
Proof.
  intros R D s1 s' A S I. destruct (delivered_entry c s w h i m R D) as [X Y].
  assert (R1 : reachable c s1). { destruct R as [l0 ->]. exists (l0 ++ [ORead w]). unfold s1. now rewrite final_app, final_cons. }
  destruct (listed_started reg (s_db s') d2 (d_now (s_db s')) sn i m' w' S I) as (t & E & J).
  exists t. split; [assumption|]. split.
  - apply (shown c s' i (d_now (s_db s)) (d_now (s_db s'))); auto; [now apply reach_final|now apply since_final].
  - apply (shown_exact s' i (d_now (s_db s)) (d_now (s_db s'))); auto. now apply exactly_along.
Qed.
Print Assumptions C119_until_renewed_partial.

(** Every renewal of a worker's leases starts its running tasks anew: from then on, whatever
    happens, snapshots show them as started at the renewal or later. *)
Theorem C119_starts_anew_refuted c s w x l reg d2 sn m' w' : reachable c s ->
  In x (s_execs s) -> x_worker x = w -> x_phase x <> PDone ->
  let s' := final c (fst (step c s (ORenew w))) l in
  snapshot reg (s_db s') d2 = Some sn -> In (x_mid x, m', w') (sn_running sn) ->
  exists t, In (x_mid x, m', w', Some t) (running_since (s_db s') (d_now (s_db s')) sn) /\ d_now (s_db s) <= t.
Proof.
  intros R Hx Hw Hp s' S I. pose proof (renewed_entry c s w x Hx Hw Hp) as X.
  destruct (listed_started reg (s_db s') d2 (d_now (s_db s')) sn (x_mid x) m' w' S I) as (t & E & J).
  exists t. split; [assumption|]. apply (shown c s' (x_mid x) (d_now (s_db s)) (d_now (s_db s'))); auto.
  - unfold s'. apply reach_final. destruct R as [l0 ->]. exists (l0 ++ [ORenew w]). now rewrite final_app, final_cons.
  - now apply since_final.
Qed.
Print Assumptions C119_starts_anew_refuted.

(** "k" is read after 1 s and runs; a snapshot at 61.0005 s. *)
Definition snap_hist : list op :=
  [OAdd (ex_call 0 "f" "x") 0; OTick 1000000; ORead "w"; OClaim 0 1000000; OBodyStart 0; OTick 60000500].
Example C119_case : let s := final ex_cfg init_sys snap_hist in
  along ex_cfg (not_renewed 1) (final ex_cfg init_sys (firstn 3 snap_hist)) (skipn 3 snap_hist) /\
  option_map (running_since (s_db s) (d_now (s_db s))) (snapshot (fun _ => true) (s_db s) (s_db s)) =
    Some [(1, mkMsg "k" 0 "f" "x" "" 1 1, "w"%string, Some 1000500)].
Proof.
  split; [|vm_compute; reflexivity].
  unfold snap_hist. cbn [firstn skipn along]. repeat split; try discriminate.
Qed.

(** The worker has renewed its leases twice, the body runs since 1 s: the snapshot at 161 s says it
    started at 151 s, while the record of the execution has 1 s. *)
Theorem C119_renewed_refuted : exists l, let s := final ex_cfg init_sys (snap_hist ++ l) in
  option_map (fun sn => map snd (running_since (s_db s) (d_now (s_db s)) sn)) (snapshot (fun _ => true) (s_db s) (s_db s)) = Some [Some 151000500] /\
  r_started (rget (s_db s) "k") = Some 1000000 /\ d_now (s_db s) = 161000500.
Proof.
  exists [OTick 15000000; ORenew "w"; OTick 75000000; ORenew "w"; OTick 10000000]. vm_compute. auto.
Qed.
Print Assumptions C119_renewed_refuted.
