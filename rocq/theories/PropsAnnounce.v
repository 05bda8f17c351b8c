(** C118: progress events of a run whose reports overlap. *)
From Verif Require Import Base Announce SpecAnnounce AnnounceProofs.

(** ** C118: whoever follows the progress events of a run knows its progress *)

(** However the calls overlap, nothing is lost from the record: when no report is on its
    way, the recorded value is the sum of the increments made. *)
Theorem C118_recorded l : aalong new_number init_asys l ->
  let s := afinal init_asys l in settled s -> v_cur (a_stored s) = increments l.
Proof.
  intros HA s Q. apply sum_settled; [assumption|]. apply (sum_along init_asys l 0 HA).
  exists []. split; [constructor|]. split; [|reflexivity].
  intros i n. cbn. split; [tauto|]. intros (ev & H). discriminate.
Qed.
Print Assumptions C118_recorded.

(** However they overlap, no event shows more than what is recorded, and when no
    report is on its way, the recorded value has been announced (or nothing was ever counted).  So the
    largest value announced is the recorded one.  Missing from the full statement: that it is announced last
    (false, below). *)
Theorem C118_largest_announced_partial l : let s := afinal init_asys l in
  (forall ev, In ev (a_events s) -> v_cur ev <= v_cur (a_stored s)) /\
  (settled s -> v_cur (a_stored s) = 0 \/ exists ev, In ev (a_events s) /\ v_cur ev = v_cur (a_stored s)).
Proof.
  intros s. destruct (ann_final l init_asys ann_init) as (_ & _ & HE & _ & HX). split; [exact HE|].
  intros Q. destruct HX as [X|[X|[(i & n & X)|(i & ev & X & _)]]]; [auto|auto| |];
  fold s in X; rewrite (Q i) in X; discriminate.
Qed.
Print Assumptions C118_largest_announced_partial.

(** One call at a time: whenever no report is on its way, the last event shows the
    recorded value, total and message, and so do the attributes of the object. *)
Theorem C118_one_by_one_partial l : aalong one_by_one init_asys l ->
  let s := afinal init_asys l in settled s -> believed s = a_stored s /\ a_local s = a_stored s.
Proof.
  intros HA s Q. destruct (seq_settled s Q) as [L B]; [|auto].
  apply seq_along; [assumption|]. left. repeat split.
Qed.
Print Assumptions C118_one_by_one_partial.

(** Whatever overlapped before: an increment on its own tells the recorded value. *)
Theorem C118_next_increment_partial l i n : let s := afinal init_asys l in settled s -> 1 <= n ->
  let s' := afinal s [ABegin i (Incr n); AServer i; AReply i; AServer i] in
  settled s' /\ v_cur (believed s') = v_cur (a_stored s') /\ v_cur (a_stored s') = v_cur (a_stored s) + n.
Proof.
  intros s Q Hn s'. destruct (lone_incr s i n Q Hn) as (Q' & B & E). cbn [whole] in Q', B, E.
  fold s' in Q', B, E. rewrite B, E. auto.
Qed.
Print Assumptions C118_next_increment_partial.

(** Total 5, two increments, a message: the follower knows it all. *)
Example C118_case :
  let l := whole 1 (Total 5) ++ whole 1 (Incr 2) ++ whole 1 (Incr 1) ++ whole 1 (Message (Some "half"%string)) in
  aalong one_by_one init_asys l /\ settled (afinal init_asys l) /\
  believed (afinal init_asys l) = mkView 3 5 (Some "half"%string) /\ increments l = 3.
Proof.
  cbv zeta. split; [|split; [apply settled_by; vm_compute; reflexivity|split; vm_compute; reflexivity]].
  repeat (apply aalong_app; [apply whole_one_by_one|]); try apply whole_one_by_one.
  - intros i. reflexivity.
  - apply settled_by. vm_compute. reflexivity.
  - rewrite <- afinal_app. apply settled_by. vm_compute. reflexivity.
  - rewrite <- !afinal_app. apply settled_by. vm_compute. reflexivity.
Qed.

(** Two parts of a body count at the same time (two increments overlap): the events
    arrive in the other order and the last one says 1, for good; 2 is recorded. *)
Theorem C118_overlapping_increments_refuted : exists l, let s := afinal init_asys l in
  aalong new_number init_asys l /\ settled s /\ v_cur (a_stored s) = 2 /\ v_cur (believed s) = 1.
Proof.
  exists [ABegin 1 (Incr 1); ABegin 2 (Incr 1); AServer 1; AServer 2; AReply 1; AReply 2; AServer 2; AServer 1].
  cbv zeta. split; [vm_compute; repeat split|]. split; [apply settled_by; vm_compute; reflexivity|]. split; vm_compute; reflexivity.
Qed.
Print Assumptions C118_overlapping_increments_refuted.

(** A message is set while an increment is under way: the event of the message,
    prepared before, takes the value back to 0. *)
Theorem C118_message_takes_back_refuted : exists l, let s := afinal init_asys l in
  aalong new_number init_asys l /\ settled s /\ v_cur (a_stored s) = 7 /\ v_cur (believed s) = 0.
Proof.
  exists [ABegin 1 (Incr 7); AServer 1; ABegin 2 (Message (Some "m"%string)); AReply 1; AServer 1; AServer 2; AReply 2].
  cbv zeta. split; [vm_compute; repeat split|]. split; [apply settled_by; vm_compute; reflexivity|]. split; vm_compute; reflexivity.
Qed.
Print Assumptions C118_message_takes_back_refuted.

(** Two totals are set at the same time and the replies arrive in the other order: the object
    keeps the wrong one, and every later increment, on its own, announces it. *)
Theorem C118_wrong_total_stays_refuted : exists l, let s := afinal init_asys l in
  aalong new_number init_asys l /\ settled s /\ v_tot (a_stored s) = 20 /\
  forall n, 1 <= n -> v_tot (believed (afinal s (whole 1 (Incr n)))) = 10 /\ v_tot (a_stored (afinal s (whole 1 (Incr n)))) = 20.
Proof.
  exists [ABegin 1 (Total 10); ABegin 2 (Total 20); AServer 1; AServer 2; AReply 2; AReply 1].
  cbv zeta. split; [vm_compute; repeat split|]. split; [apply settled_by; vm_compute; reflexivity|]. split; [vm_compute; reflexivity|].
  intros n Hn. edestruct (lone_incr (afinal init_asys [ABegin 1 (Total 10); ABegin 2 (Total 20); AServer 1; AServer 2; AReply 2; AReply 1]) 1 n) as (_ & B & E);
    [apply settled_by; vm_compute; reflexivity|assumption|].
  rewrite B, E. cbn [set_cur v_tot]. split; vm_compute; reflexivity.
Qed.
Print Assumptions C118_wrong_total_stays_refuted.
