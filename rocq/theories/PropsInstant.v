(** C73: due times are exact to the microsecond although the store keeps them as binary
    floating-point seconds. *)
From Verif Require Import Base Instant SpecInstant InstantProofs.

(** A pass of the scheduler hands out exactly the keys whose time has come. *)
Theorem C73_due_exactly : forall evs k now, Forall near_ev evs -> near now ->
  (In k (due now (queue evs)) <-> exists w, waits k evs = Some w /\ w <= now).
Proof. exact due_iff. Qed.
Print Assumptions C73_due_exactly.

(** Each once, *)
Theorem C73_due_once : forall evs now, Forall near_ev evs -> near now -> NoDup (due now (queue evs)).
Proof. exact due_nodup. Qed.
Print Assumptions C73_due_once.

(** in the order of their times; keys of one instant in the order of their names. *)
Theorem C73_due_in_order : forall evs now, Forall near_ev evs -> near now ->
  ForallOrdPairs (fun k k' => exists w w', waits k evs = Some w /\ waits k' evs = Some w' /\
    (w < w' \/ (w = w' /\ (k < k')%nat))) (due now (queue evs)).
Proof. exact due_sorted. Qed.
Print Assumptions C73_due_in_order.

(** The handle of an execution shows the very microsecond the caller asked for. *)
Theorem C73_recorded : forall w, near w -> read_when (recorded w) = w.
Proof. exact timestamp_round_trip. Qed.
Print Assumptions C73_recorded.

(** Whatever the date, and whatever happened to the queue before: nothing is late. *)
Theorem C73_never_late : forall evs k w now, calendar w -> calendar now -> w <= now ->
  In k (due now (queue (evs ++ [QPark k w]))).
Proof. exact due_calendar. Qed.
Print Assumptions C73_never_late.

(** Not further: from 2^33 seconds on (2242-03-16) neighbouring microseconds share one
    double, so a task can run a microsecond early and its record shows another time. *)
Theorem C73_after_2242_refuted :
  (exists w now, calendar w /\ calendar now /\ now < w /\ due now (queue [QPark 1 w]) = [1%nat]) /\
  (exists w, calendar w /\ read_when (recorded w) <> w).
Proof.
  split.
  - exists (1000000 * 2 ^ 33 + 2), (1000000 * 2 ^ 33 + 1). unfold calendar.
    split; [|split; [|split]]; [lia|lia|lia|vm_compute; reflexivity].
  - exists (1000000 * 2 ^ 33 + 1). unfold calendar. split; [lia|]. vm_compute. congruence.
Qed.
Print Assumptions C73_after_2242_refuted.

(** Three tasks, one moved, one taken out; a microsecond decides. *)
Definition ex_evs : list qev :=
  [QPark 3 1763251200000002; QPark 1 1763251200000001; QPark 2 1763251200000001; QSweep 1763251200000000;
   QPark 4 1763251200000001; QRemove 4].

Example C73_ex_range : Forall near_ev ex_evs /\ near 1763251200000001.
Proof. unfold near. split; [repeat constructor; cbn; unfold near; lia|lia]. Qed.
Example C73_ex_due : due 1763251200000001 (queue ex_evs) = [1; 2]%nat /\ waits 3 ex_evs = Some 1763251200000002 /\
  due 1763251200000000 (queue ex_evs) = [] /\ due 1763251200000002 (queue ex_evs) = [1; 2; 3]%nat.
Proof. vm_compute. repeat split. Qed.
(** The double is not the instant: the stored seconds differ from it by a fraction of a
    microsecond. *)
Example C73_ex_inexact : let x := timestamp 1763251200000001 in
  dm x * 1000000 <> 1763251200000001 * 2 ^ dk x /\ dk x = 22 /\ read_when x = 1763251200000001.
Proof. vm_compute. repeat split; congruence. Qed.
Example C73_ex_calendar : calendar 253402300799999999 /\ calendar (1000000 * 2 ^ 33 + 1).
Proof. unfold calendar. lia. Qed.
