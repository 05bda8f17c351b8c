(** C121: what the record of a key says about its runs. *)
From Verif Require Import Base ZSet Model GInv Spec SpecRecord RecordProofs PropsHist.

(** ** C121: a record speaks of the latest run *)

(** Every history: worker and start time are those of the latest claim of the key, or both
    are missing. *)
Theorem C121_latest_claim_partial c k l : let r := rget (s_db (final c init_sys l)) k in
  (r_worker r = None /\ r_started r = None) \/
  exists w t, latest c (claims c k) l (w, t) /\ r_worker r = Some w /\ r_started r = Some t.
Proof.
  cbv zeta. destruct (worker_latest c k l) as [(A & B & _)|([w t] & L & A & B)]; [left; auto|right; exists w, t; auto].
Qed.
Print Assumptions C121_latest_claim_partial.

(** While the record says "running" they are there: who runs the task, and since when. *)
Theorem C121_running_partial c k l : state_of (final c init_sys l) k = Some SRunning ->
  exists w t, latest c (claims c k) l (w, t) /\
    r_worker (rget (s_db (final c init_sys l)) k) = Some w /\ r_started (rget (s_db (final c init_sys l)) k) = Some t.
Proof.
  intros S. destruct (worker_latest c k l) as [(_ & _ & N)|([w t] & L & A & B)]; [elim (N S)|exists w, t; auto].
Qed.
Print Assumptions C121_running_partial.

(** While it says completed, failed or cancelled: that is how the run ended that ended
    last, and when. *)
Theorem C121_ended_partial c k l st : state_of (final c init_sys l) k = Some st -> terminal_state st = true ->
  exists t, latest c (ends c k) l (st, t) /\ r_completed (rget (s_db (final c init_sys l)) k) = Some t.
Proof. exact (end_latest c k l st). Qed.
Print Assumptions C121_ended_partial.

(** The hypotheses are met: the first run of "k" is claimed by "w1", which dies; "w2" takes it
    over, and the record shows "w2"; it fails, and the record shows when. *)
Definition re_taken : list op :=
  [OAdd (ex_call 0 "f" "x") 0; ORead "w1"; OClaim 0 1; OBodyStart 0; OCrash "w1"; OTick 400000000; OAutoclaim "w2" 1; OClaim 1 400000001; OBodyStart 1].
Definition re_failed : list op := re_taken ++ [OBodyEnd 1; OTerminal 1 SFailed 400000009 (Some "boom"%string) None].
Example C121_taken_case : let s := final ex_cfg init_sys re_taken in
  state_of s "k" = Some SRunning /\ r_worker (rget (s_db s) "k") = Some "w2"%string /\ r_started (rget (s_db s) "k") = Some 400000001.
Proof. vm_compute. repeat split. Qed.
Example C121_failed_case : let s := final ex_cfg init_sys re_failed in
  state_of s "k" = Some SFailed /\ r_completed (rget (s_db s) "k") = Some 400000009 /\ r_error (rget (s_db s) "k") = Some "boom"%string.
Proof. vm_compute. repeat split. Qed.

(** The rest of a record may be of an earlier run.  "k" failed and is added again: the
    waiting task is shown with the worker, the start, the end and the error of the run before. *)
Definition re_again : list op := re_failed ++ [OAdd (ex_call 500000000 "f" "y") 400000010].
Theorem C121_pending_refuted : exists l, let r := rget (s_db (final ex_cfg init_sys l)) "k" in
  r_state r = Some SScheduled /\ r_args r = Some "y"%string /\
  r_worker r = Some "w2"%string /\ r_started r = Some 400000001 /\ r_completed r = Some 400000009 /\ r_error r = Some "boom"%string.
Proof. exists re_again. vm_compute. repeat split. Qed.
Print Assumptions C121_pending_refuted.

(** While it runs, it is shown to have ended before it began. *)
Definition re_rerun : list op := re_again ++ [OTick 150000000; OScheduler 550000000; ORead "w3"; OClaim 2 550000001; OBodyStart 2].
Theorem C121_ended_before_begun_refuted : exists l a b, let r := rget (s_db (final ex_cfg init_sys l)) "k" in
  r_state r = Some SRunning /\ r_started r = Some a /\ r_completed r = Some b /\ b < a.
Proof. exists re_rerun, 550000001, 400000009. vm_compute. repeat split. Qed.
Print Assumptions C121_ended_before_begun_refuted.

(** And when it has completed, it is shown with the error of the run before. *)
Theorem C121_completed_with_error_refuted : exists l, let r := rget (s_db (final ex_cfg init_sys l)) "k" in
  r_state r = Some SCompleted /\ latest ex_cfg (ends ex_cfg "k") l (SCompleted, 550000005) /\ r_completed r = Some 550000005 /\ r_error r = Some "boom"%string.
Proof.
  exists (re_rerun ++ [OBodyEnd 2; OTerminal 2 SCompleted 550000005 None None]).
  assert (S : state_of (final ex_cfg init_sys (re_rerun ++ [OBodyEnd 2; OTerminal 2 SCompleted 550000005 None None])) "k" = Some SCompleted) by (vm_compute; reflexivity).
  destruct (end_latest ex_cfg "k" _ _ S eq_refl) as (t & L & C). assert (t = 550000005) by (vm_compute in C; injection C; auto). subst t.
  cbv zeta. split; [exact S|]. split; [exact L|]. split; [exact C|]. vm_compute. reflexivity.
Qed.
Print Assumptions C121_completed_with_error_refuted.
