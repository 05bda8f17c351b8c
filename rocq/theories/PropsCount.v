(** How often and how many at a time the runs of a key start (C09, C10). *)
From Verif Require Import Base ZSet Model GInv Spec Check Count PropsHist.

(** ** C09: each accepted run starts at most once unless redelivered *)

(** Over every history, and for every set of messages of one key that depends on
    function and arguments only: the bodies that started are at most as many as
    the calls that were accepted, plus the redeliveries, plus the reschedules that
    retries and admission control made.  Without redeliveries and reschedules an
    accepted call starts at most once. *)
Theorem C09_starts_bounded c k p l : of_payload p -> (forall m, p m = true -> m_key m = k) ->
  total c (n_starts p) init_sys l <=
  total c (n_accepted p) init_sys l + total c (n_redelivered p) init_sys l + total c (n_retried p) init_sys l.
Proof. exact (starts_bounded c k p l). Qed.
Print Assumptions C09_starts_bounded.

(** A message on the stream is handed out once as a new delivery; its body starts
    at most once for that delivery and for each redelivery. *)
Theorem C09_once_per_delivery c l i :
  total c (n_started i) init_sys l <= 1 + total c (n_redelivered_entry i) init_sys l.
Proof. exact (once_per_delivery i c l). Qed.
Print Assumptions C09_once_per_delivery.

(** Calls of "k" with argument "x": one accepted call, one redelivery, one retry and
    three starts; the first bound is met with equality.  The entry 1 is started
    twice, by the delivery and the redelivery. *)
Definition ex_kx (m : msg) : bool := String.eqb (m_key m) "k" && String.eqb (m_args m) "x".
Definition ex_thrice : list op :=
  [OAdd (ex_call 0 "f" "x") 1; ORead "w1"; OClaim 0 2; OBodyStart 0; OTick 300000000; OAutoclaim "w2" 1; OClaim 1 300000003; OBodyStart 1;
   OBodyEnd 1; OResched 1 300000010 true 300000010; ORead "w3"; OClaim 2 300000011; OBodyStart 2].
Example C09_case :
  of_payload ex_kx /\ (forall m, ex_kx m = true -> m_key m = "k"%string) /\
  total ex_cfg (n_starts ex_kx) init_sys ex_thrice = 3 /\ total ex_cfg (n_accepted ex_kx) init_sys ex_thrice = 1 /\
  total ex_cfg (n_redelivered ex_kx) init_sys ex_thrice = 1 /\ total ex_cfg (n_retried ex_kx) init_sys ex_thrice = 1 /\
  total ex_cfg (n_started 1) init_sys ex_thrice = 2 /\ total ex_cfg (n_redelivered_entry 1) init_sys ex_thrice = 1.
Proof.
  split; [intros m m' E1 _ E2 _; unfold ex_kx; now rewrite E1, E2|].
  split; [intros m H; apply andb_prop in H as [H _]; now apply String.eqb_eq in H|].
  split; [vm_compute; reflexivity|]. split; [vm_compute; reflexivity|]. split; [vm_compute; reflexivity|].
  split; [vm_compute; reflexivity|]. split; vm_compute; reflexivity.
Qed.

(** ** C10: one key never runs twice at the same time *)

(** If the record of [k] is kept, nobody replaces, cancels or clears [k], no message
    of [k] is redelivered and no run of [k] is parked on a concurrency limit, then at
    most one body of [k] runs at any time.  Missing from the full statement: runs
    parked on a concurrency limit, where it is false (below). *)
Theorem C10_one_at_a_time_partial c k l h1 h2 :
  along c (fun s o => keeps c k s o /\ only_adds k o /\ ~ redelivers c k s o /\ ~ parks c k s o) init_sys l ->
  body_running (final c init_sys l) k h1 -> body_running (final c init_sys l) k h2 -> h1 = h2.
Proof. exact (one_at_a_time c k l h1 h2). Qed.
Print Assumptions C10_one_at_a_time_partial.

(** "k" runs, is added again meanwhile (refused), fails, is rescheduled, one worker
    finds it stricken, it is added again, its worker crashes and so on; at the end a
    body is running. *)
Definition ex_busy : list op :=
  [OAdd (ex_call 0 "f" "x") 1; ORead "w1"; OClaim 0 2; OBodyStart 0; OAdd (ex_call 0 "f" "y") 3; OBodyEnd 0; OResched 0 10 true 5;
   OAdd (ex_call 0 "f" "y") 6; OScheduler 10; ORead "w2"; ODelKnown 1; OAdd (ex_call 12 "f" "z") 12; OTerminal 1 SCancelled 13 None None;
   ORead "w1"; OClaim 2 14; OBodyStart 2].
Example C10_case :
  along ex_cfg (fun s o => keeps ex_cfg "k" s o /\ only_adds "k" o /\ ~ redelivers ex_cfg "k" s o /\ ~ parks ex_cfg "k" s o) init_sys ex_busy /\
  body_running (final ex_cfg init_sys ex_busy) "k" 2 /\
  nth 7 (outs ex_cfg init_sys ex_busy) ODone = ODisp DAlreadyScheduled /\ nth 11 (outs ex_cfg init_sys ex_busy) ODone = ODisp DScheduled.
Proof.
  split; [history (fun s o => keepsb ex_cfg "k" s o && only_addsb "k" o && no_redeliverb ex_cfg "k" s o && no_parkb ex_cfg "k" s o)|].
  split; [eexists; split; [vm_compute; reflexivity|split; reflexivity]|]. split; vm_compute; reflexivity.
Qed.

(** With a concurrency limit: "k" is parked behind "j"; while it waits its record has
    no known field, so it can be added again for later; "j" releases its slot and the
    parked run starts; the scheduler moves the later schedule to the stream, which
    sets the state of the running key back to queued; now add() is accepted although
    a body of "k" is running, and the new run starts too. *)
Definition ex_both : list op :=
  [OAdd (mkCall "j" 0 "f" "" "") 1; ORead "w1"; OClaim 0 2; OAcquire 0 "c" 1 2;
   OAdd (ex_call 0 "f" "x") 3; ORead "w2"; OClaim 1 4; OAcquire 1 "c" 1 4;
   OAdd (ex_call 20 "f" "y") 5;
   OBodyStart 0; OBodyEnd 0; OTerminal 0 SCompleted 6 None None; ORelease 0 6;
   ORead "w1"; OClaim 2 8; OAcquire 2 "c" 1 8; OBodyStart 2;
   OScheduler 20; OAdd (ex_call 0 "f" "z") 21; ORead "w2"; OClaim 3 22; ORead "w2"; OClaim 4 23; OBodyStart 4].
Theorem C10_parked_refuted :
  let s := final ex_cfg init_sys ex_both in
  along ex_cfg (fun s o => keeps ex_cfg "k" s o /\ only_adds "k" o /\ ~ redelivers ex_cfg "k" s o) init_sys ex_both /\
  nth 18 (outs ex_cfg init_sys ex_both) ODone = ODisp DScheduled /\
  body_running s "k" 2 /\ body_running s "k" 4.
Proof.
  intros s. split; [history (fun s o => keepsb ex_cfg "k" s o && only_addsb "k" o && no_redeliverb ex_cfg "k" s o)|].
  split; [vm_compute; reflexivity|].
  split; (eexists; split; [vm_compute; reflexivity|split; reflexivity]).
Qed.
Print Assumptions C10_parked_refuted.
