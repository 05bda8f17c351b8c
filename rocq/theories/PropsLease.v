(** C49 and C57: who is handed a message in flight. *)
From Verif Require Import Base ZSet Model GInv Spec PropsHist Lease LeaseProofs.

(** ** C49 *)

(** A worker renews its leases every redelivery_timeout/4, each time at most [late] late,
    and at most [fails] renewals in a row fail.  If [fails + 1] such periods are
    shorter than the timeout, nobody (not even the worker itself) is handed a message
    the worker has in flight, whatever happens to the docket. *)
Theorem C49_in_flight_is_kept c late fails l t x o h m :
  0 <= c_redeliver c -> 0 <= late -> (fails + 1) * (c_redeliver c / 4 + late) < c_redeliver c ->
  let lt := lt_of c late in
  let s := krun c lt ls_init l in
  In t (ls_timers s) -> tm_fails t <= fails ->
  In x (s_execs (ls_sys s)) -> x_worker x = tm_worker t -> x_phase x <> PDone ->
  snd (kstep c lt s o) <> ODelivered h (x_mid x) m.
Proof.
  intros R0 L0 Fl lt s Ht Hf Hx Wx Px D.
  assert (E0 : 0 <= lt_every lt) by (cbn; apply Z.div_pos; lia).
  assert (I : LeInv lt s) by (apply LeInv_run; [exact E0|exact L0|apply LeInv_init]).
  destruct I as [G H]. destruct (H t Ht) as (A & B & C & P). clear B.
  assert (No : forall o, snd (step c (ls_sys s) o) <> ODelivered h (x_mid x) m).
  { intros o' X. apply delivers_only in X as [(w & _ & X)|(w & p & _ & X1 & X2 & X3)].
    - pose proof (xi_mid _ (proj2 G) x Hx). lia.
    - pose proof (P x p Hx Wx Px X1 X2) as Y. change (lt_every lt) with (c_redeliver c / 4) in *. change (lt_late lt) with late in *.
      set (e := c_redeliver c / 4) in *. assert ((tm_fails t + 1) * (e + late) <= (fails + 1) * (e + late)) by nia. nia. }
  assert (Kd : forall o ts, snd (kdo c s o ts) <> ODelivered h (x_mid x) m).
  { intros o' ts. unfold kdo. pose proof (No o') as N. destruct (step c (ls_sys s) o'). exact N. }
  revert D. destruct o as [w|w ok|w|o']; cbn [kstep].
  - destruct (_ || _); discriminate.
  - destruct (get_timer _ _); [|discriminate]. destruct (_ <? _); [discriminate|]. destruct ok; [apply Kd|discriminate].
  - discriminate.
  - destruct o'; try apply Kd; try discriminate.
    + destruct (forallb _ _); [apply Kd|discriminate].
    + destruct (existsb _ _); [apply Kd|discriminate].
    + destruct (existsb _ _); [apply Kd|discriminate].
Qed.
Print Assumptions C49_in_flight_is_kept.

(** Timeout 300 s, renewal every 75 s, one second late at most, two failures in a row are
    survived: a task runs for 300 s beside an eager worker. *)
Definition ex_lt : ltimes := lt_of ex_cfg 1000000.
Definition ex_begin : list lop :=
  [KLoop "w1"; KLoop "w2"; KDo (OAdd (ex_call 0 "f" "one") 0); KDo (ORead "w1"); KDo (OClaim 0 1); KDo (OBodyStart 0)].
Definition ex_period (ok : bool) : list lop := [KDo (OTick 75000000); KRenew "w1" ok; KRenew "w2" true].
Example C49_case :
  let s := krun ex_cfg ex_lt ls_init (ex_begin ++ ex_period true ++ ex_period false ++ ex_period false ++ ex_period true) in
  3 * (c_redeliver ex_cfg / 4 + 1000000) < c_redeliver ex_cfg /\
  map tm_fails (ls_timers s) = [0; 0] /\ map x_phase (s_execs (ls_sys s)) = [PBody] /\ d_now (s_db (ls_sys s)) = 300000000 /\
  kouts ex_cfg ex_lt s [KDo (OAutoclaim "w2" 1); KDo (ORead "w2"); KDo (OTick 77000000)] = [ODone; ODone; ORefused].
Proof. intros s. repeat split; vm_compute; reflexivity. Qed.

(** ** C57: a worker that is shutting down *)

(** It keeps a message for the timeout, counted from the last renewal (or the delivery). *)
Theorem C57_grace_partial c s x o h m : reachable c s -> In x (s_execs s) ->
  (forall p, In p (d_pel (s_db s)) -> pe_id p = x_mid x -> d_now (s_db s) < pe_time p + c_redeliver c) ->
  snd (step c s o) <> ODelivered h (x_mid x) m.
Proof.
  intros R Hx T D. pose proof (reachable_GInv c s R) as G. apply delivers_only in D as [(w & _ & X)|(w & q & _ & X1 & X2 & X3)].
  - pose proof (xi_mid _ (proj2 G) x Hx). lia.
  - specialize (T q X1 X2). lia.
Qed.
Print Assumptions C57_grace_partial.
Example C57_case :
  let s := final ex_cfg init_sys [OAdd (ex_call 0 "f" "one") 0; ORead "w1"; OClaim 0 1; OBodyStart 0; OTick 299999999] in
  d_pel (s_db s) = [mkPent 1 "w1" 0 1] /\ map x_mid (s_execs s) = [1] /\ d_now (s_db s) < 0 + c_redeliver ex_cfg /\ (outs ex_cfg s [OAutoclaim "w2" 1] = [ODone]).
Proof. intros s. repeat split; vm_compute; reflexivity. Qed.

(** The full statement is false: the renewal loop ends when the worker is told to stop (or
    loses its connection), but the worker waits for its tasks.  A task that needs
    longer than the timeout is handed to another worker and runs twice at once, though
    both workers are healthy and every timer is on time. *)
Theorem C57_draining_worker_refuted :
  let s := krun ex_cfg ex_lt ls_init (ex_begin ++ [KStop "w1"; KDo (OTick 75000000); KRenew "w2" true; KDo (OTick 75000000); KRenew "w2" true;
     KDo (OTick 75000000); KRenew "w2" true; KDo (OTick 75000000)]) in
  map (fun x => (x_worker x, x_phase x)) (s_execs (ls_sys s)) = [("w1"%string, PBody)] /\
  let m := mkMsg "k" 0 "f" "one" "" 1 1 in
  kouts ex_cfg ex_lt s [KDo (OAutoclaim "w2" 1); KDo (OClaim 1 300000000); KDo (OBodyStart 1)] = [ODelivered 1 1 m; OClaimed true; OStarted m 1] /\
  map (fun x => (x_worker x, x_phase x)) (s_execs (ls_sys (krun ex_cfg ex_lt s [KDo (OAutoclaim "w2" 1); KDo (OClaim 1 300000000); KDo (OBodyStart 1)])))
    = [("w1"%string, PBody); ("w2"%string, PBody)].
Proof. intros s. repeat split; vm_compute; reflexivity. Qed.
Print Assumptions C57_draining_worker_refuted.
