(** C122: how long the records of finished tasks are kept. *)
From Verif Require Import Base ZSet Model GInv Spec SpecRecord RecordProofs RetentionProofs PropsHist PropsReuse.

(** ** C122: records of finished tasks go after execution_ttl *)

(** In every reachable docket, a record that is to expire does so in the future, and no
    later than execution_ttl from now. *)
Theorem C122_bounded_partial c s k e : reachable c s -> r_expire (rget (s_db s) k) = Some e ->
  d_now (s_db s) < e <= d_now (s_db s) + c_ttl c * 1000000.
Proof. intros R. exact (reachable_Bounded c s R k e). Qed.
Print Assumptions C122_bounded_partial.

(** Every record that says completed, failed or cancelled is to expire - unless a cancel of
    the key has not sent its second request. *)
Theorem C122_finished_expires_partial c k l st : state_of (final c init_sys l) k = Some st -> terminal_state st = true ->
  (exists e, r_expire (rget (s_db (final c init_sys l)) k) = Some e) \/
  exists l1 t l2, l = l1 ++ OCancel k t :: l2 /\ ~ In (OCancelFinish k) l2.
Proof.
  intros S T. destruct (r_expire (rget (s_db (final c init_sys l)) k)) as [e|] eqn:E; [left; eauto|right].
  apply (unfinished_cancel c k l); [exists st; auto|exact E].
Qed.
Print Assumptions C122_finished_expires_partial.

(** So it is gone once execution_ttl has passed. *)
Theorem C122_gone_partial c k l st dt : state_of (final c init_sys l) k = Some st -> terminal_state st = true ->
  (forall l1 t l2, l = l1 ++ OCancel k t :: l2 -> In (OCancelFinish k) l2) ->
  0 <= dt -> c_ttl c * 1000000 <= dt -> d_runs (s_db (final c init_sys (l ++ [OTick dt]))) k = None.
Proof. intros S T. apply gone. exists st. auto. Qed.
Print Assumptions C122_gone_partial.

(** The hypotheses are met: "k" is cancelled while it waits, is used again, and completes
    at 2 s; its record is there for 900 s. *)
Definition rt_used : list op :=
  [OAdd (ex_call 50 "f" "zero") 0; OCancel "k" 1; OCancelFinish "k"; OAdd (ex_call 0 "f" "one") 2; ORead "w1"; OClaim 0 3; OBodyStart 0;
   OTick 2000000; OBodyEnd 0; OTerminal 0 SCompleted 2000000 None None].
Example C122_case : state_of (final ex_cfg init_sys rt_used) "k" = Some SCompleted /\
  r_expire (rget (s_db (final ex_cfg init_sys rt_used)) "k") = Some 902000000 /\
  (forall l1 t l2, rt_used = l1 ++ OCancel "k" t :: l2 -> In (OCancelFinish "k") l2) /\
  d_runs (s_db (final ex_cfg init_sys (rt_used ++ [OTick 899999999]))) "k" <> None /\
  d_runs (s_db (final ex_cfg init_sys (rt_used ++ [OTick 900000000]))) "k" = None.
Proof.
  split; [vm_compute; reflexivity|]. split; [vm_compute; reflexivity|]. split; [|split; [vm_compute; discriminate|vm_compute; reflexivity]].
  intros l1 t l2 E. unfold rt_used in E.
  destruct l1 as [|o1 l1]; [discriminate E|]. injection E as _ E. destruct l1 as [|o2 l1]; [injection E as _ <-; now left|]. injection E as _ E.
  repeat (destruct l1 as [|?o l1]; [discriminate E|]; injection E as _ E). destruct l1; discriminate E.
Qed.

(** The caller of cancel() dies between its two requests: the record stays, however
    long one waits. *)
Theorem C122_cancelled_kept_refuted : exists s r, reachable ex_cfg s /\ state_of s "k" = Some SCancelled /\
  forall l, (forall o, In o l -> exists dt, o = OTick dt) -> d_runs (s_db (final ex_cfg s l)) "k" = Some r.
Proof.
  exists (final ex_cfg init_sys [OAdd (ex_call 50 "f" "x") 0; OCancel "k" 1]). eexists. split; [eexists; reflexivity|]. split; [vm_compute; reflexivity|].
  intros l T. apply ticks_keep; [vm_compute; reflexivity|reflexivity|exact T].
Qed.
Print Assumptions C122_cancelled_kept_refuted.

(** A key that was used is added for later than its old record is kept: the scheduler
    makes a new record for the message, the run is dropped as superseded, and the record says
    "queued" ever after, with nothing stored. *)
Theorem C122_dropped_run_kept_refuted : exists s r, reachable ex_cfg s /\ (forall m, m_key m = "k"%string -> ~ stored s m) /\
  state_of s "k" = Some SQueued /\
  forall l, (forall o, In o l -> exists dt, o = OTick dt) -> d_runs (s_db (final ex_cfg s l)) "k" = Some r.
Proof.
  set (s1 := fst (step ex_cfg (final ex_cfg init_sys ex_used) (ex_again 1000000000))).
  assert (E1 : final ex_cfg s1 ex_late = final ex_cfg init_sys (ex_used ++ ex_again 1000000000 :: ex_late)) by (rewrite final_app, final_cons; reflexivity).
  exists (final ex_cfg s1 ex_late). eexists. split; [exists (ex_used ++ ex_again 1000000000 :: ex_late); exact E1|].
  split; [exact (proj2 (proj2 (proj2 C22_expired_record_refuted)))|]. split; [vm_compute; reflexivity|].
  intros l T. apply ticks_keep; [vm_compute; reflexivity|reflexivity|exact T].
Qed.
Print Assumptions C122_dropped_run_kept_refuted.
