(** Property theorems: task statistics and the testing helpers. *)
From Verif Require Import Base ZSet Model GInv Spec Snapshot PropsHist PropsSnapshot Stats SpecStats StatsProofs.

(** C69: for any lists of running and future executions, every function name has an entry
    exactly if it occurs; the counts are the numbers of occurrences; the times are the
    least and the greatest. *)
Theorem C69_counts running future f :
  (lookup f (get_task_stats running future) = None <-> times f running = [] /\ times f future = []) /\
  forall t, lookup f (get_task_stats running future) = Some t ->
    t_running t = Z.of_nat (length (times f running)) /\ t_queued t = Z.of_nat (length (times f future)) /\ t_total t = t_running t + t_queued t /\
    least (times f future) (t_oldest_queued t) /\ greatest (times f future) (t_latest_queued t) /\
    least (times f running) (t_oldest_started t) /\ greatest (times f running) (t_latest_started t).
Proof.
  destruct (stats_exact running future f) as [A B C D E F G H]. split; [exact A|]. intros t T. rewrite T in *. cbn [default] in *.
  rewrite D, <- B, <- C. repeat split; auto.
Qed.
Print Assumptions C69_counts.

(** For a docket of at most 1000 messages, when every task runs under the __name__ of its
    function: the total of a function is the number of stored messages that call it. *)
Theorem C69_total_partial c s reg sn pyname started f : reachable c s ->
  (length (d_stream (s_db s)) <= 1000)%nat -> (length (d_pel (s_db s)) <= 1000)%nat -> snapshot reg (s_db s) (s_db s) = Some sn ->
  (forall i m, on_stream s i m -> pyname (m_fn m) = m_fn m) ->
  t_total (default no_stats (lookup f (docket_stats pyname started sn))) = on_stream_of f s + on_queue_of f s.
Proof. apply stats_of_docket. Qed.
Print Assumptions C69_total_partial.

(** Likewise row by row: what counts as running is the number of messages of that function that
    were handed to a worker, what counts as queued the number of those that were not. *)
Theorem C69_rows_partial c s reg sn pyname started f : reachable c s ->
  (length (d_stream (s_db s)) <= 1000)%nat -> (length (d_pel (s_db s)) <= 1000)%nat -> snapshot reg (s_db s) (s_db s) = Some sn ->
  (forall i m, on_stream s i m -> pyname (m_fn m) = m_fn m) ->
  let t := default no_stats (lookup f (docket_stats pyname started sn)) in
  t_running t = handed_out (calls_fn (Some f)) s /\ t_queued t = yet_to_begin (calls_fn (Some f)) s.
Proof. apply rows_of_docket. Qed.
Print Assumptions C69_rows_partial.
Example C69_rows_example : handed_out (calls_fn (Some "f"%string)) (final ex_cfg init_sys ex_three) = 1 /\
  yet_to_begin (calls_fn (Some "f"%string)) (final ex_cfg init_sys ex_three) = 1 /\ yet_to_begin (calls_fn (Some "g"%string)) (final ex_cfg init_sys ex_three) = 1.
Proof. vm_compute. auto. Qed.

(** Example: "f" runs and is queued, "g" waits on the stream. *)
Definition st_ex : sys := final ex_cfg init_sys ex_three.
Example C69_example : exists sn, snapshot (fun _ => true) (s_db st_ex) (s_db st_ex) = Some sn /\
  docket_stats (fun f => f) (fun _ => 7) sn = [("f"%string, mkStats 1 1 2 (Some 100) (Some 100) (Some 7) (Some 7)); ("g"%string, mkStats 0 1 1 (Some 0) (Some 0) None None)] /\
  on_stream_of "f" st_ex = 1 /\ on_queue_of "f" st_ex = 1.
Proof. eexists. vm_compute. repeat split. Qed.

(** Refutation: a task registered under another name than its function's: while it waits it
    is counted under the one, while it runs under the other. *)
Definition st_alias (f : string) : string := if String.eqb f "g" then "f"%string else f.
Theorem C69_alias_refuted : exists c l pyname sn1 sn2, let s1 := final c init_sys l in let s2 := final c s1 [ORead "w"] in
  snapshot (fun _ => true) (s_db s1) (s_db s1) = Some sn1 /\ snapshot (fun _ => true) (s_db s2) (s_db s2) = Some sn2 /\
  on_stream_of "g" s2 = 1 /\ on_stream_of "f" s2 = 0 /\
  forall started, option_map t_total (lookup "g" (docket_stats pyname started sn1)) = Some 1 /\
    lookup "g" (docket_stats pyname started sn2) = None /\ option_map t_total (lookup "f" (docket_stats pyname started sn2)) = Some 1.
Proof.
  exists ex_cfg, [OAdd (mkCall "b" 0 "g" "" "") 0], st_alias. do 2 eexists. split; [vm_compute; reflexivity|]. split; [vm_compute; reflexivity|].
  split; [vm_compute; reflexivity|]. split; [vm_compute; reflexivity|]. intros started. repeat split.
Qed.
Print Assumptions C69_alias_refuted.

(** C70: for a docket of at most 1000 messages, assert_task_scheduled passes exactly if a
    message that fits is stored and handed to no worker, assert_task_not_scheduled exactly if
    there is none, and assert_no_tasks exactly if there is no such message at all. *)
Theorem C70_scheduled_partial c s reg sn kw q : reachable c s ->
  (length (d_stream (s_db s)) <= 1000)%nat -> (length (d_pel (s_db s)) <= 1000)%nat -> snapshot reg (s_db s) (s_db s) = Some sn ->
  (assert_task_scheduled kw q sn = true <-> exists m, not_begun s m /\ fits kw (c_fn q) (c_args q) (c_kwargs q) (c_key q) m) /\
  (assert_task_not_scheduled kw q sn = true <-> forall m, not_begun s m -> ~ fits kw (c_fn q) (c_args q) (c_kwargs q) (c_key q) m) /\
  (assert_no_tasks sn = true <-> forall m, ~ not_begun s m).
Proof.
  intros R Ls Lp E. pose proof (fun m => future_not_begun c s reg sn m R Ls Lp E) as N. split; [|split].
  - unfold assert_task_scheduled. rewrite existsb_exists. split.
    + intros (e & I & M). exists (snd e). split; [apply N; now apply in_map|now apply matches_fits].
    + intros (m & I & M). apply N, in_map_iff in I as (e & <- & I). exists e. split; [exact I|now apply matches_fits].
  - unfold assert_task_not_scheduled. rewrite forallb_forall. split.
    + intros H m I F. apply N, in_map_iff in I as (e & <- & I). specialize (H e I). apply matches_fits in F. rewrite F in H. discriminate.
    + intros H e I. destruct (matches kw q (snd e)) eqn:M; [|reflexivity]. exfalso. apply (H (snd e)); [apply N; now apply in_map|now apply matches_fits].
  - unfold assert_no_tasks. split.
    + intros H m I. apply N in I. destruct (sn_future sn); [destruct I|discriminate].
    + intros H. destruct (sn_future sn) as [|e l]; [reflexivity|]. exfalso. apply (H (snd e)). apply N. now left.
Qed.
Print Assumptions C70_scheduled_partial.

(** assert_task_count passes exactly for the number of messages of that function (of all, when
    none is given) that are stored and handed to no worker. *)
Theorem C70_count_partial c s reg sn f n : reachable c s ->
  (length (d_stream (s_db s)) <= 1000)%nat -> (length (d_pel (s_db s)) <= 1000)%nat -> snapshot reg (s_db s) (s_db s) = Some sn ->
  (assert_task_count f n sn = true <-> n = yet_to_begin (calls_fn f) s).
Proof.
  intros R Ls Lp E. destruct (snap_counts c s reg sn (calls_fn f) R Ls Lp E) as [_ B]. unfold assert_task_count. rewrite Z.eqb_eq, <- B.
  split; intros H; symmetry; exact H.
Qed.
Print Assumptions C70_count_partial.

(** The four agree with one another on any snapshot. *)
Theorem C70_consistent kw q sn :
  assert_task_not_scheduled kw q sn = negb (assert_task_scheduled kw q sn) /\
  assert_no_tasks sn = assert_task_count None 0 sn /\
  (forall f n n', assert_task_count f n sn = true -> assert_task_count f n' sn = true -> n = n') /\
  (forall f n, assert_task_count (Some f) n sn = true -> assert_task_scheduled kw (mkCrit f None None None) sn = (0 <? n)).
Proof.
  split; [|split; [|split]].
  - unfold assert_task_not_scheduled, assert_task_scheduled. induction (sn_future sn) as [|e l IH]; [reflexivity|]. cbn. rewrite IH. now destruct (matches kw q (snd e)).
  - unfold assert_no_tasks, assert_task_count. destruct (sn_future sn) as [|e l]; [reflexivity|]. cbn [filter length]. symmetry. apply Z.eqb_neq. lia.
  - unfold assert_task_count. intros f n n' H1%Z.eqb_eq H2%Z.eqb_eq. congruence.
  - unfold assert_task_count, assert_task_scheduled. intros f n <-%Z.eqb_eq. induction (sn_future sn) as [|e l IH]; [reflexivity|]. cbn [existsb filter].
    unfold matches at 1. cbn [c_fn c_key c_args c_kwargs]. rewrite !andb_true_r. destruct (String.eqb (m_fn (snd e)) f); cbn [orb length]; [|exact IH].
    symmetry. apply Z.ltb_lt. lia.
Qed.
Print Assumptions C70_consistent.

(** Example: the three tasks of [st_ex]. *)
Example C70_example : exists sn, snapshot (fun _ => true) (s_db st_ex) (s_db st_ex) = Some sn /\
  (forall kw, assert_task_scheduled kw (mkCrit "g" None None (Some "b"%string)) sn = true) /\
  (forall kw, assert_task_scheduled kw (mkCrit "f" None None (Some "a"%string)) sn = false) /\
  assert_task_count None 2 sn = true /\ assert_no_tasks sn = false.
Proof. eexists. split; [vm_compute; reflexivity|]. repeat split. Qed.

(** Refutation: a task that waits for a concurrency slot has the recorded state
    "scheduled", but assert_task_scheduled fails and assert_no_tasks passes. *)
Theorem C70_waiting_refuted : exists c l sn, let s := final c init_sys l in
  snapshot (fun _ => true) (s_db s) (s_db s) = Some sn /\ r_state (rget (s_db s) "b") = Some SScheduled /\
  (exists cc i m, in_line s cc i m /\ m_key m = "b"%string /\ m_fn m = "f"%string) /\
  (forall kw, assert_task_scheduled kw (mkCrit "f" None None None) sn = false) /\ assert_no_tasks sn = true.
Proof.
  exists ex_cfg, ex_wait. eexists. split; [vm_compute; reflexivity|]. split; [vm_compute; reflexivity|]. split.
  - exists "c"%string, 3, (mkMsg "b" 0 "f" "" "" 1 2). split; [split; vm_compute; auto|]. split; reflexivity.
  - split; reflexivity.
Qed.
Print Assumptions C70_waiting_refuted.

(** Refutation: a task whose worker crashed before starting it will run again, but counts
    as gone. *)
Theorem C70_crashed_refuted : exists c l sn i m, let s := final c init_sys l in
  snapshot (fun _ => true) (s_db s) (s_db s) = Some sn /\ on_stream s i m /\ s_execs s = [] /\ assert_no_tasks sn = true.
Proof.
  exists ex_cfg, [OAdd (mkCall "b" 0 "g" "" "") 0; ORead "w"; OCrash "w"]. do 3 eexists. split; [vm_compute; reflexivity|].
  split; [vm_compute; left; reflexivity|]. split; vm_compute; reflexivity.
Qed.
Print Assumptions C70_crashed_refuted.
