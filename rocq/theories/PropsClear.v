(** clear() (C20). *)
From Verif Require Import Base ZSet Model GInv Spec Check PropsHist ClearProofs.

(** [k] has a message on the stream or an entry in the future queue. *)
Definition waits_in (s : sys) (k : key) : Prop :=
  (exists i m, on_stream s i m /\ m_key m = k) \/ zscore k (d_queue (s_db s)) <> None.

(** ** C20: clear() empties the docket *)

(** A clear() whose three round trips nobody interrupts, from every reachable
    state: it returns the number of stream and future-queue entries; afterwards
    both are empty and of everything stored only the waiting lines of the
    concurrency limits are left (and payloads that had no entry in the future
    queue, which no scheduler can move); the workers' executions, their pending
    entries, slots, progress and the events are as before; the record of a key
    that was not waiting is untouched; with execution_ttl 0 the record of a
    cleared key is gone, and add() of it is accepted; otherwise it is the old
    one, now expiring after execution_ttl.
    Missing from the full statement: accepting the key again when execution_ttl
    is not 0, sparing the tasks that are running, and clear() interrupted between
    its round trips (false, see below and C05_clear_race_refuted). *)
Theorem C20_clear_partial c s who : reachable c s ->
  let s1 := fst (step c (fst (step c s (OClearRead who))) (OClearKeys who)) in
  let s' := fst (step c s1 (OClearApply who)) in
  snd (step c s1 (OClearApply who)) = OCount (Z.of_nat (length (d_stream (s_db s))) + Z.of_nat (length (d_queue (s_db s)))) /\
  d_stream (s_db s') = [] /\ d_queue (s_db s') = [] /\
  (forall p m, stored_at s' p m <->
     stored_at s p m /\ match p with
                        | AtStream _ => False
                        | AtFuture => zscore (m_key m) (d_queue (s_db s)) = None
                        | AtLine _ _ => True
                        end) /\
  s_execs s' = s_execs s /\ d_pel (s_db s') = d_pel (s_db s) /\ d_slots (s_db s') = d_slots (s_db s) /\
  d_prog (s_db s') = d_prog (s_db s) /\ d_pubs (s_db s') = d_pubs (s_db s) /\
  (forall k, ~ waits_in s k -> d_runs (s_db s') k = d_runs (s_db s) k) /\
  (forall k, waits_in s k -> c_ttl c <= 0 ->
     d_runs (s_db s') k = None /\ forall a t, a_key a = k -> snd (step c s' (OAdd a t)) = ODisp DScheduled) /\
  (forall k, waits_in s k -> 0 < c_ttl c ->
     d_runs (s_db s') k = option_map (rset_expire (Some (d_now (s_db s) + c_ttl c * 1000000))) (d_runs (s_db s) k)).
Proof.
  intros R s1 s'. destruct (reachable_GInv c s R) as [G _].
  destruct (clear_apply_spec (c_ttl c) (s_db s)) as (N & (A1 & A2 & A3 & A4 & A5 & A6 & A7 & A8 & A9) & S & Q & P & Rn). cbv zeta in *.
  assert (E : step c s1 (OClearApply who) =
     (mkSys (fst (clear_apply (c_ttl c) (s_db s) (clear_read (s_db s)))) (s_execs s) (s_nextx s) (upd (s_clear s1) who None),
      OCount (snd (clear_apply (c_ttl c) (s_db s) (clear_read (s_db s)))))).
  { assert (K : ready_clear s1 who = Some (clear_read (s_db s))).
    { unfold ready_clear, s1. cbn [step fst s_clear s_db s_execs s_nextx]. rewrite !upd_eq. cbn [option_map]. now rewrite clear_read_ok. }
    cbn [step]. rewrite K. change (s_db s1) with (s_db s). now destruct (clear_apply _ _ _). }
  unfold s'. rewrite E. cbn [fst snd s_db s_execs]. rewrite N.
  destruct (good_clear_apply (c_ttl c) (s_db s) (clear_read (s_db s)) G) as [G' _].
  set (d' := fst (clear_apply (c_ttl c) (s_db s) (clear_read (s_db s)))) in *.
  assert (W : forall k, cleared (s_db s) k = true <-> waits_in s k).
  { intros k. rewrite cleared_iff. unfold waits_in, on_stream. split; (intros [H|H]; [left; exact H|right]).
    - destruct H as [w H]. rewrite (proj2 (zscore_In k _ w (di_queue _ G)) H). discriminate.
    - destruct (zscore k (d_queue (s_db s))) as [w|] eqn:Z; [|congruence]. exists w. now apply zscore_Some_In. }
  split; [reflexivity|]. split; [exact S|]. split; [exact Q|]. split.
  - intros [i| |cc i] m; cbn [stored_at]; unfold on_stream; cbn [s_db].
    + rewrite S. cbn. tauto.
    + rewrite P. destruct (existsb (fun e => String.eqb (snd e) (m_key m)) (d_queue (s_db s))) eqn:X.
      * split; [discriminate|]. intros [_ H]. exfalso. apply existsb_exists in X as ([w k] & Hi & Ek). cbn in Ek. apply String.eqb_eq in Ek. subst k.
        apply zscore_None in H. apply H, map_snd_In. eauto.
      * split; [|tauto]. intros H; split; [exact H|]. apply zscore_None. intros Hi. apply map_snd_In in Hi as [w Hi].
        apply (proj1 (existsb_false _ _)) with (x := (w, m_key m)) in X; [|exact Hi]. cbn in X. now rewrite String.eqb_refl in X.
    + rewrite A9. tauto.
  - rewrite A4, A7, A5, A6. repeat (split; [reflexivity|]). split; [|split].
    + intros k H. rewrite Rn. destruct (cleared (s_db s) k) eqn:X; [|reflexivity]. apply W in X. contradiction.
    + intros k H T. assert (X : d_runs d' k = None).
      { rewrite Rn. apply W in H. rewrite H. unfold clear_rec. now replace (0 <? c_ttl c) with false by lia. }
      split; [exact X|]. intros a t <-. cbn [step s_db]. unfold do_schedule, lua_schedule, lua_exists.
      unfold rget at 1 2. rewrite X. cbn [negb andb default r_known r_state empty_runs is_some].
      rewrite (proj1 (di_legacy _ G' (a_key a))). reflexivity.
    + intros k H T. rewrite Rn. apply W in H. rewrite H. unfold clear_rec. now replace (0 <? c_ttl c) with true by lia.
Qed.
Print Assumptions C20_clear_partial.

Lemma not_waits s k : existsb (fun e => String.eqb (m_key (snd e)) k) (d_stream (s_db s)) = false -> zscore k (d_queue (s_db s)) = None ->
  ~ waits_in s k.
Proof.
  intros A B [(i & m & H & E)|H]; [|congruence]. apply (proj1 (existsb_false _ _)) with (x := (i, m)) in A; [|exact H].
  cbn in A. rewrite E, String.eqb_refl in A. discriminate A.
Qed.

(** Three keys: one queued, one scheduled, one waiting for a slot held by a fourth
    that is running. *)
Definition ex_full : list op :=
  [OAdd (mkCall "o" 0 "f" "" "") 0; ORead "w1"; OClaim 0 1; OAcquire 0 "c" 1 1; OBodyStart 0;
   OAdd (mkCall "p" 0 "f" "" "") 1; ORead "w1"; OClaim 1 2; OAcquire 1 "c" 1 2;
   OAdd (mkCall "q" 0 "f" "" "") 3; OAdd (mkCall "s" 50 "f" "" "") 3].
Example C20_case :
  let s := final ex_cfg init_sys ex_full in
  let s' := final ex_cfg s [OClearRead "c"; OClearKeys "c"; OClearApply "c"] in
  waits_in s "q" /\ waits_in s "s" /\ ~ waits_in s "p" /\
  outs ex_cfg s [OClearRead "c"; OClearKeys "c"; OClearApply "c"] = [ODone; ODone; OCount 3] /\
  map (fun e => m_key (snd (snd e))) (d_wait (s_db s')) = ["p"]%string /\
  snd (step (mkCfg 0 5) (final (mkCfg 0 5) init_sys (ex_full ++ [OClearRead "c"; OClearKeys "c"; OClearApply "c"])) (OAdd (mkCall "s" 60 "f" "" "") 4)) = ODisp DScheduled.
Proof.
  intros s s'. split; [left; exists 4, (mkMsg "q" 0 "f" "" "" 1 1); split; [vm_compute; auto|reflexivity]|].
  split; [right; vm_compute; discriminate|].
  split; [|split; [vm_compute; reflexivity|split; vm_compute; reflexivity]].
  apply not_waits; vm_compute; reflexivity.
Qed.

(** The full statement is false.  With an execution_ttl, a cleared task is gone but
    its key keeps its mark: add() reports ALREADY_SCHEDULED and nothing is
    stored for the key. *)
Theorem C20_key_stays_taken_refuted :
  exists c l a t, let s := final c init_sys (l ++ [OClearRead "c"; OClearKeys "c"; OClearApply "c"]) in
    (forall p m, ~ stored_at s p m) /\ s_execs s = [] /\ snd (step c s (OAdd a t)) = ODisp DAlreadyScheduled.
Proof.
  exists ex_cfg, [OAdd (ex_call 50 "f" "x") 3], (ex_call 70 "f" "y"), 4.
  set (s := final ex_cfg init_sys ([OAdd (ex_call 50 "f" "x") 3] ++ [OClearRead "c"; OClearKeys "c"; OClearApply "c"])).
  assert (A : d_stream (s_db s) = [] /\ d_wait (s_db s) = [] /\ s_execs s = [] /\ snd (step ex_cfg s (OAdd (ex_call 70 "f" "y") 4)) = ODisp DAlreadyScheduled)
    by (repeat split; vm_compute; reflexivity).
  assert (P : forall k, d_parked (s_db s) k = None) by (intros k; vm_compute; now destruct k as [|[[] [] [] [] [] [] [] []] []]).
  destruct A as (A1 & A2 & A3 & A4). split; [|split; assumption].
  intros [i| |cc i] m; cbn [stored_at]; unfold on_stream; [rewrite A1|rewrite P|rewrite A2]; cbn; auto; discriminate.
Qed.
Print Assumptions C20_key_stays_taken_refuted.

(** It is false also about running tasks: the message of a running task is
    counted and removed, so that when its worker dies the task is lost: no copy
    of it is left although it never finished. *)
Theorem C20_running_task_lost_refuted :
  exists c l, let s := final c init_sys l in
    (exists x, In x (s_execs s) /\ x_phase x = PBody) /\ d_queue (s_db s) = [] /\
    outs c s [OClearRead "c"; OClearKeys "c"; OClearApply "c"] = [ODone; ODone; OCount 1] /\
    (forall m, ~ present (final c s [OClearRead "c"; OClearKeys "c"; OClearApply "c"; OCrash "w1"]) m).
Proof.
  exists ex_cfg, [OAdd (ex_call 0 "f" "x") 0; ORead "w1"; OClaim 0 1; OBodyStart 0]. intros s.
  split; [eexists; split; [left; reflexivity|reflexivity]|]. split; [vm_compute; reflexivity|]. split; [vm_compute; reflexivity|].
  set (s' := final ex_cfg s _).
  assert (A : d_stream (s_db s') = [] /\ d_wait (s_db s') = [] /\ s_execs s' = []) by (repeat split; vm_compute; reflexivity).
  assert (P : forall k, d_parked (s_db s') k = None) by (intros k; vm_compute; reflexivity).
  destruct A as (A1 & A2 & A3). intros m [(i & H)|[H|[(cc & i & H)|(x & H & _)]]].
  - unfold on_stream in H. rewrite A1 in H. exact H.
  - rewrite P in H. discriminate H.
  - rewrite A2 in H. exact H.
  - rewrite A3 in H. exact H.
Qed.
Print Assumptions C20_running_task_lost_refuted.

(** Whatever others do between the three round trips of the clear() of [w]: the number returned
    is how many messages and scheduled tasks there were at the first; at the last the future
    queue is emptied, and the stream if it held a message at the first, while otherwise the
    stream is left; nothing is added; executions, pending entries, slots, waiting lines,
    progress and events are left alone; payloads go only of keys that were scheduled at the
    first round trip; and the record changes only of a key that was scheduled at the first, or
    had a message on the stream at the second. *)
Theorem C20_any_moment_partial c s0 w l2 l3 :
  Forall (fun o => ~ clears_as w o) l2 -> Forall (fun o => ~ clears_as w o) l3 -> reachable c s0 ->
  let s2 := final c s0 (OClearRead w :: l2) in
  let s3 := final c s2 (OClearKeys w :: l3) in
  let s' := fst (step c s3 (OClearApply w)) in
  snd (step c s3 (OClearApply w)) = OCount (Z.of_nat (length (d_stream (s_db s0))) + Z.of_nat (length (d_queue (s_db s0)))) /\
  d_queue (s_db s') = [] /\
  (d_stream (s_db s0) <> [] -> d_stream (s_db s') = []) /\
  (d_stream (s_db s0) = [] -> d_stream (s_db s') = d_stream (s_db s3)) /\
  (forall p m, stored_at s' p m <->
     stored_at s3 p m /\ match p with
                         | AtStream _ => d_stream (s_db s0) = []
                         | AtFuture => zscore (m_key m) (d_queue (s_db s0)) = None
                         | AtLine _ _ => True
                         end) /\
  s_execs s' = s_execs s3 /\ d_pel (s_db s') = d_pel (s_db s3) /\ d_slots (s_db s') = d_slots (s_db s3) /\
  d_prog (s_db s') = d_prog (s_db s3) /\ d_pubs (s_db s') = d_pubs (s_db s3) /\
  (forall k, zscore k (d_queue (s_db s0)) = None -> d_stream (s_db s0) = [] \/ (forall i m, on_stream s2 i m -> m_key m <> k) ->
     d_runs (s_db s') k = d_runs (s_db s3) k) /\
  (forall k, zscore k (d_queue (s_db s0)) <> None \/ d_stream (s_db s0) <> [] /\ (exists i m, on_stream s2 i m /\ m_key m = k) ->
     d_runs (s_db s') k = if 0 <? c_ttl c then option_map (rset_expire (Some (d_now (s_db s3) + c_ttl c * 1000000))) (d_runs (s_db s3) k) else None).
Proof.
  intros F2 F3 R s2 s3 s'. destruct (reachable_GInv c s0 R) as [G _].
  set (n := Z.of_nat (length (d_stream (s_db s0)))).
  set (sn := mkClear n (map snd (d_queue (s_db s0))) (if 0 <? n then map (fun e => m_key (snd e)) (d_stream (s_db s2)) else [])).
  assert (K : ready_clear s3 w = Some sn).
  { unfold ready_clear, s3. rewrite final_cons, clear_untouched_by by exact F3. cbn [step fst s_clear]. rewrite upd_eq.
    unfold s2 at 2. rewrite final_cons, clear_untouched_by by exact F2. cbn [step fst s_clear]. rewrite upd_eq. reflexivity. }
  assert (E : step c s3 (OClearApply w) = (mkSys (fst (clear_apply (c_ttl c) (s_db s3) sn)) (s_execs s3) (s_nextx s3) (upd (s_clear s3) w None),
      OCount (n + Z.of_nat (length (d_queue (s_db s0)))))).
  { cbn [step]. rewrite K. unfold clear_apply. cbn [fst snd]. do 2 f_equal. cbn [cs_count cs_queue_keys sn]. now rewrite map_length. }
  unfold s'. rewrite E. cbn [fst snd s_db s_execs].
  destruct (clear_apply_any (c_ttl c) (s_db s3) sn) as ((A1 & A2 & A3 & A4 & A5 & A6 & A7 & A8 & A9) & S & Q & P & Rn). cbv zeta in *.
  set (d' := fst (clear_apply (c_ttl c) (s_db s3) sn)) in *. clearbody d'.
  assert (N : d_stream (s_db s0) = [] /\ (0 <? n) = false \/ d_stream (s_db s0) <> [] /\ (0 <? n) = true).
  { unfold n. destruct (d_stream (s_db s0)); [left; split; reflexivity|right; split; [discriminate|reflexivity]]. }
  assert (Z1 : forall k, existsb (fun k' : string => String.eqb k' k) (map snd (d_queue (s_db s0))) = true <-> zscore k (d_queue (s_db s0)) <> None).
  { intros k. rewrite existsb_exists. split.
    - intros (k' & H & X). apply String.eqb_eq in X. subst k'. intros Z. apply zscore_None in Z. contradiction.
    - intros H. exists k. rewrite String.eqb_refl. split; [|reflexivity]. destruct (zscore k (d_queue (s_db s0))) as [x|] eqn:X; [|congruence].
      apply zscore_Some_In in X. apply map_snd_In. eauto. }
  cbn [cs_count cs_queue_keys cs_stream_keys sn] in S, P, Rn.
  split; [reflexivity|]. split; [exact Q|].
  split; [intros H; destruct N as [[N _]|[_ N]]; [contradiction|now rewrite S, N]|].
  split; [intros H; destruct N as [[_ N]|[N _]]; [now rewrite S, N|contradiction]|]. split.
  - intros [i| |cc i] m; cbn [stored_at]; unfold on_stream; cbn [s_db].
    + rewrite S. destruct N as [[N1 N2]|[N1 N2]]; rewrite N2; [tauto|]. cbn. tauto.
    + rewrite P. destruct (existsb _ (map snd (d_queue (s_db s0)))) eqn:X.
      * split; [discriminate|]. intros [_ H]. apply Z1 in X. contradiction.
      * split; [|tauto]. intros H; split; [exact H|]. destruct (zscore (m_key m) (d_queue (s_db s0))) eqn:Y; [|reflexivity].
        rewrite (proj2 (Z1 (m_key m))) in X by congruence. discriminate X.
    + rewrite A9. tauto.
  - rewrite A4, A7, A5, A6. repeat (split; [reflexivity|]).
    assert (K2 : forall k, existsb (fun k' : string => String.eqb k' k) (if 0 <? n then map (fun e => m_key (snd e)) (d_stream (s_db s2)) else []) = true <->
      d_stream (s_db s0) <> [] /\ exists i m, on_stream s2 i m /\ m_key m = k).
    { intros k. destruct N as [[N1 N2]|[N1 N2]]; rewrite N2.
      - cbn. split; [discriminate|]. intros [H _]. contradiction.
      - rewrite existsb_exists. split.
        + intros (k' & H & X). apply String.eqb_eq in X. subst k'. split; [exact N1|]. apply in_map_iff in H as ([i m] & H1 & H2). exists i, m. auto.
        + intros (_ & i & m & H & <-). exists (m_key m). rewrite String.eqb_refl. split; [|reflexivity]. apply in_map_iff. exists (i, m). auto. }
    split.
    + intros k H1 H2. rewrite Rn, existsb_app. match goal with |- context [(?a || ?b)%bool] => destruct a eqn:X; [apply Z1 in X; contradiction|destruct b eqn:Y] end; [|reflexivity].
      apply K2 in Y as (Y1 & i & m & Y2 & Y3). exfalso.
      destruct H2 as [H2|H2]; [contradiction|exact (H2 i m Y2 Y3)].
    + intros k H. rewrite Rn, existsb_app. replace (_ || _)%bool with true; [reflexivity|]. symmetry. apply orb_true_iff.
      destruct H as [H|H]; [left; now apply Z1|right; now apply K2].
Qed.
Print Assumptions C20_any_moment_partial.

(** One task is scheduled and one waits on the stream; the second is delivered after the first
    round trip, and a third is added after the second: both are removed from the stream. *)
Definition ex_racing : list op := [OAdd (mkCall "q" 0 "f" "" "") 0; OAdd (mkCall "s" 50 "f" "" "") 0].
Example C20_any_moment_case :
  let s0 := final ex_cfg init_sys ex_racing in
  let l := [OClearRead "c"; ORead "w1"; OClearKeys "c"; OAdd (mkCall "p" 0 "f" "" "") 1] in
  reachable ex_cfg s0 /\ d_stream (s_db s0) <> [] /\
  map (fun e => m_key (snd e)) (d_stream (s_db (final ex_cfg s0 l))) = ["q"; "p"]%string /\
  snd (step ex_cfg (final ex_cfg s0 l) (OClearApply "c")) = OCount 2.
Proof.
  intros s0 l. split; [exists ex_racing; reflexivity|]. split; [vm_compute; discriminate|]. split; vm_compute; reflexivity.
Qed.

(** What is reported as cleared may still run: a scheduled task that becomes due between the
    round trips is moved to the stream, which is not emptied because it was empty before. *)
Theorem C20_cleared_runs_refuted :
  exists c l m i, let s := final c init_sys [OAdd (mkCall "k" 5 "f" "" "") 0] in
    d_stream (s_db s) = [] /\ map snd (d_queue (s_db s)) = ["k"]%string /\
    outs c s ([OClearRead "c"; OClearKeys "c"; OScheduler 5; OClearApply "c"] ++ l) =
      [ODone; ODone; OMoved 1 1; OCount 1; ODelivered 0 i m; OClaimed true; OStarted m i] /\ m_key m = "k"%string.
Proof.
  exists ex_cfg, [ORead "w1"; OClaim 0 6; OBodyStart 0], (mkMsg "k" 5 "f" "" "" 1 1), 1.
  repeat (split; [vm_compute; reflexivity|]). reflexivity.
Qed.
Print Assumptions C20_cleared_runs_refuted.
