(** Admission control: rate limit, cooldown, debounce (C25-C28, C51). *)
From Verif Require Import Base ZSet Text Admission SpecAdm AdmProofs.

(** ** C25: the rate limit holds in every window *)

(** For every history of requests and take-backs with non-decreasing worker clocks
    that agree with the server's up to half a window, in which no key asks twice in
    the same millisecond: every half-open interval of length [w] contains at most [n]
    standing admissions.  Missing from the full statement: two requests of one key in
    the same millisecond, where it is false (below). *)
Theorem C25_window_bound_partial n w d t l T : 0 <= n -> 0 < w -> 2 * d <= w -> clocks_ok d t l -> NoDup (requests l) ->
  window_count T w (net (rl_trace n w rl_empty l)) <= n.
Proof. exact (rate_bound n w d t l T). Qed.
Print Assumptions C25_window_bound_partial.

(** Limit 2 per 100 ms: two admitted, one blocked, one taken back, one more admitted
    in its place, and later ones after the window has moved on. *)
Definition ex_reqs : list rl_ev :=
  [RLReq "a" 1000 1003; RLReq "b" 1000 999; RLReq "c" 1050 1050; RLUndo "b" 1000; RLReq "c" 1060 1061; RLReq "d" 1099 1100; RLReq "d" 1100 1101; RLReq "e" 1400 1399].
Example C25_case :
  clocks_ok 3 0 ex_reqs /\ NoDup (requests ex_reqs) /\
  net (rl_trace 2 100 rl_empty ex_reqs) = [("a", 1000); ("c", 1060); ("d", 1100); ("e", 1400)]%string /\
  window_count 1099 100 (net (rl_trace 2 100 rl_empty ex_reqs)) = 2 /\
  map snd (rl_trace 2 100 rl_empty ex_reqs) =
    [Some RLProceed; Some RLProceed; Some (RLBlocked 50); None; Some RLProceed; Some (RLBlocked 1); Some RLProceed; Some RLProceed].
Proof.
  split; [simpl; lia|]. split; [simpl; repeat (constructor; [simpl; intros H; repeat (destruct H as [H|H]; [discriminate H|]); exact H|]); constructor|].
  repeat split; vm_compute; reflexivity.
Qed.

(** The log entry is named by task key and millisecond, so a key that is admitted
    twice within a millisecond is counted once. *)
Theorem C25_same_key_refuted : exists n w d t l T,
  0 <= n /\ 0 < w /\ 2 * d <= w /\ clocks_ok d t l /\ window_count T w (net (rl_trace n w rl_empty l)) > n.
Proof.
  exists 2, 100, 0, 0, [RLReq "a" 1000 1000; RLReq "a" 1000 1000; RLReq "a" 1000 1000], 1000.
  repeat split; vm_compute; congruence.
Qed.
Print Assumptions C25_same_key_refuted.

(** Nor does it hold when a worker's clock runs behind another's: the one ahead has
    already pruned what the one behind should count. *)
Theorem C25_clock_behind_refuted : exists n w l T,
  0 <= n /\ 0 < w /\ NoDup (requests l) /\
  Forall (fun e => match e with RLReq _ now srv => Z.abs (now - srv) <= 5 | _ => True end) l /\ 2 * 5 <= w /\
  window_count T w (net (rl_trace n w rl_empty l)) > n.
Proof.
  exists 2, 10, [RLReq "a" 100 100; RLReq "b" 101 101; RLReq "c" 111 107; RLReq "d" 102 107], 105.
  split; [lia|]. split; [lia|].
  split; [simpl; repeat (constructor; [simpl; intros H; repeat (destruct H as [H|H]; [discriminate H|]); exact H|]); constructor|].
  split; [repeat (constructor; [simpl; lia|]); constructor|]. split; [lia|vm_compute; reflexivity].
Qed.
Print Assumptions C25_clock_behind_refuted.

(** ** C26: blocked tasks come back when a slot opens, and no earlier *)

(** In every state the limiter reached (whatever the clocks read): the delay [d]
    reported to a blocked request is positive; until then (and until the whole log
    expires) every request is blocked; a request made [d] later is admitted. *)
Theorem C26_retry_after_exact n w l k now srv st d : 0 < n -> 0 < w ->
  rl_step n w (rl_run n w rl_empty l) (RLReq k now srv) = (st, Some (RLBlocked d)) ->
  1 <= d /\
  (forall k' d' srv', 0 <= d' < d -> gone (rl_exp st) srv' = false ->
     exists r, snd (rl_step n w st (RLReq k' (now + d') srv')) = Some (RLBlocked r)) /\
  (forall k' srv', snd (rl_step n w st (RLReq k' (now + d) srv')) = Some RLProceed).
Proof. exact (retry_after_exact n w l k now srv st d). Qed.
Print Assumptions C26_retry_after_exact.

Example C26_case :
  let l := [RLReq "a" 1000 1003; RLReq "b" 1020 1021] in
  exists st, rl_step 2 100 (rl_run 2 100 rl_empty l) (RLReq "c" 1050 1050) = (st, Some (RLBlocked 50)) /\
    gone (rl_exp st) 1099 = false /\ snd (rl_step 2 100 st (RLReq "c" 1099 1099)) = Some (RLBlocked 1) /\
    snd (rl_step 2 100 st (RLReq "c" 1100 1100)) = Some RLProceed.
Proof. eexists. split; [vm_compute; reflexivity|]. repeat split; vm_compute; reflexivity. Qed.

(** If the limit was lowered meanwhile, the log can be longer than the limit and the
    request is blocked again after the reported delay. *)
Theorem C26_lowered_limit_refuted : exists n n' w l k now srv st d,
  0 < n' < n /\ rl_step n' w (rl_run n w rl_empty l) (RLReq k now srv) = (st, Some (RLBlocked d)) /\
  snd (rl_step n' w st (RLReq k (now + d) (srv + d))) <> Some RLProceed.
Proof.
  exists 2, 1, 100, [RLReq "a" 1000 1000; RLReq "b" 1020 1020], "c"%string, 1050, 1050.
  eexists _, _. split; [lia|]. split; [vm_compute; reflexivity|vm_compute; discriminate].
Qed.
Print Assumptions C26_lowered_limit_refuted.

(** A limit of zero does not block: the script fails. *)
Theorem C26_zero_limit_refuted : forall k now w srv, snd (rl_step 0 w rl_empty (RLReq k now srv)) = Some RLError.
Proof. reflexivity. Qed.
Print Assumptions C26_zero_limit_refuted.

(** ** C27: cooldown spaces executions *)

(** A request at server time [x] is admitted exactly if every earlier admission is
    more than [w] back.  In particular the first request after a quiet period is
    admitted, and requests that were blocked play no role. *)
Theorem C27_admits_exactly_after_quiet w t l x : 0 < w -> rising t (l ++ [x]) ->
  snd (cd_step w (cd_run w None l) x) = CDProceed <-> (forall y, In y (cd_admitted (cd_trace w None l)) -> y + w < x).
Proof. exact (cooldown_exact w t l x). Qed.
Print Assumptions C27_admits_exactly_after_quiet.

(** Any two admissions are more than [w] apart. *)
Theorem C27_spacing w t l : 0 < w -> rising t l ->
  ForallOrdPairs (fun a b => a + w < b) (cd_admitted (cd_trace w None l)).
Proof. exact (cooldown_spacing w t l). Qed.
Print Assumptions C27_spacing.

Example C27_case :
  let l := [10; 50; 100; 110; 111; 150; 211; 212] in
  rising 0 (l ++ [400]) /\ cd_admitted (cd_trace 100 None l) = [10; 111; 212] /\
  snd (cd_step 100 (cd_run 100 None l) 400) = CDProceed /\ snd (cd_step 100 (cd_run 100 None l) 312) = CDBlocked.
Proof. split; [simpl; lia|]. repeat split; vm_compute; reflexivity. Qed.

(** ** C28: debounce fires once, after quiet *)

(** A task proceeds only if every other submission of the group lies at least the
    settle time back (whether or not keys expired on the way). *)
Theorem C28_proceeds_after_quiet settle t l s : db_rising t (l ++ [s]) ->
  snd (db_step settle (db_run settle deb_empty l) s) = DBProceed ->
  forall x, In x l -> sb_key x <> sb_key s -> sb_now x + settle <= sb_now s.
Proof. exact (debounce_quiet settle t l s). Qed.
Print Assumptions C28_proceeds_after_quiet.

(** Between two proceeds the second task was submitted anew, at least the settle
    time before it proceeds; so two proceeds are at least that far apart. *)
Theorem C28_new_burst_between_proceeds settle t l1 s1 l2 s2 : db_rising t (l1 ++ s1 :: l2 ++ [s2]) ->
  snd (db_step settle (db_run settle deb_empty l1) s1) = DBProceed ->
  snd (db_step settle (db_run settle deb_empty (l1 ++ s1 :: l2)) s2) = DBProceed ->
  exists x, In x l2 /\ sb_key x = sb_key s2 /\ sb_now s1 <= sb_now x /\ sb_now x + settle <= sb_now s2.
Proof. exact (debounce_new_burst settle t l1 s1 l2 s2). Qed.
Print Assumptions C28_new_burst_between_proceeds.

(** From its election until it proceeds, while the group's keys are retained, the
    elected task is never dropped and every other submission is. *)
Theorem C28_elected_not_dropped settle st s l s' r : snd (db_step settle st s) = DBReschedule r -> sb_key s' = sb_key s ->
  db_along settle (fun st x => db_retained st x /\ (sb_key x = sb_key s -> snd (db_step settle st x) <> DBProceed))
    (fst (db_step settle st s)) l ->
  let st' := db_run settle (fst (db_step settle st s)) l in
  db_retained st' s' ->
  snd (db_step settle st' s') <> DBDrop /\
  (forall x, db_retained st' x -> sb_key x <> sb_key s -> snd (db_step settle st' x) = DBDrop).
Proof. exact (debounce_elected settle st s l s' r). Qed.
Print Assumptions C28_elected_not_dropped.

(** The delay reported to the elected task is exact: with no other submission in
    between it proceeds when it returns that much later, and not before. *)
Theorem C28_delay_exact settle t l s r s' : 0 < settle -> db_rising t (l ++ [s]) ->
  let st := db_run settle deb_empty l in
  snd (db_step settle st s) = DBReschedule r -> sb_key s' = sb_key s ->
  db_retained (fst (db_step settle st s)) s' ->
  0 < r <= settle /\
  (snd (db_step settle (fst (db_step settle st s)) s') = DBProceed <-> sb_now s + r <= sb_now s').
Proof. exact (debounce_delay settle t l s r s'). Qed.
Print Assumptions C28_delay_exact.

Definition ex_burst : list db_ev :=
  [mkSub "a" 1000 1000; mkSub "b" 1040 1041; mkSub "a" 1100 1100; mkSub "a" 1140 1140; mkSub "c" 1150 1150; mkSub "d" 1200 1200; mkSub "c" 1250 1250; mkSub "c" 1300 1300].
Example C28_case :
  db_rising 0 ex_burst /\
  map snd (db_trace 100 deb_empty ex_burst) =
    [DBReschedule 100; DBDrop; DBReschedule 40; DBProceed; DBReschedule 100; DBDrop; DBReschedule 50; DBProceed] /\
  db_along 100 (fun st x => db_retained st x /\ (sb_key x = "a"%string -> snd (db_step 100 st x) <> DBProceed))
    (fst (db_step 100 deb_empty (mkSub "a" 1000 1000))) [mkSub "b" 1040 1041; mkSub "a" 1100 1100].
Proof.
  split; [unfold db_rising; simpl; lia|]. split; [vm_compute; reflexivity|].
  cbn [db_along]. split; [split; [split; intros ? ? X; vm_compute in X; injection X as <- <-; simpl; lia|discriminate]|].
  split; [|exact I]. split; [split; intros ? ? X; vm_compute in X; injection X as <- <-; simpl; lia|].
  intros _. vm_compute. discriminate.
Qed.

(** ** C51: a debounced group recovers *)

(** If nothing was submitted for ten settle periods the next submission is elected.
    Missing from the full statement: a group whose submissions never pause, where it
    is false (below). *)
Theorem C51_recovers_after_pause_partial settle t l s : 0 < settle -> db_rising t l ->
  (forall x, In x l -> sb_srv x + settle * 10 < sb_srv s) ->
  snd (db_step settle (db_run settle deb_empty l) s) = DBReschedule settle.
Proof. exact (debounce_recovers settle t l s). Qed.
Print Assumptions C51_recovers_after_pause_partial.

Example C51_case :
  db_rising 0 [mkSub "a" 1000 1000; mkSub "b" 1500 1500] /\
  snd (db_step 100 (db_run 100 deb_empty [mkSub "a" 1000 1000; mkSub "b" 1500 1500]) (mkSub "c" 2501 2501)) = DBReschedule 100.
Proof. split; [unfold db_rising; simpl; lia|vm_compute; reflexivity]. Qed.

(** If the elected task was cancelled (so it never returns) and the pauses between
    submissions are at most ten settle periods, every later submission is dropped,
    for ever. *)
Theorem C51_cancelled_winner_refuted settle k n : 0 < settle ->
  let st := fst (db_step settle deb_empty (mkSub k 0 0)) in
  let l := map (fun i => mkSub (k ++ "'") (Z.of_nat i * settle) (Z.of_nat i * settle)) (seq 1 n) in
  Forall (fun x => snd x = DBDrop) (db_trace settle st l) /\ length (db_trace settle st l) = n.
Proof.
  intros Hs st l. split.
  - apply debounce_starved with (k := k); [eexists; reflexivity|].
    assert (N : (k ++ "'")%string <> k).
    { clear. induction k as [|a k IH]; simpl; [discriminate|]. intros [=]; auto. }
    assert (G : forall n i st, (exists t e, st = mkDeb (Some (k, e)) (Some (t, e)) /\ Z.of_nat i * settle <= e) ->
      db_along settle (fun st s => db_retained st s /\ sb_key s <> k) st
        (map (fun i => mkSub (k ++ "'") (Z.of_nat i * settle) (Z.of_nat i * settle)) (seq i n))).
    { clear -Hs N. induction n as [|n IH]; intros i st (t & e & -> & He); [exact I|]. cbn [seq map db_along].
      split; [split; [split; intros ? ? X; simpl in X; injection X as <- <-; exact He|exact N]|].
      apply IH. unfold db_step, db_script, fresh_value. cbn [db_winner db_seen sb_srv sb_key sb_now gone].
      replace (e <? Z.of_nat i * settle) with false by lia. rewrite eqb_neq_string by congruence. cbn [fst pexpire].
      eexists _, _. split; [reflexivity|]. rewrite Nat2Z.inj_succ. nia. }
    apply G. eexists _, _. split; [reflexivity|]. cbn [sb_srv]. lia.
  - subst l. generalize (seq_length n 1). generalize (seq 1 n). clear. intros q <-. generalize st. clear.
    induction q as [|i q IH]; intros st; [reflexivity|]. cbn [map db_trace length]. now rewrite IH.
Qed.
Print Assumptions C51_cancelled_winner_refuted.
