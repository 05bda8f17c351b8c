(** The durations given to the admission controls, as they are enforced (C117). *)
From Verif Require Import Base ZSet Text Admission SpecAdm AdmProofs PropsAdm Durations DurationsProofs.

(** ** C117: a duration given to an admission control is the one enforced

    In microseconds, up to [2 ^ 50] of them (35 years).  Clock readings are whole
    milliseconds.  The code computes whole milliseconds through a binary64 number of
    seconds. *)

(** The milliseconds in force are the declared duration rounded down, except that a
    whole number of milliseconds may lose one. *)
Theorem C117_rounding us : 0 < us <= 2 ^ 50 ->
  (ms_of us = us / 1000 \/ (us mod 1000 = 0 /\ ms_of us = us / 1000 - 1)).
Proof.
  intros H. pose proof (ms_of_bounds us H) as [L U].
  pose proof (Z.div_mod us 1000 ltac:(lia)) as E. pose proof (Z.mod_pos_bound us 1000 ltac:(lia)) as M.
  destruct (Z.eq_dec (us mod 1000) 0) as [Z0|N].
  - assert ((us - 1) / 1000 = us / 1000 - 1) as Q; [|lia].
    symmetry. apply (Z.div_unique_pos (us - 1) 1000 (us / 1000 - 1) 999); lia.
  - left. assert ((us - 1) / 1000 = us / 1000) as Q; [|lia].
    symmetry. apply (Z.div_unique_pos (us - 1) 1000 (us / 1000) (us mod 1000 - 1)); lia.
Qed.
Print Assumptions C117_rounding.

(** Whole seconds are exact. *)
Theorem C117_whole_seconds s : 0 < s < 2 ^ 42 -> ms_of (1000000 * s) = 1000 * s.
Proof. apply ms_of_seconds. Qed.
Print Assumptions C117_whole_seconds.

(** RateLimit(n, per): every half-open interval shorter than [per] contains at most
    [n] standing admissions.  Missing from the full statement: the interval of length
    [per] itself when [per] is a whole number of milliseconds (false, below), and
    durations below a millisecond (false, below). *)
Theorem C117_rate_partial n us d t l T w : 0 <= n -> 1000 <= us <= 2 ^ 50 -> 2000 * d < us ->
  clocks_ok d t l -> NoDup (requests l) -> 1000 * w < us ->
  window_count T w (net (rl_trace n (ms_of us) rl_empty l)) <= n.
Proof.
  intros Hn Hu Hd Hc Hr Hw. pose proof (ms_of_bounds us ltac:(lia)) as [L _]. pose proof (ms_of_pos us Hu) as P.
  assert (w <= (us - 1) / 1000) by (apply Z.div_le_lower_bound; lia).
  assert (2 * d <= (us - 1) / 1000) by (apply Z.div_le_lower_bound; lia).
  etransitivity; [apply (window_count_mono T w (ms_of us)); lia|].
  apply (C25_window_bound_partial n (ms_of us) d t l T); try assumption; lia.
Qed.
Print Assumptions C117_rate_partial.

(** With a whole number of seconds the limit holds in every interval of that length. *)
Theorem C117_rate_seconds_partial n s d t l T : 0 <= n -> 0 < s < 2 ^ 42 -> 2 * d <= 1000 * s ->
  clocks_ok d t l -> NoDup (requests l) ->
  window_count T (1000 * s) (net (rl_trace n (ms_of (1000000 * s)) rl_empty l)) <= n.
Proof.
  intros Hn Hs Hd Hc Hr. rewrite ms_of_seconds by assumption.
  apply (C25_window_bound_partial n (1000 * s) d t l T); try assumption; lia.
Qed.
Print Assumptions C117_rate_seconds_partial.

Example C117_rate_example :
  let l := [RLReq "a" 0 0; RLReq "b" 1 1; RLReq "c" 999 999; RLReq "d" 1500 1500] in
  clocks_ok 0 0 l /\ NoDup (requests l) /\ ms_of 1500250 = 1500 /\
  net (rl_trace 1 (ms_of 1500250) rl_empty l) = [("a"%string, 0); ("d"%string, 1500)].
Proof.
  split; [cbn; lia|]. split; [repeat constructor; cbn; intuition discriminate|].
  split; vm_compute; reflexivity.
Qed.

(** RateLimit(1, per=timedelta(milliseconds=1001)) admits twice within 1001 ms: the
    window in force is 1000 ms, since 1.001 * 1000 is 1000.9999999999999. *)
Theorem C117_rate_short_refuted : exists us l T,
  us = 1001 * 1000 /\ clocks_ok 0 0 l /\ NoDup (requests l) /\
  window_count T 1001 (net (rl_trace 1 (ms_of us) rl_empty l)) = 2.
Proof.
  exists 1001000, [RLReq "a" 0 0; RLReq "b" 1000 1000], 1000.
  split; [reflexivity|]. split; [cbn; lia|]. split; [repeat constructor; cbn; intuition discriminate|].
  vm_compute. reflexivity.
Qed.
Print Assumptions C117_rate_short_refuted.

(** Below a millisecond nothing is limited: any number of tasks is admitted in one
    millisecond, whatever the limit. *)
Theorem C117_rate_below_refuted n us now N : 0 < n -> us < 1000 -> exists l,
  clocks_ok 0 now l /\ NoDup (requests l) /\
  window_count now 1 (net (rl_trace n (ms_of us) rl_empty l)) = Z.of_nat N.
Proof.
  intros Hn Hu. exists (crowd now N). split; [apply crowd_clocks|]. split; [apply crowd_nodup|].
  rewrite ms_of_below by assumption. unfold window_count, net.
  f_equal. apply (crowd_net n now N []); [assumption|reflexivity].
Qed.
Print Assumptions C117_rate_below_refuted.

(** Cooldown(window) of at least a millisecond: the declared spacing holds, and a
    request later than the window after every admission is admitted. *)
Theorem C117_cooldown_partial us t l : 1000 <= us <= 2 ^ 50 -> rising t l ->
  ForallOrdPairs (fun a b => 1000 * a + us <= 1000 * b) (cd_admitted (cd_trace (ms_of us) None l)).
Proof.
  intros Hu Hr. pose proof (ms_of_bounds us ltac:(lia)) as [L _]. pose proof (ms_of_pos us Hu) as P.
  pose proof (C27_spacing (ms_of us) t l ltac:(lia) Hr) as F.
  assert (us <= 1000 * ((us - 1) / 1000) + 1000).
  { pose proof (Z.mul_succ_div_gt (us - 1) 1000 ltac:(lia)). lia. }
  induction F as [|a l' A F IH]; constructor; auto.
  eapply Forall_impl; [|exact A]. cbv beta. intros b B. lia.
Qed.
Print Assumptions C117_cooldown_partial.

Theorem C117_cooldown_admits_partial us t l x : 1000 <= us <= 2 ^ 50 -> rising t (l ++ [x]) ->
  (forall y, In y (cd_admitted (cd_trace (ms_of us) None l)) -> 1000 * y + us < 1000 * x) ->
  snd (cd_step (ms_of us) (cd_run (ms_of us) None l) x) = CDProceed.
Proof.
  intros Hu Hr H. pose proof (ms_of_bounds us ltac:(lia)) as [_ U]. pose proof (ms_of_pos us Hu) as P.
  apply (C27_admits_exactly_after_quiet (ms_of us) t l x ltac:(lia) Hr).
  intros y Y. specialize (H y Y). pose proof (Z.mul_div_le us 1000 ltac:(lia)). lia.
Qed.
Print Assumptions C117_cooldown_admits_partial.

Example C117_cooldown_example :
  rising 0 [0; 700; 1001; 1500; 2100] /\ ms_of 1001000 = 1000 /\
  cd_admitted (cd_trace (ms_of 1001000) None [0; 700; 1001; 1500; 2100]) = [0; 1001; 2100].
Proof. split; [cbn; lia|]. split; vm_compute; reflexivity. Qed.

(** Below a millisecond every request fails: Redis refuses the SET. *)
Theorem C117_cooldown_below_refuted us st srv : us < 1000 -> snd (cd_step (ms_of us) st srv) = CDError.
Proof. intros H. rewrite ms_of_below by assumption. reflexivity. Qed.
Print Assumptions C117_cooldown_below_refuted.

(** Debounce(settle) of at least a millisecond: a task that proceeds has seen quiet for
    every number of milliseconds shorter than [settle].  Missing: [settle] itself when
    it is a whole number of milliseconds (false, below). *)
Theorem C117_debounce_partial us t l s w : 1000 <= us <= 2 ^ 50 -> db_rising t (l ++ [s]) ->
  snd (db_enter (ms_of us) (db_run (ms_of us) deb_empty l) s) = Some DBProceed ->
  1000 * w < us ->
  forall x, In x l -> sb_key x <> sb_key s -> sb_now x + w <= sb_now s.
Proof.
  intros Hu Hr H Hw x Hx Hk. pose proof (ms_of_bounds us ltac:(lia)) as [L _]. pose proof (ms_of_pos us Hu) as P.
  rewrite db_enter_ok in H by lia. cbn [snd] in H. injection H as H.
  assert (w <= (us - 1) / 1000) by (apply Z.div_le_lower_bound; lia).
  pose proof (C28_proceeds_after_quiet (ms_of us) t l s Hr H x Hx Hk). lia.
Qed.
Print Assumptions C117_debounce_partial.

Theorem C117_debounce_seconds_partial s t l e : 0 < s < 2 ^ 42 -> db_rising t (l ++ [e]) ->
  snd (db_enter (ms_of (1000000 * s)) (db_run (ms_of (1000000 * s)) deb_empty l) e) = Some DBProceed ->
  forall x, In x l -> sb_key x <> sb_key e -> sb_now x + 1000 * s <= sb_now e.
Proof.
  intros Hs Hr H x Hx Hk. rewrite ms_of_seconds in H by assumption.
  rewrite db_enter_ok in H by lia. cbn [snd] in H. injection H as H.
  exact (C28_proceeds_after_quiet (1000 * s) t l e Hr H x Hx Hk).
Qed.
Print Assumptions C117_debounce_seconds_partial.

Example C117_debounce_example :
  let l := [mkSub "a" 0 0; mkSub "b" 300 300; mkSub "a" 2000 2000] in
  db_rising 0 (l ++ [mkSub "a" 2300 2300]) /\
  snd (db_enter (ms_of 2000000) (db_run (ms_of 2000000) deb_empty l) (mkSub "a" 2300 2300)) = Some DBProceed.
Proof. split; [cbn; lia|]. vm_compute. reflexivity. Qed.

(** Debounce(timedelta(milliseconds=1001)) proceeds 1000 ms after another submission. *)
Theorem C117_debounce_short_refuted : exists us l s x,
  us = 1001 * 1000 /\ db_rising 0 (l ++ [s]) /\
  snd (db_enter (ms_of us) (db_run (ms_of us) deb_empty l) s) = Some DBProceed /\
  In x l /\ sb_key x <> sb_key s /\ sb_now s < sb_now x + 1001.
Proof.
  exists 1001000, [mkSub "a" 0 0; mkSub "b" 5 5], (mkSub "a" 1005 1005), (mkSub "b" 5 5).
  split; [reflexivity|]. split; [cbn; lia|]. split; [vm_compute; reflexivity|].
  split; [right; left; reflexivity|]. split; [discriminate|]. cbn. lia.
Qed.
Print Assumptions C117_debounce_short_refuted.

(** Below a millisecond every submission fails. *)
Theorem C117_debounce_below_refuted us l : us < 1000 ->
  Forall (fun x => snd x = None) (db_enters (ms_of us) deb_empty l).
Proof. intros H. rewrite ms_of_below by assumption. apply db_enters_error. Qed.
Print Assumptions C117_debounce_below_refuted.
