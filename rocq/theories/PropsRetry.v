(** Retries (C13, C48). *)
From Verif Require Import Base ZSet Model GInv Spec Check PropsHist Count PropsCount Retry SpecRetry RetryProofs.

(** ** C13: retry limits and delays are respected *)

(** In every history whose retries of the messages of [p] (messages of one key,
    chosen by function and arguments) are those of a policy with [n] attempts, with
    whatever delays: every started attempt has a number between 1 and [n], and each
    number is started at most once per accepted call, per redelivery and per
    reschedule by admission control of a run that was unwinding.  A limit below 1
    acts like 1. *)
Theorem C13_attempt_numbers c k p n l o m i : of_payload p -> (forall m, p m = true -> m_key m = k) ->
  along c (retries_up_to p n) init_sys l -> p m = true -> starts c (final c init_sys l) o m i -> 1 <= m_attempt m <= Z.max 1 n.
Proof. intros Hp Hk. exact (retry_numbers p k n Hp Hk c l o m i). Qed.
Print Assumptions C13_attempt_numbers.

Theorem C13_each_attempt_once c k p j l : of_payload p -> (forall m, p m = true -> m_key m = k) ->
  total c (n_starts (on_attempt p j)) init_sys l <=
  total c (n_accepted p) init_sys l + total c (n_redelivered p) init_sys l + total c (n_readmitted p) init_sys l.
Proof. intros Hp Hk. exact (attempt_starts p k j Hp Hk c l). Qed.
Print Assumptions C13_each_attempt_once.

Theorem C13_starts_limited c k p n l : of_payload p -> (forall m, p m = true -> m_key m = k) ->
  along c (retries_up_to p n) init_sys l ->
  total c (n_starts p) init_sys l <=
  Z.max 1 n * (total c (n_accepted p) init_sys l + total c (n_redelivered p) init_sys l + total c (n_readmitted p) init_sys l).
Proof. intros Hp Hk. exact (retry_limit p k n Hp Hk c l). Qed.
Print Assumptions C13_starts_limited.

(** A failed execution below the limit, or without limit, leaves a stored message
    of the next attempt with the same function and arguments, due exactly the
    policy's delay after the clock reading at the failure, and its own message is
    gone from the stream.  (That nothing starts before it is due is C07.)  Missing:
    the exponential policy, for which it is false, see below. *)
Theorem C13_failure_is_retried_partial c s r h x now t err res : reachable c s -> get_exec (s_execs s) h = Some x -> may_resched (x_phase x) = true ->
  rt_attempts r = None \/ (exists n, rt_attempts r = Some n /\ m_attempt (x_msg x) < n) ->
  let w := now + rt_delay r in
  let s' := fst (step c s (after_failure r x now t err res)) in
  retry_stored s' (x_msg x) w /\ state_of s' (m_key (x_msg x)) = Some (if w <=? t then SQueued else SScheduled) /\
  (forall m, ~ on_stream s' (x_mid x) m).
Proof. exact (failure_is_retried c s r h x now t err res). Qed.
Print Assumptions C13_failure_is_retried_partial.

(** At the limit the run is marked failed and no further message is stored. *)
Theorem C13_last_failure_is_final c s r n h x now t err res : get_exec (s_execs s) h = Some x -> may_resched (x_phase x) = true ->
  rt_attempts r = Some n -> n <= m_attempt (x_msg x) -> 0 < c_ttl c -> live s (x_msg x) ->
  let s' := fst (step c s (after_failure r x now t err res)) in
  state_of s' (m_key (x_msg x)) = Some SFailed /\ (forall p m, stored_at s' p m -> stored_at s p m).
Proof. exact (last_failure_is_final c s r n h x now t err res). Qed.
Print Assumptions C13_last_failure_is_final.

(** A body that asks for a retry at a time is not retried before it. *)
Theorem C13_retry_at_not_early r now1 at_ attempt now2 w a : now1 <= now2 ->
  handle_failure (retry_at r now1 at_) attempt now2 = Some (w, a) -> at_ <= w.
Proof. exact (retry_at_not_early r now1 at_ attempt now2 w a). Qed.
Print Assumptions C13_retry_at_not_early.

(** What the policy decides, in full: to go on exactly below the limit, with the next number,
    after exactly the delay; and the delay of a body that asks for a time is what is missing
    to that time. *)
Theorem C13_policy r attempt now w a :
  handle_failure r attempt now = Some (w, a) <-> (forall n, rt_attempts r = Some n -> attempt < n) /\ w - now = rt_delay r /\ a - attempt = 1.
Proof.
  unfold handle_failure. destruct (rt_attempts r) as [n|].
  - destruct (Z.leb_spec n attempt) as [L|L]; [split; [discriminate|]; intros [H _]; specialize (H n eq_refl); lia|].
    split; [intros E; injection E as <- <-; split; [intros m E; injection E as <-; exact L|lia]|]. intros (_ & E1 & E2). f_equal. f_equal; lia.
  - split; [intros E; injection E as <- <-; split; [discriminate|lia]|]. intros (_ & E1 & E2). f_equal. f_equal; lia.
Qed.
Print Assumptions C13_policy.
Theorem C13_retry_at_exact r now1 at_ attempt now2 w a :
  handle_failure (retry_at r now1 at_) attempt now2 = Some (w, a) -> w - now2 = Z.max 0 (at_ - now1).
Proof. intros H. apply C13_policy in H. destruct H as (_ & H & _). rewrite H. unfold retry_at, retry_after. cbn [rt_delay]. destruct (Z.leb_spec 0 (at_ - now1)); lia. Qed.
Print Assumptions C13_retry_at_exact.

(** Three attempts of "k", 10 after each failure; every start is used. *)
Definition ex_policy : retry := mkRetry (Some 3) 10.
Definition ex_three : list op :=
  [OAdd (ex_call 0 "f" "x") 1; ORead "w1"; OClaim 0 2; OBodyStart 0; OBodyEnd 0; OResched 0 13 true 4;
   OScheduler 13; ORead "w2"; OClaim 1 14; OBodyStart 1; OBodyEnd 1; OResched 1 25 true 15;
   OScheduler 25; ORead "w1"; OClaim 2 26; OBodyStart 2; OBodyEnd 2].
Definition retries_up_tob (p : msg -> bool) (n : Z) (s : sys) (o : op) : bool :=
  match o with
  | OResched h _ true _ => match get_exec (s_execs s) h with Some x => negb (p (x_msg x)) || (m_attempt (x_msg x) <? n) | None => true end
  | _ => true
  end.
Lemma retries_up_tob_sound p n s o : retries_up_tob p n s o = true -> retries_up_to p n s o.
Proof.
  destruct o; simpl; auto. destruct bump; auto. intros H x E P. rewrite E, P in H. cbn in H.
  exists when, 0. unfold handle_failure. cbn [rt_attempts rt_delay]. destruct (Z.leb_spec n (m_attempt (x_msg x))); [lia|]. reflexivity.
Qed.
Example C13_case :
  along ex_cfg (retries_up_to ex_kx 3) init_sys ex_three /\ total ex_cfg (n_starts ex_kx) init_sys ex_three = 3 /\
  total ex_cfg (n_accepted ex_kx) init_sys ex_three = 1 /\ total ex_cfg (n_redelivered ex_kx) init_sys ex_three = 0 /\
  total ex_cfg (n_readmitted ex_kx) init_sys ex_three = 0.
Proof.
  split; [apply (alongb_sound _ _ (retries_up_tob ex_kx 3)); [intros s o; apply retries_up_tob_sound|vm_compute; reflexivity]|].
  repeat split; vm_compute; reflexivity.
Qed.
(* the operations of that history are the ones the policy chooses, and the next one is a failure *)
Definition ex_choice (l : list op) (h : Z) (now t : Z) : option op :=
  option_map (fun x => after_failure ex_policy x now t None None) (get_exec (s_execs (final ex_cfg init_sys l)) h).
Example C13_choices :
  ex_choice (firstn 5 ex_three) 0 3 4 = Some (OResched 0 13 true 4) /\ ex_choice (firstn 11 ex_three) 1 15 15 = Some (OResched 1 25 true 15) /\
  ex_choice ex_three 2 27 27 = Some (OTerminal 2 SFailed 27 None None) /\
  state_of (fst (step ex_cfg (final ex_cfg init_sys ex_three) (OTerminal 2 SFailed 27 None None))) "k" = Some SFailed.
Proof. repeat split; vm_compute; reflexivity. Qed.

(** ExponentialRetry.forever() gives up: computing the delay of attempt 48 with a
    minimum of one second overflows timedelta before the maximum is applied, the
    policy does not resolve, and the failure is final.  The history below follows
    the policy at every failure; after 48 starts "k" is failed. *)
Definition exp_forever (s : sys) (o : op) : Prop :=
  match o with
  | OResched h _ _ t => forall x, get_exec (s_execs s) h = Some x -> exp_after_failure None 1000000 64000000 x t t None None = o
  | OTerminal h _ t e r => forall x, get_exec (s_execs s) h = Some x -> exp_after_failure None 1000000 64000000 x t t e r = o
  | OAdd _ _ | ORead _ | OScheduler _ | OClaim _ _ | OBodyStart _ | OBodyEnd _ => True
  | _ => False
  end.
Fixpoint ex_forever (n : nat) (h t : Z) : list op :=
  match n with
  | O => [ORead "w1"; OClaim h t; OBodyStart h; OBodyEnd h; OTerminal h SFailed t None None]
  | S n => [ORead "w1"; OClaim h t; OBodyStart h; OBodyEnd h;
            OResched h (t + default 0 (exp_delay 1000000 64000000 (h + 1))) true t; OScheduler (t + 100000000)]
           ++ ex_forever n (h + 1) (t + 100000000)
  end.
Definition ex_forever48 : list op := OAdd (ex_call 0 "f" "x") 0 :: ex_forever 47 0 1.
Definition exp_foreverb (s : sys) (o : op) : bool :=
  match o with
  | OResched h w true t => match get_exec (s_execs s) h with
      | Some x => (x_id x =? h) && match exp_delay 1000000 64000000 (m_attempt (x_msg x)) with Some d => w =? t + d | None => false end | None => true end
  | OTerminal h SFailed _ _ _ => match get_exec (s_execs s) h with
      | Some x => (x_id x =? h) && match exp_delay 1000000 64000000 (m_attempt (x_msg x)) with Some d => false | None => true end | None => true end
  | OAdd _ _ | ORead _ | OScheduler _ | OClaim _ _ | OBodyStart _ | OBodyEnd _ => true
  | _ => false
  end.
Lemma exp_foreverb_sound s o : exp_foreverb s o = true -> exp_forever s o.
Proof.
  destruct o; simpl; auto; try discriminate.
  - match goal with |- context [match ?st with SScheduled => _ | _ => _ end] => destruct st; try discriminate end. intros H x E. rewrite E in H. apply andb_prop in H as [H1 H2]. apply Z.eqb_eq in H1.
    unfold exp_after_failure, exp_retry. destruct (exp_delay _ _ _); [discriminate H2|]. cbn. now rewrite H1.
  - destruct bump; [|discriminate]. intros H x E. rewrite E in H. apply andb_prop in H as [H1 H2]. apply Z.eqb_eq in H1.
    unfold exp_after_failure, exp_retry, after_failure, handle_failure. destruct (exp_delay _ _ _) as [d|]; [|discriminate H2]. apply Z.eqb_eq in H2.
    cbn. now rewrite H1, H2.
Qed.
Theorem C13_exponential_forever_refuted :
  along ex_cfg exp_forever init_sys ex_forever48 /\ state_of (final ex_cfg init_sys ex_forever48) "k" = Some SFailed /\
  total ex_cfg (n_starts ex_kx) init_sys ex_forever48 = 48.
Proof.
  split; [apply (alongb_sound _ _ exp_foreverb); [intros s o; apply exp_foreverb_sound|vm_compute; reflexivity]|].
  split; vm_compute; reflexivity.
Qed.
Print Assumptions C13_exponential_forever_refuted.

(** ** C48: exponential back-off stays within its bounds *)

(** With minimum at most maximum: whenever the delays of two successive attempts are
    defined, the earlier lies between minimum and maximum (it is the minimum for the
    first attempt), and the later is twice
    it, capped.  They are defined as long as the uncapped delay is a timedelta.
    Missing: the overflow, and a minimum above the maximum (both below). *)
Theorem C48_doubles_within_bounds_partial mn mx a d d' : 0 <= mn <= mx -> 1 <= a ->
  exp_delay mn mx a = Some d -> exp_delay mn mx (a + 1) = Some d' -> mn <= d <= mx /\ (a = 1 -> d = mn) /\ d' = Z.min (2 * d) mx.
Proof. exact (exponential_doubles mn mx a d d'). Qed.
Print Assumptions C48_doubles_within_bounds_partial.
Theorem C48_defined mn mx a : 0 <= mn -> 1 <= a -> (a = 1 \/ mn * 2 ^ (a - 1) <= td_max) -> exp_delay mn mx a <> None.
Proof. exact (exponential_defined mn mx a). Qed.
Print Assumptions C48_defined.
(** Exactly: from the second attempt on, the product has to fit a timedelta, which reaches
    from -999999999 days to 999999999 days, 23:59:59.999999. *)
Theorem C48_defined_iff mn mx a : 1 < a ->
  exp_delay mn mx a = None <-> mn * 2 ^ (a - 1) < -86399999913600000000 \/ 86399999999999999999 < mn * 2 ^ (a - 1).
Proof.
  intros H. unfold exp_delay. destruct (Z.ltb_spec 1 a); [|lia]. unfold td_mul, td_ok. change td_min with (-86399999913600000000). change td_max with 86399999999999999999.
  destruct (Z.leb_spec (-86399999913600000000) (mn * 2 ^ (a - 1))), (Z.leb_spec (mn * 2 ^ (a - 1)) 86399999999999999999); cbn [andb]; (split; [intros E; try discriminate E; lia|intros [E|E]; (reflexivity || lia)]).
Qed.
Print Assumptions C48_defined_iff.
Example C48_case : exp_delay 1000000 64000000 1 = Some 1000000 /\ exp_delay 1000000 64000000 5 = Some 16000000 /\ exp_delay 1000000 64000000 6 = Some 32000000 /\
  exp_delay 1000000 64000000 8 = Some 64000000 /\ 1000000 * 2 ^ 46 <= td_max.
Proof. repeat split; vm_compute; congruence. Qed.

(** The first delay ignores the maximum. *)
Theorem C48_first_delay_refuted : exists mn mx d, 0 <= mn /\ exp_delay mn mx 1 = Some d /\ mx < d.
Proof. exists 2000000, 1000000, 2000000. split; [lia|]. split; [reflexivity|lia]. Qed.
Print Assumptions C48_first_delay_refuted.
(** Whatever the positive minimum and the maximum, no delay is defined from attempt
    69 on; with the default minimum of a second, from attempt 48 on. *)
Theorem C48_overflow_refuted mn mx : 0 < mn -> forall a, 69 <= a -> exp_delay mn mx a = None.
Proof. exact (exponential_overflows mn mx). Qed.
Print Assumptions C48_overflow_refuted.
