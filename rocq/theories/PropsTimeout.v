(** Timeouts (C43, C52). *)
From Verif Require Import Base Timeout.

(** Specification: the extensions made so far, and a clock that never runs back. *)
Definition ext_of (base : Z) (e : to_ev) : Z :=
  match e with TExtend _ (Some d) => d | TExtend _ None => base | _ => 0 end.
Fixpoint granted (base : Z) (l : list to_ev) : Z := match l with [] => 0 | e :: l => ext_of base e + granted base l end.
Definition nonneg (base : Z) (l : list to_ev) : Prop := forall e, In e l -> 0 <= ext_of base e.

(** After the events [l] run() is still waiting for a body that is still running. *)
Definition waiting (base t0 : Z) (l : list to_ev) : Prop :=
  let s := to_run (to_start base t0) l in to_end s = None /\ to_body s = None.

Lemma granted_app base l l' : granted base (l ++ l') = granted base l + granted base l'.
Proof. induction l as [|e l IH]; cbn; lia. Qed.
Lemma run_app s l e : to_run s (l ++ [e]) = to_step (to_run s l) e.
Proof. unfold to_run. now rewrite fold_left_app. Qed.

Lemma base_kept base t0 l : to_base (to_run (to_start base t0) l) = base.
Proof.
  induction l as [|e l IH] using rev_ind.
  - unfold to_run, to_start, to_turn; cbn. destruct (to_expired _ _); reflexivity.
  - rewrite run_app. revert IH. set (s := to_run _ l). intros IH. unfold to_step, to_turn. destruct (to_end s); [exact IH|]. destruct e.
    + destruct (to_body s); exact IH.
    + destruct (to_body s); exact IH.
    + destruct (to_body s) as [[]|] eqn:E; try exact IH.
    + destruct (_ <=? _); [|exact IH]. destruct (to_body s); [exact IH|]. destruct (to_expired _ _); exact IH.
Qed.

Lemma waiting_facts base t0 l : waiting base t0 l ->
  let s := to_run (to_start base t0) l in
  to_deadline s = t0 + base + granted base l /\ (nonneg base l -> to_timer s <= to_deadline s).
Proof.
  induction l as [|e l IH] using rev_ind; intros [W1 W2] s; subst s.
  - revert W1 W2. unfold to_run, to_start, to_turn; cbn. destruct (to_expired _ _); cbn; [discriminate|]. intros _ _. unfold to_remaining; cbn. lia.
  - pose proof (base_kept base t0 l) as Hb. unfold waiting in IH. rewrite run_app in *. revert IH Hb W1 W2. set (s := to_run _ l). cbv zeta. intros IH Hb W1 W2.
    rewrite granted_app. cbn [granted].
    assert (Hn : nonneg base (l ++ [e]) -> nonneg base l /\ 0 <= ext_of base e).
    { intros N. split; [intros e' He; apply N, in_app_iff; auto|apply N, in_app_iff; right; left; reflexivity]. }
    unfold to_step in *. destruct (to_end s) eqn:E; [congruence|]. destruct e as [t b|t b|t|t]; cbn [ext_of] in *.
    + destruct (to_body s) eqn:B; [congruence|]. destruct (IH (conj eq_refl eq_refl)) as [I1 I2]. cbn.
      split; [destruct b; rewrite ?Hb; lia|]. intros N. apply Hn in N as [N1 N2]. specialize (I2 N1). destruct b; rewrite ?Hb; lia.
    + destruct (to_body s) eqn:B; [congruence|discriminate W2].
    + destruct (to_body s) as [[]|] eqn:B; try discriminate W1; try congruence.
      * exfalso. revert W1. unfold to_turn. rewrite B. discriminate.
      * destruct (IH (conj eq_refl eq_refl)) as [I1 I2]. split; [lia|]. intros N. apply Hn in N. tauto.
    + destruct (to_timer s <=? t) eqn:L.
      * unfold to_turn in *. destruct (to_body s) eqn:B; [discriminate W1|]. destruct (to_expired s t) eqn:X; [discriminate W1|].
        destruct (IH (conj eq_refl eq_refl)) as [I1 I2]. cbn. unfold to_remaining. split; lia.
      * destruct (to_body s) eqn:B; [congruence|]. destruct (IH (conj eq_refl eq_refl)) as [I1 I2]. split; [lia|]. intros N. apply Hn in N. tauto.
Qed.

(** ** C43: timeouts measure from start plus extensions *)

(** Not earlier: if the event [e] makes run() cancel the body, then the clock has
    reached the start plus the base plus all extensions. *)
Theorem C43_not_early base t0 l e :
  to_end (to_run (to_start base t0) l) = None -> to_end (to_run (to_start base t0) (l ++ [e])) = Some VTimedOut ->
  waiting base t0 l /\ t0 + base + granted base l <= ev_time e.
Proof.
  intros E H. rewrite run_app in H. assert (W : to_body (to_run (to_start base t0) l) = None /\ exists t, e = TTimer t /\ to_expired (to_run (to_start base t0) l) t = true).
  { revert E H. set (s := to_run _ l). intros E H. unfold to_step in H. rewrite E in H. destruct e as [t b|t b|t|t].
    - destruct (to_body s); cbn in H; congruence.
    - destruct (to_body s); cbn in H; congruence.
    - unfold to_turn in H. destruct (to_body s) as [[]|] eqn:B; cbn in H; congruence.
    - destruct (to_timer s <=? t); [|congruence]. unfold to_turn in H. destruct (to_body s) eqn:B; [discriminate H|]. split; [reflexivity|]. exists t. split; [reflexivity|].
      destruct (to_expired s t) eqn:X; [reflexivity|]. cbn in H. congruence. }
  destruct W as (W1 & t & -> & X). split; [split; assumption|]. destruct (waiting_facts base t0 l (conj E W1)) as [D _]. unfold to_expired in X. cbn. lia.
Qed.
Print Assumptions C43_not_early.

(** On time: while run() waits, its timer is set no later than that moment, and the
    first timer that fires at or after it makes run() cancel the body; a timer that
    fires before it is set again.  Missing from the full statement: negative extensions,
    with which it can be late (below). *)
Theorem C43_on_time_partial base t0 l now : nonneg base l -> waiting base t0 l ->
  let T := t0 + base + granted base l in
  to_timer (to_run (to_start base t0) l) <= T /\
  (T <= now -> to_end (to_run (to_start base t0) (l ++ [TTimer now])) = Some VTimedOut) /\
  (now < T -> waiting base t0 (l ++ [TTimer now])).
Proof.
  intros N W T. destruct (waiting_facts base t0 l W) as [D M]. specialize (M N). unfold waiting in *. rewrite run_app.
  revert D M W. set (s := to_run _ l). cbv zeta. intros D M [W1 W2]. split; [lia|]. unfold to_step. rewrite W1. unfold to_turn, to_expired, to_remaining. split.
  - intros H. replace (to_timer s <=? now) with true by (symmetry; apply Z.leb_le; lia). rewrite W2.
    replace (to_deadline s <=? now) with true by (symmetry; apply Z.leb_le; lia). reflexivity.
  - intros H. destruct (to_timer s <=? now); [|auto]. rewrite W2. replace (to_deadline s <=? now) with false by (symmetry; apply Z.leb_gt; lia). auto.
Qed.
Print Assumptions C43_on_time_partial.

(** With extensions of any sign: the latest moment the timeout has ever stood at bounds the
    cancellation. *)
Definition stood_at (base t0 : Z) (l : list to_ev) (T : Z) : Prop := exists l1 l2, l = l1 ++ l2 /\ T = t0 + base + granted base l1.
Theorem C43_any_extensions base t0 l now : waiting base t0 l ->
  stood_at base t0 l (to_timer (to_run (to_start base t0) l)) /\
  ((forall T, stood_at base t0 l T -> T <= now) -> to_end (to_run (to_start base t0) (l ++ [TTimer now])) = Some VTimedOut).
Proof.
  intros W.
  assert (S : stood_at base t0 l (to_timer (to_run (to_start base t0) l))).
  { induction l as [|e l IH] using rev_ind.
    - exists [], []. split; [reflexivity|]. destruct W as [W1 W2]. revert W1 W2. unfold to_run, to_start, to_turn; cbn. destruct (to_expired _ _); cbn; [discriminate|]. intros _ _. unfold to_remaining; cbn. lia.
    - assert (Q : waiting base t0 l /\ (to_timer (to_run (to_start base t0) (l ++ [e])) = to_timer (to_run (to_start base t0) l) \/
                 to_timer (to_run (to_start base t0) (l ++ [e])) = to_deadline (to_run (to_start base t0) l))).
      { destruct W as [W1 W2]. unfold waiting. rewrite run_app in *. revert W1 W2. set (s := to_run _ l). cbv zeta. intros W1 W2.
        unfold to_step in *. destruct (to_end s) eqn:E; [congruence|]. destruct e as [t b|t b|t|t].
        - destruct (to_body s) eqn:B; [congruence|]. auto.
        - destruct (to_body s) eqn:B; [congruence|discriminate W2].
        - destruct (to_body s) as [[]|] eqn:B; try discriminate W1; try congruence; auto.
          exfalso. revert W1. unfold to_turn. rewrite B. discriminate.
        - destruct (to_timer s <=? t); [|auto]. unfold to_turn in *. destruct (to_body s) eqn:B; [discriminate W1|]. destruct (to_expired s t); [discriminate W1|].
          split; [auto|right]. cbn. unfold to_remaining. lia. }
      destruct Q as [W' [->| ->]].
      + destruct (IH W') as (l1 & l2 & E1 & E2). exists l1, (l2 ++ [e]). split; [rewrite E1, app_assoc; reflexivity|exact E2].
      + exists l, [e]. split; [reflexivity|]. apply (waiting_facts base t0 l W'). }
  split; [exact S|]. intros H.
  assert (Hd : to_deadline (to_run (to_start base t0) l) <= now) by (apply H; exists l, []; split; [symmetry; apply app_nil_r|apply (waiting_facts base t0 l W)]).
  specialize (H _ S). destruct W as [W1 W2]. rewrite run_app. revert H Hd W1 W2. set (s := to_run _ l). intros H Hd W1 W2.
  unfold to_step, to_turn, to_expired. rewrite W1, W2. rewrite (proj2 (Z.leb_le _ _) H), (proj2 (Z.leb_le _ _) Hd). reflexivity.
Qed.
Print Assumptions C43_any_extensions.
Example C43_any_case : let l := [TExtend 20 (Some (-30)); TExtend 25 (Some 10)] in
  waiting 100 5 l /\ to_timer (to_run (to_start 100 5) l) = 105 /\ 5 + 100 + granted 100 l = 85 /\
  to_end (to_run (to_start 100 5) (l ++ [TTimer 104])) = None /\ to_end (to_run (to_start 100 5) (l ++ [TTimer 105])) = Some VTimedOut.
Proof. repeat split. Qed.

(** remaining() is exactly the time left. *)
Theorem C43_remaining base t0 l now : waiting base t0 l ->
  to_remaining (to_run (to_start base t0) l) now = t0 + base + granted base l - now.
Proof. intros W. destruct (waiting_facts base t0 l W) as [D _]. unfold to_remaining. lia. Qed.
Print Assumptions C43_remaining.

(** A timeout of 100 started at 5, extended by 30 and by its base, is still waiting
    after the timer fired at 105, and is cancelled at 235, not at 234. *)
Definition ex_slow : list to_ev := [TExtend 20 (Some 30); TTimer 105; TExtend 110 None; TTimer 135].
Example C43_case : waiting 100 5 ex_slow /\ nonneg 100 ex_slow /\ granted 100 ex_slow = 130 /\
  to_end (to_run (to_start 100 5) (ex_slow ++ [TTimer 235])) = Some VTimedOut /\ to_end (to_run (to_start 100 5) (ex_slow ++ [TTimer 234])) = None.
Proof.
  split; [split; reflexivity|]. split; [|repeat split].
  intros e [<-|[<-|[<-|[<-|[]]]]]; cbn; lia.
Qed.

(** If an extension is negative the cancellation comes late: the timer set before is
    not moved. *)
Theorem C43_negative_extension_refuted : exists base t0 l now, waiting base t0 l /\ t0 + base + granted base l <= now /\
  to_end (to_run (to_start base t0) (l ++ [TTimer now])) = None.
Proof. exists 100, 0, [TExtend 10 (Some (-50))], 60. split; [split; reflexivity|]. split; [cbn; lia|reflexivity]. Qed.
Print Assumptions C43_negative_extension_refuted.

(** ** C52: a body's own outcome is what run() reports *)

(** The outcome that the body reached, as run() should report it. *)
Definition reported (b : outcome) (r : verdict) : Prop :=
  match b, r with BReturn v, VReturn v' => v' = v | BRaise e, VRaise e' => e' = e | _, _ => False end.

(** If the body ended (not with a TimeoutError) while run() was waiting and the
    outcome is handed over before the timer fires, run() reports it.  Missing: a
    TimeoutError raised by the body and the race with the timer; both are false. *)
Theorem C52_outcome_reported_partial base t0 l t b t' l' : waiting base t0 l -> b <> BRaiseTimeout ->
  exists r, to_end (to_run (to_start base t0) (l ++ TBody t b :: TResume t' :: l')) = Some r /\ reported b r.
Proof.
  intros W Hb. unfold waiting in W. unfold to_run. rewrite fold_left_app. cbn [fold_left]. fold (to_run (to_start base t0) l).
  revert W. set (s := to_run _ l). cbv zeta. intros [W1 W2].
  assert (K : forall l s r, to_end s = Some r -> to_end (fold_left to_step l s) = Some r).
  { clear. induction l as [|e l IH]; intros s r E; [exact E|]. cbn. apply IH. unfold to_step. now rewrite E. }
  unfold to_step at 2 3. rewrite W1, W2. cbn [to_set_body to_end to_body].
  destruct b as [v| |e]; [exists (VReturn v)|now destruct Hb|exists (VRaise e)]; (split; [apply K; cbn; rewrite W1; reflexivity|reflexivity]).
Qed.
Print Assumptions C52_outcome_reported_partial.
Example C52_case : waiting 100 5 [TExtend 20 (Some 30)] /\
  to_end (to_run (to_start 100 5) ([TExtend 20 (Some 30)] ++ TBody 50 (BRaise "ValueError") :: TResume 51 :: [TTimer 300])) = Some (VRaise "ValueError").
Proof. split; [split; reflexivity|reflexivity]. Qed.

(** A body that raises TimeoutError itself is reported as having returned None: its
    failure is lost, and there is no retry. *)
Theorem C52_own_timeout_refuted base t0 l t t' : waiting base t0 l ->
  to_end (to_run (to_start base t0) (l ++ [TBody t BRaiseTimeout; TResume t'])) = Some (VReturn None).
Proof.
  intros W. unfold waiting in W. unfold to_run. rewrite fold_left_app. cbn [fold_left]. fold (to_run (to_start base t0) l).
  revert W. set (s := to_run _ l). cbv zeta. intros [W1 W2]. unfold to_step at 2. rewrite W1, W2. unfold to_step, to_turn. cbn. now rewrite W1.
Qed.
Print Assumptions C52_own_timeout_refuted.
(** If the timer fires between the end of the body and the hand-over, run() returns
    None whatever the body returned or raised. *)
Theorem C52_race_refuted base t0 l t b now : waiting base t0 l -> nonneg base l -> t0 + base + granted base l <= now ->
  to_end (to_run (to_start base t0) (l ++ [TBody t b; TTimer now])) = Some (VReturn None).
Proof.
  intros W N H. destruct (waiting_facts base t0 l W) as [D M]. specialize (M N). unfold waiting in W. unfold to_run. rewrite fold_left_app. cbn [fold_left]. fold (to_run (to_start base t0) l).
  revert D M W. set (s := to_run _ l). cbv zeta. intros D M [W1 W2]. unfold to_step at 2. rewrite W1, W2. unfold to_step, to_turn. cbn. rewrite W1.
  replace (to_timer s <=? now) with true by (symmetry; apply Z.leb_le; lia). reflexivity.
Qed.
Print Assumptions C52_race_refuted.
