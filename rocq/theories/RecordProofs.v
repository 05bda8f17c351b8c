(** Proofs of C121: what each operation does to the record of a key. *)
From Verif Require Import Base ZSet Model GInv Spec SpecRecord.
From Verif Require EventProofs.

Section Change.
Variables n ttl : Z.
Variable R : runs -> runs -> Prop.
Hypothesis R_refl : forall r, R r r.
Hypothesis R_trans : forall a b c, R a b -> R b c -> R a c.
Hypothesis R_drop : forall r, R r empty_runs.
Hypothesis R_gen : forall g r, R r (rset_gen g r).
Hypothesis R_queued : forall w i m r, R r (rset_queued w i m r).
Hypothesis R_scheduled : forall w m r, R r (rset_scheduled w m r).
Hypothesis R_requeued : forall w i m r, R r (rdel_worker (rset_queued w i m r)).
Hypothesis R_rescheduled : forall w m r, R r (rdel_worker (rdel_sid (rset_scheduled w m r))).
Hypothesis R_state : forall r, R r (rset_state SQueued r).
Hypothesis R_sid : forall r, R r (rdel_sid r).
Hypothesis R_known : forall r, R r (rdel_known r).
Hypothesis R_expire : forall r, 0 < ttl -> R r (rset_expire (Some (n + ttl * 1000000)) r).
Hypothesis R_parked : forall c i m r, R r (rset_parked c i m r).
Hypothesis R_woken : forall i r, R r (rset_woken i r).
Hypothesis R_waiter : forall r, R r (rdel_waiter r).

(** From a store at time [n] to one at the same time. *)
Definition Ch (d d' : db) : Prop := d_now d = n -> d_now d' = n /\ forall j, R (rget d j) (rget d' j).

Lemma Ch_refl d : Ch d d. Proof. intros N. split; [exact N|]. intros j. apply R_refl. Qed.
Lemma Ch_trans a b c : Ch a b -> Ch b c -> Ch a c.
Proof. intros A B N. destruct (A N) as [N1 A']. destruct (B N1) as [N2 B']. split; [exact N2|]. intros j. eapply R_trans; [apply A'|apply B']. Qed.
Lemma Ch_eq d d1 d' : Ch d d1 -> (forall j, (d_now d', rget d' j) = (d_now d1, rget d1 j)) -> Ch d d'.
Proof.
  intros A B N. destruct (A N) as [N1 A']. split; [pose proof (B EmptyString) as E; injection E as E _; congruence|].
  intros j. pose proof (B j) as E. injection E as _ E. rewrite E. apply A'.
Qed.
Lemma Ch_same d d' : (d_now d', d_runs d') = (d_now d, d_runs d) -> Ch d d'.
Proof. intros E. injection E as E1 E2. apply (Ch_eq d d d' (Ch_refl d)). intros j. unfold rget. now rewrite E1, E2. Qed.
Lemma Ch_hset d k f : R (rget d k) (f (rget d k)) -> Ch d (hset d k f).
Proof. intros H N. split; [exact N|]. intros j. unfold rget at 2, hset, set_runs; cbn. unfold upd. destruct (String.eqb_spec j k) as [->|]; [exact H|apply R_refl]. Qed.
Lemma Ch_hdel' d k f : (d_now d = n -> forall r, R r (f r)) -> Ch d (hdel d k f).
Proof.
  intros H N. split; [exact N|]. intros j. unfold rget, hdel, set_runs; cbn. unfold upd. destruct (String.eqb_spec j k) as [->|]; [|apply R_refl].
  destruct (d_runs d k); cbn; [apply H, N|apply R_refl].
Qed.
Lemma Ch_hdel d k f : (forall r, R r (f r)) -> Ch d (hdel d k f).
Proof. intros H. apply Ch_hdel'. auto. Qed.
Lemma Ch_del d k : Ch d (del_runs d k).
Proof. intros N. split; [exact N|]. intros j. unfold rget at 2, del_runs, set_runs; cbn. unfold upd. destruct (String.eqb j k); [apply R_drop|apply R_refl]. Qed.
Lemma Ch_fold {A} (f : db -> A -> db) l : (forall d x, Ch d (f d x)) -> forall d, Ch d (fold_left f l d).
Proof. intros H. induction l as [|x l IH]; intros d; [apply Ch_refl|]. cbn. eapply Ch_trans; [apply H|apply IH]. Qed.
Lemma Ch_over d d1 d' : Ch d d1 -> (d_now d', d_runs d') = (d_now d1, d_runs d1) -> Ch d d'.
Proof. intros A B. eapply Ch_trans; [exact A|now apply Ch_same]. Qed.
Lemma Ch_under d d1 d' : (d_now d1, d_runs d1) = (d_now d, d_runs d) -> Ch d1 d' -> Ch d d'.
Proof. intros A B. eapply Ch_trans; [apply Ch_same, A|exact B]. Qed.

Lemma Ch_incr d k : Ch d (fst (hincr_gen d k)).
Proof. apply Ch_hset, R_gen. Qed.
Lemma Ch_place d k w imm m : Ch d (place d k w imm false m).
Proof.
  unfold place. pose proof (Ch_incr d k) as H. destruct (hincr_gen d k) as [d1 g]. cbn [fst] in H. destruct imm.
  - unfold xadd. eapply Ch_trans; [exact H|]. eapply Ch_under; [|apply Ch_hset, R_queued]. reflexivity.
  - eapply Ch_trans; [exact H|]. eapply Ch_under; [|apply Ch_hset, R_scheduled]. reflexivity.
Qed.
Lemma hdel_hset d k f g : forall j, (d_now (hdel (hset d k f) k g), rget (hdel (hset d k f) k g) j) = (d_now (hset d k (fun r => g (f r))), rget (hset d k (fun r => g (f r))) j).
Proof. intros j. unfold rget, hdel, hset, set_runs, rget; cbn. unfold upd. rewrite String.eqb_refl. destruct (String.eqb j k); reflexivity. Qed.
Lemma Ch_resched d k w imm mid m : Ch d (lua_reschedule d k w imm mid m).
Proof.
  unfold lua_reschedule. eapply Ch_over with (d1 := hdel (place (xdel (xack d mid) mid) k w imm true m) k rdel_worker); [|reflexivity].
  apply Ch_under with (d1 := xdel (xack d mid) mid); [reflexivity|]. set (d0 := xdel (xack d mid) mid). clearbody d0.
  unfold place. pose proof (Ch_incr d0 k) as H. destruct (hincr_gen d0 k) as [d1 g]. cbn [fst] in H. eapply Ch_trans; [exact H|]. clear H. destruct imm.
  - unfold xadd. eapply Ch_eq; [|apply hdel_hset]. eapply Ch_under; [|apply Ch_hset, R_requeued]. reflexivity.
  - set (e := park_future d1 k w (with_gen m g)). apply Ch_under with (d1 := e); [reflexivity|].
    eapply Ch_eq with (d1 := hset e k (fun r => rdel_worker (rdel_sid (rset_scheduled w (with_gen m g) r)))); [apply Ch_hset, R_rescheduled|].
    intros j. unfold rget, hdel, hset, set_runs, rget; cbn. unfold upd. rewrite !String.eqb_refl. destruct (String.eqb j k); reflexivity.
Qed.
Lemma Ch_schedule d k w imm repl mid m : Ch d (fst (lua_schedule d k w imm repl mid m)).
Proof.
  unfold lua_schedule. destruct mid as [i|]; [apply Ch_resched|]. destruct (negb repl && lua_exists d k); [apply Ch_refl|]. cbn [fst].
  eapply Ch_over; [|reflexivity]. eapply Ch_under; [|apply Ch_place]. destruct repl; [|reflexivity]. unfold lua_replace_existing.
  destruct (match r_sid (rget d k) with Some i => Some i | None => d_lsid d k end); reflexivity.
Qed.
Lemma Ch_finish d k : Ch d (if 0 <? ttl then expire_runs d k ttl else del_runs d k).
Proof.
  destruct (0 <? ttl) eqn:E; [|apply Ch_del]. unfold expire_runs. apply Ch_hdel'. intros -> r. apply R_expire. lia.
Qed.
Lemma Ch_stream_one d k : Ch d (stream_one d k).
Proof.
  unfold stream_one. destruct (d_parked d k) as [m|]; [|apply Ch_refl]. unfold xadd.
  eapply Ch_over; [|reflexivity]. eapply Ch_under; [|apply Ch_hset, R_state]. reflexivity.
Qed.
Lemma Ch_due d t : Ch d (fst (lua_stream_due d t)).
Proof.
  unfold lua_stream_due. cbv zeta. cbn [fst]. eapply Ch_trans; [apply (Ch_fold stream_one (map snd (zrangebyscore 0 t (d_queue d)))), Ch_stream_one|].
  destruct (0 <? _); apply Ch_same; reflexivity.
Qed.
Lemma Ch_drop_safeguard d k : Ch d (drop_safeguard d k).
Proof. unfold drop_safeguard. eapply Ch_under; [|apply Ch_del]. reflexivity. Qed.
Lemma Ch_wake_one c d e : Ch d (wake_one c d e).
Proof.
  destruct e as [i m]. unfold wake_one.
  assert (Q : Ch d (drop_safeguard (del_waiter c i d) (m_key m))) by (eapply Ch_under; [|apply Ch_drop_safeguard]; reflexivity).
  destruct (r_state (rget d (m_key m))) as [[]|]; try exact Q. clear Q.
  pose proof (Ch_incr d (m_key m)) as H. destruct (hincr_gen d (m_key m)) as [d1 g]. cbn [fst] in H. unfold xadd. cbv zeta.
  eapply Ch_over; [|reflexivity]. eapply Ch_trans; [|apply Ch_drop_safeguard]. eapply Ch_trans; [exact H|].
  eapply Ch_under; [|apply Ch_hset, R_woken]. reflexivity.
Qed.
Lemma Ch_wake d c cap : Ch d (wake d c cap).
Proof. unfold wake. destruct (0 <? cap); [|apply Ch_refl]. apply Ch_fold. intros. apply Ch_wake_one. Qed.
Lemma Ch_park d c k mid m : Ch d (lua_park d c k mid m).
Proof.
  unfold lua_park. set (d0 := xdel (xack d mid) mid). apply Ch_under with (d1 := d0); [reflexivity|]. clearbody d0.
  pose proof (Ch_incr d0 k) as H. destruct (hincr_gen d0 k) as [d1 g]. cbn [fst] in H. cbv zeta. eapply Ch_over; [|reflexivity].
  eapply Ch_trans; [|apply Ch_hdel, R_sid]. eapply Ch_trans; [exact H|]. eapply Ch_under; [|apply Ch_hset, R_parked]. reflexivity.
Qed.
Lemma Ch_acquire d c mx k t redel stale sl mid m : Ch d (fst (lua_acquire_or_park d c mx k t redel stale sl mid m)).
Proof.
  unfold lua_acquire_or_park. destruct (zscore _ _) as [z|].
  - destruct (redel && _); [apply Ch_same; reflexivity|apply Ch_park].
  - destruct (_ <? mx); [apply Ch_same; reflexivity|]. destruct (zrangebyscore _ _ _) as [|[z0 k0] l]; [apply Ch_park|apply Ch_same; reflexivity].
Qed.
Lemma Ch_clear d sn : Ch d (fst (clear_apply ttl d sn)).
Proof.
  unfold clear_apply. cbv zeta. cbn [fst]. eapply Ch_trans; [|apply Ch_fold; intros; apply Ch_finish].
  eapply Ch_trans; [|apply Ch_fold].
  - destruct (0 <? cs_count sn); apply Ch_same; reflexivity.
  - intros e k. unfold clear_scheduled. eapply Ch_under; [|apply Ch_finish]. reflexivity.
Qed.
Lemma R_tick d dt j : R (rget d j) (rget (tick d dt) j).
Proof.
  unfold rget, tick. cbn. destruct (d_runs d j) as [r|]; [|apply R_refl]. destruct (expired _ _); [apply R_drop|apply R_refl].
Qed.
Lemma Ch_deliver s r w b : Ch (s_db s) (fst r) -> Ch (s_db s) (s_db (fst (deliver s r w b))).
Proof. destruct r as [d [[i m]|]]; exact (fun H => H). Qed.

(** Every operation: an [R]-step, a claim, an end, or a cancel. *)
Lemma step_change c s o k : d_now (s_db s) = n -> c_ttl c = ttl -> let r := rget (s_db s) k in let r' := rget (s_db (fst (step c s o))) k in
  R r r' \/
  (exists v, claims c k s o v /\ r' = rdel_known (rset_running (fst v) (snd v) r)) \/
  (exists v e res, ends c k s o v /\ r' = rset_expire (Some (n + ttl * 1000000)) (rset_terminal (fst v) (snd v) e res r) /\ 0 < ttl) \/
  (exists v, ends c k s o v /\ r' = rset_cancelled (snd v) (rdel_known r) /\ fst v = SCancelled /\ o = OCancel k (snd v)).
Proof.
  intros N0 T0. cbv zeta. assert (G : Ch (s_db s) (s_db (fst (step c s o))) -> R (rget (s_db s) k) (rget (s_db (fst (step c s o))) k)) by (intros H; apply (H N0)).
  destruct o; lazymatch goal with |- context [step _ _ (OCancel _ _)] => clear G | |- context [OClaim _ _] => clear G | |- context [OTerminal _ _ _ _ _] => clear G | |- context [OTick _] => clear G | _ => left; apply G; clear G end.
  - left. cbn [step]. destruct (0 <=? dt); [apply R_tick|apply R_refl].
  - cbn [step]. unfold do_schedule. pose proof (Ch_schedule (s_db s) (a_key a) (a_when a) (a_when a <=? t) false None (call_msg a)) as H.
    destruct (lua_schedule _ _ _ _ _ _ _). exact H.
  - cbn [step]. unfold do_schedule. pose proof (Ch_schedule (s_db s) (a_key a) (a_when a) (a_when a <=? t) true None (call_msg a)) as H.
    destruct (lua_schedule _ _ _ _ _ _ _). exact H.
  - (* cancel *) cbn [step fst set_db s_db]. unfold lua_cancel. cbv zeta.
    set (d1 := hdel (del_prog (del_legacy (unpark_future _ k0) k0) k0) k0 rdel_known).
    assert (E1 : forall j, rget d1 j = if String.eqb j k0 then rget (hdel (s_db s) k0 rdel_known) k0 else rget (s_db s) j).
    { intros j. unfold d1, rget, hdel, set_runs, del_prog, del_legacy, unpark_future. cbn. unfold upd. rewrite String.eqb_refl.
      destruct (match r_sid _ with Some i => Some i | None => d_lsid (s_db s) k0 end); cbn; destruct (String.eqb j k0); reflexivity. }
    assert (Es : r_state (rget d1 k0) = state_of s k0).
    { rewrite E1, String.eqb_refl. unfold state_of, rget, hdel, set_runs. cbn. unfold upd. rewrite String.eqb_refl. destruct (d_runs (s_db s) k0); reflexivity. }
    assert (C1 : Ch (s_db s) d1).
    { intros _. split; [unfold d1, hdel; cbn; destruct (match r_sid _ with Some i => Some i | None => d_lsid (s_db s) k0 end); exact N0|].
      intros j. rewrite E1. destruct (String.eqb_spec j k0) as [->|]; [|apply R_refl]. apply (Ch_hdel (s_db s) k0 rdel_known R_known N0). }
    clearbody d1. rewrite Es.
    assert (X : (exists st, state_of s k0 = Some st /\ terminal_state st = true) \/ ~ exists st, state_of s k0 = Some st /\ terminal_state st = true).
    { destruct (state_of s k0) as [st|]; [|right; intros (? & ? & _); discriminate]. destruct (terminal_state st) eqn:Et; [left; eauto|].
      right. intros (st' & [= <-] & F). congruence. }
    destruct X as [(st & E & T)|N].
    { left. rewrite E. destruct st; try discriminate T; apply (C1 N0). }
    assert (Y : match state_of s k0 with Some SCompleted | Some SFailed | Some SCancelled => d1 | _ => hset d1 k0 (rset_cancelled t) end = hset d1 k0 (rset_cancelled t)).
    { destruct (state_of s k0) as [[]|]; try reflexivity; exfalso; apply N; eexists; split; reflexivity. }
    rewrite Y. unfold rget at 2 5, hset, set_runs. cbn. unfold upd. destruct (String.eqb_spec k k0) as [->|Ne].
    + right. right. right. exists (SCancelled, t). split; [right; split; [reflexivity|split; [reflexivity|exact N]]|].
      split; [|split; reflexivity]. cbn [default snd]. f_equal. rewrite E1, String.eqb_refl. unfold rget, hdel, set_runs. cbn. unfold upd. rewrite String.eqb_refl.
      destruct (d_runs (s_db s) k0); reflexivity.
    + left. exact (proj2 (C1 N0) k).
  - cbn [step fst set_db s_db]. unfold cancel_finish. rewrite T0. apply Ch_finish.
  - apply Ch_refl.
  - apply Ch_refl.
  - cbn [step]. destruct (ready_clear s w) as [sn|]; [|apply Ch_refl]. pose proof (Ch_clear (s_db s) sn) as H. rewrite <- T0 in H. destruct (clear_apply _ _ _). exact H.
  - cbn [step]. pose proof (Ch_due (s_db s) t) as H. destruct (lua_stream_due _ _) as [d' [a b]]. exact H.
  - apply Ch_deliver. unfold read_group. destruct (next_new _) as [[i m]|]; apply Ch_same; reflexivity.
  - apply Ch_deliver. unfold autoclaim. destruct (find _ _) as [p|]; [|apply Ch_refl]. destruct (claimable _ _ _); [|apply Ch_refl].
    destruct (lookup_entry _ _); apply Ch_same; reflexivity.
  - apply Ch_same. reflexivity.
  - (* claim *) destruct (get_exec (s_execs s) h) as [x|] eqn:Gx; [|left; cbn [step]; rewrite Gx; apply R_refl].
    destruct (x_phase x) eqn:Px; try (left; cbn [step]; rewrite Gx, Px; apply R_refl).
    destruct (superseded (s_db s) (m_key (x_msg x)) (m_gen (x_msg x))) eqn:Su.
    { left. cbn [step]. rewrite Gx, Px. unfold lua_claim. rewrite Su. exact (proj2 (Ch_same (s_db s) _ eq_refl N0) k). }
    assert (Eo : snd (step c s (OClaim h t)) = OClaimed true) by (cbn [step]; rewrite Gx, Px; unfold lua_claim; rewrite Su; reflexivity).
    destruct (String.eqb_spec k (m_key (x_msg x))) as [->|Ne].
    + right. left. exists (x_worker x, t). split; [exists h, x; auto|]. cbn [step]. rewrite Gx, Px. unfold lua_claim. rewrite Su.
      unfold rget, hdel, hset, set_runs, rget; cbn. unfold upd. rewrite !String.eqb_refl. reflexivity.
    + left. cbn [step]. rewrite Gx, Px. unfold lua_claim. rewrite Su.
      unfold rget, hdel, hset, set_runs, rget; cbn. unfold upd. destruct (String.eqb_spec k (m_key (x_msg x))); [contradiction|]. apply R_refl.
  - cbn [step]. destruct (get_exec _ _) as [x|]; [destruct (x_phase x)|]; apply Ch_refl.
  - cbn [step]. destruct (get_exec _ _) as [x|]; [destruct (x_phase x)|]; apply Ch_refl.
  - cbn [step]. destruct (get_exec _ _) as [x|]; [destruct (x_phase x)|]; try apply Ch_refl. unfold delete_known.
    eapply Ch_over; [apply (Ch_hdel (s_db s) (m_key (x_msg x)) rdel_known), R_known|reflexivity].
  - (* terminal *) destruct (get_exec (s_execs s) h) as [x|] eqn:Gx; [|left; cbn [step]; rewrite Gx; apply R_refl].
    destruct (may_finish (x_phase x) s0) eqn:Mf; [|left; cbn [step]; rewrite Gx, Mf; apply R_refl].
    destruct (superseded (s_db s) (m_key (x_msg x)) (m_gen (x_msg x))) eqn:Su.
    { left. cbn [step]. rewrite Gx, Mf. unfold lua_terminal. rewrite Su. apply (Ch_same (s_db s)); [destruct (prog_mine _ _ _); reflexivity|exact N0]. }
    destruct (Z_lt_le_dec 0 (c_ttl c)) as [T|T].
    + destruct (String.eqb_spec k (m_key (x_msg x))) as [->|Ne].
      * right. right. left. exists (s0, t), err, res. split; [left; exists h, err, res, x; auto 8|]. cbn [step]. rewrite Gx, Mf. unfold lua_terminal. rewrite Su.
        replace (0 <? c_ttl c) with true by lia. unfold rget, expire_runs, hdel, hset, set_runs, rget; cbn. unfold upd. rewrite !String.eqb_refl. cbn. rewrite N0, T0. split; [reflexivity|lia].
      * left. cbn [step]. rewrite Gx, Mf. unfold lua_terminal. rewrite Su. replace (0 <? c_ttl c) with true by lia.
        unfold rget, expire_runs, hdel, hset, set_runs, rget; cbn. unfold upd. destruct (String.eqb_spec k (m_key (x_msg x))); [contradiction|]. apply R_refl.
    + left. cbn [step]. rewrite Gx, Mf. unfold lua_terminal. rewrite Su. replace (0 <? c_ttl c) with false by lia.
      unfold rget, del_runs, hset, set_runs, rget; cbn. unfold upd. destruct (String.eqb k (m_key (x_msg x))); [apply R_drop|apply R_refl].
  - cbn [step]. destruct (get_exec _ _) as [x|]; [|apply Ch_refl]. destruct (may_resched _); [|apply Ch_refl].
    pose proof (Ch_schedule (s_db s) (m_key (x_msg x)) when (when <=? t) bump (Some (x_mid x)) (resched_msg (x_msg x) when bump)) as H. exact H.
  - cbn [step]. destruct (get_exec _ _) as [x|]; [|apply Ch_refl]. destruct (x_phase x); try apply Ch_refl. destruct (x_slot x); [apply Ch_refl|].
    pose proof (Ch_acquire (s_db s) c0 maxc (m_key (x_msg x)) t (x_redel x) (t - c_redeliver c) (slot_ttl c) (x_mid x) (x_msg x)) as H.
    destruct (lua_acquire_or_park _ _ _ _ _ _ _ _ _ _). exact H.
  - cbn [step]. destruct (get_exec _ _) as [x|]; [|apply Ch_refl]. destruct (x_slot x) as [[cc mx]|]; [|apply Ch_refl].
    assert (H : Ch (s_db s) (lua_release (s_db s) cc (m_key (x_msg x)) mx (t - c_redeliver c))).
    { unfold lua_release. cbv zeta. eapply Ch_under; [|apply Ch_wake]. destruct (waiters _ cc); reflexivity. }
    destruct (x_phase x); first [exact H|apply Ch_refl].
  - cbn [step]. destruct (get_exec _ _) as [x|]; [|apply Ch_refl]. destruct (x_slot x) as [[cc mx]|]; apply Ch_same; reflexivity.
  - cbn [step fst set_db s_db]. unfold lua_scavenge. destruct (waiters _ _); [apply Ch_refl|]. eapply Ch_under; [|apply Ch_wake]. reflexivity.
  - cbn [step fst set_db s_db]. unfold cancel_cleanup. destruct (own_place _ _ _ _); [|apply Ch_refl]. eapply Ch_under; [|apply Ch_hdel, R_waiter]. reflexivity.
  - apply Ch_refl.
Qed.
End Change.

(** ** Worker and start *)
Definition KeepW (r r' : runs) : Prop :=
  (r_worker r' = r_worker r /\ r_started r' = r_started r /\ (r_state r' = Some SRunning -> r_state r = Some SRunning)) \/
  (r_worker r' = None /\ r_started r' = None /\ r_state r' <> Some SRunning).
Lemma KeepW_refl r : KeepW r r. Proof. left. auto. Qed.
Lemma KeepW_trans a b c : KeepW a b -> KeepW b c -> KeepW a c.
Proof.
  intros [(A & B & C)|(A & B & C)] [(D & E & F)|(D & E & F)].
  - left. rewrite D, E. auto.
  - right. auto.
  - right. rewrite D, E. split; [exact A|split; [exact B|]]. intros X. exact (C (F X)).
  - right. auto.
Qed.

Lemma stepW c s o k : let r := rget (s_db s) k in let r' := rget (s_db (fst (step c s o))) k in
  KeepW r r' \/ exists v, claims c k s o v /\ r_worker r' = Some (fst v) /\ r_started r' = Some (snd v) /\ r_state r' = Some SRunning.
Proof.
  cbv zeta.
  destruct (step_change (d_now (s_db s)) (c_ttl c) KeepW KeepW_refl KeepW_trans) with (c := c) (s := s) (o := o) (k := k) as [H|[(v & A & E)|[(v & e & res & A & E & _)|(v & A & E & Ev & _)]]]; try reflexivity;
    try (intros; left; cbn; split; [reflexivity|split; [reflexivity|intros X; first [discriminate X|exact X]]]);
    try (intros; right; cbn; split; [reflexivity|split; [reflexivity|discriminate]]).
  - left. exact H.
  - right. exists v. rewrite E. auto.
  - left. rewrite E. left. cbn. split; [reflexivity|split; [reflexivity|]]. intros X. injection X as X. exfalso.
    destruct A as [(h & e' & r' & x & _ & _ & _ & Mf & _)|(_ & F & _)]; [|congruence]. rewrite X in Mf. destruct (x_phase x); discriminate.
  - left. rewrite E. left. cbn. split; [reflexivity|split; [reflexivity|discriminate]].
Qed.

Lemma claims_one c k s o v v' : claims c k s o v -> claims c k s o v' -> v = v'.
Proof. intros (h & x & -> & G & _ & W & _) (h' & x' & E & G' & _ & W' & _). injection E as -> T. destruct v, v'; cbn in *. congruence. Qed.
Lemma claims_set c k s o v : claims c k s o v -> let r' := rget (s_db (fst (step c s o))) k in
  r_worker r' = Some (fst v) /\ r_started r' = Some (snd v) /\ r_state r' = Some SRunning.
Proof.
  intros C. pose proof C as (h & x & -> & Gx & K & W & Out). cbv zeta. cbn [step] in *. rewrite Gx in *. destruct (x_phase x); try discriminate Out.
  unfold lua_claim in *. destruct (superseded _ _ _); [discriminate Out|]. subst k. rewrite <- W.
  unfold rget, hdel, hset, set_runs, rget; cbn. unfold upd. rewrite !String.eqb_refl. cbn. auto.
Qed.

(** ** The last of a kind in a history *)
Lemma latest_here {A} c (E : sys -> op -> A -> Prop) l o v : E (final c init_sys l) o v -> latest c E (l ++ [o]) v.
Proof. intros H. exists l, o, []. split; [reflexivity|]. split; [exact H|]. intros l3 o' l4 v' X. destruct l3; discriminate. Qed.
Lemma latest_on {A} c (E : sys -> op -> A -> Prop) l o v : latest c E l v -> (forall v', ~ E (final c init_sys l) o v') -> latest c E (l ++ [o]) v.
Proof.
  intros (l1 & o1 & l2 & -> & H & N) X. exists l1, o1, (l2 ++ [o]). split; [rewrite <- app_assoc; reflexivity|]. split; [exact H|].
  intros l3 o' l4 v' Eq. destruct l4 as [|z l4].
  - apply app_inj_tail in Eq as [-> ->]. apply X.
  - destruct (exists_last (l := z :: l4) ltac:(discriminate)) as (l5 & y & Ey). rewrite Ey in Eq.
    change (l3 ++ o' :: l5 ++ [y]) with (l3 ++ (o' :: l5) ++ [y]) in Eq. rewrite app_assoc in Eq. apply app_inj_tail in Eq as [-> _]. now apply (N l3 o' l5).
Qed.
Lemma final_snoc c l o : final c init_sys (l ++ [o]) = fst (step c (final c init_sys l) o).
Proof. rewrite final_app, final_cons. reflexivity. Qed.

Lemma worker_latest c k l : let r := rget (s_db (final c init_sys l)) k in
  (r_worker r = None /\ r_started r = None /\ r_state r <> Some SRunning) \/
  exists v, latest c (claims c k) l v /\ r_worker r = Some (fst v) /\ r_started r = Some (snd v).
Proof.
  cbv zeta. induction l as [|o l IH] using rev_ind; [left; cbn; repeat split; discriminate|].
  rewrite final_snoc. set (s := final c init_sys l) in *. destruct (stepW c s o k) as [H|(v & C & W & T & _)].
  - destruct H as [(A & B & S)|(A & B & S)]; [|left; auto]. destruct IH as [(W & T & N)|(v & L & W & T)].
    + left. rewrite A, B. split; [exact W|split; [exact T|intros X; exact (N (S X))]].
    + right. exists v. split; [|rewrite A, B; auto].
      assert (X : (exists v', claims c k s o v') \/ forall v', ~ claims c k s o v').
      { destruct o; try (right; intros v' (? & ? & Z & _); discriminate Z). destruct (get_exec (s_execs s) h) as [x|] eqn:Gx;
          [|right; intros v' (h' & x' & Z & G & _); injection Z as <- _; congruence].
        destruct (String.eqb_spec (m_key (x_msg x)) k) as [K|K]; [|right; intros v' (h' & x' & Z & G & K' & _); injection Z as <- _; congruence].
        destruct (snd (step c s (OClaim h t))) as [| | | | | |[]| |] eqn:Eo;
          try (right; intros v' (h' & x' & Z & _ & _ & _ & G); rewrite Eo in G; discriminate G).
        left. exists (x_worker x, t). exists h, x. auto. }
      destruct X as [[v' C]|X]; [|now apply latest_on].
      destruct (claims_set c k s o v' C) as (W' & T' & _). rewrite A, W in W'. rewrite B, T in T'.
      replace v with v' by (destruct v, v'; cbn in *; congruence). now apply latest_here.
  - right. exists v. split; [now apply latest_here|auto].
Qed.

(** ** End *)
Definition done (r : runs) : Prop := exists st, r_state r = Some st /\ terminal_state st = true.
Definition KeepE (r r' : runs) : Prop := (done r' -> r_state r' = r_state r /\ r_completed r' = r_completed r).
Lemma KeepE_refl r : KeepE r r. Proof. intros _. auto. Qed.
Lemma KeepE_trans a b c : KeepE a b -> KeepE b c -> KeepE a c.
Proof. intros A B D. destruct (B D) as [X Y]. destruct A as [A1 A2]; [destruct D as (st & D1 & D2); exists st; split; [congruence|exact D2]|]. split; congruence. Qed.

Lemma stepE c s o k : let r := rget (s_db s) k in let r' := rget (s_db (fst (step c s o))) k in
  KeepE r r' \/ exists v, ends c k s o v /\ r_state r' = Some (fst v) /\ r_completed r' = Some (snd v).
Proof.
  cbv zeta.
  destruct (step_change (d_now (s_db s)) (c_ttl c) KeepE KeepE_refl KeepE_trans) with (c := c) (s := s) (o := o) (k := k) as [H|[(v & A & E)|[(v & e & res & A & E & _)|(v & A & E & Ev & _)]]]; try reflexivity;
    try (intros; intros (st & D & T); cbn in *; first [split; reflexivity | injection D as <-; discriminate T | discriminate D]).
  - left. exact H.
  - left. rewrite E. intros (st & D & T). cbn in D. injection D as <-. discriminate.
  - right. exists v. rewrite E. auto.
  - right. exists v. rewrite E, Ev. auto.
Qed.

Lemma ends_set c k s o v : ends c k s o v -> let r' := rget (s_db (fst (step c s o))) k in r_state r' = Some (fst v) /\ r_completed r' = Some (snd v).
Proof.
  cbv zeta. intros [(h & e & r & x & -> & Gx & <- & Mf & Su & T)|(-> & Ev & N)].
  - cbn [step]. rewrite Gx, Mf. unfold lua_terminal. rewrite Su. replace (0 <? c_ttl c) with true by lia.
    unfold rget, expire_runs, hdel, hset, set_runs, rget; cbn. unfold upd. rewrite !String.eqb_refl. cbn. auto.
  - destruct (stepE c s (OCancel k (snd v)) k) as [H|(v' & E & A & B)].
    + exfalso. apply N. assert (D : r_state (rget (s_db (fst (step c s (OCancel k (snd v))))) k) = Some (match state_of s k with Some SCompleted => SCompleted | Some SFailed => SFailed | _ => SCancelled end)).
      { cbn [step fst set_db s_db]. exact (proj1 (proj2 (EventProofs.cancel_quiet (s_db s) k (snd v)))). }
      assert (F : done (rget (s_db (fst (step c s (OCancel k (snd v))))) k)) by (eexists; split; [exact D|destruct (state_of s k) as [[]|]; reflexivity]).
      destruct (H F) as [H1 _]. destruct F as (st & F1 & F2). exists st. split; [unfold state_of; congruence|exact F2].
    + destruct E as [(h & e & r & x & E & _)|(E & Ev' & _)]; [discriminate E|]. injection E as E. rewrite A, B. split; congruence.
Qed.

Lemma ends_or c k s o : (exists v, ends c k s o v) \/ forall v, ~ ends c k s o v.
Proof.
  destruct o; try (right; intros v [(? & ? & ? & ? & Z & _)|(Z & _)]; discriminate Z).
  - destruct (String.eqb_spec k0 k) as [->|K]; [|right; intros v [(? & ? & ? & ? & Z & _)|(Z & _)]; [discriminate Z|injection Z as Z; congruence]].
    assert (X : done (rget (s_db s) k) \/ ~ done (rget (s_db s) k)).
    { unfold done. destruct (r_state (rget (s_db s) k)) as [st|]; [|right; intros (? & ? & _); discriminate]. destruct (terminal_state st) eqn:Et; [left; eauto|].
      right. intros (st' & [= <-] & F). congruence. }
    destruct X as [X|X]; [right|left; exists (SCancelled, t); right; split; [reflexivity|split; [reflexivity|exact X]]].
    intros v [(? & ? & ? & ? & Z & _)|(_ & _ & N)]; [discriminate Z|exact (N X)].
  - destruct (get_exec (s_execs s) h) as [x|] eqn:Gx; [|right; intros v [(h' & ? & ? & ? & Z & G & _)|(Z & _)]; [injection Z as <- _ _ _ _; congruence|discriminate Z]].
    destruct (String.eqb_spec (m_key (x_msg x)) k) as [K|K]; [|right; intros v [(h' & ? & ? & ? & Z & G & K' & _)|(Z & _)]; [injection Z as <- _ _ _ _; congruence|discriminate Z]].
    destruct (may_finish (x_phase x) s0) eqn:Mf; [|right; intros v [(h' & ? & ? & ? & Z & G & K' & M & _)|(Z & _)]; [injection Z as Z1 Z2 _ _ _; subst h'; rewrite <- Z2 in M; congruence|discriminate Z]].
    destruct (superseded (s_db s) k (m_gen (x_msg x))) eqn:Su; [right; intros v [(h' & ? & ? & ? & Z & G & K' & M & S & _)|(Z & _)]; [injection Z as <- _ _ _ _; congruence|discriminate Z]|].
    destruct (Z_lt_le_dec 0 (c_ttl c)) as [T|T]; [|right; intros v [(h' & ? & ? & ? & Z & G & K' & M & S & L)|(Z & _)]; [lia|discriminate Z]].
    left. exists (s0, t). left. exists h, err, res, x. auto 8.
Qed.

Lemma end_latest c k l st : let r := rget (s_db (final c init_sys l)) k in r_state r = Some st -> terminal_state st = true ->
  exists t, latest c (ends c k) l (st, t) /\ r_completed r = Some t.
Proof.
  cbv zeta. intros S T. assert (D : done (rget (s_db (final c init_sys l)) k)) by (exists st; auto).
  assert (X : exists v, latest c (ends c k) l v /\ r_state (rget (s_db (final c init_sys l)) k) = Some (fst v) /\ r_completed (rget (s_db (final c init_sys l)) k) = Some (snd v)).
  { clear S T. induction l as [|o l IH] using rev_ind; [destruct D as (? & X & _); discriminate X|]. rewrite final_snoc in *. set (s := final c init_sys l) in *.
    destruct (ends_or c k s o) as [[v E]|N]; [exists v; split; [now apply latest_here|exact (ends_set c k s o v E)]|].
    destruct (stepE c s o k) as [H|(v & E & _)]; [|elim (N v E)]. destruct (H D) as [A B]. destruct IH as (v & L & S & T).
    { destruct D as (x & D1 & D2). exists x. split; [congruence|exact D2]. }
    exists v. split; [now apply latest_on|]. rewrite A, B. auto. }
  destruct X as ([st' t] & L & S' & C). cbn in *. exists t. split; [|exact C]. congruence.
Qed.
