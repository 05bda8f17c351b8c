(** Proofs of C123: the record of a task is there until the task ends. *)
From Verif Require Import Base ZSet Model GInv Spec SpecRecord SpecPresence RecordProofs KInv.

Definition on (r : runs) : Prop := r_gen r <> None /\ r_expire r = None.
Definition KeepP (r r' : runs) : Prop := on r -> on r'.
Lemma KeepP_refl r : KeepP r r. Proof. exact (fun H => H). Qed.
Lemma KeepP_trans a b c : KeepP a b -> KeepP b c -> KeepP a c. Proof. intros A B H. exact (B (A H)). Qed.

Lemma lasting_on s k : lasting s k <-> on (rget (s_db s) k).
Proof.
  unfold lasting, on, rget. split.
  - intros (r & -> & H). exact H.
  - destruct (d_runs (s_db s) k) as [r|]; [intros H; exists r; split; [reflexivity|exact H]|]. intros [H _]. elim H. reflexivity.
Qed.

Section Key.
Variable k : key.
Hypothesis K0 : forall j, k <> safeguard_key j.
Definition Kp (d d' : db) : Prop := KeepP (rget d k) (rget d' k).
Lemma Kp_trans a b c : Kp a b -> Kp b c -> Kp a c. Proof. apply KeepP_trans. Qed.
Lemma Kp_same d d' : d_runs d' = d_runs d -> Kp d d'. Proof. intros E. unfold Kp, rget. rewrite E. apply KeepP_refl. Qed.
Lemma Kp_ch d d' : Ch (d_now d) KeepP d d' -> Kp d d'. Proof. intros H. apply (proj2 (H eq_refl) k). Qed.
Lemma Kp_ne d j f : j <> k -> Kp d (hdel d j f).
Proof. intros N. unfold Kp, rget, hdel, set_runs. cbn. unfold upd. destruct (String.eqb_spec k j); [congruence|]. apply KeepP_refl. Qed.
Lemma Kp_del_ne d j : j <> k -> Kp d (del_runs d j).
Proof. intros N. unfold Kp, rget, del_runs, set_runs. cbn. unfold upd. destruct (String.eqb_spec k j); [congruence|]. apply KeepP_refl. Qed.
Lemma Kp_hset d j f : (forall r, KeepP r (f r)) -> Kp d (hset d j f).
Proof. intros H. unfold Kp, rget at 2, hset, set_runs. cbn. unfold upd. destruct (String.eqb_spec k j) as [<-|]; [apply H|apply KeepP_refl]. Qed.
Lemma Kp_hdel d j f : (forall r, KeepP r (f r)) -> Kp d (hdel d j f).
Proof.
  intros H. unfold Kp, rget at 2, hdel, set_runs. cbn. unfold upd. destruct (String.eqb_spec k j) as [<-|]; [|apply KeepP_refl]. unfold rget.
  destruct (d_runs d k); cbn; [apply H|apply KeepP_refl].
Qed.
Lemma Kp_fold {A} (f : db -> A -> db) l : (forall d x, In x l -> Kp d (f d x)) -> forall d, Kp d (fold_left f l d).
Proof.
  induction l as [|x l IH]; intros H d; [apply KeepP_refl|]. cbn. eapply Kp_trans; [apply H; now left|]. apply IH. intros d' y I. apply H. now right.
Qed.
Lemma Kp_finish ttl d j : j <> k -> Kp d (if 0 <? ttl then expire_runs d j ttl else del_runs d j).
Proof. intros N. destruct (0 <? ttl); [now apply Kp_ne|now apply Kp_del_ne]. Qed.
Lemma Kp_schedule d j w imm repl mid m : Kp d (fst (lua_schedule d j w imm repl mid m)).
Proof.
  apply Kp_ch. apply Ch_schedule; try exact KeepP_refl; try exact KeepP_trans; intros; intros [A B]; split; cbn in *; first [assumption|discriminate].
Qed.
Lemma Kp_due d t : Kp d (fst (lua_stream_due d t)).
Proof.
  apply Kp_ch. apply Ch_due; try exact KeepP_refl; try exact KeepP_trans; intros; intros [A B]; split; cbn in *; first [assumption|discriminate].
Qed.
Lemma Kp_acquire d c mx j t redel stale sl mid m : Kp d (fst (lua_acquire_or_park d c mx j t redel stale sl mid m)).
Proof.
  apply Kp_ch. apply Ch_acquire; try exact KeepP_refl; try exact KeepP_trans; intros; intros [A B]; split; cbn in *; first [assumption|discriminate].
Qed.
Lemma Kp_drop d j : Kp d (drop_safeguard d j).
Proof. unfold drop_safeguard. eapply Kp_trans; [|apply Kp_del_ne; exact (fun E => K0 j (eq_sym E))]. apply Kp_same. reflexivity. Qed.
Lemma Kp_wake_one c d e : Kp d (wake_one c d e).
Proof.
  destruct e as [i m]. unfold wake_one.
  assert (Q : Kp d (drop_safeguard (del_waiter c i d) (m_key m))) by (eapply Kp_trans; [|apply Kp_drop]; apply Kp_same; reflexivity).
  destruct (r_state (rget d (m_key m))) as [[]|]; try exact Q. clear Q.
  assert (H : Kp d (fst (hincr_gen d (m_key m)))) by (apply Kp_hset; intros r [A B]; split; cbn; [discriminate|exact B]).
  destruct (hincr_gen d (m_key m)) as [d1 g]. cbn [fst] in H. unfold xadd. cbv zeta.
  eapply Kp_trans; [|apply Kp_same; reflexivity]. eapply Kp_trans; [|apply Kp_drop]. eapply Kp_trans; [exact H|].
  eapply Kp_trans; [|apply Kp_hset; intros r [A B]; split; cbn; [exact A|exact B]]. apply Kp_same. reflexivity.
Qed.
Lemma Kp_wake d c cap : Kp d (wake d c cap).
Proof. unfold wake. destruct (0 <? cap); [|apply KeepP_refl]. apply Kp_fold. intros. apply Kp_wake_one. Qed.
Lemma Kp_clear ttl d sn : ~ In k (cs_queue_keys sn) -> ~ In k (cs_stream_keys sn) -> Kp d (fst (clear_apply ttl d sn)).
Proof.
  intros Q S. unfold clear_apply. cbv zeta. cbn [fst]. eapply Kp_trans; [|apply Kp_fold; intros e j I; apply Kp_finish; intros ->; contradiction].
  eapply Kp_trans; [|apply Kp_fold; intros e j I; unfold clear_scheduled; eapply Kp_trans; [|apply Kp_finish; intros ->; contradiction]; apply Kp_same; reflexivity].
  destruct (0 <? cs_count sn); apply Kp_same; reflexivity.
Qed.
Lemma Kp_tick d dt : Kp d (tick d dt).
Proof. unfold Kp, rget, tick. cbn. destruct (d_runs d k) as [r|]; [|apply KeepP_refl]. intros H. destruct H as [A B]. cbn in *. rewrite B. cbn. split; assumption. Qed.

Lemma step_keeps c s o : ~ retires k s o -> Kp (s_db s) (s_db (fst (step c s o))).
Proof.
  intros NR. destruct o; cbn [step].
  - destruct (0 <=? dt); [apply Kp_tick|apply KeepP_refl].
  - unfold do_schedule. pose proof (Kp_schedule (s_db s) (a_key a) (a_when a) (a_when a <=? t) false None (call_msg a)) as H. destruct (lua_schedule _ _ _ _ _ _ _). exact H.
  - unfold do_schedule. pose proof (Kp_schedule (s_db s) (a_key a) (a_when a) (a_when a <=? t) true None (call_msg a)) as H. destruct (lua_schedule _ _ _ _ _ _ _). exact H.
  - cbn [fst set_db s_db]. unfold lua_cancel. cbv zeta. set (d1 := hdel _ k0 rdel_known).
    assert (E : Kp (s_db s) d1).
    { unfold d1. eapply Kp_trans; [|apply Kp_hdel; intros r [A B]; split; [exact A|exact B]]. apply Kp_same.
      destruct (match r_sid _ with Some i => Some i | None => d_lsid (s_db s) k0 end); reflexivity. }
    clearbody d1. destruct (r_state (rget d1 k0)) as [[]|]; try exact E; (eapply Kp_trans; [exact E|apply Kp_hset; intros r [A B]; split; [exact A|exact B]]).
  - cbn [fst set_db s_db]. apply Kp_finish. intros ->. apply NR. right. now left.
  - apply KeepP_refl.
  - apply KeepP_refl.
  - destruct (ready_clear s w) as [sn|] eqn:Er; [|apply KeepP_refl]. pose proof (Kp_clear (c_ttl c) (s_db s) sn) as H. destruct (clear_apply _ _ _). apply H; intros I; apply NR; right; right; exists w, sn; auto.
  - pose proof (Kp_due (s_db s) t) as H. destruct (lua_stream_due _ _) as [d' [a b]]. exact H.
  - unfold read_group. destruct (next_new _) as [[i m]|]; apply Kp_same; reflexivity.
  - unfold autoclaim. destruct (find _ _) as [p|]; [|apply KeepP_refl]. destruct (claimable _ _ _); [|apply KeepP_refl]. destruct (lookup_entry _ _); apply Kp_same; reflexivity.
  - apply Kp_same. reflexivity.
  - destruct (get_exec _ _) as [x|]; [destruct (x_phase x)|]; try apply KeepP_refl. unfold lua_claim. destruct (superseded _ _ _); [apply Kp_same; reflexivity|].
    cbn [fst set_db s_db]. eapply Kp_trans; [apply (Kp_hset (s_db s) (m_key (x_msg x)) (rset_running (x_worker x) t)); intros r [A B]; split; [exact A|exact B]|].
    eapply Kp_trans; [|apply (Kp_trans _ _ _ (Kp_hdel _ (m_key (x_msg x)) rdel_known (fun r H => H))); apply Kp_same; reflexivity]. apply Kp_same. reflexivity.
  - destruct (get_exec _ _) as [x|]; [destruct (x_phase x)|]; apply KeepP_refl.
  - destruct (get_exec _ _) as [x|]; [destruct (x_phase x)|]; apply KeepP_refl.
  - destruct (get_exec _ _) as [x|]; [destruct (x_phase x)|]; try apply KeepP_refl. apply (Kp_hdel (s_db s) (m_key (x_msg x)) rdel_known). intros r H. exact H.
  - destruct (get_exec (s_execs s) h) as [x|] eqn:Gx; [|apply KeepP_refl]. destruct (may_finish _ _) eqn:Mf; [|apply KeepP_refl].
    unfold lua_terminal. destruct (superseded _ _ _) eqn:Su; [destruct (prog_mine _ _ _); apply Kp_same; reflexivity|].
    destruct (String.eqb_spec (m_key (x_msg x)) k) as [E|N].
    { elim NR. left. cbn. exists x. rewrite <- E. auto. }
    cbn [fst set_db s_db]. eapply Kp_trans; [|apply Kp_same; reflexivity]. eapply Kp_trans; [|apply Kp_finish, N].
    unfold Kp, rget, hset, set_runs. cbn. unfold upd. destruct (String.eqb_spec k (m_key (x_msg x))); [congruence|]. apply KeepP_refl.
  - destruct (get_exec _ _) as [x|]; [|apply KeepP_refl]. destruct (may_resched _); [|apply KeepP_refl].
    exact (Kp_schedule (s_db s) (m_key (x_msg x)) when (when <=? t) bump (Some (x_mid x)) (resched_msg (x_msg x) when bump)).
  - destruct (get_exec _ _) as [x|]; [|apply KeepP_refl]. destruct (x_phase x); try apply KeepP_refl. destruct (x_slot x); [apply KeepP_refl|].
    pose proof (Kp_acquire (s_db s) c0 maxc (m_key (x_msg x)) t (x_redel x) (t - c_redeliver c) (slot_ttl c) (x_mid x) (x_msg x)) as H.
    destruct (lua_acquire_or_park _ _ _ _ _ _ _ _ _ _). exact H.
  - destruct (get_exec _ _) as [x|]; [|apply KeepP_refl]. destruct (x_slot x) as [[cc mx]|]; [|apply KeepP_refl].
    assert (H : Kp (s_db s) (lua_release (s_db s) cc (m_key (x_msg x)) mx (t - c_redeliver c))).
    { unfold lua_release. cbv zeta. eapply Kp_trans; [|apply Kp_wake]. apply Kp_same. destruct (waiters _ cc); reflexivity. }
    destruct (x_phase x); first [exact H|apply KeepP_refl].
  - destruct (get_exec _ _) as [x|]; [|apply KeepP_refl]. destruct (x_slot x) as [[cc mx]|]; apply Kp_same; reflexivity.
  - cbn [fst set_db s_db]. unfold lua_scavenge. destruct (waiters _ _); [apply KeepP_refl|]. eapply Kp_trans; [|apply Kp_wake]. apply Kp_same. reflexivity.
  - cbn [fst set_db s_db]. unfold cancel_cleanup. destruct (own_place _ _ _ _); [|apply KeepP_refl]. eapply Kp_trans; [|apply Kp_hdel; intros r H; exact H]. apply Kp_same. reflexivity.
  - apply KeepP_refl.
Qed.
End Key.

Lemma stays c k l : ordinary k -> forall s, lasting s k -> along c (fun s o => ~ retires k s o) s l -> lasting (final c s l) k.
Proof.
  intros O. induction l as [|o l IH]; intros s L A; [exact L|]. rewrite final_cons. destruct A as [A1 A2]. apply IH; [|exact A2].
  apply lasting_on. apply lasting_on in L. exact (step_keeps k O c s o A1 L).
Qed.

Lemma accepted c s o a : accepts c s o a -> d_runs (s_db s) (a_key a) = None \/ lasting s (a_key a) -> lasting (fst (step c s o)) (a_key a).
Proof.
  intros [[t T] A] L. apply lasting_on.
  assert (E : r_expire (rget (s_db s) (a_key a)) = None) by (destruct L as [L|L]; [unfold rget; rewrite L; reflexivity|apply lasting_on in L; apply L]).
  assert (X : forall d w imm m, r_expire (rget d (a_key a)) = None -> on (rget (place d (a_key a) w imm false m) (a_key a))).
  { intros d w imm m E0. unfold place, hincr_gen. destruct imm; unfold xadd, rget, hset, set_runs, rget; cbn; unfold upd; rewrite !String.eqb_refl; cbn; split; try discriminate; exact E0. }
  destruct T as [-> | ->]; cbn [step] in *; unfold do_schedule, lua_schedule in *.
  - destruct (negb false && lua_exists _ _); [discriminate A|]. cbn [fst set_db s_db]. apply (X (s_db s)), E.
  - cbn [negb andb] in *. cbn [fst set_db s_db]. apply (X (lua_replace_existing (s_db s) (a_key a))). unfold rget in *. unfold lua_replace_existing.
    destruct (match r_sid _ with Some i => Some i | None => d_lsid (s_db s) (a_key a) end); exact E.
Qed.
