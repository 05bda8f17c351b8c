(** C105: what stays true when executions can have several outcomes. *)
From Verif Require Import Base ZSet Model Twice GInv KView KSim Spec KInv Hist Steps Steps3 Count SpecConc ConcProofs ConcHist SpecTwice RecoverProofs PropsConc.
From Verif Require Execute ExecuteProofs PropsExecute PropsHist.

(** ** Re-opening keeps everything but the phase of executions that are over *)
Definition reo (x : exec) : exec := match x_phase x with PDone => with_phase PEnded x | _ => x end.
Lemma reo_same x : x_id (reo x) = x_id x /\ x_mid (reo x) = x_mid x /\ x_msg (reo x) = x_msg x.
Proof. unfold reo. destruct (x_phase x); auto. Qed.
Lemma reo_more x : x_worker (reo x) = x_worker x /\ x_slot (reo x) = x_slot x.
Proof. unfold reo. destruct (x_phase x); auto. Qed.
Lemma reo_early x : x_phase (reo x) = PDelivered \/ x_phase (reo x) = PClaimed \/ x_phase (reo x) = PBody \/ x_phase (reo x) = PStruck -> reo x = x.
Proof. unfold reo. destruct (x_phase x) eqn:E; cbn; auto; intros [H|[H|[H|H]]]; discriminate H. Qed.
Definition rexecs (o : op) (l : list exec) : list exec :=
  match o with OTerminal h _ _ _ _ | OResched h _ _ _ => upd_exec l h reo | _ => l end.
Lemma reopen_execs s o : s_execs (reopen s o) = rexecs o (s_execs s).
Proof. destruct o; reflexivity. Qed.
Lemma reopen_db s o : s_db (reopen s o) = s_db s.
Proof. destruct o; reflexivity. Qed.
Lemma reopen_next s o : s_nextx (reopen s o) = s_nextx s.
Proof. destruct o; reflexivity. Qed.
Lemma reopen_In s o x : In x (s_execs (reopen s o)) -> exists y, In y (s_execs s) /\ (x = y \/ x = reo y).
Proof.
  rewrite reopen_execs. destruct o; cbn [rexecs]; intros H; try (exists x; auto; fail).
  all: apply upd_exec_In in H as (y & Hy & [->|[_ ->]]); eauto.
Qed.
Lemma reopen_In_same s o x : In x (s_execs (reopen s o)) -> exists y, In y (s_execs s) /\
  x_id x = x_id y /\ x_mid x = x_mid y /\ x_msg x = x_msg y /\ x_slot x = x_slot y /\ x_worker x = x_worker y /\ (x = y \/ (x_phase y = PDone /\ x_phase x = PEnded)).
Proof.
  intros H. apply reopen_In in H as (y & Hy & [->| ->]); exists y; [auto 9|]. destruct (reo_same y) as (A & B & C). destruct (reo_more y) as (D & E).
  repeat split; auto. unfold reo. destruct (x_phase y); auto.
Qed.
Lemma GInv_reopen s o : GInv s -> GInv (reopen s o).
Proof. intros G. destruct o; try exact G; (apply (GInv_upd s (s_db s)); [exact G|apply good_refl|exact reo_same]). Qed.
Lemma kabs_reopen k s o : kabs k (reopen s o) = kset_execs (kabs k s) (filter (xhas_key k) (rexecs o (s_execs s))).
Proof. unfold kabs, kd. rewrite reopen_db, reopen_execs. reflexivity. Qed.
Lemma filter_reo k h l : filter (xhas_key k) (upd_exec l h reo) = upd_exec (filter (xhas_key k) l) h reo.
Proof.
  unfold upd_exec. induction l as [|y l IH]; [reflexivity|]. cbn [map filter].
  assert (E : xhas_key k (if x_id y =? h then reo y else y) = xhas_key k y) by (destruct (x_id y =? h); [unfold xhas_key; now rewrite (proj2 (proj2 (reo_same y)))|reflexivity]).
  rewrite E. destruct (xhas_key k y); cbn [map]; now rewrite IH.
Qed.
Lemma UInv_reopen k s o : UInv k (kabs k s) -> UInv k (kabs k (reopen s o)).
Proof.
  intros U. rewrite kabs_reopen. destruct o; try exact U; cbn [rexecs]; rewrite filter_reo; (apply (UInv_execs k (kabs k s)); [exact U|exact reo_same]).
Qed.

Lemma GInv_step2 c s o : GInv s -> GInv (fst (step2 c s o)).
Proof. intros G. apply GInv_step, GInv_reopen, G. Qed.
Lemma UInv_step2 c k s o : GInv s -> UInv k (kabs k s) -> UInv k (kabs k (fst (step2 c s o))).
Proof. intros G U. apply UInv_step; [now apply GInv_reopen|now apply UInv_reopen]. Qed.
Lemma final2_cons c s o l : final2 c s (o :: l) = final2 c (fst (step2 c s o)) l.
Proof. unfold final2. cbn [run2]. destruct (step2 c s o) as [s1 r]. cbn [fst]. destruct (run2 c s1 l). reflexivity. Qed.
Lemma final2_app c l1 : forall s l2, final2 c s (l1 ++ l2) = final2 c (final2 c s l1) l2.
Proof. induction l1 as [|o l1 IH]; intros s l2; [reflexivity|]. cbn [app]. rewrite !final2_cons. apply IH. Qed.
Lemma GInv_final2 c l : forall s, GInv s -> GInv (final2 c s l).
Proof. induction l as [|o l IH]; intros s G; [exact G|]. rewrite final2_cons. apply IH, GInv_step2, G. Qed.
Lemma UInv_final2 c k l : forall s, GInv s -> UInv k (kabs k s) -> UInv k (kabs k (final2 c s l)).
Proof. induction l as [|o l IH]; intros s G U; [exact U|]. rewrite final2_cons. apply IH; [now apply GInv_step2|now apply UInv_step2]. Qed.

(** ** Not before the time *)
Lemma Due_reopen T k s o : Due T (kabs k s) -> Due T (kabs k (reopen s o)).
Proof.
  intros [D1 D2 D3]. rewrite kabs_reopen. constructor; [exact D1|exact D2|]. cbn [k_execs kset_execs].
  assert (Q : forall h x, In x (filter (xhas_key k) (upd_exec (s_execs s) h reo)) -> m_when (x_msg x) <= T).
  { intros h x H. rewrite filter_reo in H. apply upd_exec_In in H as (y & Hy & [->|[_ ->]]); [|rewrite (proj2 (proj2 (reo_same y)))]; now apply D3. }
  destruct o; try exact D3; apply Q.
Qed.
Lemma Due_final2 c k skew l : forall s, GInv s -> UInv k (kabs k s) -> along2 c (clock_within skew) s l ->
  Due (d_now (s_db s) + skew) (kabs k s) -> Due (d_now (s_db (final2 c s l)) + skew) (kabs k (final2 c s l)).
Proof.
  induction l as [|o l IH]; intros s G U A D; [exact D|]. destruct A as [A1 A2]. rewrite final2_cons.
  apply IH; [now apply GInv_step2|now apply UInv_step2|exact A2|].
  apply (Due_mono (d_now (s_db s) + skew)); [unfold step2; pose proof (now_step c (reopen s o) o) as N; rewrite reopen_db in N; lia|].
  unfold step2. apply step_ind; [now apply GInv_reopen|now apply UInv_reopen| |now apply Due_reopen]. intros v e Hok L U1 U2 _ H. eapply Due_apply; eauto.
Qed.

(** C105.  Further outcomes of a message that has one do no further harm.
    No body starts before its time (C07). *)
Theorem C105_not_before_time c skew l o m i : along2 c (clock_within skew) init_sys l ->
  starts2 c (final2 c init_sys l) o m i -> m_when m <= d_now (s_db (final2 c init_sys l)) + skew.
Proof.
  intros A S. set (k := m_key m).
  assert (D : Due (d_now (s_db (final2 c init_sys l)) + skew) (kabs k (final2 c init_sys l))).
  { apply Due_final2; [apply GInv_init|apply UInv_init|exact A|]. constructor; simpl; contradiction. }
  unfold starts2, step2 in S. apply starts_inv in S as (h & x & -> & Hx & Hp & <- & <-). apply get_exec_spec in Hx as [Hin _].
  apply (du_exec _ _ D). apply kexecs_In. auto.
Qed.
Print Assumptions C105_not_before_time.

(** ** The scheduler *)
Lemma score_nonneg2 c k l : forall s, GInv s -> UInv k (kabs k s) -> along2 c after_epoch s l ->
  (forall w, k_score (kabs k s) = Some w -> 0 <= w) ->
  forall w, k_score (kabs k (final2 c s l)) = Some w -> 0 <= w.
Proof.
  induction l as [|o l IH]; intros s G U A H; [exact H|]. destruct A as [A1 A2]. rewrite final2_cons.
  apply IH; [now apply GInv_step2|now apply UInv_step2|exact A2|]. unfold step2.
  apply (step_ind c k (reopen s o) o (fun v => forall w, k_score v = Some w -> 0 <= w)); [now apply GInv_reopen|now apply UInv_reopen| |rewrite kabs_reopen; exact H].
  intros v e Hok L _ _ _ HP w Hw. apply (score_apply c k v e w Hok) in Hw as [Hw|[(repl & a & -> & ->)|(x & b & ->)]]; [auto| |]; simpl in L.
  - destruct L as (t & -> & E). assert (0 <= t) by (apply A1; destruct repl; reflexivity). lia.
  - destruct L as (t & -> & E). specialize (A1 t eq_refl). lia.
Qed.

(** The scheduler moves exactly the due tasks (C08). *)
Theorem C105_scheduler_moves_exactly_due c s t l : along2 c after_epoch init_sys l -> s = final2 c init_sys l ->
  let s' := fst (step2 c s (OScheduler t)) in
  exists ms,
    snd (step2 c s (OScheduler t)) = OMoved (zcard (d_queue (s_db s))) (Z.of_nat (length ms)) /\
    d_stream (s_db s') = d_stream (s_db s) ++ numbered (d_next (s_db s)) ms /\
    NoDup (map m_key ms) /\ in_time_order ms /\
    (forall m, In m ms <-> in_future s m /\ m_when m <= t) /\
    (forall m, in_future s' m <-> in_future s m /\ t < m_when m).
Proof.
  intros A E s'.
  assert (N : forall k w, zscore k (d_queue (s_db s)) = Some w -> 0 <= w).
  { intros k w H. subst s. apply (score_nonneg2 c k l init_sys); [apply GInv_init|apply UInv_init|exact A|simpl; discriminate|exact H]. }
  assert (G : GInv s) by (subst s; apply GInv_final2, GInv_init).
  assert (U : forall k, UInv k (kabs k s)) by (intros k; subst s; apply UInv_final2; [apply GInv_init|apply UInv_init]).
  destruct (scheduler_moves_due_inv c s t G U) as (ms & H1 & H2 & H3 & H4 & H5 & H6 & _).
  exists ms. split; [exact H1|]. split; [exact H2|]. split; [exact H3|]. split; [exact H4|]. split.
  - intros m. rewrite H5. split; intros [X Y]; (split; [exact X|]); [lia|]. pose proof (N _ _ (proj2 X)). lia.
  - intros m. change s' with (fst (step c s (OScheduler t))). rewrite H6. split; intros [X Y]; (split; [exact X|]); [pose proof (N _ _ (proj2 X))|]; lia.
Qed.
Print Assumptions C105_scheduler_moves_exactly_due.

(** ** How often bodies start *)
Lemma tok_reopen p k s o : tok p (waits p) (kabs k (reopen s o)) = tok p (waits p) (kabs k s).
Proof.
  rewrite kabs_reopen. unfold tok, nS, nP, nW, nE. cbn [kset_execs k_stream k_parked k_wait k_execs k_last]. f_equal.
  assert (Q : forall h l, cnt (fun x => waits p (x_phase x) (x_msg x)) (upd_exec l h reo) = cnt (fun x => waits p (x_phase x) (x_msg x)) l).
  { intros h l. unfold upd_exec. induction l as [|y l IH]; [reflexivity|]. cbn [map]. rewrite !cnt_cons, IH. f_equal. destruct (x_id y =? h); [|reflexivity].
    unfold reo. destruct (x_phase y) eqn:E; rewrite ?E; reflexivity. }
  destruct o; try reflexivity; cbn [rexecs]; rewrite filter_reo; apply Q.
Qed.
Lemma get_reopen s o h x : get_exec (s_execs (reopen s o)) h = Some x -> exists y, get_exec (s_execs s) h = Some y /\ x_msg x = x_msg y.
Proof.
  rewrite reopen_execs. assert (Q : forall l h', get_exec (upd_exec l h' reo) h = Some x -> exists y, get_exec l h = Some y /\ x_msg x = x_msg y).
  { unfold get_exec, upd_exec. induction l as [|y l IH]; intros h' H; [discriminate H|]. cbn [map find] in *.
    assert (E : x_id (if x_id y =? h' then reo y else y) = x_id y) by (destruct (x_id y =? h'); [apply reo_same|reflexivity]). rewrite E in H.
    destruct (x_id y =? h); [|exact (IH h' H)]. injection H as <-. exists y. split; [reflexivity|]. destruct (x_id y =? h'); [apply reo_same|reflexivity]. }
  destruct o; cbn [rexecs]; eauto.
Qed.
Lemma n_retried_le c p s o : n_retried p (reopen s o) o (snd (step2 c s o)) <= n_rescheduled p s o (snd (step2 c s o)).
Proof.
  destruct o; cbn [n_retried n_rescheduled]; try lia. destruct (get_exec (s_execs (reopen s (OResched h when bump t))) h) as [x|] eqn:E.
  - destruct (get_reopen _ _ _ _ E) as (y & -> & Em). unfold step2. cbn [step]. rewrite E. destruct (may_resched (x_phase x)).
    + destruct (lua_schedule _ _ _ _ _ _ _). cbn [snd andb]. rewrite Em. destruct (p (x_msg y)); lia.
    + cbn [andb snd]. lia.
  - destruct (snd _); destruct (get_exec (s_execs s) h) as [y|]; try lia. destruct (p (x_msg y)); lia.
Qed.
Lemma starts_total2 c p k l : of_payload p -> (forall m, p m = true -> m_key m = k) -> forall s, GInv s -> UInv k (kabs k s) ->
  tok p (waits p) (kabs k (final2 c s l)) + total2 c (n_starts p) s l <=
  tok p (waits p) (kabs k s) + total2 c (n_accepted p) s l + total2 c (n_redelivered p) s l + total2 c (n_rescheduled p) s l.
Proof.
  intros Hp Hk. induction l as [|o l IH]; intros s G U; [cbn; lia|]. rewrite final2_cons. cbn [total2].
  specialize (IH (fst (step2 c s o)) (GInv_step2 c s o G) (UInv_step2 c k s o G U)).
  pose proof (start_step p k Hp Hk c (reopen s o) o (GInv_reopen s o G) (UInv_reopen k s o U)) as H. cbv zeta in H. rewrite tok_reopen in H.
  pose proof (n_retried_le c p s o) as R. unfold step2 in *.
  change (n_starts p (reopen s o)) with (n_starts p s) in H. change (n_accepted p (reopen s o)) with (n_accepted p s) in H.
  change (n_redelivered p (reopen s o)) with (n_redelivered p s) in H. lia.
Qed.

(** The bodies that start are at most as many as the accepted calls, the redeliveries and the reschedules that were carried out (C09). *)
Theorem C105_starts_bounded c k p l : of_payload p -> (forall m, p m = true -> m_key m = k) ->
  total2 c (n_starts p) init_sys l <=
  total2 c (n_accepted p) init_sys l + total2 c (n_redelivered p) init_sys l + total2 c (n_rescheduled p) init_sys l.
Proof.
  intros Hp Hk. pose proof (starts_total2 c p k l Hp Hk init_sys GInv_init (UInv_init k)) as H. rewrite tok_init in H.
  pose proof (tok_nonneg p (waits p) (kabs k (final2 c init_sys l))). lia.
Qed.
Print Assumptions C105_starts_bounded.

Lemma etok_reopen i s o : etok i (reopen s o) = etok i s.
Proof.
  unfold etok. rewrite reopen_db, reopen_execs. f_equal.
  assert (Q : forall h l, cnt (fun x => (x_mid x =? i) && waiting_phase (x_phase x)) (upd_exec l h reo) = cnt (fun x => (x_mid x =? i) && waiting_phase (x_phase x)) l).
  { intros h l. unfold upd_exec. induction l as [|y l IH]; [reflexivity|]. cbn [map]. rewrite !cnt_cons, IH. f_equal. destruct (x_id y =? h); [|reflexivity].
    unfold reo. destruct (x_phase y) eqn:E; rewrite ?E; reflexivity. }
  destruct o; try reflexivity; apply Q.
Qed.
Lemma entry_total2 i c l : forall s, GInv s ->
  etok i (final2 c s l) + total2 c (n_started i) s l <= etok i s + total2 c (n_redelivered_entry i) s l.
Proof.
  induction l as [|o l IH]; intros s G; [cbn; lia|]. rewrite final2_cons. cbn [total2].
  specialize (IH (fst (step2 c s o)) (GInv_step2 c s o G)). pose proof (entry_step i c (reopen s o) o (GInv_reopen s o G)) as H. rewrite etok_reopen in H.
  unfold step2 in *. change (n_started i (reopen s o)) with (n_started i s) in H. change (n_redelivered_entry i (reopen s o)) with (n_redelivered_entry i s) in H. lia.
Qed.
(** Each delivery of a message starts it at most once. *)
Theorem C105_once_per_delivery c l i : total2 c (n_started i) init_sys l <= 1 + total2 c (n_redelivered_entry i) init_sys l.
Proof.
  pose proof (entry_total2 i c l init_sys GInv_init) as H. unfold etok in H.
  match type of H with cnt ?f ?x + _ + _ <= _ => pose proof (cnt_nonneg f x) end.
  pose proof (b2z_range (d_last (s_db (final2 c init_sys l)) <? i)). pose proof (b2z_range (d_last (s_db init_sys) <? i)). cbn [init_sys s_execs] in H. rewrite cnt_nil in H. lia.
Qed.
Print Assumptions C105_once_per_delivery.

(** ** Messages and keys *)
(** A message leaves the stream only for a stated reason (C11). *)
Theorem C105_leaves_only_for_a_reason c l o i m : let s := final2 c init_sys l in on_stream s i m ->
  on_stream (fst (step2 c s o)) i m \/ leaves_for_a_reason2 c s o i m.
Proof.
  intros s H. assert (G : GInv s) by apply GInv_final2, GInv_init. 
  assert (H' : on_stream (reopen s o) i m) by (unfold on_stream in *; now rewrite reopen_db).
  destruct (leaves_only_for_a_reason c (reopen s o) o i m (GInv_reopen s o G) H') as [K|K]; [left; exact K|right].
  destruct K as [(x & Hx & Em & Eg & K)|K]; [|right; exact K]. left.
  destruct (reopen_In_same s o x Hx) as (y & Hy & I1 & I2 & I3 & _). exists y. rewrite <- I1, <- I2, <- I3. repeat (split; [assumption|]).
  assert (Gx : get_exec (s_execs (reopen s o)) (x_id x) = Some x) by (apply get_exec_In; [apply GInv_reopen, G|exact Hx]).
  destruct K as [(st & t & e & r & Eo & K)|[(w & b & t & Eo & K)|[(cc & mx & t & Eo & K)|(t & Eo & K & K')]]].
  - left. exists st, t, e, r. split; [exact Eo|]. unfold step2. rewrite Eo in Gx |- *. cbn [step]. rewrite Gx, K. destruct (lua_terminal _ _ _ _ _ _ _ _ _). reflexivity.
  - right; left. exists w, b, t. split; [exact Eo|]. unfold step2. rewrite Eo in Gx |- *. cbn [step]. rewrite Gx, K. destruct (lua_schedule _ _ _ _ _ _ _). reflexivity.
  - right; right; left. exists cc, mx, t. auto.
  - right; right; right. exists t. split; [exact Eo|]. split; [exact K|]. now rewrite reopen_db in K'.
Qed.
Print Assumptions C105_leaves_only_for_a_reason.

(** An operation on one key leaves the others alone (C21). *)
Theorem C105_frame c l o k k' : let s := final2 c init_sys l in op_key s o = Some k -> k' <> k -> same_for k' s (fst (step2 c s o)).
Proof.
  intros s Ho N. assert (G : GInv s) by apply GInv_final2, GInv_init.
  assert (Ho' : op_key (reopen s o) o = Some k).
  { destruct o; try exact Ho; cbn [op_key] in *; destruct (get_exec (s_execs s) h) as [y|] eqn:E; try discriminate Ho; cbn in Ho; injection Ho as <-;
      cbn [reopen s_execs]; assert (Q : get_exec (upd_exec (s_execs s) h reo) h = Some (reo y)) by (apply get_upd_same; [apply reo_same|exact E]); unfold reo in Q at 1; rewrite Q; cbn; now rewrite (proj2 (proj2 (reo_same y))). }
  assert (X : forall x, m_key (x_msg x) = k' -> In x (s_execs (reopen s o)) <-> In x (s_execs s)).
  { intros x Hk. rewrite reopen_execs.
    assert (Q : forall h y, get_exec (s_execs s) h = Some y -> m_key (x_msg y) = k -> In x (upd_exec (s_execs s) h reo) <-> In x (s_execs s)).
    { intros h y E Ek. destruct (get_exec_spec _ _ _ E) as [Iy Eh].
      assert (One : forall z, In z (s_execs s) -> x_id z = h -> z = y) by (intros z Hz Ez; eapply execs_inj; [apply G| | |]; eauto; congruence). split.
      - intros Hx. apply upd_exec_In in Hx as (z & Hz & [->|[Ez ->]]); [exact Hz|]. rewrite (One z Hz Ez) in Hk. rewrite (proj2 (proj2 (reo_same y))) in Hk. congruence.
      - intros Hx. unfold upd_exec. apply in_map_iff. exists x. split; [|exact Hx]. destruct (Z.eqb_spec (x_id x) h) as [Ez|]; [|reflexivity]. rewrite (One x Hx Ez) in Hk. congruence. }
    destruct o; try tauto; cbn [rexecs op_key] in *; destruct (get_exec (s_execs s) h) as [y|] eqn:E; try discriminate Ho; cbn in Ho; injection Ho as Ho; exact (Q h y E Ho). }
  destruct (frame c (reopen s o) o k k' (GInv_reopen s o G) Ho' N) as (F1 & F2 & F3 & F4 & F5). rewrite reopen_db in *.
  repeat split; auto.
  - intros Hs. apply F3 in Hs; auto. destruct p; unfold stored_at, on_stream in *; now rewrite reopen_db in Hs.
  - intros Hs. apply F3; auto. destruct p; unfold stored_at, on_stream in *; now rewrite reopen_db.
  - intros Hx. apply F5 in Hx; auto. now apply X.
  - intros Hx. apply F5; auto. now apply X.
Qed.
Print Assumptions C105_frame.

(** ** Concurrency limits *)
Lemma holders_reopen cc s o x : In x (holders cc (reopen s o)) -> exists y, In y (holders cc s) /\ x_id x = x_id y /\ x_msg x = x_msg y.
Proof.
  intros H. apply filter_In in H as [H Hh]. destruct (reopen_In_same s o x H) as (y & Hy & I1 & _ & I3 & I4 & _). exists y. split; [|auto].
  apply filter_In. split; [exact Hy|]. unfold holds in *. now rewrite <- I4.
Qed.
Lemma hkeys_reopen cc s o : map (fun x => m_key (x_msg x)) (holders cc (reopen s o)) = map (fun x => m_key (x_msg x)) (holders cc s).
Proof.
  unfold holders. rewrite reopen_execs.
  assert (Q : forall h l, map (fun x => m_key (x_msg x)) (filter (holds cc) (upd_exec l h reo)) = map (fun x => m_key (x_msg x)) (filter (holds cc) l)).
  { intros h l. unfold upd_exec. induction l as [|y l IH]; [reflexivity|]. cbn [map filter].
    assert (E1 : holds cc (if x_id y =? h then reo y else y) = holds cc y) by (destruct (x_id y =? h); [unfold holds; now rewrite (proj2 (reo_more y))|reflexivity]).
    assert (E2 : x_msg (if x_id y =? h then reo y else y) = x_msg y) by (destruct (x_id y =? h); [apply reo_same|reflexivity]).
    rewrite E1. destruct (holds cc y); cbn [map]; rewrite ?E2; now rewrite IH. }
  destruct o; try reflexivity; apply Q.
Qed.
Lemma SInv_reopen n cc s o : SInv n cc s -> SInv n cc (reopen s o).
Proof.
  intros [A B C D]. constructor; rewrite ?reopen_db, ?hkeys_reopen; auto. intros x Hx. destruct (holders_reopen cc s o x Hx) as (y & Hy & _ & ->). auto.
Qed.
Lemma LInv_reopen c cc s L o : LInv c cc s L -> LInv c cc (reopen s o) L.
Proof. intros H x Hx. destruct (holders_reopen cc s o x Hx) as (y & Hy & -> & ->). rewrite reopen_db. now apply H. Qed.
Lemma timely_reopen c cc s L o o' : timely_at c cc s L o -> timely_at c cc (reopen s o') L o.
Proof. intros H x t0 n0 Hx E. destruct (holders_reopen cc s o' x Hx) as (y & Hy & Ei & _). rewrite reopen_db. rewrite Ei in E. exact (H y t0 n0 Hy E). Qed.
Lemma touch_reopen c cc s L o : touch c cc (reopen s o) o L = touch c cc s o L.
Proof. destruct o; reflexivity. Qed.
Lemma SL_final2 c n cc l : forall s L, GInv s -> SInv n cc s -> LInv c cc s L -> Forall (limit_is n cc) l -> timely_from2 c cc s L l ->
  SInv n cc (final2 c s l).
Proof.
  induction l as [|o l IH]; intros s L G S H F T; [exact S|]. inversion F as [|? ? F1 F2]; subst. destruct T as [T1 T2]. rewrite final2_cons.
  assert (T1' := timely_reopen c cc s L o o T1). assert (G' := GInv_reopen s o G). assert (S' := SInv_reopen n cc s o S). assert (H' := LInv_reopen c cc s L o H).
  apply (IH _ (touch c cc s o L)); auto; [now apply GInv_step2| |].
  - unfold step2. apply SInv_step; auto. now apply (LInv_renewed c cc _ L).
  - unfold step2. rewrite <- touch_reopen. now apply (LInv_step c n).
Qed.
Lemma AInv_reopen cc h s o : AInv cc h s -> AInv cc h (reopen s o).
Proof.
  intros [A B]. split; [now rewrite reopen_next|]. intros x Hx E. destruct (reopen_In_same s o x Hx) as (y & Hy & I1 & _ & _ & I4 & _ & [->|[P1 P2]]).
  - now apply B.
  - unfold early. rewrite P2. split; discriminate.
Qed.
Lemma AInv_final2 c cc h l : forall s, GInv s -> AInv cc h s -> AInv cc h (final2 c s l).
Proof.
  induction l as [|o l IH]; intros s G H; [exact H|]. rewrite final2_cons. apply IH; [now apply GInv_step2|]. unfold step2. apply AInv_step; [now apply GInv_reopen|now apply AInv_reopen].
Qed.

(** A concurrency limit is not exceeded (C23). *)
Theorem C105_limit_never_exceeded c n cc l xs :
  Forall (limit_is n cc) l -> timely2 c cc l ->
  NoDup xs -> (forall x, In x xs -> runs_in_group2 c l cc x) ->
  Z.of_nat (length xs) <= Z.max 0 n.
Proof.
  intros F T N Hx.
  apply Z.le_trans with (Z.of_nat (length (holders cc (final2 c init_sys l)))).
  - apply Nat2Z.inj_le, NoDup_incl_length; [exact N|]. intros x Ix. destruct (Hx x Ix) as (A & P & (l1 & maxc & t & l2 & E & Ea)).
    apply filter_In. split; [exact A|]. rewrite E in A. rewrite final2_app, final2_cons in A.
    assert (G1 : GInv (final2 c init_sys l1)) by (apply GInv_final2, GInv_init). set (s1 := final2 c init_sys l1) in *.
    assert (A1 : AInv cc (x_id x) (fst (step2 c s1 (OAcquire (x_id x) cc maxc t)))).
    { unfold step2 in *. cbn [reopen] in *. destruct (acquire_true c s1 (x_id x) cc maxc t Ea) as (z & Gz & Pz & Sz & Ex & En). destruct (get_exec_spec _ _ _ Gz) as [Hz Hz'].
      split; [rewrite En; destruct G1 as [_ X1]; pose proof (xi_next _ X1 z Hz); lia|].
      intros y Hy Ey. rewrite Ex in Hy. unfold upd_exec in Hy. apply in_map_iff in Hy as (w & E' & Hw).
      destruct (Z.eqb_spec (x_id w) (x_id x)) as [Ew|Ew]; [|congruence].
      assert (w = z) by (eapply execs_inj; eauto; [apply G1|congruence]). subst w y.
      cbn. rewrite Pz. split; [discriminate|]. intros _. unfold holds. cbn. apply String.eqb_refl. }
    apply (proj2 (AInv_final2 c cc (x_id x) l2 _ (GInv_step2 c s1 _ G1) A1) x A eq_refl). unfold early. now rewrite P.
  - apply SInv_bound. apply (SL_final2 c n cc l init_sys (fun _ => None)); auto; [exact GInv_init|apply SInv_init|intros x []].
Qed.
Print Assumptions C105_limit_never_exceeded.

(** ** Everything the worker does is carried out *)
From Verif Require Import WorkerOps SpecExecute PropsWorkerOps.

(** A history as in C103, with later outcomes carried out. *)
Fixpoint refusals2 (c : cfg) (s : sys) (l : list hop) : list op :=
  match l with
  | [] => []
  | x :: l =>
      let r := snd (step2 c s (hop_op x)) in
      match x with Own o _ => if is_refused r && negb (gives_back o) then [o] else [] | Other _ => [] end
      ++ refusals2 c (fst (step2 c s (hop_op x))) l
  end.
Fixpoint answered2 (c : cfg) (s : sys) (l : list hop) : Prop :=
  match l with
  | [] => True
  | x :: l => match x with Own o (Some a) => snd (step2 c s o) = a | _ => True end /\ answered2 c (fst (step2 c s (hop_op x))) l
  end.

Lemma reopen_get s o h x : get_exec (s_execs s) h = Some x ->
  get_exec (s_execs (reopen s o)) h = Some (if match o with OTerminal i _ _ _ _ | OResched i _ _ _ => i =? h | _ => false end then reo x else x).
Proof.
  intros G. rewrite reopen_execs. assert (R : forall y, x_id (reo y) = x_id y) by (intros y; apply reo_same).
  destruct o; try exact G; cbn [rexecs]; destruct (Z.eqb_spec h0 h) as [->|N]; [now apply get_upd_same|now rewrite get_upd_other|now apply get_upd_same|now rewrite get_upd_other].
Qed.
Lemma other_keeps2 c s o h w x : others_do h w o -> x_worker x = w -> get_exec (s_execs s) h = Some x ->
  get_exec (s_execs (fst (step2 c s o))) h = Some x.
Proof.
  intros O W G. unfold step2. eapply other_keeps; eauto. rewrite (reopen_get s o h x G). f_equal.
  destruct o; try reflexivity; destruct (Z.eqb_spec h0 h) as [->|N]; try reflexivity; destruct (proj1 O eq_refl) as [? H]; discriminate H.
Qed.
(** The acceptor of C103, in which further outcomes are taken. *)
Definition settles (h : Z) (q : op * option out) : bool :=
  match q with
  | (OTerminal i st _ _ _, None) => (i =? h) && is_mark st
  | (OResched i _ _ _, None) => i =? h
  | _ => false
  end.
Definition opacc2 (h : Z) (a : ast) (q : op * option out) : option ast :=
  match a with ADone => if settles h q then Some ADone else opacc h a q | _ => opacc h a q end.
Fixpoint opsacc2 (h : Z) (a : ast) (l : list (op * option out)) : option ast :=
  match l with [] => Some a | q :: l => match opacc2 h a q with Some a' => opsacc2 h a' l | None => None end end.
Lemma own_step2 c s h w x a o want a' : get_exec (s_execs s) h = Some x -> x_worker x = w -> agrees a (x_phase x) -> opacc2 h a (o, want) = Some a' ->
  (match want with Some r => snd (step2 c s o) = r | None => True end) ->
  (is_refused (snd (step2 c s o)) && negb (gives_back o) = false) /\
  exists x', get_exec (s_execs (fst (step2 c s o))) h = Some x' /\ x_worker x' = w /\ agrees a' (x_phase x').
Proof.
  intros G W A O N. pose proof (reopen_get s o h x G) as G'. unfold step2 in *.
  assert (D : a = ADone /\ settles h (o, want) = true /\ a' = ADone \/ opacc h a (o, want) = Some a').
  { destruct a; auto. unfold opacc2 in O. destruct (settles h (o, want)); [injection O as <-; auto|auto]. }
  destruct D as [(-> & Se & ->)|O'].
  - assert (Op : opacc h AOpen (o, want) = Some ADone) by (destruct o; cbn in Se |- *; try discriminate Se; destruct want; try discriminate Se; now rewrite Se).
    cbn [agrees] in A. assert (Ph : reo x = with_phase PEnded x) by (unfold reo; now rewrite A).
    replace (if match o with OTerminal i _ _ _ _ | OResched i _ _ _ => i =? h | _ => false end then reo x else x) with (with_phase PEnded x) in G'.
    2: { destruct o; cbn in Se; try discriminate Se; destruct want; try discriminate Se; try (apply andb_true_iff in Se as [Se _]); rewrite Se; auto. }
    eapply (own_step c (reopen s o) h w (with_phase PEnded x) AOpen o want ADone); eauto. right. reflexivity.
  - eapply (own_step c (reopen s o) h w _ a o want a' G'); eauto.
    + destruct (match o with OTerminal i _ _ _ _ | OResched i _ _ _ => i =? h | _ => false end); [now rewrite (proj1 (reo_more x))|exact W].
    + destruct (match o with OTerminal i _ _ _ _ | OResched i _ _ _ => i =? h | _ => false end) eqn:E; [|exact A].
      assert (Na : a <> ADone). { intros ->. destruct o; try discriminate E; cbn in O'; destruct want as [[]|]; discriminate O'. }
      destruct a; try congruence; cbn [agrees] in *; unfold reo; try (rewrite A; exact A). destruct A as [A|A]; rewrite A, A; auto.
Qed.
Lemma pass_sound2 c h w l : forall s a a' x, get_exec (s_execs s) h = Some x -> x_worker x = w -> agrees a (x_phase x) ->
  opsacc2 h a (owns l) = Some a' -> others_ok h w l -> answered2 c s l ->
  refusals2 c s l = [] /\ exists x', get_exec (s_execs (final2 c s (map hop_op l))) h = Some x' /\ x_worker x' = w /\ agrees a' (x_phase x').
Proof.
  induction l as [|e l IH]; intros s a a' x G W A O T N.
  - cbn in O. injection O as <-. split; [reflexivity|]. exists x. auto.
  - cbn [map]. rewrite final2_cons. cbn [refusals2]. destruct N as [N1 N2].
    assert (T' : others_ok h w l) by (intros o Ho; apply T; now right).
    destruct e as [o want|o]; cbn [hop_op owns opsacc2] in *.
    + destruct (opacc2 h a (o, want)) as [a1|] eqn:E; [|discriminate O].
      destruct (own_step2 c s h w x a o want a1 G W A E) as (R & x1 & G1 & W1 & A1).
      { destruct want; [exact N1|exact I]. }
      destruct (IH _ _ _ _ G1 W1 A1 O T' N2) as (R2 & F). rewrite R, R2. split; [reflexivity|]. exact F.
    + assert (G1 : get_exec (s_execs (fst (step2 c s o))) h = Some x) by (eapply other_keeps2; [apply T; left; reflexivity|exact W|exact G]).
      destruct (IH _ _ _ _ G1 W A O T' N2) as (R2 & F). rewrite R2. split; [reflexivity|]. exact F.
Qed.

Definition outcome_ev (v : Execute.ev) : bool :=
  match v with Execute.ECompleted | Execute.EFailed | Execute.ECancelled | Execute.ERetried | Execute.ERescheduled | Execute.EDropped => true | _ => false end.
Definition evacc2 (a : ast) (v : Execute.ev) : option ast :=
  match a with ADone => if outcome_ev v then Some ADone else evacc a v | _ => evacc a v end.
Fixpoint evsacc2 (a : ast) (l : list Execute.ev) : option ast :=
  match l with [] => Some a | v :: l => match evacc2 a v with Some a' => evsacc2 a' l | None => None end end.
Lemma opsacc2_app h l1 l2 : forall a, opsacc2 h a (l1 ++ l2) = match opsacc2 h a l1 with Some a' => opsacc2 h a' l2 | None => None end.
Proof. induction l1 as [|q l1 IH]; intros a; cbn; [reflexivity|]. destruct (opacc2 h a q); [apply IH|reflexivity]. Qed.
Lemma opacc_2 h a q b : opacc h a q = Some b -> opacc2 h a q = Some b.
Proof. intros H. destruct a; try exact H. unfold opacc2. destruct (settles h q) eqn:E; [|exact H]. destruct q as [[] [[]|]]; cbn in E, H; try discriminate E; discriminate H. Qed.
Lemma opsacc_2 h l : forall a b, opsacc h a l = Some b -> opsacc2 h a l = Some b.
Proof. induction l as [|q l IH]; intros a b H; [exact H|]. cbn in *. destruct (opacc h a q) as [a1|] eqn:E; [|discriminate H]. rewrite (opacc_2 _ _ _ _ E). auto. Qed.
Lemma opsacc2_le h l : forall a a' b, ale a a' -> opsacc2 h a' l = Some b -> exists b', opsacc2 h a l = Some b' /\ ale b' b.
Proof.
  intros a a' b [->|[-> ->]] H; [exists b; split; [exact H|now left]|]. destruct l as [|q l]; cbn in *.
  - injection H as <-. exists AClaimed. split; [reflexivity|now right].
  - destruct (opacc h AOpen q) as [a1|] eqn:E; [|discriminate]. rewrite (opacc_open _ _ _ E). exists b. split; [exact H|now left].
Qed.
Lemma does_acc2 h v l a a' : does h v l -> evacc2 a v = Some a' -> exists b, opsacc2 h a l = Some b /\ ale b a'.
Proof.
  intros D E. assert (K : evacc a v = Some a' \/ (a = ADone /\ outcome_ev v = true /\ a' = ADone)).
  { destruct a; auto. unfold evacc2 in E. destruct (outcome_ev v); [injection E as <-|]; auto. }
  destruct K as [K|(-> & O & ->)].
  - destruct (does_acc h v l a a' D K) as (b & B1 & B2). exists b. split; [now apply opsacc_2|exact B2].
  - destruct D; try discriminate O; cbn; rewrite ?Z.eqb_refl; cbn; rewrite ?Z.eqb_refl; cbn; exists ADone; (split; [reflexivity|now left]).
Qed.
Lemma does_all_acc2 h vs l : does_all h vs l -> forall a a', evsacc2 a vs = Some a' -> exists b, opsacc2 h a l = Some b /\ ale b a'.
Proof.
  intros D. induction D as [|v vs l l' D1 D2 IH]; intros a a' E; cbn in E.
  - injection E as <-. exists a. split; [reflexivity|now left].
  - destruct (evacc2 a v) as [a1|] eqn:E1; [|discriminate]. destruct (does_acc2 h v l a a1 D1 E1) as (b1 & B1 & L1).
    destruct (IH a1 a' E) as (b2 & B2 & L2). destruct (opsacc2_le h l' b1 a1 b2 L1 B2) as (b3 & B3 & L3).
    exists b3. rewrite opsacc2_app, B1. split; [exact B3|]. destruct L2 as [->|[-> ->]]; [exact L3|]. destruct L3 as [->|[-> L3]]; [now right|discriminate L3].
Qed.
Definition under (a : ast) : Prop := a = AClaimed \/ a = AOpen \/ a = ADone.
Lemma evsacc2_inner r : forall a, under a -> forallb inner r = true -> exists a', evsacc2 a r = Some a' /\ under a'.
Proof.
  induction r as [|v r IH]; intros a A H; [exists a; auto|]. cbn [forallb] in H. apply andb_true_iff in H as [H1 H2].
  assert (P : exists a1, evacc2 a v = Some a1 /\ under a1).
  { unfold under. destruct A as [->|[->| ->]]; destruct v; cbn in *; try discriminate; eauto. destruct (n =? -1); eauto. }
  destruct P as (a1 & E & U). cbn [evsacc2]. rewrite E. now apply IH.
Qed.
Lemma evsacc2_app l1 : forall a l2, evsacc2 a (l1 ++ l2) = match evsacc2 a l1 with Some a' => evsacc2 a' l2 | None => None end.
Proof. induction l1 as [|v l1 IH]; intros a l2; cbn; [reflexivity|]. destruct (evacc2 a v); [apply IH|reflexivity]. Qed.
Definition is_parked (v : Execute.ev) : bool := match v with Execute.EParked => true | _ => false end.
Lemma Shape_acc2 l : Shape l -> (times is_parked l <= 1)%nat -> exists a', evsacc2 AStart l = Some a' /\ under a'.
Proof.
  intros [-> |[-> |(n & b & r & -> & R & N)]] L; [exists ADone; unfold under; auto..|].
  unfold times in L. cbn [filter is_parked] in L. rewrite filter_app, app_length in L.
  assert (n = length (filter is_parked (repeat Execute.EParked n))) as E by (clear; induction n; cbn; auto).
  cbn [evsacc2 evacc2 evacc]. change (1 =? -1) with false. cbn iota. rewrite evsacc2_app.
  destruct n as [|[|n]]; [| |exfalso; lia].
  - cbn [repeat evsacc2]. destruct b; cbn [app evsacc2 evacc2 evacc]; apply evsacc2_inner; unfold under; auto.
  - destruct b; [specialize (N eq_refl); discriminate N|]. cbn [repeat evsacc2 evacc2 evacc app]. apply evsacc2_inner; unfold under; auto.
Qed.

(** Whatever the dependencies, the body and the storage do with a delivered message, as long as it is put in a waiting line at most
    once, and whatever others do meanwhile: the docket carries out every operation of the worker (compare C103_one_pass_partial). *)
Theorem C105_carried_out_partial c s h w x e ops l :
  get_exec (s_execs s) h = Some x -> x_worker x = w -> x_phase x = PDelivered -> (times is_parked (fst (Execute.whole e)) <= 1)%nat ->
  does_all h (fst (Execute.whole e)) ops -> owns l = ops -> others_ok h w l -> answered2 c s l ->
  refusals2 c s l = [].
Proof.
  intros G W P L D O T N. destruct (Shape_acc2 _ (whole_Shape e) L) as (a' & A1 & _).
  destruct (does_all_acc2 h _ ops D AStart a' A1) as (b & B1 & _). rewrite <- O in B1.
  exact (proj1 (pass_sound2 c h w l s AStart b x G W P B1 T N)).
Qed.
Print Assumptions C105_carried_out_partial.

(** A run with a ConcurrencyLimit and a Retry is completed; then giving back what it had raises, and the Retry reschedules it.  Meanwhile another task
    of the same group is running.  Rescheduled, the completed run is started again; then two bodies of the group run, as many as the limit allows. *)
Import PropsHist.
Fixpoint timelyb2 (c : cfg) (cc : string) (s : sys) (L : Z -> option (Z * Z)) (l : list op) : bool :=
  match l with
  | [] => true
  | o :: l => timely_atb c cc s L o && timelyb2 c cc (fst (step2 c s o)) (touch c cc s o L) l
  end.
Lemma timelyb2_sound c cc l : forall s L, timelyb2 c cc s L l = true -> timely_from2 c cc s L l.
Proof.
  induction l as [|o l IH]; intros s L H; [exact Logic.I|]. cbn [timelyb2] in H. apply andb_prop in H as [H1 H2]. split; [|now apply IH].
  intros x t0 n0 Hx E. unfold timely_atb in H1. rewrite forallb_forall in H1. apply H1 in Hx. rewrite E in Hx. apply andb_prop in Hx as [A B]. split.
  - intros t Et. rewrite Et in A. lia.
  - intros dt ->. lia.
Qed.
Definition ex_calls : list op :=
  [OAdd (ex_call 0 "f" "one") 0; OAdd (mkCall "other" 0 "g" "" "") 0; ORead "w1"; ORead "w2"; OClaim 1 1; OAcquire 1 "c" 2 1; OBodyStart 1].
Definition ex_pass : list hop :=
  [Own (OClaim 0 1) (Some (OClaimed true)); Own (OAcquire 0 "c" 2 2) (Some (OAcquired true)); Own (OBodyStart 0) None; Own (OBodyEnd 0) None;
   Own (OTerminal 0 SCompleted 3 None None) None; Other (OAdd (mkCall "third" 9 "h" "" "") 3); Own (ORelease 0 4) None; Own (OResched 0 90 true 5) None].
Definition ex_all : list op := ex_calls ++ map hop_op ex_pass ++ [OScheduler 100; ORead "w1"; ORead "w3"; OClaim 2 101; OClaim 3 101; OAcquire 3 "c" 2 101; OBodyStart 3].
Example C105_example :
  let s := final2 ex_cfg init_sys ex_calls in
  (option_map x_phase (get_exec (s_execs s) 0) = Some PDelivered /\ option_map x_worker (get_exec (s_execs s) 0) = Some "w1"%string) /\
  times is_parked (fst (Execute.whole ex_unclean)) = 0%nat /\ length (outcomes (fst (Execute.whole ex_unclean))) = 2%nat /\
  does_all 0 (fst (Execute.whole ex_unclean)) (owns ex_pass) /\ others_ok 0 "w1" ex_pass /\ answered2 ex_cfg s ex_pass /\ refusals2 ex_cfg s ex_pass = [] /\
  total2 ex_cfg (n_starts (fun m => String.eqb (m_key m) "k")) init_sys ex_all = 2 /\
  total2 ex_cfg (n_accepted (fun m => String.eqb (m_key m) "k")) init_sys ex_all = 1 /\
  total2 ex_cfg (n_rescheduled (fun m => String.eqb (m_key m) "k")) init_sys ex_all = 1 /\
  Forall (limit_is 2 "c") ex_all /\ timely2 ex_cfg "c" ex_all /\
  map (fun x => (x_id x, x_phase x)) (holders "c" (final2 ex_cfg init_sys ex_all)) = [(1, PBody); (3, PBody)] /\
  (forall x, In x (holders "c" (final2 ex_cfg init_sys ex_all)) -> runs_in_group2 ex_cfg ex_all "c" x).
Proof.
  intros s. split; [split; reflexivity|]. split; [reflexivity|]. split; [reflexivity|]. split.
  { change (fst (Execute.whole ex_unclean)) with [Execute.KStarted; Execute.KRunning 1; Execute.EBody; Execute.KSucceeded; Execute.ECompleted; Execute.KFailed; Execute.ERetried; Execute.KRunning (-1); Execute.KFinished].
    refine (da_cons 0 _ _ _ _ (d_started_slot 0 1 "c" 2 2) (da_cons 0 _ _ _ _ (d_running 0 1) (da_cons 0 _ _ _ _ (d_body 0) (da_cons 0 _ _ _ _ (d_succeeded 0)
      (da_cons 0 _ _ _ _ (d_completed 0 3 None) (da_cons 0 _ _ _ _ (d_kfailed_slot 0 4) (da_cons 0 _ _ _ _ (d_retried 0 90 5) (da_cons 0 _ _ _ _ (d_running 0 (-1)) (da_cons 0 _ _ _ _ (d_finished 0) (da_nil 0)))))))))). }
  split.
  { intros o H. cbn in H. repeat destruct H as [H|H]; try discriminate H; try contradiction; injection H as <-; (split; [cbn; intros E; try discriminate E; eauto|discriminate]). }
  split; [vm_compute; repeat split|]. split; [vm_compute; reflexivity|]. repeat (split; [vm_compute; reflexivity|]).
  split; [repeat constructor; cbn; auto|]. split; [apply timelyb2_sound; vm_compute; reflexivity|]. split; [vm_compute; reflexivity|].
  intros x Hx. vm_compute in Hx. destruct Hx as [<-|[<-|[]]]; (split; [vm_compute; auto 9|]); (split; [reflexivity|]); cbn [x_id].
  - exists (firstn 5 ex_all), 2, 1, (skipn 6 ex_all). split; vm_compute; reflexivity.
  - exists (firstn 20 ex_all), 2, 101, (skipn 21 ex_all). split; vm_compute; reflexivity.
Qed.

(** What is not true: that a run that was completed is not started again.  One call, no redelivery, the body returns;
    the record says completed, and later the same call runs a second time. *)
Theorem C105_completed_runs_again_refuted :
  let l1 := ex_calls ++ map hop_op (firstn 5 ex_pass) in
  let l2 := map hop_op (skipn 5 ex_pass) ++ [OScheduler 100; ORead "w1"; ORead "w3"; OClaim 2 101; OClaim 3 101; OAcquire 3 "c" 2 101] in
  let s1 := final2 ex_cfg init_sys l1 in
  let s2 := final2 ex_cfg init_sys (l1 ++ l2) in
  ex_all = l1 ++ l2 ++ [OBodyStart 3] /\
  r_state (rget (s_db s1) "k") = Some SCompleted /\ option_map x_phase (get_exec (s_execs s1) 0) = Some PDone /\
  starts2 ex_cfg s2 (OBodyStart 3) (mkMsg "k" 90 "f" "one" "" 2 2) 4 /\
  total2 ex_cfg (n_accepted (fun m => String.eqb (m_key m) "k")) s1 l2 = 0 /\ total2 ex_cfg (n_redelivered (fun m => String.eqb (m_key m) "k")) init_sys (l1 ++ l2) = 0.
Proof. intros l1 l2 s1 s2. repeat split; vm_compute; reflexivity. Qed.
Print Assumptions C105_completed_runs_again_refuted.
