(** Proofs about get_result. *)
From Verif Require Import Base ZSet Model GInv KView KSim Spec KInv KLine Hist Steps Steps2 Steps3 WaitProofs GetResult SpecResult.

Lemma rfinal_app c l1 : forall q l2, rfinal c q (l1 ++ l2) = rfinal c (rfinal c q l1) l2.
Proof. induction l1; intros; simpl; auto. Qed.

(** ** The docket inside *)

Lemma rstep_sys c q o : q_sys (rstep c q o) = q_sys q \/ exists o', q_sys (rstep c q o) = fst (step c (q_sys q) o') /\
  (o = ROp o' \/ (rop_exec o <> None /\ op_exec o' = rop_exec o)).
Proof.
  destruct o; cbn [rstep]; auto.
  - right. exists o. auto.
  - destruct (get_exec _ _) as [x|]; auto. destruct (x_phase x); auto. right. exists (OBodyEnd h). cbn. split; [reflexivity|right]. split; [discriminate|reflexivity].
  - destruct (get_exec _ _) as [x|]; auto. destruct (x_phase x); auto. destruct (q_body q h); auto.
  - destruct (get_exec _ _) as [x|]; auto. destruct (q_body q h); auto. destruct (_ && _); auto. destruct (stored_data c r); auto.
  - destruct (get_exec _ _) as [x|]; auto. destruct (q_body q h) as [b|]; auto. destruct (Bool.eqb _ _); auto.
    right. exists (mark_op h t (m_key (x_msg x)) b (q_put q h)). split; [reflexivity|right].
    split; [discriminate|]. destruct b; reflexivity.
  - destruct (q_wait q i); auto.
  - destruct (q_wait q i); auto.
Qed.

Lemma rreach_sys c q : rreachable c q -> reachable c (q_sys q).
Proof.
  intros [l ->]. enough (H : forall q, reachable c (q_sys q) -> reachable c (q_sys (rfinal c q l))) by (apply H; exists []; reflexivity).
  induction l as [|o l IH]; intros q R; [exact R|]. cbn. apply IH.
  destruct (rstep_sys c q o) as [->|(o' & -> & _)]; [exact R|]. destruct R as [l' E]. exists (l' ++ [o']). rewrite final_app, <- E. symmetry. apply final_cons.
Qed.

Lemma rreach_step c q o : rreachable c q -> rreachable c (rstep c q o).
Proof. intros [l ->]. exists (l ++ [o]). now rewrite rfinal_app. Qed.

Lemma rreach_final c l : forall q, rreachable c q -> rreachable c (rfinal c q l).
Proof. induction l; intros; simpl; auto using rreach_step. Qed.

(** ** Nothing touches the record of a key whose runs are left alone *)

Record Still (R0 : option runs) (o : op) (v : ks) : Prop := mkStill {
  st_runs : (k_runs v = None /\ exists dt, o = OTick dt) \/ k_runs v = R0;
  st_parked : k_parked v = None;
  st_wait : k_wait v = [];
  st_exec : forall x, In x (k_execs v) -> x_phase x = PDone \/ op_exec o <> Some (x_id x) }.

Lemma Still_apply c k R0 o v e : ordinary k -> no_calls k o -> kok k v e -> label k o e -> Still R0 o v -> Still R0 o (kapply c v e).
Proof.
  intros Or N Hok L [S1 S2 S3 S4].
  assert (Act : forall x, In x (k_execs v) -> op_exec o = Some (x_id x) -> x_phase x = PDone).
  { intros x Hx E. destruct (S4 x Hx); [assumption|contradiction]. }
  destruct e; cbn [label] in L; cbn [kok] in Hok; cbn [kapply].
  - constructor; auto.
  - constructor; auto. left. split; [reflexivity|]. destruct o; try contradiction. eauto.
  - destruct o; try contradiction; subst; now destruct N.
  - destruct L as [w ->]; contradiction.
  - constructor; auto.
  - constructor; auto.
  - constructor; auto.
  - exfalso. destruct L as (t & -> & _). destruct repl; cbn in N; congruence.
  - exfalso. subst o. now destruct N.
  - unfold kmove. rewrite S2. constructor; auto.
  - constructor; auto. intros y Hy. cbn in Hy. rewrite in_app_iff in Hy. destruct Hy as [Hy|[<-|[]]]; auto.
    right. destruct (x_redel x); subst o; discriminate.
  - constructor; auto. intros y Hy. cbn in Hy. apply filter_In in Hy as [Hy _]. auto.
  - exfalso. destruct Hok as [H1 H2]. subst o. rewrite (Act x H1 eq_refl) in H2. discriminate.
  - exfalso. destruct Hok as [H1 H2].
    assert (x_phase x = PDone) by (destruct L as [[-> _]|[[-> _]|(t & -> & _)]]; now apply Act).
    destruct H2 as [[H2 _]|[H2 _]]; congruence.
  - constructor; auto. intros y Hy. cbn [kphase k_execs kset_execs] in Hy. apply in_map_iff in Hy as (z & <- & Hz).
    destruct (x_id z =? x_id x); auto. destruct (S4 z Hz); auto.
  - exfalso. destruct Hok as [H1 H2]. subst o. rewrite (Act x H1 eq_refl) in H2. discriminate.
  - exfalso. destruct Hok as [H1 H2]. subst o. rewrite (Act x H1 eq_refl) in H2. discriminate.
  - exfalso. destruct Hok as [H1 H2]. destruct L as (t & -> & _). rewrite (Act x H1 eq_refl) in H2. discriminate.
  - exfalso. destruct Hok as [H1 H2]. destruct L as (mx & t & ->). rewrite (Act x H1 eq_refl) in H2. discriminate.
  - exfalso. rewrite S3 in Hok. contradiction.
  - exfalso. subst o. now destruct N.
  - exfalso. destruct o; try contradiction; destruct L as [k' E]; now destruct (Or k').
Qed.

Lemma record_still c k s o : ordinary k -> reachable c s -> no_calls k o -> (forall dt, o = OTick dt -> keeps c k s o) ->
  d_parked (s_db s) k = None -> not_waiting k s ->
  (forall x, In x (s_execs s) -> m_key (x_msg x) = k -> x_phase x = PDone \/ op_exec o <> Some (x_id x)) ->
  d_runs (s_db (fst (step c s o))) k = d_runs (s_db s) k.
Proof.
  intros Or R N K Hp Hw Hx. pose proof (reachable_GInv c s R) as G. pose proof (reachable_UInv c k s R) as U.
  assert (S : Still (d_runs (s_db s) k) o (kabs k (fst (step c s o)))).
  { apply step_ind; auto.
    - intros v e Hok L _ _ _. now apply (Still_apply c k).
    - constructor; [right; reflexivity|exact Hp| |].
      + destruct (k_wait (kabs k s)) as [|[cc [i m]] l] eqn:E; [reflexivity|exfalso].
        assert (X : In (cc, (i, m)) (k_wait (kabs k s))) by (rewrite E; left; reflexivity).
        apply kwait_In in X as [X1 X2]. exact (Hw _ _ _ X1 X2).
      + intros x X. apply kexecs_In in X as [X1 X2]. auto. }
  destruct (st_runs _ _ _ S) as [[X [dt E]]|X]; [|exact X]. change (d_runs (s_db (fst (step c s o))) k = None) in X. rewrite X.
  destruct (d_runs (s_db s) k) eqn:Y; [|reflexivity]. exfalso. apply (K dt E); congruence.
Qed.

(** ** A key with no run left *)

Definition Over (v : ks) : Prop := Idle v /\ k_wait v = [].

Lemma Over_step c k s o : reachable c s -> no_schedule k o -> Over (kabs k s) -> Over (kabs k (fst (step c s o))).
Proof.
  intros R N [I W]. pose proof (reachable_GInv c s R) as G. pose proof (reachable_UInv c k s R) as U.
  apply (step_ind c k s o (fun v => Over v)); auto; [|now split]. intros v e Hok L U1 _ _ [I1 W1].
  assert (NS : forall r i a, e <> KSched r i a).
  { intros r i a ->. simpl in L, Hok. destruct L as (t & -> & _). destruct r; simpl in N; congruence. }
  split; [now apply (Idle_apply c k)|].
  destruct (k_wait (kapply c v e)) as [|[cc [i m]] l] eqn:E; [reflexivity|exfalso].
  assert (X : In (cc, (i, m)) (k_wait (kapply c v e))) by (rewrite E; left; reflexivity).
  apply (wait_apply c k v e cc i m Hok) in X as [X|(x & -> & _)]; [rewrite W1 in X; contradiction|].
  destruct Hok as [H1 H2]. apply (id_exec _ I1) in H1. congruence.
Qed.

(** ** Publications *)

Definition adds_pubs (d d' : db) (P : key * state -> Prop) : Prop :=
  exists l, d_pubs d' = d_pubs d ++ l /\ Forall P l.

Lemma adds_none d d' P : d_pubs d' = d_pubs d -> adds_pubs d d' P.
Proof. intros E. exists []. rewrite E, app_nil_r. auto. Qed.

Lemma adds_trans d d' d'' P : adds_pubs d d' P -> adds_pubs d' d'' P -> adds_pubs d d'' P.
Proof.
  intros (l & E & H) (l' & E' & H'). exists (l ++ l'). rewrite E', E, app_assoc. split; [reflexivity|]. apply Forall_app; auto.
Qed.

Lemma adds_fold {A} (f : db -> A -> db) P : (forall d a, adds_pubs d (f d a) P) -> forall l d, adds_pubs d (fold_left f l d) P.
Proof.
  intros H. induction l as [|a l IH]; intros d; [now apply adds_none|]. cbn. eapply adds_trans; [apply H|apply IH].
Qed.

Definition passing (e : key * state) : Prop := terminal_state (snd e) = false.

Lemma pubs_place d k w imm b m : d_pubs (place d k w imm b m) = d_pubs d.
Proof. unfold place. destruct (hincr_gen d k) eqn:E. injection E as <- <-. destruct imm; [reflexivity|]. destruct b; reflexivity. Qed.

Lemma pubs_sched d k w imm repl mid m : adds_pubs d (fst (lua_schedule d k w imm repl mid m)) passing.
Proof.
  unfold lua_schedule. assert (E : passing (k, if imm then SQueued else SScheduled)) by (destruct imm; reflexivity).
  destruct mid; cbn [fst].
  - unfold lua_reschedule. eexists [_]. cbn [publish d_pubs set_pubs hdel set_runs]. rewrite pubs_place. split; [reflexivity|repeat constructor; exact E].
  - destruct (negb repl && lua_exists d k); [now apply adds_none|]. cbn [fst]. eexists [_]. cbn [publish d_pubs set_pubs].
    rewrite pubs_place. split; [|repeat constructor; exact E]. f_equal. destruct repl; [|reflexivity]. unfold lua_replace_existing. cbv zeta.
    destruct (match r_sid (rget d k) with Some i => Some i | None => d_lsid d k end); reflexivity.
Qed.

Lemma pubs_wake c cap d : adds_pubs d (wake d c cap) passing.
Proof.
  unfold wake. destruct (0 <? cap); [|now apply adds_none]. apply adds_fold. intros d0 [i m]. unfold wake_one.
  destruct (r_state (rget d0 (m_key m))) as [[]|]; try now apply adds_none.
  exists [(m_key m, SQueued)]. split; [reflexivity|]. repeat constructor.
Qed.

Lemma pubs_step c s o :
  adds_pubs (s_db s) (s_db (fst (step c s o)))
    (fun e => passing e \/ exists h x t er re, o = OTerminal h (snd e) t er re /\ get_exec (s_execs s) h = Some x /\
                             m_key (x_msg x) = fst e /\ may_finish (x_phase x) (snd e) = true).
Proof.
  assert (W : forall d d' (P : _ -> Prop), adds_pubs d d' passing -> adds_pubs d d' (fun e => passing e \/ P e)).
  { intros d d' P (l & E & H). exists l. split; [exact E|]. eapply Forall_impl; [|exact H]. auto. }
  destruct o; cbn [step].
  - apply W. destruct (0 <=? dt); now apply adds_none.
  - apply W. unfold do_schedule. pose proof (pubs_sched (s_db s) (a_key a) (a_when a) (a_when a <=? t) false None (call_msg a)) as H.
    destruct (lua_schedule _ _ _ _ _ _ _). exact H.
  - apply W. unfold do_schedule. pose proof (pubs_sched (s_db s) (a_key a) (a_when a) (a_when a <=? t) true None (call_msg a)) as H.
    destruct (lua_schedule _ _ _ _ _ _ _). exact H.
  - apply W. cbn [fst set_db s_db]. apply adds_none. unfold lua_cancel. cbv zeta.
    set (d0 := hdel _ _ _). assert (E : d_pubs d0 = d_pubs (s_db s)).
    { subst d0. destruct (match r_sid (rget (s_db s) k) with Some i => Some i | None => d_lsid (s_db s) k end); reflexivity. }
    rewrite <- E. destruct (r_state (rget d0 k)) as [[]|]; reflexivity.
  - apply W, adds_none. cbn. unfold cancel_finish. destruct (0 <? c_ttl c); reflexivity.
  - apply W. now apply adds_none.
  - apply W. now apply adds_none.
  - apply W. destruct (ready_clear s _) as [sn|]; [|now apply adds_none]. destruct (clear_apply (c_ttl c) (s_db s) sn) as [d n] eqn:E.
    cbn [fst s_db]. unfold clear_apply in E. injection E as <- _.
    assert (C : forall d k, d_pubs (clear_run (c_ttl c) d k) = d_pubs d) by (intros; unfold clear_run; destruct (0 <? c_ttl c); reflexivity).
    eapply adds_trans; [|apply adds_fold; intros; apply adds_none, C].
    eapply adds_trans; [|apply adds_fold; intros; apply adds_none; unfold clear_scheduled; rewrite C; reflexivity].
    apply adds_none. destruct (0 <? cs_count sn); reflexivity.
  - apply W. destruct (lua_stream_due (s_db s) t) as [d [a b]] eqn:E. cbn [fst set_db s_db]. unfold lua_stream_due in E.
    injection E as E _ _. subst d. set (due := map snd _).
    assert (H : adds_pubs (s_db s) (fold_left stream_one due (s_db s)) passing).
    { apply adds_fold. intros d k. unfold stream_one. destruct (d_parked d k) as [m|]; [|now apply adds_none].
      exists [(m_key m, SQueued)]. split; [reflexivity|]. repeat constructor. }
    destruct (0 <? Z.of_nat _); exact H.
  - apply W, adds_none. unfold deliver, read_group. destruct (next_new (s_db s)) as [[i m]|]; reflexivity.
  - apply W, adds_none. unfold deliver, autoclaim. destruct (find _ _) as [p|]; [|reflexivity].
    destruct (claimable _ _ _); [|reflexivity]. destruct (lookup_entry _ _); reflexivity.
  - apply W. now apply adds_none.
  - apply W. destruct (get_exec _ _) as [x|]; [|now apply adds_none]. destruct (x_phase x); try now apply adds_none.
    unfold lua_claim. destruct (superseded _ _ _); [now apply adds_none|].
    exists [(m_key (x_msg x), SRunning)]. split; [reflexivity|]. repeat constructor.
  - apply W. destruct (get_exec _ _) as [x|]; [|now apply adds_none]. destruct (x_phase x); now apply adds_none.
  - apply W. destruct (get_exec _ _) as [x|]; [|now apply adds_none]. destruct (x_phase x); now apply adds_none.
  - apply W. destruct (get_exec _ _) as [x|]; [|now apply adds_none]. destruct (x_phase x); now apply adds_none.
  - destruct (get_exec (s_execs s) h) as [x|] eqn:Hx; [|apply W; now apply adds_none].
    destruct (may_finish (x_phase x) s0) eqn:F; [|apply W; now apply adds_none].
    destruct (lua_terminal _ _ _ _ _ _ _ _ _) as [d r] eqn:E. cbn [fst s_db set_execs].
    exists [(m_key (x_msg x), s0)]. split.
    + unfold lua_terminal in E. destruct (superseded _ _ _).
      * injection E as <- _. destruct (prog_mine _ _ _); reflexivity.
      * injection E as <- _. destruct (0 <? c_ttl c); reflexivity.
    + constructor; [|constructor]. right. exists h, x, t, err, res. auto.
  - apply W. destruct (get_exec _ _) as [x|]; [|now apply adds_none]. destruct (may_resched _); [|now apply adds_none].
    pose proof (pubs_sched (s_db s) (m_key (resched_msg (x_msg x) when bump)) when (when <=? t) bump (Some (x_mid x)) (resched_msg (x_msg x) when bump)) as H.
    destruct (lua_schedule _ _ _ _ _ _ _). exact H.
  - apply W. destruct (get_exec _ _) as [x|]; [|now apply adds_none]. destruct (x_phase x); try now apply adds_none.
    destruct (x_slot x); [now apply adds_none|].
    assert (P : forall d k i m, adds_pubs d (lua_park d c0 k i m) passing).
    { intros d k i m. exists [(k, SScheduled)]. split; [reflexivity|]. repeat constructor. }
    unfold lua_acquire_or_park. destruct (zscore _ _).
    + destruct (_ && _); [now apply adds_none|apply P].
    + destruct (_ <? _); [now apply adds_none|]. destruct (zrangebyscore _ _ _) as [|[? ?] ?]; [apply P|now apply adds_none].
  - apply W. destruct (get_exec _ _) as [x|]; [|now apply adds_none]. destruct (x_slot x) as [[cc mx]|]; [|now apply adds_none].
    assert (P : adds_pubs (s_db s) (lua_release (s_db s) cc (m_key (x_msg x)) mx (t - c_redeliver c)) passing).
    { unfold lua_release. eapply adds_trans; [|apply pubs_wake]. apply adds_none. destruct (waiters _ _); reflexivity. }
    destruct (x_phase x); try exact P; now apply adds_none.
  - apply W. destruct (get_exec _ _) as [x|]; [|now apply adds_none]. destruct (x_slot x) as [[cc mx]|]; now apply adds_none.
  - apply W. cbn [fst set_db s_db]. unfold lua_scavenge. destruct (waiters _ _); [now apply adds_none|].
    eapply adds_trans; [|apply pubs_wake]. now apply adds_none.
  - apply W, adds_none. cbn [fst set_db s_db]. unfold cancel_cleanup. destruct (own_place _ _ _ _); reflexivity.
  - apply W. now apply adds_none.
Qed.

(** ** While the run is the only one *)

Lemma only_free c k h s : reachable c s -> only_run k h s -> d_parked (s_db s) k = None /\ not_waiting k s.
Proof.
  intros R (x & _ & _ & _ & _ & _ & H). pose proof (reachable_GInv c s R) as [GD _]. split.
  - destruct (d_parked (s_db s) k) as [m|] eqn:E; [|reflexivity]. exfalso. pose proof (di_parked _ GD k m E) as Ek.
    assert (X : stored_at s AtFuture m) by (cbn; now rewrite Ek). specialize (H _ _ X Ek). discriminate.
  - intros cc i m H1 H2. specialize (H (AtLine cc i) m H1 H2). discriminate.
Qed.

Lemma rstep_record c k q o : ordinary k -> rreachable c q -> undisturbed c k q o ->
  d_parked (s_db (q_sys q)) k = None -> not_waiting k (q_sys q) ->
  (forall x, In x (s_execs (q_sys q)) -> m_key (x_msg x) = k -> x_phase x = PDone \/ rop_exec o <> Some (x_id x)) ->
  d_runs (s_db (q_sys (rstep c q o))) k = d_runs (s_db (q_sys q)) k.
Proof.
  intros Or R N Hp Hw Hx. destruct (rstep_sys c q o) as [->|(o' & -> & [->|[H1 H2]])]; [reflexivity| |].
  - destruct N as [N1 N2]. apply record_still; auto using rreach_sys.
  - apply record_still; auto using rreach_sys.
    + destruct o; cbn in H1, H2; try congruence; destruct o'; cbn in H2; try congruence; exact I.
    + intros dt ->. cbn in H2. congruence.
    + intros x X1 X2. rewrite H2. auto.
Qed.

(** What storing the outcome of [h] leaves behind. *)
Record Kept (c : cfg) (k : key) (h : Z) (b : result) (dl : Z) (R0 : option runs) (q : rsys) : Prop := mkKept {
  kp_only : only_run k h (q_sys q);
  kp_body : q_body q h = Some b;
  kp_put : q_put q h = is_some (stored_data c b);
  kp_store : forall y, stored_data c b = Some y -> q_store q k = Some (dl, y);
  kp_rec : d_runs (s_db (q_sys q)) k = R0 }.

Lemma store_same c k q o : (forall h x, rop_exec o = Some h -> get_exec (s_execs (q_sys q)) h = Some x -> m_key (x_msg x) = k -> x_phase x = PDone) ->
  q_store (rstep c q o) k = q_store q k.
Proof.
  intros H. destruct o; cbn [rstep]; try reflexivity.
  - destruct (get_exec _ _) as [x|]; [|reflexivity]. destruct (x_phase x); reflexivity.
  - destruct (get_exec _ _) as [x|]; [|reflexivity]. destruct (x_phase x); try reflexivity. destruct (q_body q h); reflexivity.
  - destruct (get_exec (s_execs (q_sys q)) h) as [x|] eqn:Hx; [|reflexivity]. destruct (q_body q h) as [b|]; [|reflexivity].
    destruct (may_finish (x_phase x) SCompleted && negb (q_put q h)) eqn:F; [|reflexivity]. destruct (stored_data c b); [|reflexivity].
    cbn [q_store]. apply upd_neq. intros E. rewrite (H h x eq_refl Hx (eq_sym E)) in F. discriminate.
  - destruct (get_exec _ _) as [x|]; [|reflexivity]. destruct (q_body q h); [|reflexivity]. destruct (Bool.eqb _ _); reflexivity.
  - destruct (q_wait q i); reflexivity.
  - destruct (q_wait q i); reflexivity.
Qed.

Lemma updz_neq {A} (f : Z -> A) i x j : j <> i -> updz f i x j = f j.
Proof. unfold updz. now destruct (Z.eqb_spec j i). Qed.
Lemma updz_eq {A} (f : Z -> A) i x : updz f i x i = x.
Proof. unfold updz. now rewrite Z.eqb_refl. Qed.

Lemma body_same c h q o : rop_exec o <> Some h -> q_body (rstep c q o) h = q_body q h /\ q_put (rstep c q o) h = q_put q h.
Proof.
  intros H. destruct o; cbn [rstep]; try (split; reflexivity); cbn [rop_exec] in H.
  - destruct (get_exec _ _) as [x|]; [|split; reflexivity]. destruct (x_phase x); cbn; try (split; reflexivity).
    split; [apply updz_neq; congruence|reflexivity].
  - destruct (get_exec _ _) as [x|]; [|split; reflexivity]. destruct (x_phase x); try (split; reflexivity). destruct (q_body q h0); try (split; reflexivity).
    cbn. split; [apply updz_neq; congruence|reflexivity].
  - destruct (get_exec _ _) as [x|]; [|split; reflexivity]. destruct (q_body q h0); [|split; reflexivity]. destruct (_ && _); [|split; reflexivity].
    destruct (stored_data c r); [|split; reflexivity]. cbn. split; [reflexivity|apply updz_neq; congruence].
  - destruct (get_exec _ _) as [x|]; [|split; reflexivity]. destruct (q_body q h0); [|split; reflexivity]. destruct (Bool.eqb _ _); split; reflexivity.
  - destruct (q_wait q i); split; reflexivity.
  - destruct (q_wait q i); split; reflexivity.
Qed.

Lemma Kept_step c k h b dl R0 q o : ordinary k -> rreachable c q -> leaves_alone c k h q o ->
  Kept c k h b dl R0 q -> Kept c k h b dl R0 (rstep c q o).
Proof.
  intros Or R (A1 & A2 & A3) [K1 K2 K3 K4 K5]. pose proof (rreach_sys c q R) as Rs.
  destruct (only_free c k h _ Rs K1) as [F1 F2]. destruct (body_same c h q o A2) as [B1 B2].
  destruct K1 as (x & X1 & X2 & X3 & X4 & X5 & X6).
  constructor; auto; [congruence|congruence| |].
  - intros y Hy. rewrite store_same; auto. intros h' x' H1 H2 H3. apply get_exec_spec in H2 as [H2 H4]. apply X5; auto. congruence.
  - rewrite <- K5. apply rstep_record; auto. intros z Z1 Z2. destruct (Z.eq_dec (x_id z) h); [right; congruence|auto].
Qed.

Lemma Kept_final c k h b dl R0 l : forall q, ordinary k -> rreachable c q -> ralong c (leaves_alone c k h) q l ->
  Kept c k h b dl R0 q -> Kept c k h b dl R0 (rfinal c q l).
Proof.
  induction l as [|o l IH]; intros q Or R A K; [exact K|]. destruct A as [A1 A2]. cbn [rfinal]. apply IH; auto using rreach_step.
  now apply Kept_step.
Qed.

(** ** After the mark *)

Definition end_state (b : result) : state := match b with Returned _ => SCompleted | Raised _ _ => SFailed end.

Record Settled (c : cfg) (k : key) (i : Z) (b : result) (dl : Z) (q : rsys) : Prop := mkSettled {
  se_over : Over (kabs k (q_sys q));
  se_rec : exists r, d_runs (s_db (q_sys q)) k = Some r /\ r_state r = Some (end_state b) /\
             r_result r = (if stored_data c b then Some k else None);
  se_store : forall y, stored_data c b = Some y -> q_store q k = Some (dl, y);
  se_wait : forall w, q_wait q i = Some w -> w_key w = k ->
              match w_pc w with
              | WFetch => v_state (w_view w) = end_state b /\ v_result (w_view w) = (if stored_data c b then Some k else None)
              | WDone a => a = told b
              | _ => True end }.

Lemma mark_settles c k h b dl R0 t i q : ordinary k -> rreachable c q -> 0 < c_ttl c ->
  Kept c k h b dl R0 q -> (b = Returned None -> r_result (default empty_runs R0) = None) ->
  undecided k i (rstep c q (RMark h t)) -> Settled c k i b dl (rstep c q (RMark h t)).
Proof.
  intros Or R T [K1 K2 K3 K4 K5] HN UD. pose proof (rreach_sys c q R) as Rs. pose proof (reachable_GInv _ _ Rs) as [GD GX].
  destruct (only_free c k h _ Rs K1) as [F1 F2]. destruct K1 as (x & X1 & X2 & X3 & X4 & X5 & X6).
  set (rk := if stored_data c b then Some k else None).
  assert (E : exists er, rstep c q (RMark h t) = with_sys q (fst (step c (q_sys q) (OTerminal h (end_state b) t er rk)))).
  { cbn [rstep]. rewrite X1, K2, K3, Bool.eqb_reflx. rewrite X2. unfold rk. destruct b as [v|e tx]; cbn [mark_op end_state].
    - exists None. f_equal. destruct (stored_data _ _); reflexivity.
    - eexists. f_equal. destruct (stored_data _ _); reflexivity. }
  destruct E as [er E].
  assert (S : exists r, d_runs (s_db (q_sys (rstep c q (RMark h t)))) k = Some r /\ r_state r = Some (end_state b) /\
                r_result r = (match rk with Some _ => rk | None => r_result (default empty_runs R0) end) /\
              s_execs (q_sys (rstep c q (RMark h t))) = upd_exec (s_execs (q_sys q)) h (with_phase PDone) /\
              d_stream (s_db (q_sys (rstep c q (RMark h t)))) = del_entry (x_mid x) (d_stream (s_db (q_sys q))) /\
              d_parked (s_db (q_sys (rstep c q (RMark h t)))) = d_parked (s_db (q_sys q)) /\
              d_wait (s_db (q_sys (rstep c q (RMark h t)))) = d_wait (s_db (q_sys q))).
  { rewrite E. cbn [with_sys q_sys step]. rewrite X1. unfold live in X4. rewrite X2 in *.
    assert (F : may_finish (x_phase x) (end_state b) = true) by (destruct X3 as [-> | ->]; destruct b; reflexivity). rewrite F.
    unfold lua_terminal. rewrite X4. replace (0 <? c_ttl c) with true by lia. cbn [fst set_execs s_db s_execs].
    unfold expire_runs, hdel, hset. cbn. rewrite !upd_eq. cbn. eexists. split; [reflexivity|]. cbn. split; [reflexivity|].
    unfold rget. rewrite K5. repeat split; reflexivity. }
  destruct S as (r & S1 & S2 & S3 & S4 & S5 & S6 & S7).
  constructor.
  - split.
    + constructor.
      * destruct (k_stream (kabs k (q_sys (rstep c q (RMark h t))))) as [|[j m] l] eqn:Es; [reflexivity|exfalso].
        assert (H : In (j, m) (k_stream (kabs k (q_sys (rstep c q (RMark h t)))))) by (rewrite Es; left; reflexivity).
        apply kstream_In in H as [H1 H2]. unfold on_stream in H1. rewrite S5 in H1. apply del_entry_In in H1 as [H1 H3].
        specialize (X6 (AtStream j) m H1 H2). injection X6 as ->. now apply H3.
      * change (d_parked (s_db (q_sys (rstep c q (RMark h t)))) k = None). now rewrite S6.
      * change (r_state (rget (s_db (q_sys (rstep c q (RMark h t)))) k) <> Some SScheduled). unfold rget. rewrite S1. cbn. rewrite S2. destruct b; discriminate.
      * intros y Hy. apply kexecs_In in Hy as [H1 H2]. rewrite S4 in H1. unfold upd_exec in H1. apply in_map_iff in H1 as (z & <- & Z1).
        destruct (Z.eqb_spec (x_id z) h) as [Ez|Ez]; [reflexivity|now apply X5].
    + change (filter (whas_key k) (d_wait (s_db (q_sys (rstep c q (RMark h t))))) = []). rewrite S7. destruct (filter (whas_key k) (d_wait (s_db (q_sys q)))) as [|[cc [j m]] l] eqn:Ew; [reflexivity|exfalso].
      assert (H : In (cc, (j, m)) (k_wait (kabs k (q_sys q)))) by (cbn; rewrite Ew; left; reflexivity). apply kwait_In in H as [H1 H2]. exact (F2 _ _ _ H1 H2).
  - exists r. split; [exact S1|]. split; [exact S2|]. rewrite S3. unfold rk. destruct (stored_data c b) eqn:Eb; [reflexivity|].
    apply HN. unfold stored_data in Eb. replace (0 <? c_ttl c) with true in Eb by lia. destruct b as [[v|]|]; congruence.
  - intros y Hy. rewrite E. cbn [with_sys q_store]. auto.
  - intros w H1 H2. specialize (UD w H1 H2). destruct (w_pc w); try exact I; contradiction.
Qed.

Lemma no_calls_schedule k o : no_calls k o -> no_schedule k o.
Proof. destruct o; cbn; auto. Qed.

Lemma Over_rstep c k q o : rreachable c q -> no_new_run k o -> Over (kabs k (q_sys q)) -> Over (kabs k (q_sys (rstep c q o))).
Proof.
  intros R N O. pose proof (rreach_sys c q R) as Rs. destruct (rstep_sys c q o) as [->|(o' & -> & [->|[H1 H2]])]; [exact O| |].
  - now apply Over_step.
  - apply Over_step; auto. destruct o; cbn in H1, H2; try congruence; destruct o'; cbn in H2; try congruence; exact I.
Qed.

Lemma wait_other c i q o : o <> RWait i -> (forall k v, o <> RGet i k v) -> q_wait (rstep c q o) i = q_wait q i.
Proof.
  intros H1 H2. destruct o; cbn [rstep]; try reflexivity.
  - destruct (get_exec _ _) as [x|]; [|reflexivity]. destruct (x_phase x); reflexivity.
  - destruct (get_exec _ _) as [x|]; [|reflexivity]. destruct (x_phase x); try reflexivity. destruct (q_body q h); reflexivity.
  - destruct (get_exec _ _) as [x|]; [|reflexivity]. destruct (q_body q h); [|reflexivity]. destruct (_ && _); [|reflexivity]. destruct (stored_data c r); reflexivity.
  - destruct (get_exec _ _) as [x|]; [|reflexivity]. destruct (q_body q h); [|reflexivity]. destruct (Bool.eqb _ _); reflexivity.
  - destruct (q_wait q i0); [reflexivity|]. apply updz_neq. congruence.
  - destruct (q_wait q i0); [|reflexivity]. apply updz_neq. congruence.
Qed.

Lemma truthy_some k : k <> ""%string -> truthy (Some k) = Some k.
Proof. destruct k; [congruence|reflexivity]. Qed.

Lemma wait_key q w : w_key (wait_step q w) = w_key w.
Proof. unfold wait_step. destruct (w_pc w); try reflexivity. destruct (nth_error _ _) as [[? ?]|]; reflexivity. Qed.

Lemma Settled_step c k i b dl q o : ordinary k -> k <> ""%string -> rreachable c q -> 0 < c_ttl c ->
  undisturbed c k q o -> fresh_handle k i o -> d_now (s_db (q_sys q)) < dl ->
  Settled c k i b dl q -> Settled c k i b dl (rstep c q o).
Proof.
  intros Or Ne R T A Fr Dl [S1 S2 S3 S4]. destruct S1 as [I W]. pose proof Logic.I as I'.
  assert (HD : forall x, In x (s_execs (q_sys q)) -> m_key (x_msg x) = k -> x_phase x = PDone) by (intros x X1 X2; apply (id_exec _ I), kexecs_In; auto).
  constructor.
  - apply Over_rstep; auto; [|split; auto]. destruct o; cbn; auto. now apply no_calls_schedule, A.
  - rewrite rstep_record; auto.
    + exact (id_parked _ I).
    + intros cc j m H1 H2. assert (X : In (cc, (j, m)) (k_wait (kabs k (q_sys q)))) by (apply kwait_In; auto). now rewrite W in X.
  - intros y Hy. rewrite store_same; auto. intros h x _ H1 H2. apply get_exec_spec in H1 as [H1 _]. auto.
  - intros w. destruct (match o with RWait j => j =? i | _ => false end) eqn:Eo.
    + destruct o; try discriminate Eo. assert (i0 = i) by lia. subst i0. cbn [rstep]. destruct (q_wait q i) as [w0|] eqn:Ew; [|congruence].
      cbn [q_wait]. rewrite updz_eq. intros [= <-]. destruct S2 as (r & R1 & R2 & R3).
      assert (Y : w_key w0 = k -> match w_pc w0 with
              | WFetch => v_state (w_view w0) = end_state b /\ v_result (w_view w0) = (if stored_data c b then Some k else None)
              | WDone a => a = told b
              | _ => True end) by (intros; now apply S4).
      assert (Sy : forall v, sync (s_db (q_sys q)) k v = mkView (end_state b) (r_error r) (if stored_data c b then Some k else None)).
      { intros v. unfold sync. rewrite R1, R2, R3. reflexivity. }
      intros Ek. rewrite wait_key in Ek. specialize (Y Ek). unfold wait_step. destruct (w_pc w0) eqn:Ep; cbn [w_pc w_view].
      * rewrite Ek, Sy. cbn. destruct b; exact I'.
      * exact I'.
      * destruct (nth_error _ _) as [[k' st]|]; [|rewrite Ep; exact I']. cbn [w_pc]. destruct (_ && _); exact I'.
      * rewrite Ek, Sy. cbn. auto.
      * destruct Y as [Y1 Y2]. unfold read_answer. rewrite Y1, Y2. unfold fetch.
        destruct (stored_data c b) as [y|] eqn:Eb.
        -- rewrite truthy_some by exact Ne. rewrite (S3 y eq_refl). unfold expired. replace (dl <=? d_now (s_db (q_sys q))) with false by lia.
           unfold stored_data in Eb. destruct (0 <? c_ttl c); [|discriminate]. destruct b as [[v|]|e tx]; try discriminate; injection Eb as <-; reflexivity.
        -- cbn [truthy]. unfold stored_data in Eb. replace (0 <? c_ttl c) with true in Eb by lia. destruct b as [[v|]|e tx]; try discriminate. reflexivity.
      * rewrite Ep. exact Y.
    + destruct (match o with RGet j _ _ => j =? i | _ => false end) eqn:Eg.
      * destruct o; try discriminate Eg. assert (i0 = i) by lia. subst i0. cbn [rstep]. destruct (q_wait q i) as [w0|] eqn:Ew; [intros H; apply S4; congruence|].
        cbn [q_wait]. rewrite updz_eq. intros [= <-] E. cbn [w_pc w_key] in *. cbn in Fr. rewrite Fr by auto. exact I'.
      * rewrite wait_other; [intros H; now apply S4| |]; intros; intros ->; rewrite Z.eqb_refl in *; discriminate.
Qed.

Lemma Settled_final c k i b dl l : forall q, ordinary k -> k <> ""%string -> rreachable c q -> 0 < c_ttl c ->
  ralong c (fun q o => undisturbed c k q o /\ fresh_handle k i o /\ d_now (s_db (q_sys q)) < dl) q l ->
  Settled c k i b dl q -> Settled c k i b dl (rfinal c q l).
Proof.
  induction l as [|o l IH]; intros q Or Ne R T A S; [exact S|]. destruct A as [(A1 & A2 & A3) A4]. cbn [rfinal].
  apply IH; auto using rreach_step. now apply Settled_step.
Qed.

Lemma answer_told c q k h b l2 t l3 i a : rreachable c q -> ordinary k -> k <> ""%string -> 0 < c_ttl c ->
  only_run k h (q_sys q) -> q_body q h = Some b -> q_put q h = false ->
  (b = Returned None -> r_result (rget (s_db (q_sys q)) k) = None) ->
  let dl := d_now (s_db (q_sys q)) + c_ttl c * 1000000 in
  let q1 := rstep c q (RPut h) in
  ralong c (leaves_alone c k h) q1 l2 ->
  let q2 := rstep c (rfinal c q1 l2) (RMark h t) in
  undecided k i q2 ->
  ralong c (fun q o => undisturbed c k q o /\ fresh_handle k i o /\ d_now (s_db (q_sys q)) < dl) q2 l3 ->
  answered k i (rfinal c q2 l3) a -> a = told b.
Proof.
  intros R Or Ne T O B P HN dl q1 A2 q2 UD A3 (w & W1 & W2 & W3).
  assert (K : Kept c k h b dl (d_runs (s_db (q_sys q)) k) q1).
  { unfold q1. cbn [rstep]. pose proof O as O'. destruct O as (x & X1 & X2 & X3 & X4 & X5 & X6). rewrite X1, B, P.
    replace (may_finish (x_phase x) SCompleted) with true by (destruct X3 as [-> | ->]; reflexivity). cbn [andb negb].
    destruct (stored_data c b) as [y|] eqn:Eb.
    - constructor; cbn [q_sys q_body q_put q_store]; auto; [rewrite updz_eq, Eb; reflexivity|].
      intros y' Hy. rewrite X2, upd_eq. unfold dl. congruence.
    - constructor; auto; [rewrite Eb; exact P|congruence]. }
  assert (S : Settled c k i b dl q2).
  { eapply mark_settles; eauto.
    - apply rreach_final. now apply rreach_step.
    - apply Kept_final; eauto. now apply rreach_step. }
  assert (S' : Settled c k i b dl (rfinal c q2 l3)).
  { apply Settled_final; auto. apply rreach_step, rreach_final. now apply rreach_step. }
  pose proof (se_wait _ _ _ _ _ _ S' w W1 W2) as X. rewrite W3 in X. exact X.
Qed.

(** ** Waiting *)

Lemma rpubs_prefix c q o : exists l, d_pubs (s_db (q_sys (rstep c q o))) = d_pubs (s_db (q_sys q)) ++ l.
Proof.
  destruct (rstep_sys c q o) as [->|(o' & -> & _)]; [exists []; now rewrite app_nil_r|].
  destruct (pubs_step c (q_sys q) o') as (l & E & _). eauto.
Qed.

Lemma nth_prefix {A} (l l' : list A) n x : nth_error l n = Some x -> nth_error (l ++ l') n = Some x.
Proof. intros H. rewrite nth_error_app1; [exact H|]. apply nth_error_Some. congruence. Qed.

(** The number of turns after which the caller is through, once a terminal event is
    at position [p]. *)
Definition left_over (k : key) (q : rsys) (w : waiter) (n : nat) : Prop :=
  match w_pc w with
  | WListen pos => exists p st, nth_error (d_pubs (s_db (q_sys q))) p = Some (k, st) /\ terminal_state st = true /\ (pos <= p)%nat /\ (p - pos + 3 <= n)%nat
  | WSync => (2 <= n)%nat
  | WFetch => (1 <= n)%nat
  | WDone _ => True
  | _ => False
  end.

Lemma left_turn k q w n : w_key w = k -> left_over k q w (S n) -> left_over k q (wait_step q w) n.
Proof.
  intros Ek. unfold left_over, wait_step. destruct (w_pc w) eqn:Ep; cbn [w_pc]; try tauto; try lia.
  - intros (p & st & H1 & H2 & H3 & H4). destruct (nth_error _ pos) as [[k' st']|] eqn:En; cbn [w_pc].
    + destruct (String.eqb k' (w_key w) && terminal_state st') eqn:Eb; [lia|].
      exists p, st. split; [exact H1|]. split; [exact H2|].
      assert (pos <> p). { intros ->. rewrite H1 in En. injection En as <- <-. rewrite Ek, String.eqb_refl, H2 in Eb. discriminate. } lia.
    + exfalso. apply nth_error_None in En. assert (p < length (d_pubs (s_db (q_sys q))))%nat by (apply nth_error_Some; congruence). lia.
  - intros _. rewrite Ep. exact I.
Qed.

Lemma left_pubs c k q o w n : left_over k q w n -> left_over k (rstep c q o) w n.
Proof.
  unfold left_over. destruct (w_pc w); auto. intros (p & st & H1 & H2). exists p, st. destruct (rpubs_prefix c q o) as [l ->].
  split; [now apply nth_prefix|exact H2].
Qed.

Lemma left_released c k i l : forall q w n, q_wait q i = Some w -> w_key w = k -> left_over k q w n -> (n <= turns i l)%nat ->
  released i (rfinal c q l).
Proof.
  induction l as [|o l IH]; intros q w n Hw Ek L Hn.
  - cbn in Hn. assert (n = 0%nat) by lia. subst n. cbn [rfinal]. unfold left_over in L. destruct (w_pc w) eqn:Ep; try lia; try contradiction.
    + destruct L as (p & st & _ & _ & _ & L). lia.
    + exists w, a. auto.
  - cbn [rfinal]. unfold turns in Hn. cbn [filter] in Hn.
    destruct (match o with RWait j => j =? i | _ => false end) eqn:Eo.
    + destruct o; try discriminate Eo. assert (i0 = i) by lia. subst i0. cbn [length] in Hn.
      assert (Hw' : q_wait (rstep c q (RWait i)) i = Some (wait_step q w)) by (cbn; rewrite Hw; cbn; apply updz_eq).
      assert (L' : left_over k (rstep c q (RWait i)) (wait_step q w) (pred n)).
      { apply left_pubs. apply left_turn; [exact Ek|]. destruct n; [|exact L].
        unfold left_over in *. destruct (w_pc w); try contradiction; try lia; auto. destruct L as (p & st & _ & _ & _ & L). lia. }
      apply (IH _ (wait_step q w) (pred n)); auto; [rewrite wait_key; exact Ek|unfold turns; lia].
    + apply (IH _ w n); auto.
      * destruct (match o with RGet j _ _ => j =? i | _ => false end) eqn:Eg.
        -- destruct o; try discriminate Eg. assert (i0 = i) by lia. subst i0. cbn [rstep]. rewrite Hw. exact Hw.
        -- rewrite wait_other; [exact Hw| |]; intros; intros ->; rewrite Z.eqb_refl in *; discriminate.
      * now apply left_pubs.
Qed.

Lemma ends_publishes c k q o : ends_a_run c k q o ->
  exists st, d_pubs (s_db (q_sys (rstep c q o))) = d_pubs (s_db (q_sys q)) ++ [(k, st)] /\ terminal_state st = true.
Proof.
  intros (h & x & t & Hx & Hk & H).
  assert (X : forall st er re, may_finish (x_phase x) st = true ->
     d_pubs (s_db (fst (step c (q_sys q) (OTerminal h st t er re)))) = d_pubs (s_db (q_sys q)) ++ [(k, st)] /\ terminal_state st = true).
  { intros st er re F. cbn [step]. rewrite Hx, F. unfold lua_terminal. split.
    - rewrite Hk. destruct (superseded _ _ _); cbn [fst set_execs s_db]; [destruct (prog_mine _ _ _); reflexivity|destruct (0 <? c_ttl c); reflexivity].
    - destruct (x_phase x); try discriminate F; [|exact F|exact F]. cbn in F. destruct st; try discriminate; reflexivity. }
  destruct H as [(st & er & re & -> & F)|(-> & P & b & B1 & B2)].
  - exists st. apply (X st er re F).
  - cbn [rstep]. rewrite Hx, B1, B2, Bool.eqb_reflx. cbn [with_sys q_sys].
    assert (F : forall st, is_mark st = true -> may_finish (x_phase x) st = true) by (intros; destruct P as [-> | ->]; assumption).
    destruct b; cbn [mark_op]; eexists; apply X, F; reflexivity.
Qed.

Lemma listen_bound c q i w pos : rreachable c q -> q_wait q i = Some w -> w_pc w = WListen pos -> (pos <= length (d_pubs (s_db (q_sys q))))%nat.
Proof.
  intros [l ->]. revert w pos.
  enough (H : forall q, (forall w pos, q_wait q i = Some w -> w_pc w = WListen pos -> (pos <= length (d_pubs (s_db (q_sys q))))%nat) ->
     forall w pos, q_wait (rfinal c q l) i = Some w -> w_pc w = WListen pos -> (pos <= length (d_pubs (s_db (q_sys (rfinal c q l)))))%nat).
  { apply H. discriminate. }
  induction l as [|o l IH]; intros q H; [exact H|]. cbn [rfinal]. apply IH. clear IH. intros w pos Hw Hp.
  destruct (rpubs_prefix c q o) as [ll E]. rewrite E, app_length.
  destruct (match o with RWait j => j =? i | _ => false end) eqn:Eo.
  - destruct o; try discriminate Eo. assert (i0 = i) by lia. subst i0. cbn [rstep] in Hw. destruct (q_wait q i) as [w0|] eqn:Hw0; [|congruence].
    cbn in Hw. rewrite updz_eq in Hw. injection Hw as <-. unfold wait_step in Hp. destruct (w_pc w0) eqn:Ep; cbn [w_pc] in Hp; try discriminate Hp.
    + destruct (terminal_state _); discriminate Hp.
    + injection Hp as <-. lia.
    + destruct (nth_error _ pos0) as [[k' st']|] eqn:En.
      * cbn [w_pc] in Hp. destruct (_ && _); [discriminate Hp|]. injection Hp as <-.
        assert (pos0 < length (d_pubs (s_db (q_sys q))))%nat by (apply nth_error_Some; congruence). lia.
      * rewrite Ep in Hp. injection Hp as <-. specialize (H w0 pos0 eq_refl Ep). lia.
    + rewrite Ep in Hp. discriminate Hp.
  - destruct (match o with RGet j _ _ => j =? i | _ => false end) eqn:Eg.
    + destruct o; try discriminate Eg. assert (i0 = i) by lia. subst i0. cbn [rstep] in Hw. destruct (q_wait q i) as [w0|] eqn:Hw0.
      * rewrite Hw0 in Hw. injection Hw as <-. specialize (H w0 pos eq_refl Hp). lia.
      * cbn in Hw. rewrite updz_eq in Hw. injection Hw as <-. cbn in Hp. destruct (terminal_state _); discriminate Hp.
    + rewrite wait_other in Hw; [specialize (H w pos Hw Hp); lia| |]; intros; intros ->; rewrite Z.eqb_refl in *; discriminate.
Qed.

Lemma subscribed_released c q k i w pos o : rreachable c q -> q_wait q i = Some w -> w_key w = k -> w_pc w = WListen pos ->
  ends_a_run c k q o -> exists n, forall l, (n <= turns i l)%nat -> released i (rfinal c (rstep c q o) l).
Proof.
  intros R Hw Ek Hp E. pose proof (listen_bound c q i w pos R Hw Hp) as B. pose proof E as E'. apply ends_publishes in E as (st & E & T).
  set (p := length (d_pubs (s_db (q_sys q)))) in *. exists (p - pos + 3)%nat. intros l Hn.
  apply (left_released c k i l _ w (p - pos + 3)%nat); auto.
  - rewrite wait_other; [exact Hw| |]; intros; intros ->; destruct E' as (h & x & t & _ & _ & [(? & ? & ? & X & _)|(X & _)]); discriminate X.
  - unfold left_over. rewrite Hp. exists p, st. split; [|split; [exact T|lia]]. rewrite E. rewrite nth_error_app2 by (unfold p; lia).
    unfold p. now rewrite Nat.sub_diag.
Qed.

Lemma reader_released c q k i w l : q_wait q i = Some w -> w_key w = k -> w_pc w = WStart ->
  (exists st, state_of (q_sys q) k = Some st /\ terminal_state st = true) ->
  (2 <= turns i l)%nat -> released i (rfinal c (rstep c q (RWait i)) l).
Proof.
  intros Hw Ek Hp (st & E & T) Hn.
  apply (left_released c k i l _ (wait_step q w) 2%nat); auto.
  - cbn [rstep]. rewrite Hw. cbn. apply updz_eq.
  - now rewrite wait_key.
  - unfold left_over, wait_step. rewrite Hp. cbn [w_pc]. unfold state_of, rget in E. unfold sync. rewrite Ek.
    destruct (d_runs (s_db (q_sys q)) k) as [r|]; [|discriminate E]. cbn in E. rewrite E. cbn. rewrite T. lia.
Qed.

(** ** Waiting for ever *)

Record Deaf (k : key) (i : Z) (q : rsys) : Prop := mkDeaf {
  df_over : Over (kabs k (q_sys q));
  df_wait : exists w pos, q_wait q i = Some w /\ w_key w = k /\ w_pc w = WListen pos /\
      forall p st, (pos <= p)%nat -> nth_error (d_pubs (s_db (q_sys q))) p = Some (k, st) -> terminal_state st = false }.

Lemma Deaf_step c k i q o : rreachable c q -> no_new_run k o -> Deaf k i q -> Deaf k i (rstep c q o).
Proof.
  intros R N [O (w & pos & Hw & Ek & Hp & H)]. constructor; [now apply Over_rstep|].
  assert (P : forall p st, (pos <= p)%nat -> nth_error (d_pubs (s_db (q_sys (rstep c q o)))) p = Some (k, st) -> terminal_state st = false).
  { intros p st Hpp Hn. destruct (rstep_sys c q o) as [E|(o' & E & _)]; rewrite E in Hn; [eapply H; eauto|].
    destruct (pubs_step c (q_sys q) o') as (l & El & Fl). rewrite El in Hn.
    destruct (Nat.lt_ge_cases p (length (d_pubs (s_db (q_sys q))))) as [Lt|Ge].
    - rewrite nth_error_app1 in Hn by exact Lt. eapply H; eauto.
    - rewrite nth_error_app2 in Hn by exact Ge. apply nth_error_In in Hn. rewrite Forall_forall in Fl. apply Fl in Hn as [Hn|(h & x & t & er & re & _ & X1 & X2 & X3)]; [exact Hn|].
      exfalso. cbn [fst snd] in *. apply get_exec_spec in X1 as [X1 _]. assert (D : x_phase x = PDone) by (apply (id_exec _ (proj1 O)), kexecs_In; auto).
      rewrite D in X3. discriminate. }
  destruct (match o with RWait j => j =? i | _ => false end) eqn:Eo.
  - destruct o; try discriminate Eo. assert (i0 = i) by lia. subst i0.
    assert (Hw' : q_wait (rstep c q (RWait i)) i = Some (wait_step q w)) by (cbn; rewrite Hw; cbn; apply updz_eq).
    exists (wait_step q w). assert (Es : q_sys (rstep c q (RWait i)) = q_sys q) by (cbn; rewrite Hw; reflexivity).
    rewrite Es in *. destruct (nth_error (d_pubs (s_db (q_sys q))) pos) as [[k' st']|] eqn:En.
    + exists (S pos). split; [exact Hw'|]. split; [now rewrite wait_key|]. split.
      * unfold wait_step. rewrite Hp, En. cbn [w_pc]. destruct (String.eqb_spec k' (w_key w)) as [Ek'|_]; [|reflexivity].
        assert (X : terminal_state st' = false) by (apply (H pos); [lia|]; congruence). rewrite X. reflexivity.
      * intros p st Hpp. apply P. lia.
    + exists pos. split; [exact Hw'|]. split; [now rewrite wait_key|]. split; [|exact P]. unfold wait_step. rewrite Hp, En. exact Hp.
  - exists w, pos. split; [|auto].
    destruct (match o with RGet j _ _ => j =? i | _ => false end) eqn:Eg.
    + destruct o; try discriminate Eg. assert (i0 = i) by lia. subst i0. cbn [rstep]. rewrite Hw. exact Hw.
    + rewrite wait_other; [exact Hw| |]; intros; intros ->; rewrite Z.eqb_refl in *; discriminate.
Qed.

Lemma Deaf_final c k i l : forall q, rreachable c q -> ralong c (fun _ o => no_new_run k o) q l -> Deaf k i q -> ~ released i (rfinal c q l).
Proof.
  induction l as [|o l IH]; intros q R A D.
  - destruct D as [_ (w & pos & Hw & _ & Hp & _)]. intros (w' & a & H1 & H2). cbn in H1. congruence.
  - destruct A as [A1 A2]. cbn [rfinal]. apply IH; auto using rreach_step. now apply Deaf_step.
Qed.

(** ** Cancelled runs *)

Definition sees_cancelled (k : key) (i : Z) (q : rsys) : Prop :=
  forall w, q_wait q i = Some w -> w_key w = k ->
    match w_pc w with WFetch => v_state (w_view w) = SCancelled | WDone a => a = ACancelled | _ => True end.

Lemma sees_cancelled_step c k i q o : r_state (rget (s_db (q_sys q)) k) = Some SCancelled -> fresh_handle k i o ->
  sees_cancelled k i q -> sees_cancelled k i (rstep c q o).
Proof.
  intros C F H. assert (Same : forall q', q_wait q' = q_wait q -> sees_cancelled k i q') by (intros q' E w Hw; rewrite E in Hw; now apply H).
  destruct o; cbn [rstep]; try (apply Same; repeat match goal with |- context [match ?x with _ => _ end] => destruct x end; reflexivity).
  - destruct (q_wait q i0) eqn:E; [apply Same; reflexivity|]. intros w. cbn [q_wait]. unfold updz. destruct (Z.eqb_spec i i0) as [->|N]; [|apply H].
    intros [= <-] K. cbn [w_pc w_key] in *. cbn in F. rewrite (F eq_refl K). exact Logic.I.
  - destruct (q_wait q i0) as [w0|] eqn:E; [|apply Same; reflexivity]. intros w. cbn [q_wait]. unfold updz. destruct (Z.eqb_spec i i0) as [->|N]; [|apply H].
    intros [= <-] K. assert (K0 : w_key w0 = k) by (revert K; unfold wait_step; destruct (w_pc w0); cbn; auto; destruct (nth_error _ _) as [[]|]; auto).
    specialize (H w0 E K0). unfold wait_step in *. destruct (w_pc w0) eqn:P; cbn [w_pc w_view].
    + destruct (terminal_state _); exact Logic.I.
    + exact Logic.I.
    + destruct (nth_error _ _) as [[k1 st]|]; cbn [w_pc]; [destruct (_ && _); exact Logic.I|rewrite P; exact Logic.I].
    + unfold sync. rewrite K0. unfold rget in C. destruct (d_runs (s_db (q_sys q)) k) as [r|]; [cbn in C; cbn; now rewrite C|discriminate].
    + unfold read_answer. now rewrite H.
    + rewrite P. exact H.
Qed.

Theorem cancelled_told c k i l : forall q a, undecided k i q ->
  ralong c (fun q o => r_state (rget (s_db (q_sys q)) k) = Some SCancelled /\ fresh_handle k i o) q l ->
  answered k i (rfinal c q l) a -> a = ACancelled.
Proof.
  assert (G : forall q, sees_cancelled k i q ->
    ralong c (fun q o => r_state (rget (s_db (q_sys q)) k) = Some SCancelled /\ fresh_handle k i o) q l -> sees_cancelled k i (rfinal c q l)).
  { induction l as [|o l IH]; intros q H R; [exact H|]. cbn in *. destruct R as [[R1 R2] R3]. apply IH; [now apply sees_cancelled_step|exact R3]. }
  intros q a U R (w & W1 & W2 & W3). assert (S0 : sees_cancelled k i q) by (intros v V1 V2; specialize (U v V1 V2); destruct (w_pc v); tauto).
  specialize (G q S0 R w W1 W2). now rewrite W3 in G.
Qed.
