(** Single operations, continued: cancel, superseded runs, states, clear. *)
From Verif Require Import Base ZSet Model GInv KView KSim Spec KInv KLine Hist Steps.

(** ** Cancel (C15) *)

Lemma zrem_absent k z : ~ In k (map snd z) -> zrem k z = z.
Proof.
  intros H. unfold zrem. apply filter_all. intros [w k'] Hin. simpl. destruct (String.eqb_spec k' k) as [->|]; [|reflexivity].
  exfalso. apply H. apply in_map_iff. exists (w, k). auto.
Qed.

(** The record cancel leaves. *)
Definition cancelled_record (r : option runs) (t : Z) : option runs :=
  match r_state (rdel_known (default empty_runs r)) with
  | Some SCompleted | Some SFailed | Some SCancelled => option_map rdel_known r
  | _ => Some (rset_cancelled t (rdel_known (default empty_runs r)))
  end.

Lemma cancel_runs d k t k' : d_runs (lua_cancel d k t) k' = if String.eqb k' k then cancelled_record (d_runs d k) t else d_runs d k'.
Proof.
  unfold lua_cancel. set (ex := match r_sid _ with Some _ => _ | None => _ end).
  set (d0 := match ex with Some i => xdel d i | None => d end).
  assert (E0 : d_runs d0 = d_runs d) by (unfold d0; destruct ex; reflexivity).
  assert (ER : rget (hdel (del_prog (del_legacy (unpark_future d0 k) k) k) k rdel_known) k = rdel_known (rget d k)).
  { unfold rget, hdel. cbn. rewrite upd_eq, E0. destruct (d_runs d k); reflexivity. }
  cbv zeta. rewrite ER. unfold cancelled_record. fold (rget d k).
  destruct (r_state (rdel_known (rget d k))) as [[]|]; unfold hset; cbn [d_runs set_runs]; rewrite ?ER; unfold upd;
    destruct (String.eqb_spec k' k) as [->|N]; try reflexivity; unfold hdel; cbn; unfold upd; rewrite ?E0, ?String.eqb_refl; try reflexivity;
    now rewrite (eqb_neq_string _ _ N).
Qed.

Lemma cancelled_record_twice r t t' : cancelled_record (cancelled_record r t) t' = cancelled_record r t.
Proof. destruct r as [r|]; unfold cancelled_record; simpl; [destruct (r_state r) as [[]|] eqn:E; simpl; rewrite ?E; reflexivity|reflexivity]. Qed.

Lemma cancel_rest d k t :
  let d' := lua_cancel d k t in
  d_now d' = d_now d /\ d_next d' = d_next d /\
  d_stream d' = (match (match r_sid (rget d k) with Some i => Some i | None => d_lsid d k end) with Some i => del_entry i (d_stream d) | None => d_stream d end) /\
  d_last d' = d_last d /\ d_pel d' = d_pel d /\ d_queue d' = zrem k (d_queue d) /\
  (forall k', d_parked d' k' = if String.eqb k' k then None else d_parked d k') /\
  (forall k', d_prog d' k' = if String.eqb k' k then None else d_prog d k') /\
  (forall k', d_lknown d' k' = if String.eqb k' k then false else d_lknown d k') /\
  (forall k', d_lsid d' k' = if String.eqb k' k then None else d_lsid d k') /\
  d_pubs d' = d_pubs d /\ d_slots d' = d_slots d /\ d_slotexp d' = d_slotexp d /\ d_wait d' = d_wait d.
Proof.
  unfold lua_cancel. cbv zeta.
  destruct (match r_sid (rget d k) with Some i => Some i | None => d_lsid d k end);
    destruct (r_state (rget (hdel _ k rdel_known) k)) as [[]|]; cbn; auto 20.
Qed.

Theorem cancel_idempotent d k t t' : same_store (lua_cancel (lua_cancel d k t) k t') (lua_cancel d k t).
Proof.
  pose proof (cancel_rest d k t) as (A1 & A2 & A3 & A4 & A5 & A6 & A7 & A8 & A9 & A10 & A11 & A12 & A13 & A14).
  pose proof (cancel_rest (lua_cancel d k t) k t') as (B1 & B2 & B3 & B4 & B5 & B6 & B7 & B8 & B9 & B10 & B11 & B12 & B13 & B14).
  assert (S0 : r_sid (rget (lua_cancel d k t) k) = None).
  { unfold rget. rewrite cancel_runs, String.eqb_refl. unfold cancelled_record. destruct (d_runs d k) as [r|]; simpl; [destruct (r_state r) as [[]|]|]; reflexivity. }
  rewrite S0 in B3. rewrite A10, String.eqb_refl in B3.
  repeat split; auto.
  - rewrite B6, A6. apply zrem_absent, zrem_notin.
  - intros k'. rewrite B7, A7. destruct (String.eqb k' k); reflexivity.
  - intros k'. rewrite !cancel_runs. destruct (String.eqb_spec k' k) as [->|]; [|reflexivity]. rewrite String.eqb_refl. apply cancelled_record_twice.
  - intros k'. rewrite B8, A8. destruct (String.eqb k' k); reflexivity.
  - intros k'. rewrite B9, A9. destruct (String.eqb k' k); reflexivity.
  - intros k'. rewrite B10, A10. destruct (String.eqb k' k); reflexivity.
  - intros; now rewrite B12.
  - intros; now rewrite B13.
Qed.

Theorem cancel_keeps_outcome d k t r : d_runs d k = Some r -> r_state r = Some SCompleted \/ r_state r = Some SFailed ->
  exists r', d_runs (lua_cancel d k t) k = Some r' /\ r_state r' = r_state r /\ r_result r' = r_result r /\ r_error r' = r_error r /\
    r_completed r' = r_completed r.
Proof.
  intros E H. rewrite cancel_runs, String.eqb_refl, E. unfold cancelled_record. cbn [default].
  change (r_state (rdel_known r)) with (r_state r). destruct H as [H|H]; rewrite H; eexists; (split; [reflexivity|simpl; rewrite ?H; auto]).
Qed.

Theorem cancel_frees_key c s k t a t' (fin : bool) : a_key a = k ->
  let s1 := fst (step c s (OCancel k t)) in
  let s2 := if fin then fst (step c s1 (OCancelFinish k)) else s1 in
  snd (step c s2 (OAdd a t')) = ODisp DScheduled.
Proof.
  intros <- s1 s2. pose proof (cancel_runs (s_db s) (a_key a) t (a_key a)) as CR. rewrite String.eqb_refl in CR.
  pose proof (cancel_rest (s_db s) (a_key a) t) as (_ & _ & _ & _ & _ & _ & _ & _ & L & _). specialize (L (a_key a)). rewrite String.eqb_refl in L.
  assert (Q : forall r, d_runs (s_db s2) (a_key a) = r -> r = cancelled_record (d_runs (s_db s) (a_key a)) t \/
     (exists e, r = option_map (rset_expire e) (cancelled_record (d_runs (s_db s) (a_key a)) t)) \/ r = None).
  { intros r <-. unfold s2, s1. destruct fin; cbn [step fst set_db s_db]; [|left; exact CR].
    unfold cancel_finish. destruct (0 <? c_ttl c); [right; left|right; right].
    - unfold expire_runs, hdel. cbn [d_runs set_runs]. rewrite upd_eq, CR. eauto.
    - unfold del_runs. cbn. now rewrite upd_eq. }
  assert (Lk : d_lknown (s_db s2) (a_key a) = false).
  { unfold s2, s1. destruct fin; cbn [step fst set_db s_db]; [|exact L]. unfold cancel_finish. destruct (0 <? c_ttl c); exact L. }
  cbn [step]. unfold do_schedule, lua_schedule.
  assert (E : lua_exists (s_db s2) (a_key a) = false).
  { unfold lua_exists, rget. specialize (Q _ eq_refl). rewrite Lk.
    assert (X : forall e, let r := default empty_runs (option_map (rset_expire e) (cancelled_record (d_runs (s_db s) (a_key a)) t)) in
       r_known r = None /\ r_state r <> Some SRunning).
    { intros e. unfold cancelled_record. destruct (d_runs (s_db s) (a_key a)) as [r|]; simpl; [destruct (r_state r) as [[]|] eqn:Er; simpl; rewrite ?Er; split; congruence|split; [reflexivity|discriminate]]. }
    assert (X' : forall e r, r_known (default empty_runs (option_map (rset_expire e) r)) = r_known (default empty_runs r) /\
       r_state (default empty_runs (option_map (rset_expire e) r)) = r_state (default empty_runs r)) by (intros e [r|]; auto).
    destruct Q as [-> |[[e ->]| ->]].
    - destruct (X None) as [X1 X2]. destruct (X' None (cancelled_record (d_runs (s_db s) (a_key a)) t)) as [X3 X4]. rewrite X3 in X1. rewrite X4 in X2.
      rewrite X1. simpl. destruct (r_state _) as [[]|]; congruence.
    - destruct (X e) as [X1 X2]. rewrite X1. simpl. destruct (r_state _) as [[]|]; congruence.
    - reflexivity. }
  rewrite E. reflexivity.
Qed.

(** ** Superseded runs (C16) *)

(** Removing the entry [i] and at most the progress of [k]. *)
Lemma stored_at_del s d' i xs : d_stream d' = del_entry i (d_stream (s_db s)) -> d_parked d' = d_parked (s_db s) -> d_wait d' = d_wait (s_db s) ->
  forall p m, stored_at (set_execs s d' xs) p m <-> stored_at s p m /\ p <> AtStream i.
Proof.
  intros E1 E2 E3 p m. destruct p; simpl.
  - unfold on_stream. simpl. rewrite E1, del_entry_In. simpl. unfold sid in *. split; intros [H1 H2]; split; auto; congruence.
  - rewrite E2. split; [intros; split; [auto|discriminate]|tauto].
  - rewrite E3. split; [intros; split; [auto|discriminate]|tauto].
Qed.

Theorem superseded_run_harmless c s h x o : GInv s ->
  get_exec (s_execs s) h = Some x -> superseded (s_db s) (m_key (x_msg x)) (m_gen (x_msg x)) = true ->
  (exists st t e r, o = OTerminal h st t e r) \/ (exists t, o = OClaim h t) ->
  let s' := fst (step c s o) in
  (forall k, d_runs (s_db s') k = d_runs (s_db s) k) /\
  (forall k, zscore k (d_queue (s_db s')) = zscore k (d_queue (s_db s))) /\
  (forall k pr g, d_prog (s_db s) k = Some pr -> p_gen pr = Some g -> m_gen (x_msg x) < g \/ k <> m_key (x_msg x) -> d_prog (s_db s') k = Some pr) /\
  (s' = s \/ forall p m, stored_at s' p m <-> stored_at s p m /\ p <> AtStream (x_mid x)) /\
  (forall p m, stored_at s p m -> live s m -> stored_at s' p m).
Proof.
  intros [D GX] Hx Hs Ho s'.
  assert (Main : s' = s \/
     (d_runs (s_db s') = d_runs (s_db s) /\ d_queue (s_db s') = d_queue (s_db s) /\
      (forall k pr g, d_prog (s_db s) k = Some pr -> p_gen pr = Some g -> m_gen (x_msg x) < g \/ k <> m_key (x_msg x) -> d_prog (s_db s') k = Some pr) /\
      forall p m, stored_at s' p m <-> stored_at s p m /\ p <> AtStream (x_mid x))).
  { unfold s'. destruct Ho as [(st & t & e & r & ->)|(t & ->)]; cbn [step]; rewrite Hx.
    - destruct (may_finish (x_phase x) st); [right|left; reflexivity]. unfold lua_terminal. rewrite Hs. cbv zeta. cbn [fst].
      set (d1 := publish (s_db s) (m_key (x_msg x)) st).
      set (d2 := if prog_mine d1 (m_key (x_msg x)) (m_gen (x_msg x)) then del_prog d1 (m_key (x_msg x)) else d1).
      assert (E : d_runs d2 = d_runs (s_db s) /\ d_queue d2 = d_queue (s_db s) /\ d_stream d2 = d_stream (s_db s) /\ d_parked d2 = d_parked (s_db s) /\ d_wait d2 = d_wait (s_db s))
        by (unfold d2; destruct (prog_mine _ _ _); auto 10).
      destruct E as (E1 & E2 & E3 & E4 & E5).
      split; [exact E1|]. split; [exact E2|]. split.
      + intros k pr g H1 H2 H3. cbn. unfold d2. destruct (prog_mine d1 (m_key (x_msg x)) (m_gen (x_msg x))) eqn:Ep; [|exact H1].
        cbn. unfold upd. destruct (String.eqb_spec k (m_key (x_msg x))) as [->|]; [|exact H1].
        unfold prog_mine in Ep. change (d_prog d1) with (d_prog (s_db s)) in Ep. rewrite H1, H2 in Ep. destruct H3; [lia|congruence].
      + apply stored_at_del; cbn; auto. now rewrite E3.
    - destruct (x_phase x); try (left; reflexivity). right. unfold lua_claim. rewrite Hs. cbn [fst].
      split; [reflexivity|]. split; [reflexivity|]. split; [intros; assumption|]. apply stored_at_del; reflexivity. }
  destruct Main as [->|(M1 & M2 & M3 & M4)].
  - repeat split; auto.
  - split; [intros; now rewrite M1|]. split; [intros; now rewrite M2|]. split; [exact M3|]. split; [right; exact M4|].
    intros p m H L. apply M4. split; [exact H|]. intros ->. apply get_exec_spec in Hx as [Hin _].
    apply (xi_msg _ GX x m Hin) in H. subst m. unfold live in L. congruence.
Qed.

(** ** States follow the life cycle (C17) *)

Definition kst (v : ks) : option state := r_state (kr v).

Lemma kst_khdel v f : (forall r, r_state (f r) = r_state r) -> kst (khdel v f) = kst v.
Proof. exact (khdel_state v f). Qed.

Lemma kst_kplace v w imm clr m : kst (kplace v w imm clr m) = Some (if imm then SQueued else SScheduled).
Proof. unfold kst, kplace. cbv zeta. destruct imm; [reflexivity|]. destruct clr; reflexivity. Qed.

Lemma kst_kreplace v : kst (kreplace_existing v) = kst v.
Proof. unfold kst. now rewrite kr_kreplace. Qed.

Lemma kst_none v : k_runs v = None -> kst v = None.
Proof. unfold kst, kr. now intros ->. Qed.

Lemma release_path c k o v0 es v : ordinary k -> (match o with ORelease _ _ | OScavenge _ _ _ => True | _ => False end) ->
  kpath c k v0 es v -> Forall (label k o) es ->
  (kst v = kst v0 \/ (kst v = Some SQueued /\ kst v0 = Some SScheduled /\ exists cc i m, In (cc, (i, m)) (k_wait v0))).
Proof.
  intros Ho Hop P.
  enough (H : forall st (W : Prop), ((exists cc i m, In (cc, (i, m)) (k_wait v0)) -> W) ->
     (kst v0 = st \/ (kst v0 = Some SQueued /\ st = Some SScheduled /\ W)) ->
     Forall (label k o) es -> (kst v = st \/ (kst v = Some SQueued /\ st = Some SScheduled /\ W))).
  { intros L. destruct (H (kst v0) (exists cc i m, In (cc, (i, m)) (k_wait v0))); auto. }
  induction P as [|v0 e es v Hok P IH]; intros st W HW H L; [exact H|]. inversion L as [|? ? L1 L2]; subst.
  apply IH; [| |exact L2].
  - intros (cc & i & m & X). apply HW. exists cc, i.
    destruct (wait_apply c k v0 e cc i m Hok X) as [Y|Y]; [exists m; exact Y|].
    destruct Y as (x & -> & _). simpl in L1. destruct L1 as (mx & t & ->). contradiction.
  - assert (KP : forall h f, kst (kphase v0 h f) = kst v0) by reflexivity.
    destruct e; simpl in L1; try contradiction; try (destruct o; contradiction); try (subst o; contradiction); try (destruct L1 as [? ?]; subst o; contradiction); simpl.
    + exact H.
    + destruct L1 as (t & -> & _). destruct repl; contradiction.
    + destruct (x_redel x); subst o; contradiction.
    + exact H.
    + exact H.
    + destruct L1 as (t & -> & _). contradiction.
    + destruct L1 as (mx & t & ->). contradiction.
    + unfold kwake. destruct (r_state (kr v0)) as [[]|] eqn:Es; try exact H. right. split; [reflexivity|].
      unfold kst in H. rewrite Es in H. destruct H as [<-|[H _]]; [|discriminate H]. split; [reflexivity|]. apply HW. eauto.
    + exfalso. destruct o; try contradiction; destruct L1 as [k' E]; exact (Ho k' E).
Qed.

Lemma clear_path c wc k v0 es v : kpath c k v0 es v -> Forall (label k (OClearApply wc)) es -> kst v = kst v0 \/ kst v = None.
Proof.
  intros P. enough (H : forall st, (kst v0 = st \/ kst v0 = None) -> Forall (label k (OClearApply wc)) es -> kst v = st \/ kst v = None) by (intros; now apply H; auto).
  induction P as [|v0 e es v Hok P IH]; intros st H L; [exact H|]. inversion L as [|? ? L1 L2]; subst. apply IH; [|exact L2].
  destruct e; simpl in L1; try contradiction; try discriminate L1; simpl.
  - exact H.
  - right. reflexivity.
  - rewrite kst_khdel by reflexivity. exact H.
  - exact H.
  - exact H.
  - exact H.
  - destruct L1 as [t E]; discriminate E.
  - destruct L1 as (t & E & _). destruct repl; discriminate E.
  - destruct (x_redel x); discriminate L1.
  - destruct L1 as [[E _]|[[E _]|(t & E & _)]]; discriminate E.
  - destruct o as [[cc mx]|]; destruct L1 as [t E]; discriminate E.
  - destruct L1 as (t & E & _); discriminate E.
  - destruct L1 as (mx & t & E); discriminate E.
  - destruct L1 as [(h & t & E)|(mx & t & E)]; discriminate E.
Qed.

Theorem state_changes_allowed c s o k : ordinary k -> reachable c s ->
  let st := state_of s k in let st' := state_of (fst (step c s o)) k in
  st' = st \/ allowed c s o k st st'.
Proof.
  intros Ho R st st'. pose proof (reachable_GInv c s R) as G.
  change st with (kst (kabs k s)). change st' with (kst (kabs k (fst (step c s o)))).
  destruct (sim_step c k s o G) as (es & Hp & L & Hs).
  destruct (single o) eqn:So.
  - destruct (Hs eq_refl) as [->|[e ->]]; [apply kpath_nil_inv in Hp; left; now rewrite Hp|].
    apply kpath_one_inv in Hp as [Hok E]. inversion L as [|? ? L1 _]; subst. clear L Hs. rewrite E.
    assert (IE : forall x, In x (k_execs (kabs k s)) -> get_exec (s_execs s) (x_id x) = Some x /\ m_key (x_msg x) = k).
    { intros x Hx. apply kexecs_In in Hx as [H1 H2]. split; [apply get_exec_In; [apply G|exact H1]|exact H2]. }
    destruct e; simpl in L1.
    + left; reflexivity.
    + right. replace (kst (kapply c (kabs k s) KForget)) with (@None state) by reflexivity. destruct o; try contradiction; try discriminate So; simpl; auto.
    + left. apply kst_khdel. reflexivity.
    + left; reflexivity.
    + left; reflexivity.
    + left; reflexivity.
    + left; reflexivity.
    + destruct L1 as (t & Eo & Ei). simpl in Hok. cbn [kapply]. unfold ksched. destruct (negb repl && kexists (kabs k s)); [left; reflexivity|right].
      rewrite kst_kplace. subst o imm. destruct (a_when a <=? t) eqn:Et; destruct repl; simpl; split; auto; lia.
    + subst o. cbn [kapply]. unfold kcancel.
      set (v1 := khdel (kset_prog (kreplace_existing (kabs k s)) None) rdel_known).
      assert (E1 : kst v1 = kst (kabs k s)).
      { unfold v1. rewrite kst_khdel by reflexivity. change (kst (kset_prog ?v _)) with (kst v). apply kst_kreplace. }
      cbv zeta. change (r_state (kr v1)) with (kst v1). rewrite E1.
      destruct (kst (kabs k s)) as [[]|] eqn:Es; try (left; now rewrite E1); right; simpl; repeat split; discriminate.
    + subst o. discriminate So.
    + left; reflexivity.
    + left; reflexivity.
    + destruct Hok as [Hin Hph]. destruct (IE x Hin) as [I1 I2]. subst o. cbn [kapply].
      change (kst (kphase ?v _ _)) with (kst v). unfold kclaim. destruct (ksuper (kabs k s) (m_gen (x_msg x))) eqn:Ks; [left; reflexivity|right].
      rewrite kst_khdel by reflexivity. simpl. exists x. auto.
    + left; reflexivity.
    + left; reflexivity.
    + left. cbn [kapply]. change (kst (kphase ?v _ _)) with (kst v). apply kst_khdel. reflexivity.
    + destruct Hok as [Hin Hph]. destruct (IE x Hin) as [I1 I2]. subst o. cbn [kapply].
      change (kst (kphase ?v _ _)) with (kst v). unfold kterminal. destruct (ksuper (kabs k s) (m_gen (x_msg x))) eqn:Ks.
      * left. destruct (kprog_mine _ _); reflexivity.
      * right. change (kst (kdel ?v _)) with (kst v). change (kst (kset_prog ?v _)) with (kst v). unfold kexpire.
        destruct (0 <? c_ttl c) eqn:Et.
        -- rewrite kst_khdel by reflexivity. unfold kst at 2. simpl.
           destruct (x_phase x) eqn:Px; simpl in Hph; try discriminate Hph; destruct s0; simpl in Hph; try discriminate Hph;
             simpl; (split; [reflexivity|]); exists x; rewrite Px; auto.
        -- unfold kst at 2. simpl. split; [lia|]. exists x. auto.
    + destruct Hok as [Hin Hph]. destruct (IE x Hin) as [I1 I2]. destruct L1 as (t & -> & ->). cbn [kapply].
      change (kst (kphase ?v _ _)) with (kst v). unfold kresched. rewrite kst_khdel by reflexivity. rewrite kst_kplace. right.
      destruct (when <=? t) eqn:Et; simpl; (split; [lia|]); exists x; auto.
    + destruct Hok as [Hin Hph]. destruct (IE x Hin) as [I1 I2]. destruct L1 as (mx & t & ->).
      assert (D : snd (step c s (OAcquire (x_id x) c0 mx t)) = OAcquired false \/ snd (step c s (OAcquire (x_id x) c0 mx t)) <> OAcquired false).
      { destruct (snd (step c s (OAcquire (x_id x) c0 mx t))) as [| | | | | | | |[]]; auto; right; discriminate. }
      destruct D as [D|D].
      * right. replace (kst (kapply c (kabs k s) (KPark x c0))) with (Some SScheduled); [|reflexivity].
        cbn [allowed]. split; [exact D|]. exists x. auto.
      * left. rewrite <- E. destruct (acquire_kept c k s (x_id x) c0 mx t x I1 I2 D) as [-> | ->]; reflexivity.
    + destruct L1 as [(h & t & ->)|(mx & t & ->)]; discriminate So.
    + left. cbn [kapply]. unfold kcleanup. rewrite kst_khdel by reflexivity. reflexivity.
    + destruct o; try contradiction; discriminate So.
  - destruct o; try discriminate So.
    + destruct (clear_path c _ k _ _ _ Hp L) as [X|X]; [auto|right]. rewrite X. exact I.
    + clear es Hp L Hs. destruct (scheduler_moves_due c s t R) as (ms & _ & _ & _ & _ & Hm & _ & Hr & _).
      unfold kst, kr. change (k_runs (kabs k ?s0)) with (d_runs (s_db s0) k). rewrite Hr.
      destruct (existsb (fun m => String.eqb (m_key m) k) ms) eqn:Em; [right|left; reflexivity].
      apply existsb_exists in Em as (m & H1 & H2). apply String.eqb_eq in H2. apply Hm in H1 as [H1 H3]. simpl. exists m. split; [exact H1|]. split; [exact H2|lia].
    + destruct (release_path c k (ORelease h t) _ _ _ Ho I Hp L) as [X|(X1 & X2 & cc & i & m & X3)]; [auto|right]. rewrite X1, X2. simpl.
      split; [reflexivity|]. exists cc, i, m. apply kwait_In in X3. exact X3.
    + destruct (release_path c k (OScavenge c0 maxc t) _ _ _ Ho I Hp L) as [X|(X1 & X2 & cc & i & m & X3)]; [auto|right]. rewrite X1, X2. simpl.
      split; [reflexivity|]. exists cc, i, m. apply kwait_In in X3. exact X3.
Qed.
