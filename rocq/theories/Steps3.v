(** Times, origins of messages, cancelled tasks (C07, C08, C14, C44). *)
From Verif Require Import Base ZSet Model GInv KView KSim Spec KInv KLine Hist Steps Steps2.

(** ** Where new stream entries, payloads and scores come from *)

Lemma kplace_stream_new v w imm clr m i m' : In (i, m') (k_stream (kplace v w imm clr m)) ->
  In (i, m') (k_stream v) \/ (imm = true /\ i = k_next v /\ m' = with_gen m (kgen v + 1)).
Proof.
  unfold kplace. cbv zeta. destruct imm; simpl.
  - rewrite in_app_iff. simpl. intros [H|[H|[]]]; [auto|]. injection H as <- <-. auto.
  - destruct clr; auto.
Qed.

Lemma kreplace_stream v e : In e (k_stream (kreplace_existing v)) -> In e (k_stream v).
Proof. unfold kreplace_existing. destruct (r_sid (kr v)); simpl; [intros H; now apply del_entry_In in H|auto]. Qed.

Lemma kreplace_next v : k_next (kreplace_existing v) = k_next v.
Proof. unfold kreplace_existing. destruct (r_sid (kr v)); reflexivity. Qed.

Lemma kdel_stream v i e : In e (k_stream (kdel v i)) -> In e (k_stream v).
Proof. intros H; now apply del_entry_In in H. Qed.

Lemma stream_apply c k v e i m : kok k v e -> In (i, m) (k_stream (kapply c v e)) ->
  In (i, m) (k_stream v) \/
  (i = k_next v /\
   ((exists t, e = KMove t /\ k_parked v = Some m) \/
    (exists repl a, e = KSched repl true a /\ m = with_gen (call_msg a) (kgen v + 1)) \/
    (exists x w b, e = KResched x w b true /\ m = with_gen (resched_msg (x_msg x) w b) (kgen v + 1)) \/
    (exists cc wid m0, e = KWake cc wid m0 /\ m = with_gen m0 (kgen v + 1)))).
Proof.
  intros Hok H. destruct e; cbn [kapply] in H; auto.
  - simpl in H. contradiction.
  - unfold ksched in H. destruct (negb repl && kexists v); [auto|]. apply kplace_stream_new in H as [H|(-> & E & ->)].
    + left. destruct repl; [now apply kreplace_stream|exact H].
    + right. destruct repl; [rewrite kreplace_next in E|]; (split; [exact E|]); right; left; do 2 eexists; (split; [reflexivity|]);
        unfold kgen; rewrite ?kr_kreplace; reflexivity.
  - left. unfold kcancel in H. cbv zeta in H. apply kreplace_stream. destruct (r_state _) as [[]|] in H; exact H.
  - unfold kmove in H. destruct (k_parked v) as [m0|] eqn:Ep; [|auto]. simpl in H. rewrite in_app_iff in H. simpl in H.
    destruct H as [H|[H|[]]]; [auto|]. injection H as <- <-. right. split; [reflexivity|]. left. eauto.
  - left. cbv zeta in H. unfold kclaim in H. destruct (ksuper v _); [now apply kdel_stream in H|exact H].
  - left. unfold kterminal in H. destruct (ksuper v _); apply kdel_stream in H.
    + destruct (kprog_mine v _); exact H.
    + unfold kexpire in H. destruct (0 <? c_ttl c); exact H.
  - change (k_stream (kphase ?v0 _ _)) with (k_stream v0) in H. unfold kresched in H. change (k_stream (khdel ?v0 _)) with (k_stream v0) in H.
    apply kplace_stream_new in H as [H|(-> & E & ->)]; [left; now apply kdel_stream in H|]. right. split; [exact E|].
    right; right; left. do 3 eexists. split; reflexivity.
  - left. simpl in H. now apply kdel_stream in H.
  - unfold kwake in H. destruct (r_state (kr v)) as [[]|]; auto. simpl in H. rewrite in_app_iff in H. simpl in H.
    destruct H as [H|[H|[]]]; [auto|]. injection H as <- <-. right. split; [reflexivity|]. right; right; right. do 3 eexists. split; reflexivity.
Qed.

Lemma score_apply c k v e w : kok k v e -> k_score (kapply c v e) = Some w ->
  k_score v = Some w \/ (exists repl a, e = KSched repl false a /\ w = a_when a) \/ (exists x b, e = KResched x w b false).
Proof.
  intros Hok H. destruct e; cbn [kapply] in H; auto; try discriminate H.
  - unfold ksched in H. destruct (negb repl && kexists v); [auto|]. unfold kplace in H. destruct imm; simpl in H.
    + left. destruct repl; [discriminate H|exact H].
    + injection H as <-. right; left; eauto.
  - exfalso. unfold kcancel in H. cbv zeta in H. destruct (r_state _) as [[]|] in H; discriminate H.
  - left. unfold kmove in H. destruct (k_parked v); exact H.
  - left. cbv zeta in H. unfold kclaim in H. destruct (ksuper v _); exact H.
  - left. unfold kterminal, kexpire in H. destruct (ksuper v _); [destruct (kprog_mine v _)|destruct (0 <? c_ttl c)]; exact H.
  - unfold kresched, kplace in H. destruct imm; simpl in H; [auto|]. injection H as <-. right; right; eauto.
  - left. unfold kwake in H. destruct (r_state (kr v)) as [[]|]; exact H.
Qed.

(** ** Nothing is due before its time (C07) *)

Record Due (T : Z) (v : ks) : Prop := mkDue {
  du_stream : forall i m, In (i, m) (k_stream v) -> m_when m <= T;
  du_wait : forall cc i m, In (cc, (i, m)) (k_wait v) -> m_when m <= T;
  du_exec : forall x, In x (k_execs v) -> m_when (x_msg x) <= T }.

Lemma Due_apply c k o v e T : kok k v e -> UInv k v -> label k o e -> (forall t, op_clock o = Some t -> t <= T) ->
  Due T v -> Due T (kapply c v e).
Proof.
  intros Hok U L Hc [D1 D2 D3]. constructor.
  - intros i m H. apply (stream_apply c k v e i m Hok) in H as [H|(_ & [(t & -> & H)|[(repl & a & -> & ->)|[(x & w & b & -> & ->)|(cc & wid & m0 & -> & ->)]]])]; simpl in *.
    + eauto.
    + destruct Hok as (w & E & Hw). rewrite (ui_score _ _ U _ _ H E). subst o. specialize (Hc t eq_refl). lia.
    + destruct L as (t & -> & E). assert (Ht : t <= T) by (apply Hc; destruct repl; reflexivity). lia.
    + destruct L as (t & -> & E). specialize (Hc t eq_refl). lia.
    + eauto.
  - intros cc i m H. apply (wait_apply c k v e cc i m Hok) in H as [H|(x & -> & ->)]; [eauto|]. simpl in *. apply D3, Hok.
  - intros x H. apply (exec_apply c k v e x Hok U) in H as [(l & ->)|(y & H1 & _ & _ & -> & _)]; [|auto].
    simpl in Hok. destruct Hok as [Hs _]. eauto.
Qed.

Lemma now_step c s o : d_now (s_db s) <= d_now (s_db (fst (step c s o))).
Proof.
  assert (W1 : forall cc d e, d_now (wake_one cc d e) = d_now d).
  { intros cc d [wid m]. unfold wake_one. destruct (r_state _) as [[]|]; reflexivity. }
  assert (W : forall d cc cap, d_now (wake d cc cap) = d_now d).
  { intros d cc cap. unfold wake. destruct (0 <? cap); [|reflexivity]. generalize (firstn (Z.to_nat cap) (waiters d cc)). intros l. revert d.
    induction l as [|e l IH]; intros d; simpl; [reflexivity|]. now rewrite IH, W1. }
  assert (P : forall d k w imm clr m, d_now (place d k w imm clr m) = d_now d).
  { intros. unfold place, hincr_gen. destruct imm; [reflexivity|]. destruct clr; reflexivity. }
  assert (R : forall d k, d_now (lua_replace_existing d k) = d_now d).
  { intros. unfold lua_replace_existing. destruct (match r_sid _ with Some _ => _ | None => _ end); reflexivity. }
  destruct o; cbn [step].
  - destruct (0 <=? dt) eqn:E; cbn; lia.
  - unfold do_schedule, lua_schedule. destruct (negb false && lua_exists _ _); cbn [fst set_db s_db publish set_pubs d_now]; rewrite ?P; lia.
  - unfold do_schedule, lua_schedule. cbn [negb andb]. cbn [fst set_db s_db publish set_pubs d_now]. rewrite ?P, ?R; lia.
  - cbn. destruct (cancel_rest (s_db s) k t) as [E _]. cbv zeta in E. rewrite E. lia.
  - cbn. unfold cancel_finish. destruct (0 <? c_ttl c); cbn; lia.
  - cbn; lia.
  - cbn; lia.
  - destruct (ready_clear s _) as [sn|]; [|cbn; lia]. cbn.
    assert (F1 : forall l d, d_now (fold_left (clear_run (c_ttl c)) l d) = d_now d).
    { induction l as [|k l IH]; intros d; simpl; [reflexivity|]. rewrite IH. unfold clear_run. destruct (0 <? c_ttl c); reflexivity. }
    assert (F2 : forall l d, d_now (fold_left (clear_scheduled (c_ttl c)) l d) = d_now d).
    { induction l as [|k l IH]; intros d; simpl; [reflexivity|]. rewrite IH. unfold clear_scheduled, clear_run. destruct (0 <? c_ttl c); reflexivity. }
    rewrite F1, F2. destruct (0 <? cs_count sn); cbn; lia.
  - assert (F : forall l d, d_now (fold_left stream_one l d) = d_now d).
    { induction l as [|k l IH]; intros d; simpl; [reflexivity|]. rewrite IH. unfold stream_one. destruct (d_parked d k); reflexivity. }
    unfold lua_stream_due. cbn. destruct (0 <? Z.of_nat _); cbn; rewrite F; lia.
  - unfold read_group. destruct (next_new (s_db s)) as [[i m]|]; cbn; lia.
  - unfold autoclaim. destruct (find _ _); [|cbn; lia]. destruct (claimable _ _ _); [|cbn; lia]. destruct (lookup_entry _ _); cbn; lia.
  - cbn; lia.
  - destruct (get_exec _ _) as [x|]; [|cbn; lia]. destruct (x_phase x); try (cbn; lia). unfold lua_claim. destruct (superseded _ _ _); cbn; lia.
  - destruct (get_exec _ _) as [x|]; [|cbn; lia]. destruct (x_phase x); cbn; lia.
  - destruct (get_exec _ _) as [x|]; [|cbn; lia]. destruct (x_phase x); cbn; lia.
  - destruct (get_exec _ _) as [x|]; [|cbn; lia]. destruct (x_phase x); cbn; lia.
  - destruct (get_exec _ _) as [x|]; [|cbn; lia]. destruct (may_finish _ _); [|cbn; lia]. unfold lua_terminal.
    destruct (superseded _ _ _); cbv zeta; cbn [fst].
    + destruct (prog_mine _ _ _); cbn; lia.
    + destruct (0 <? c_ttl c); cbn; lia.
  - destruct (get_exec _ _) as [x|]; [|cbn; lia]. destruct (may_resched _); [|cbn; lia]. cbn [lua_schedule fst]. unfold lua_reschedule. cbn [fst set_execs s_db publish set_pubs d_now hdel set_runs]. rewrite P. cbn. lia.
  - destruct (get_exec _ _) as [x|]; [|cbn; lia]. destruct (x_phase x); try (cbn; lia). destruct (x_slot x); try (cbn; lia).
    unfold lua_acquire_or_park. destruct (zscore _ _); [destruct (x_redel x && _); cbn; lia|].
    destruct (zcard _ <? maxc); [cbn; lia|]. destruct (zrangebyscore _ _ _) as [|[]]; cbn; lia.
  - destruct (get_exec _ _) as [x|]; [|cbn; lia]. destruct (x_slot x) as [[cc mx]|]; [|cbn; lia].
    unfold lua_release. destruct (x_phase x); cbn [fst set_execs s_db]; rewrite ?W; try lia;
      match goal with |- context [match ?w with [] => _ | _ => _ end] => destruct w end; cbn; lia.
  - destruct (get_exec _ _) as [x|]; [|cbn; lia]. destruct (x_slot x) as [[cc mx]|]; cbn; lia.
  - unfold lua_scavenge. cbn. destruct (waiters _ _); [lia|]. rewrite W. cbn. lia.
  - cbn. unfold cancel_cleanup. destruct (own_place _ _ _ _); [|lia]. cbn. lia.
  - cbn; lia.
Qed.

Lemma Due_mono T T' v : T <= T' -> Due T v -> Due T' v.
Proof. intros H [D1 D2 D3]. constructor; intros; [eapply Z.le_trans; [eapply D1; eauto|lia]|eapply Z.le_trans; [eapply D2; eauto|lia]|eapply Z.le_trans; [eapply D3; eauto|lia]]. Qed.

Lemma Due_final c k skew l : forall s, GInv s -> UInv k (kabs k s) -> along c (clock_within skew) s l ->
  Due (d_now (s_db s) + skew) (kabs k s) -> Due (d_now (s_db (final c s l)) + skew) (kabs k (final c s l)).
Proof.
  induction l as [|o l IH]; intros s G U A D; [exact D|]. destruct A as [A1 A2]. rewrite final_cons.
  apply IH; [now apply GInv_step|now apply UInv_step|exact A2|].
  apply (Due_mono (d_now (s_db s) + skew)); [pose proof (now_step c s o); lia|].
  apply step_ind; auto. intros v e Hok L U1 U2 _ H. eapply Due_apply; eauto.
Qed.

Theorem not_before_time c skew l o m i : along c (clock_within skew) init_sys l ->
  starts c (final c init_sys l) o m i -> m_when m <= d_now (s_db (final c init_sys l)) + skew.
Proof.
  intros A S. set (k := m_key m).
  assert (D : Due (d_now (s_db (final c init_sys l)) + skew) (kabs k (final c init_sys l))).
  { apply Due_final; [apply GInv_init|apply UInv_init|exact A|]. constructor; simpl; contradiction. }
  apply starts_inv in S as (h & x & -> & Hx & Hp & <- & <-). apply get_exec_spec in Hx as [Hin _].
  apply (du_exec _ _ D). apply kexecs_In. auto.
Qed.

(** ** Schedules are after the epoch (C08) *)

Lemma score_nonneg c k l : forall s, GInv s -> UInv k (kabs k s) -> along c after_epoch s l ->
  (forall w, k_score (kabs k s) = Some w -> 0 <= w) ->
  forall w, k_score (kabs k (final c s l)) = Some w -> 0 <= w.
Proof.
  induction l as [|o l IH]; intros s G U A H; [exact H|]. destruct A as [A1 A2]. rewrite final_cons.
  apply IH; [now apply GInv_step|now apply UInv_step|exact A2|].
  apply (step_ind c k s o (fun v => forall w, k_score v = Some w -> 0 <= w)); auto.
  intros v e Hok L _ _ _ HP w Hw. apply (score_apply c k v e w Hok) in Hw as [Hw|[(repl & a & -> & ->)|(x & b & ->)]]; [auto| |]; simpl in L.
  - destruct L as (t & -> & E). assert (0 <= t) by (apply A1; destruct repl; reflexivity). lia.
  - destruct L as (t & -> & E). specialize (A1 t eq_refl). lia.
Qed.

Theorem scheduler_moves_exactly_due c s t l : along c after_epoch init_sys l -> s = final c init_sys l ->
  let s' := fst (step c s (OScheduler t)) in
  exists ms,
    snd (step c s (OScheduler t)) = OMoved (zcard (d_queue (s_db s))) (Z.of_nat (length ms)) /\
    d_stream (s_db s') = d_stream (s_db s) ++ numbered (d_next (s_db s)) ms /\
    NoDup (map m_key ms) /\ in_time_order ms /\
    (forall m, In m ms <-> in_future s m /\ m_when m <= t) /\
    (forall m, in_future s' m <-> in_future s m /\ t < m_when m) /\
    (forall k, d_runs (s_db s') k =
       if existsb (fun m => String.eqb (m_key m) k) ms then Some (rset_state SQueued (rget (s_db s) k)) else d_runs (s_db s) k) /\
    (forall k, (forall w, zscore k (d_queue (s_db s)) = Some w -> t < w) ->
       zscore k (d_queue (s_db s')) = zscore k (d_queue (s_db s)) /\ d_parked (s_db s') k = d_parked (s_db s) k) /\
    d_wait (s_db s') = d_wait (s_db s) /\ d_prog (s_db s') = d_prog (s_db s) /\ s_execs s' = s_execs s /\
    d_pubs (s_db s') = d_pubs (s_db s) ++ map (fun m => (m_key m, SQueued)) ms.
Proof.
  intros A E s'. assert (R : reachable c s) by (exists l; exact E).
  assert (N : forall k w, zscore k (d_queue (s_db s)) = Some w -> 0 <= w).
  { intros k w H. subst s. apply (score_nonneg c k l init_sys); [apply GInv_init|apply UInv_init|exact A|simpl; discriminate|exact H]. }
  destruct (scheduler_moves_due c s t R) as (ms & H1 & H2 & H3 & H4 & H5 & H6 & H7 & H8 & H9).
  exists ms. split; [exact H1|]. split; [exact H2|]. split; [exact H3|]. split; [exact H4|].
  split; [|split; [|split; [exact H7|split; [|exact H9]]]].
  - intros m. rewrite H5. split; intros [X Y]; (split; [exact X|]); [lia|]. pose proof (N _ _ (proj2 X)). lia.
  - intros m. fold s' in H6. rewrite H6. split; intros [X Y]; (split; [exact X|]); [pose proof (N _ _ (proj2 X))|]; lia.
  - intros k Hk. apply H8. intros w Hw. specialize (Hk w Hw). lia.
Qed.

(** ** A cancelled task that no worker has (C14) *)

Record Gone (v : ks) : Prop := mkGone {
  go_stream : k_stream v = [];
  go_parked : k_parked v = None;
  go_wait : k_wait v = [];
  go_exec : forall x, In x (k_execs v) -> x_phase x = PDone }.

Lemma parked_apply c k v e m : kok k v e -> k_parked (kapply c v e) = Some m ->
  k_parked v = Some m \/ (exists repl a, e = KSched repl false a) \/ (exists x w b, e = KResched x w b false).
Proof.
  intros Hok H. destruct e; cbn [kapply] in H; auto; try discriminate H.
  - unfold ksched in H. destruct (negb repl && kexists v); [auto|]. unfold kplace in H. destruct imm; simpl in H.
    + left. destruct repl; [discriminate H|exact H].
    + right; left; eauto.
  - exfalso. unfold kcancel in H. cbv zeta in H. destruct (r_state _) as [[]|] in H; discriminate H.
  - left. unfold kmove in H. destruct (k_parked v) eqn:E; [discriminate H|congruence].
  - left. cbv zeta in H. unfold kclaim in H. destruct (ksuper v _); exact H.
  - left. unfold kterminal, kexpire in H. destruct (ksuper v _); [destruct (kprog_mine v _)|destruct (0 <? c_ttl c)]; exact H.
  - unfold kresched, kplace in H. destruct imm; simpl in H; [auto|]. right; right; eauto.
  - left. unfold kwake in H. destruct (r_state (kr v)) as [[]|]; exact H.
Qed.

Lemma Gone_apply c k v e : kok k v e -> UInv k v -> (forall r i a, e <> KSched r i a) -> Gone v -> Gone (kapply c v e).
Proof.
  intros Hok U N [G1 G2 G3 G4].
  assert (NE : forall x w b i, e = KResched x w b i -> False).
  { intros x w b i ->. destruct Hok as [H1 H2]. apply G4 in H1. rewrite H1 in H2. discriminate H2. }
  constructor.
  - destruct (k_stream (kapply c v e)) as [|[i m] l] eqn:E; [reflexivity|exfalso].
    assert (H : In (i, m) (k_stream (kapply c v e))) by (rewrite E; left; reflexivity).
    apply (stream_apply c k v e i m Hok) in H as [H|(_ & [(t & -> & H)|[(repl & a & -> & _)|[(x & w & b & -> & _)|(cc & wid & m0 & -> & _)]]])].
    + rewrite G1 in H. contradiction.
    + congruence.
    + now apply (N repl true a).
    + eapply NE; reflexivity.
    + simpl in Hok. rewrite G3 in Hok. contradiction.
  - destruct (k_parked (kapply c v e)) as [m|] eqn:E; [|reflexivity]. exfalso.
    apply (parked_apply c k v e m Hok) in E as [E|[(repl & a & ->)|(x & w & b & ->)]]; [congruence|now apply (N repl false a)|eapply NE; reflexivity].
  - destruct (k_wait (kapply c v e)) as [|[cc [i m]] l] eqn:E; [reflexivity|exfalso].
    assert (H : In (cc, (i, m)) (k_wait (kapply c v e))) by (rewrite E; left; reflexivity).
    apply (wait_apply c k v e cc i m Hok) in H as [H|(x & -> & _)]; [rewrite G3 in H; contradiction|].
    destruct Hok as [H1 H2]. apply G4 in H1. congruence.
  - intros x H. apply (exec_apply c k v e x Hok U) in H as [(l & ->)|(y & H1 & _ & _ & _ & _ & _ & H2)].
    + destruct Hok as [Hs _]. rewrite G1 in Hs. contradiction.
    + pose proof (G4 y H1) as Py. destruct H2 as [H2|[(t & -> & E & _)|[(p & -> & _)|[(-> & E & _)|[H2 _]]]]]; try congruence.
      destruct Hok as [_ [[E _]|[E _]]]; congruence.
Qed.

Lemma Gone_step c k s o : GInv s -> UInv k (kabs k s) -> no_schedule k o -> Gone (kabs k s) -> Gone (kabs k (fst (step c s o))).
Proof.
  intros G U N. apply step_ind; auto. intros v e Hok L U1 _ _. apply (Gone_apply c k); auto.
  intros r i a ->. simpl in L, Hok. destruct L as (t & -> & _). destruct r; simpl in N; congruence.
Qed.

Lemma Gone_final c k l : forall s, GInv s -> UInv k (kabs k s) -> along c (fun _ o => no_schedule k o) s l -> Gone (kabs k s) -> Gone (kabs k (final c s l)).
Proof.
  induction l as [|o l IH]; intros s G U A H; [exact H|]. destruct A as [A1 A2]. rewrite final_cons.
  apply IH; auto; [now apply GInv_step|now apply UInv_step|now apply Gone_step].
Qed.

(** Everything stored under [k] is what the record of [k] points at, and no worker
    has a copy of it. *)
Theorem cancelled_never_starts c s k t l o m i : reachable c s ->
  (forall p m, stored_at s p m -> m_key m = k -> held_by_schedule s k p m) ->
  (forall x, In x (s_execs s) -> m_key (x_msg x) = k -> x_phase x = PDone) ->
  let s1 := fst (step c s (OCancel k t)) in
  (forall p m, m_key m = k -> ~ stored_at s1 p m) /\
  (along c (fun _ o => no_schedule k o) s1 l -> starts c (final c s1 l) o m i -> m_key m <> k).
Proof.
  intros R H1 H2 s1. pose proof (reachable_GInv c s R) as G. pose proof (reachable_UInv c k s R) as U.
  assert (N : forall p m, m_key m = k -> ~ stored_at s1 p m).
  { intros p m0 E H. destruct (cancel_rest (s_db s) k t) as (_ & _ & R3 & _ & _ & R6 & R7 & _ & _ & _ & _ & _ & _ & R14). cbv zeta in *.
    rewrite existing_sid in R3 by apply G.
    assert (stored_at s p m0).
    { destruct p; simpl in *.
      - unfold on_stream, s1 in *. cbn [step fst set_db s_db] in H. rewrite R3 in H. destruct (r_sid _); [now apply del_entry_In in H|exact H].
      - unfold s1 in H. cbn [step fst set_db s_db] in H. rewrite R7 in H. rewrite E, String.eqb_refl in H. discriminate H.
      - unfold s1 in H. cbn [step fst set_db s_db] in H. rewrite R14 in H. exact H. }
    apply H1 in H0 as H3; [|exact E]. destruct p; simpl in *; [|unfold s1 in H; cbn [step fst set_db s_db] in H; rewrite R7, E, String.eqb_refl in H; discriminate H|contradiction].
    unfold on_stream, s1 in H. cbn [step fst set_db s_db] in H. rewrite R3, H3 in H. apply del_entry_In in H as [_ H]. now apply H. }
  split; [exact N|]. intros A S E.
  assert (Gn : Gone (kabs k s1)).
  { constructor.
    - destruct (k_stream (kabs k s1)) as [|[j m0] l0] eqn:Es; [reflexivity|exfalso].
      assert (H : In (j, m0) (k_stream (kabs k s1))) by (rewrite Es; left; reflexivity). apply kstream_In in H as [H3 H4]. apply (N (AtStream j) m0 H4 H3).
    - destruct (k_parked (kabs k s1)) as [m0|] eqn:Ep; [|reflexivity]. exfalso.
      assert (Ek : m_key m0 = k) by (apply (di_parked _ (proj1 (GInv_step c s (OCancel k t) G))); exact Ep).
      apply (N AtFuture m0 Ek). simpl. rewrite Ek. exact Ep.
    - destruct (k_wait (kabs k s1)) as [|[cc [j m0]] l0] eqn:Es; [reflexivity|exfalso].
      assert (H : In (cc, (j, m0)) (k_wait (kabs k s1))) by (rewrite Es; left; reflexivity). apply kwait_In in H as [H3 H4]. apply (N (AtLine cc j) m0 H4 H3).
    - intros x Hx. apply kexecs_In in Hx as [H3 H4]. apply H2; auto. }
  assert (Gf : Gone (kabs k (final c s1 l))) by (apply Gone_final; auto; [now apply GInv_step|now apply UInv_step]).
  apply starts_inv in S as (h & x & -> & Hx & Hp & Em & _). apply get_exec_spec in Hx as [Hin _].
  assert (x_phase x = PDone) by (apply (go_exec _ Gf), kexecs_In; split; [exact Hin|congruence]). congruence.
Qed.

(** ** Messages say what was submitted (C44) *)

Lemma came_from_mono l l' m : incl l l' -> came_from l m -> came_from l' m.
Proof.
  intros I H. induction H as [a t m Ha Hf|m0 h w b t m _ IH Ho E1 E2 E3 E4 E5 E6].
  - apply (from_call l' a t m); [destruct Ha as [Ha|Ha]; [left|right]; apply I, Ha|exact Hf].
  - apply (from_retry l' m0 h w b t m); auto.
Qed.

Lemma came_from_gen l m g : came_from l m -> came_from l (with_gen m g).
Proof. intros H. inversion H; subst; [eapply from_call; eauto|eapply from_retry; eauto]. Qed.

Lemma came_apply c k o v e l : kok k v e -> label k o e ->
  (forall m, held v m -> came_from l m) -> forall m, held (kapply c v e) m -> came_from (l ++ [o]) m.
Proof.
  intros Hok L H m Hm. assert (I : incl l (l ++ [o])) by (intros y Hy; apply in_app_iff; auto).
  assert (Io : In o (l ++ [o])) by (apply in_app_iff; simpl; auto).
  apply (held_apply c k v e m Hok) in Hm as [Hm|(m0 & lo & E & _ & ->)]; [eapply came_from_mono; eauto|].
  destruct e; simpl in E; try discriminate E; injection E as <-; apply came_from_gen; simpl in L.
  - destruct L as (t & -> & _). apply (from_call _ a t); [destruct repl; auto|repeat split].
  - destruct L as (t & -> & _). apply (from_retry _ (x_msg x) (x_id x) when bump t); auto.
    eapply came_from_mono; [exact I|]. apply H. right; right; right. exists x. split; [apply Hok|reflexivity].
  - eapply came_from_mono; [exact I|]. apply H. right; right; right. exists x. split; [apply Hok|reflexivity].
  - eapply came_from_mono; [exact I|]. apply H. right; right; left. simpl in Hok. eauto.
Qed.

Lemma came_path c k o v es v' l : kpath c k v es v' -> Forall (label k o) es ->
  (forall m, held v m -> came_from (l ++ [o]) m) -> forall m, held v' m -> came_from (l ++ [o]) m.
Proof.
  intros P. induction P as [|v e es v' Hok P IH]; intros L H; [exact H|]. inversion L as [|? ? L1 L2]; subst. apply IH; auto.
  intros m Hm. assert (X : came_from ((l ++ [o]) ++ [o]) m) by (eapply came_apply; eauto).
  eapply came_from_mono; [|exact X]. intros y Hy. apply in_app_iff in Hy as [Hy|[<-|[]]]; [exact Hy|apply in_app_iff; simpl; auto].
Qed.

Lemma came_final c k l2 : forall l1 s, GInv s -> (forall m, held (kabs k s) m -> came_from l1 m) ->
  forall m, held (kabs k (final c s l2)) m -> came_from (l1 ++ l2) m.
Proof.
  induction l2 as [|o l2 IH]; intros l1 s G H; [now rewrite app_nil_r|]. rewrite final_cons.
  replace (l1 ++ o :: l2) with ((l1 ++ [o]) ++ l2) by (rewrite <- app_assoc; reflexivity).
  apply IH; [now apply GInv_step|]. destruct (sim_step c k s o G) as (es & Hp & L & _).
  eapply came_path; eauto. intros m Hm. eapply came_from_mono; [|apply H, Hm]. intros y Hy; apply in_app_iff; auto.
Qed.

Theorem submitted_is_received c l m : present (final c init_sys l) m -> came_from l m.
Proof.
  intros H. assert (G : GInv (final c init_sys l)) by (apply (reachable_GInv c); exists l; reflexivity).
  apply (present_held (m_key m)) in H; auto.
  apply (came_final c (m_key m) l [] init_sys (GInv_init)); [|exact H].
  intros m0 [[i []]|[X|[(cc & i & [])|(x & [] & _)]]]. discriminate X.
Qed.

(** What a worker is handed is the message of a stored entry, unchanged. *)
Theorem delivered_is_stored c s o h i m : snd (step c s o) = ODelivered h i m ->
  on_stream s i m /\ exists x, In x (s_execs (fst (step c s o))) /\ x_id x = h /\ x_mid x = i /\ x_msg x = m.
Proof.
  intros H. destruct o; cbn [step] in *; try discriminate H;
    try (repeat match type of H with context [match ?x with _ => _ end] => destruct x eqn:?; cbn [snd] in H; try discriminate H end; discriminate H).
  - unfold deliver, read_group in *. destruct (next_new (s_db s)) as [[j m']|] eqn:E; [|discriminate H]. cbn in H. injection H as <- <- <-.
    unfold next_new in E. apply find_some in E as [E _]. split; [exact E|]. cbn. eexists. split; [apply in_app_iff; right; left; reflexivity|]. auto.
  - unfold deliver, autoclaim in *. destruct (find _ _) as [p|]; [|discriminate H]. destruct (claimable _ _ _); [|discriminate H].
    destruct (lookup_entry i0 (d_stream (s_db s))) as [m'|] eqn:E; [|discriminate H]. cbn in H. injection H as <- <- <-.
    unfold lookup_entry in E. destruct (find (fun e => fst e =? i0) (d_stream (s_db s))) as [[j m0]|] eqn:F; [|discriminate E]. cbn in E. injection E as <-.
    apply find_some in F as [F1 F2]. cbn in F2. assert (j = i0) by (unfold sid in *; lia). subst j.
    split; [exact F1|]. cbn. eexists. split; [apply in_app_iff; right; left; reflexivity|]. auto.
Qed.
