(** Proofs for the safeguards of waiting tasks. *)
From Verif Require Import Base ZSet Model GInv KView KSim Spec KInv KLine Hist Steps WaitProofs Guard SpecGuard PropsReuse.

Lemma safeguard_inj k k' : safeguard_key k = safeguard_key k' -> k = k'.
Proof. unfold safeguard_key. cbn. intros H. injection H. auto. Qed.
Lemma safeguard_neq k : safeguard_key k <> k.
Proof.
  unfold safeguard_key. intros H. apply (f_equal String.length) in H. cbn in H.
  assert (E : String.length ("__safeguard__:" ++ k) = (14 + String.length k)%nat) by reflexivity. cbn in E. lia.
Qed.

(** ** The record of a safeguard stays as long as its task waits *)

Lemma wake_one_record c d e g r : d_runs d g = Some r -> safeguard_key (m_key (snd e)) <> g ->
  exists r', d_runs (wake_one c d e) g = Some r' /\ r_expire r' = r_expire r.
Proof.
  destruct e as [i m]. cbn [snd]. intros H N.
  assert (R : rget d g = r) by (unfold rget; now rewrite H).
  unfold wake_one. destruct (string_dec (m_key m) g) as [E|E].
  - rewrite E. destruct (r_state (rget d g)) as [[]|]; try (rewrite E in N; exists r; split; [|reflexivity];
      unfold drop_safeguard, del_runs; cbn -[safeguard_key]; rewrite upd_neq by congruence; exact H).
    rewrite E in N. unfold drop_safeguard, del_runs, hincr_gen, hset, xadd, publish. cbn -[safeguard_key]. rewrite upd_neq by congruence. rewrite upd_eq.
    eexists. split; [reflexivity|]. unfold rget at 1. cbn. rewrite upd_eq. cbn. now rewrite R.
  - exists r. split; [|reflexivity].
    destruct (r_state (rget d (m_key m))) as [[]|]; unfold drop_safeguard, del_runs; cbn -[safeguard_key]; rewrite upd_neq by congruence; try exact H.
    now rewrite !upd_neq by congruence.
Qed.

Lemma wake_fold_record c g l : forall d r, d_runs d g = Some r -> (forall e, In e l -> safeguard_key (m_key (snd e)) <> g) ->
  exists r', d_runs (fold_left (wake_one c) l d) g = Some r' /\ r_expire r' = r_expire r.
Proof.
  induction l as [|e l IH]; intros d r H N; cbn [fold_left]; [eauto|].
  destruct (wake_one_record c d e g r H (N e (or_introl eq_refl))) as (r1 & H1 & E1).
  destruct (IH _ r1 H1) as (r2 & H2 & E2); [intros e' He'; apply N; now right|]. exists r2. split; [exact H2|congruence].
Qed.

Lemma wake_fold_wait c l : forall d e, In e (d_wait (fold_left (wake_one c) l d)) ->
  In e (d_wait d) /\ forall e', In e' l -> e <> (c, e').
Proof.
  induction l as [|[i m] l IH]; intros d e H; cbn [fold_left] in H; [split; [exact H|intros e' []]|].
  apply IH in H as [H N]. rewrite wake_one_wait in H. unfold del_waiter in H. cbn in H. apply filter_In in H as [H F].
  split; [exact H|]. intros e' [<-|He']; [|now apply N]. intros ->. cbn in F. rewrite String.eqb_refl, Z.eqb_refl in F. discriminate F.
Qed.

(** The waiters that a step serves. *)
Lemma wake_record d cc cap k r : d_runs d (safeguard_key k) = Some r ->
  (forall e, In (cc, e) (d_wait d) -> m_key (snd e) = k -> In (cc, e) (d_wait (wake d cc cap))) ->
  exists r', d_runs (wake d cc cap) (safeguard_key k) = Some r' /\ r_expire r' = r_expire r.
Proof.
  unfold wake. destruct (0 <? cap); [|eauto]. intros H N. apply wake_fold_record; [exact H|].
  intros e He E. apply safeguard_inj in E.
  assert (Hw : In (cc, e) (d_wait d)) by (apply waiters_In; eapply firstn_In; eauto).
  apply (N e) in Hw; [|exact E]. apply wake_fold_wait in Hw as [_ Hw]. exact (Hw e He eq_refl).
Qed.

Lemma release_record d cc k' mx st k r : d_runs d (safeguard_key k) = Some r ->
  (forall e, In (cc, e) (d_wait d) -> m_key (snd e) = k -> In (cc, e) (d_wait (lua_release d cc k' mx st))) ->
  exists r', d_runs (lua_release d cc k' mx st) (safeguard_key k) = Some r' /\ r_expire r' = r_expire r.
Proof.
  intros H N. unfold lua_release in *. cbv zeta in *. set (d1 := set_slots d _) in *.
  set (d2 := match waiters d1 cc with [] => d1 | _ :: _ => evict_stale d1 cc st end) in *.
  assert (E1 : d_runs d2 = d_runs d) by (unfold d2; destruct (waiters d1 cc); reflexivity).
  assert (E2 : d_wait d2 = d_wait d) by (unfold d2; destruct (waiters d1 cc); reflexivity).
  apply wake_record; [now rewrite E1|]. rewrite E2. exact N.
Qed.
Lemma scavenge_record d cc mx st k r : d_runs d (safeguard_key k) = Some r ->
  (forall e, In (cc, e) (d_wait d) -> m_key (snd e) = k -> In (cc, e) (d_wait (lua_scavenge d cc mx st))) ->
  exists r', d_runs (lua_scavenge d cc mx st) (safeguard_key k) = Some r' /\ r_expire r' = r_expire r.
Proof.
  intros H N. unfold lua_scavenge in *. destruct (waiters d cc); [eauto|]. cbv zeta in *. apply wake_record; assumption.
Qed.

Lemma guard_record c k s o r : GInv s -> UInv (safeguard_key k) (kabs (safeguard_key k) s) ->
  no_calls (safeguard_key k) o -> ~ finishes (safeguard_key k) s o -> keeps_waiting c k s o ->
  d_runs (s_db s) (safeguard_key k) = Some r -> (forall e, r_expire r = Some e -> d_now (s_db (fst (step c s o))) < e) ->
  exists r', d_runs (s_db (fst (step c s o))) (safeguard_key k) = Some r' /\ r_expire r' = r_expire r.
Proof.
  intros G U N F W H X.
  assert (D : (match o with ORelease _ _ | OScavenge _ _ _ => False | _ => True end) ->
    exists r', d_runs (s_db (fst (step c s o))) (safeguard_key k) = Some r' /\ r_expire r' = r_expire r).
  { intros D. apply expire_step; auto. now destruct o. }
  destruct o; try (now apply D); clear D; cbn [step] in *.
  - unfold keeps_waiting in W. cbn [step] in W. destruct (get_exec (s_execs s) h) as [x|]; [|eauto].
    destruct (x_slot x) as [[cc mx]|]; [|destruct (x_phase x); eauto].
    destruct (x_phase x); eauto; cbn in W |- *; apply release_record; try exact H; intros [i m] He Em; now apply W.
  - unfold keeps_waiting in W. cbn [step fst s_db set_db] in *. apply scavenge_record; [exact H|]. intros [i m] He Em. now apply W.
Qed.

(** ** A task that waits *)

Record Waits (cc : string) (i : sid) (m : msg) (v : ks) : Prop := mkWaits {
  wa_b : BInv v;
  wa_in : In (cc, (i, m)) (k_wait v);
  wa_gen : r_gen (kr v) = Some (m_gen m);
  wa_state : r_state (kr v) = Some SScheduled;
  wa_parked : k_parked v = None }.

Lemma Waits_super k cc i m v x : UInv k v -> Waits cc i m v -> In x (k_execs v) -> ksuper v (m_gen (x_msg x)) = true.
Proof.
  intros U [B I Gn _ _] Hx. destruct (ui_exec _ _ U x Hx) as (_ & _ & G1).
  assert (Hh : holds v (m_gen (x_msg x)) (LS (x_mid x))) by (right; eauto).
  assert (Hw : holds v (m_gen m) (LW i)) by (exists cc, m; auto).
  pose proof (bi_le _ B _ _ Hh) as Le. unfold kgen in Le. rewrite Gn in Le. cbn in Le.
  assert (Ne : m_gen (x_msg x) <> m_gen m). { intros E. rewrite E in Hh. pose proof (bi_inj _ B _ _ _ Hh Hw). discriminate. }
  unfold ksuper. rewrite Gn. lia.
Qed.

Lemma Waits_runs cc i m v : Waits cc i m v -> k_runs v <> None.
Proof. intros [_ _ Gn _ _] E. unfold kr in Gn. rewrite E in Gn. discriminate. Qed.

Lemma Waits_apply c k cc i m v e : kok k v e -> UInv k v -> (k_runs v <> None -> k_runs (kapply c v e) <> None) ->
  Waits cc i m v ->
  (match e with
   | KSetExpire _ | KDropStream | KDropQueue | KDropParked | KSched _ _ _ | KCancel _ | KCleanup _ _
   | KResched _ _ _ _ | KPark _ _ | KWake _ _ _ => False
   | _ => True end) -> Waits cc i m (kapply c v e) /\ k_wait (kapply c v e) = k_wait v.
Proof.
  intros Hok U K H A. pose proof (BInv_apply c k v e Hok U K (wa_b _ _ _ _ H)) as B'.
  pose proof (Waits_runs _ _ _ _ H) as Nr. destruct H as [B I Gn St Pk]. pose proof (mkWaits cc i m v B I Gn St Pk) as H.
  destruct e; try contradiction; cbn [kapply] in *.
  - split; [constructor; auto|reflexivity].
  - exfalso. now apply K.
  - split; [constructor; auto|reflexivity].
  - unfold kmove in *. rewrite Pk in *. split; [constructor; auto|reflexivity].
  - split; [constructor; auto|reflexivity].
  - split; [constructor; auto|reflexivity].
  - destruct Hok as [Hx _]. pose proof (Waits_super k cc i m v x U H Hx) as S. unfold kclaim in *. cbv zeta in *. rewrite S in *.
    split; [constructor; auto|reflexivity].
  - split; [constructor; auto|reflexivity].
  - split; [constructor; auto|reflexivity].
  - split; [|reflexivity]. unfold khdel in *. cbn in *. constructor; auto; unfold kr; cbn; (destruct (k_runs v) as [r|] eqn:E; [|now destruct Nr]);
      unfold kr in Gn, St; rewrite E in Gn, St; assumption.
  - destruct Hok as [Hx _]. pose proof (Waits_super k cc i m v x U H Hx) as S. unfold kterminal in *. rewrite S in *.
    destruct (kprog_mine v _); (split; [constructor; auto|reflexivity]).
  - exfalso. now apply K.
Qed.

Lemma Waits_step c k cc i m s o : GInv s -> UInv k (kabs k s) -> keeps c k s o -> no_calls k o -> no_stale_resched k s o ->
  keeps_waiting c k s o -> Waits cc i m (kabs k s) -> Waits cc i m (kabs k (fst (step c s o))).
Proof.
  intros G U K C N W H. set (v0 := kabs k s) in *.
  set (P := fun v => (Waits cc i m v /\ k_wait v = k_wait v0) \/ (exists e, In e (k_wait v0) /\ ~ In e (k_wait v))).
  assert (Q : P (kabs k (fst (step c s o)))).
  2:{ destruct Q as [[Q _]|([cc' [i' m']] & H1 & H2)]; [exact Q|]. exfalso. apply H2. apply kwait_In in H1 as [H1 H3].
      apply kwait_In. split; [|exact H3]. now apply W. }
  apply (kept_ind c k s o P G U K); [|left; auto].
  assert (Px : forall x, In x (k_execs v0) -> get_exec (s_execs s) (x_id x) = Some x /\ m_key (x_msg x) = k).
  { intros x Hx. apply kexecs_In in Hx as [Hx Hk]. split; [apply get_exec_In; [apply G|exact Hx]|exact Hk]. }
  assert (Cur : forall x, In x (k_execs v0) -> current_run k s (x_id x) -> False).
  { intros x Hx D. destruct (Px x Hx) as [X1 X2]. pose proof (Waits_super k cc i m v0 x U H Hx) as S.
    specialize (D x X1 X2). change (ksuper v0 (m_gen (x_msg x)) = false) in D. congruence. }
  intros v e Hok L U1 U2 K1 Hs [[HW E]|([cc' [i' m']] & H1 & H2)].
  - assert (D : (exists cc' i' m', e = KWake cc' i' m') \/
      match e with
      | KSetExpire _ | KDropStream | KDropQueue | KDropParked | KSched _ _ _ | KCancel _ | KCleanup _ _
      | KResched _ _ _ _ | KPark _ _ | KWake _ _ _ => False
      | _ => True end).
    { destruct e; auto; cbn in L; cbn in Hok.
      - right. destruct o; try contradiction; cbn in C; auto.
      - destruct L as [w ->]; contradiction.
      - destruct L as [w ->]; contradiction.
      - destruct L as [w ->]; contradiction.
      - exfalso. destruct L as (t & -> & _). destruct repl; cbn in C; congruence.
      - subst o. exfalso. now apply C.
      - exfalso. destruct L as (t & -> & _). rewrite (Hs eq_refl) in *. destruct Hok as [Hx _]. eapply Cur; eauto.
      - exfalso. destruct L as (mx & t & ->). rewrite (Hs eq_refl) in *. destruct Hok as [Hx _]. eapply Cur; eauto.
      - left. eauto.
      - subst o. exfalso. now apply C. }
    destruct D as [(cc' & i' & m' & ->)|D].
    + right. exists (cc', (i', m')). cbn in Hok. split; [now rewrite <- E|]. cbn [kapply]. unfold kwake.
      destruct (r_state (kr v)) as [[]|]; cbn; intros Hi; apply filter_In in Hi as [_ Hi]; cbn in Hi; rewrite String.eqb_refl, Z.eqb_refl in Hi; discriminate Hi.
    + left. destruct (Waits_apply c k cc i m v e Hok U1 K1 HW D) as [A1 A2]. split; [exact A1|congruence].
  - right. exists (cc', (i', m')). split; [exact H1|]. intros Hi. apply (wait_apply c k v e _ _ _ Hok) in Hi as [Hi|(x & -> & _)]; [contradiction|].
    cbn in L. destruct L as (mx & t & ->). rewrite (Hs eq_refl) in H2. contradiction.
Qed.

(** ** The joint machine *)

Lemma gstep_sys c g o : g_sys (fst (gstep c g o)) = match operation c g o with Some o' => fst (step c (g_sys g) o') | None => g_sys g end.
Proof.
  destruct o as [o|q t]; cbn [gstep operation].
  - destruct (step c (g_sys g) o) as [s r]. destruct (after_op g o r). reflexivity.
  - destruct (get_parker (g_parkers g) q) as [p|]; [|reflexivity].
    destruct (parker_call c p t) as [o|]; [|reflexivity]. destruct (step c (g_sys g) o). reflexivity.
Qed.
Lemma gfinal_app c l1 l2 : forall g, gfinal c g (l1 ++ l2) = gfinal c (gfinal c g l1) l2.
Proof. induction l1; intros g; cbn; auto. Qed.

Definition small (g : gsys) : Prop :=
  (forall p, In p (g_parkers g) -> q_id p < g_next g) /\
  (forall p p', In p (g_parkers g) -> In p' (g_parkers g) -> q_id p = q_id p' -> p = p').

Lemma small_step c g o : small g -> small (fst (gstep c g o)).
Proof.
  intros [S1 S2].
  assert (Fl : forall f, small (mkGsys (g_sys g) (filter f (g_parkers g)) (g_next g))).
  { intros f. split; cbn; [intros p Hp|intros p p' Hp Hp']; rewrite filter_In in *; [apply S1|apply S2]; tauto. }
  assert (Any : forall s ps n, small (mkGsys (g_sys g) ps n) -> small (mkGsys s ps n)) by (intros s ps n H; exact H).
  destruct o as [o|q t]; cbn [gstep].
  - destruct (step c (g_sys g) o) as [s r]. destruct (after_op g o r) as [ps n] eqn:E. cbn [fst]. apply Any.
    assert (E0 : (g_parkers g, g_next g) = (ps, n) -> small (mkGsys (g_sys g) ps n)) by (intros [= <- <-]; split; assumption).
    destruct o; try (apply E0; exact E); cbn in E.
    + destruct r as [| | | | | | | |[]]; try (apply E0; exact E). destruct (get_exec (s_execs (g_sys g)) h); [|apply E0; exact E].
      injection E as <- <-. split; cbn.
      * intros p Hp. apply in_app_or in Hp as [Hp|[<-|[]]]; [apply S1 in Hp; lia|cbn; lia].
      * intros p p' Hp Hp' Q. apply in_app_or in Hp as [Hp|[<-|[]]]; apply in_app_or in Hp' as [Hp'|[<-|[]]]; auto; [apply S1 in Hp|apply S1 in Hp']; cbn in Q; lia.
    + injection E as <- <-. apply Fl.
  - destruct (get_parker (g_parkers g) q) as [p|]; [|split; assumption].
    destruct (match parker_call c p t with Some o => step c (g_sys g) o | None => (g_sys g, ODone) end) as [s r]. cbn [fst]. apply Any.
    destruct (parker_next _ p) as [pc|]; [|apply Fl]. unfold set_pc. split; cbn.
    + intros p' Hp. apply in_map_iff in Hp as (y & <- & Hy). destruct (q_id y =? q); cbn; now apply S1.
    + intros p1 p2 H1 H2. apply in_map_iff in H1 as (y1 & <- & Y1). apply in_map_iff in H2 as (y2 & <- & Y2). intros Q.
      assert (y1 = y2) by (apply S2; auto; revert Q; destruct (q_id y1 =? q), (q_id y2 =? q); auto). now subst.
Qed.

Lemma greach c l : forall g, small g -> reachable c (g_sys g) -> small (gfinal c g l) /\ reachable c (g_sys (gfinal c g l)).
Proof.
  induction l as [|o l IH]; intros g S R; cbn; [auto|]. apply IH; [now apply small_step|].
  rewrite gstep_sys. destruct (operation c g o) as [o'|]; [|exact R]. destruct R as [l0 ->]. exists (l0 ++ [o']).
  rewrite final_app, final_cons. reflexivity.
Qed.

Lemma gkeeping_sys c k g : gkeeping c k g -> reachable_keeping c k (g_sys g) /\ small g.
Proof.
  intros (l & A & ->).
  assert (H : forall l g, small g -> reachable_keeping c k (g_sys g) ->
    galong c (fun g o => forall o', operation c g o = Some o' -> keeps c k (g_sys g) o') g l ->
    reachable_keeping c k (g_sys (gfinal c g l)) /\ small (gfinal c g l)).
  { clear. induction l as [|o l IH]; intros g S R A; cbn; [auto|]. destruct A as [A1 A2]. apply IH; [now apply small_step| |exact A2].
    rewrite gstep_sys. destruct (operation c g o) as [o'|]; [|exact R]. destruct R as (l0 & R1 & R2). exists (l0 ++ [o']). split.
    - rewrite along_app. split; [exact R1|]. rewrite <- R2. split; [now apply A1|exact Logic.I].
    - rewrite final_app, <- R2, final_cons. reflexivity. }
  apply H; [split; [intros p []|intros p p' []]| |exact A]. exists []. split; [exact Logic.I|reflexivity].
Qed.

(** Parker [q] is done, or is about to read the record of [k]. *)
Definition Reads (k : key) (q : Z) (g : gsys) : Prop :=
  q < g_next g /\ forall p, In p (g_parkers g) -> q_id p = q -> q_pc p = GRead /\ q_key p = k.

Lemma get_parker_In ps q p : get_parker ps q = Some p -> In p ps /\ q_id p = q.
Proof. unfold get_parker. intros H. apply find_some in H as [H E]. split; [exact H|lia]. Qed.

Lemma Reads_step c k q g o : Reads k q g -> r_state (rget (s_db (g_sys g)) k) = Some SScheduled -> Reads k q (fst (gstep c g o)).
Proof.
  intros [L R] St.
  assert (Fl : forall s f, Reads k q (mkGsys s (filter f (g_parkers g)) (g_next g))).
  { intros s f. split; cbn; [exact L|]. intros p Hp E. apply filter_In in Hp as [Hp _]. now apply R. }
  destruct o as [o|q' t]; cbn [gstep].
  - destruct (step c (g_sys g) o) as [s r]. destruct (after_op g o r) as [ps n] eqn:E. cbn [fst].
    assert (E0 : (g_parkers g, g_next g) = (ps, n) -> Reads k q (mkGsys s ps n)) by (intros [= <- <-]; split; assumption).
    destruct o; try (apply E0; exact E); cbn in E.
    + destruct r as [| | | | | | | |[]]; try (apply E0; exact E). destruct (get_exec (s_execs (g_sys g)) h); [|apply E0; exact E].
      injection E as <- <-. split; cbn; [lia|]. intros p Hp Eq. apply in_app_or in Hp as [Hp|[<-|[]]]; [now apply R|cbn in Eq; lia].
    + injection E as <- <-. apply Fl.
  - destruct (get_parker (g_parkers g) q') as [p|] eqn:Gp; [|split; assumption].
    destruct (match parker_call c p t with Some o => step c (g_sys g) o | None => (g_sys g, ODone) end) as [s r]. cbn [fst].
    apply get_parker_In in Gp as [Gp Eq]. destruct (parker_next _ p) as [pc|] eqn:Np; [|apply Fl].
    split; cbn; [exact L|]. intros y Hy Ey. apply in_map_iff in Hy as (z & <- & Hz). destruct (q_id z =? q') eqn:Ez; [|now apply R].
    cbn in Ey. assert (Qq : q' = q) by lia. rewrite Qq in *. destruct (R p Gp Eq) as [R1 R2]. unfold parker_next in Np. rewrite R1, R2, St in Np. discriminate Np.
Qed.

(** ** Safeguards are kept *)

Record Guarded (c : cfg) (k : key) (cc : string) (i : sid) (m : msg) (G : Z) (a : call) (q : Z) (s1 : sys) (g : gsys) : Prop := mkGuarded {
  gd_reach : reachable c (g_sys g);
  gd_waits : Waits cc i m (kabs k (g_sys g));
  gd_line : Line G a (kabs (safeguard_key k) (g_sys g));
  gd_record : exists r, d_runs (s_db (g_sys g)) (safeguard_key k) = Some r /\ r_expire r = r_expire (rget (s_db s1) (safeguard_key k));
  gd_reads : Reads k q g }.

Lemma reachable_step c s o : reachable c s -> reachable c (fst (step c s o)).
Proof. intros [l ->]. exists (l ++ [o]). rewrite final_app, final_cons. reflexivity. Qed.

Lemma Guarded_step c k cc i m G a q s1 g o : Guarded c k cc i m G a q s1 g -> left_alone c k q s1 g o ->
  Guarded c k cc i m G a q s1 (fst (gstep c g o)).
Proof.
  intros [R W L (r & Hr & Xr) Rd] A.
  assert (Rd' : Reads k q (fst (gstep c g o))) by (apply Reads_step; [exact Rd|exact (wa_state _ _ _ _ W)]).
  pose proof (gstep_sys c g o) as E. unfold left_alone in A.
  destruct (operation c g o) as [o'|] eqn:Op; [|constructor; rewrite ?E; eauto].
  destruct (A o' eq_refl) as (A1 & A2 & A3 & A4 & A5 & A6 & A7).
  assert (Nq : forall t, o <> GGo q t).
  { intros t ->. cbn [operation] in Op. destruct (get_parker (g_parkers g) q) as [p|] eqn:Gp; [|discriminate Op].
    apply get_parker_In in Gp as [Gp Eq]. destruct (proj2 Rd p Gp Eq) as [R1 _]. unfold parker_call in Op. rewrite R1 in Op. discriminate Op. }
  destruct (A7 Nq) as [A8 A9]. pose proof (reachable_GInv c _ R) as Gi.
  destruct (guard_record c k (g_sys g) o' r Gi (reachable_UInv c _ _ R) A9 A4 A2 Hr) as (r' & Hr' & Xr').
  { intros e He. apply A3. congruence. }
  constructor; rewrite ?E.
  - now apply reachable_step.
  - apply Waits_step; auto. now apply reachable_UInv with (c := c).
  - apply Line_step; auto; [now apply reachable_UInv with (c := c)|]. intros _. rewrite Hr'. discriminate.
  - exists r'. split; [exact Hr'|congruence].
  - exact Rd'.
Qed.

Lemma Guarded_final c k cc i m G a q s1 l : forall g, Guarded c k cc i m G a q s1 g -> galong c (left_alone c k q s1) g l ->
  Guarded c k cc i m G a q s1 (gfinal c g l).
Proof. induction l as [|o l IH]; intros g H A; cbn; [exact H|]. destruct A as [A1 A2]. apply IH; [now apply Guarded_step|exact A2]. Qed.

Lemma nothing_BInv k s : GInv s -> nothing_of k s -> BInv (kabs k s).
Proof.
  intros [D _] N. assert (H : forall g l, ~ holds (kabs k s) g l).
  { intros g [i| |i]; cbn [holds].
    - intros [(m & Hm & _)|(x & Hx & _)].
      + apply kstream_In in Hm as [Hm Hk]. apply (N m); [left; eauto|exact Hk].
      + apply kexecs_In in Hx as [Hx Hk]. apply (N (x_msg x)); [right; right; right; eauto|exact Hk].
    - intros (m & Hm & _). cbn in Hm. pose proof (di_parked _ D _ _ Hm) as Hk.
      apply (N m); [right; left; now rewrite Hk|exact Hk].
    - intros (cc & m & Hm & _). apply kwait_In in Hm as [Hm Hk]. apply (N m); [right; right; left; eauto|exact Hk]. }
  split; [intros g l Hl|intros g l l' Hl]; destruct (H _ _ Hl).
Qed.

Lemma add_wait c s a t : d_wait (s_db (fst (step c s (OAdd a t)))) = d_wait (s_db s).
Proof.
  cbn [step]. unfold do_schedule, lua_schedule. cbn [negb andb]. destruct (lua_exists _ _); [reflexivity|].
  unfold place. destruct (a_when a <=? t); reflexivity.
Qed.

Lemma safeguard_kept c k q g0 p t cc i m L :
  gkeeping c k g0 -> gkeeping c (safeguard_key k) g0 \/ nothing_of (safeguard_key k) (g_sys g0) ->
  not_waiting (safeguard_key k) (g_sys g0) -> 0 < c_redeliver c ->
  In (cc, (i, m)) (d_wait (s_db (g_sys g0))) -> m_key m = k -> live (g_sys g0) m ->
  r_state (rget (s_db (g_sys g0)) k) = Some SScheduled -> d_parked (s_db (g_sys g0)) k = None ->
  get_parker (g_parkers g0) q = Some p -> q_key p = k -> q_pc p = GAdd ->
  let g1 := fst (gstep c g0 (GGo q t)) in
  snd (gstep c g0 (GGo q t)) = ODisp DScheduled ->
  galong c (left_alone c k q (g_sys g1)) g1 L ->
  let g := gfinal c g1 L in
  (exists m', m_key m' = safeguard_key k /\ carries (safeguard_call c k (q_cc p) (q_max p) t) m' /\ stored (g_sys g) m' /\ live (g_sys g) m') /\
  In (cc, (i, m)) (d_wait (s_db (g_sys g))) /\
  (forall p', get_parker (g_parkers g) q = Some p' -> q_pc p' = GRead).
Proof.
  intros Kk Kg W Rd Hin Hm Lv St Pk Gp Ek Ep g1 Acc A g.
  destruct (gkeeping_sys _ _ _ Kk) as [RK Sm]. set (s := g_sys g0) in *.
  pose proof (reachable_keeping_reachable c k s RK) as R. pose proof (reachable_GInv c s R) as Gi.
  pose proof (reachable_UInv c k s R) as Uk. pose proof (reachable_BInv c k s RK) as Bk.
  set (a := safeguard_call c k (q_cc p) (q_max p) t) in *.
  assert (E1 : operation c g0 (GGo q t) = Some (OAdd a t)) by (cbn [operation]; rewrite Gp; unfold parker_call; rewrite Ep, Ek; reflexivity).
  assert (E2 : g_sys g1 = fst (step c s (OAdd a t))) by (unfold g1; rewrite gstep_sys, E1; reflexivity).
  assert (Bg : BInv (kabs (safeguard_key k) s)).
  { destruct Kg as [Kg|Kg]; [|now apply nothing_BInv]. apply (reachable_BInv c). now apply gkeeping_sys. }
  assert (Ac : accepts c s (OAdd a t) a).
  { split; [eauto|]. rewrite <- Acc. cbn [gstep]. rewrite Gp. unfold parker_call. rewrite Ep, Ek. fold a. fold s. destruct (step c s (OAdd a t)). reflexivity. }
  assert (NL : no_leftover (safeguard_key k) s (OAdd a t)) by (intros a' t' [= <- <-] Le; cbn in Le; lia).
  destruct (accept_BLine c (safeguard_key k) s (OAdd a t) a R Bg eq_refl Ac W NL) as [Ln _].
  assert (Wt : Waits cc i m (kabs k s)).
  { pose proof (live_gen k s (AtLine cc i) m Uk Bk Hm Hin Lv) as Gn. constructor; auto; [now apply kwait_In|].
    pose proof (bi_le _ Bk) as _. unfold live in Lv. rewrite Hm in Lv. change (ksuper (kabs k s) (m_gen m) = false) in Lv.
    pose proof (stored_gen k s (AtLine cc i) m Uk Hm Hin) as G1. apply ksuper_false in Lv as (g' & E & _); [|exact G1].
    unfold kgen in Gn. rewrite E in *. cbn in Gn. congruence. }
  assert (Gd : Guarded c k cc i m (kgen (kabs (safeguard_key k) s) + 1) a q (g_sys g1) g1).
  { constructor; rewrite ?E2.
    - now apply reachable_step.
    - apply Waits_step; auto.
      + exact (keeps_schedule c k s a t false).
      + cbn. apply safeguard_neq.
      + exact I.
      + intros cc' i' m' H _. now rewrite add_wait.
    - exact Ln.
    - destruct Ln as (_ & _ & (g' & Eg & _)). unfold kr in Eg. unfold rget.
      change (k_runs (kabs (safeguard_key k) (fst (step c s (OAdd a t))))) with (d_runs (s_db (fst (step c s (OAdd a t)))) (safeguard_key k)) in Eg.
      destruct (d_runs (s_db (fst (step c s (OAdd a t)))) (safeguard_key k)) as [r|]; [eauto|]. discriminate Eg.
    - pose proof (get_parker_In _ _ _ Gp) as [Ip Iq]. unfold g1. cbn [gstep]. rewrite Gp.
      destruct (match parker_call c p t with Some o => step c (g_sys g0) o | None => (g_sys g0, ODone) end) as [s' r'].
      assert (Np : parker_next (s_db (g_sys g0)) p = Some GRead) by (unfold parker_next; now rewrite Ep). rewrite Np.
      split; cbn; [apply (proj1 Sm) in Ip; lia|]. intros y Hy Ey. apply in_map_iff in Hy as (z & <- & Hz). destruct (q_id z =? q) eqn:Ez.
      + split; [reflexivity|]. cbn. assert (z = p) by (apply (proj2 Sm); auto; lia). congruence.
      + lia. }
  pose proof (Guarded_final _ _ _ _ _ _ _ _ _ L g1 Gd A) as [R' W' L' _ Rd']. fold g in R', W', L', Rd'.
  split; [|split].
  - eapply Line_stored; [|exact L']. now apply reachable_UInv with (c := c).
  - pose proof (wa_in _ _ _ _ W') as H. now apply kwait_In in H.
  - intros p' H. apply get_parker_In in H as [H E]. now apply (proj2 Rd').
Qed.

(** ** The safeguard starts, or its task is served *)

From Verif Require Import SpecLive LiveProofs SpecConc.

Lemma entry_dec (e e' : string * (sid * msg)) : {e = e'} + {e <> e'}.
Proof. repeat decide equality; apply string_dec. Defined.

Lemma leaves_line_dec c k s o : leaves_line c k s o \/ keeps_waiting c k s o.
Proof.
  unfold leaves_line, keeps_waiting. set (l' := d_wait (s_db (fst (step c s o)))).
  induction (d_wait (s_db s)) as [|[cc [i m]] l IH]; [right; intros ? ? ? []|].
  destruct IH as [(cc' & i' & m' & H1 & H2 & H3)|IH]; [left; exists cc', i', m'; cbn; auto|].
  destruct (string_dec (m_key m) k) as [Ek|Nk].
  - destruct (in_dec entry_dec (cc, (i, m)) l') as [Hi|Ni]; [|left; exists cc, i, m; cbn; auto].
    right. intros cc' i' m' [[= <- <- <-]|H] E; eauto.
  - right. intros cc' i' m' [[= <- <- <-]|H] E; [contradiction|eauto].
Qed.

Lemma safeguard_starts c skew h n k cc maxc t : let a := safeguard_call c k cc maxc t in
  fair c skew h -> 0 <= t + c_redeliver c ->
  (forall j, (j < n)%nat -> keeps c (safeguard_key k) (at_ c init_sys h j) (h j)) \/ nothing_of (safeguard_key k) (at_ c init_sys h n) ->
  accepts c (at_ c init_sys h n) (h n) a -> not_waiting (safeguard_key k) (at_ c init_sys h n) ->
  (forall j, (n < j)%nat -> (forall q, (n < q < j)%nat -> ~ call_starts c h a q /\ ~ leaves_line c k (at_ c init_sys h q) (h q)) ->
     keeps_waiting c k (at_ c init_sys h j) (h j) -> undisturbed c (safeguard_key k) (at_ c init_sys h j) (h j)) ->
  exists j, (n < j)%nat /\ (call_starts c h a j \/ leaves_line c k (at_ c init_sys h j) (h j)).
Proof.
  intros a F Hw K A W D.
  assert (B : BInv (kabs (safeguard_key k) (at_ c init_sys h n))).
  { destruct K as [K|K]; [exact (reachable_BInv c _ _ (at_keeping c _ h n K))|]. apply nothing_BInv; [|exact K]. apply (reachable_GInv c), at_reachable. }
  destruct (accept_LInv c (safeguard_key k) _ _ a (at_reachable c h n) B eq_refl A W) as (m & p & Fa & L).
  assert (Wm : 0 <= m_when m) by (destruct Fa as (_ & -> & _); exact Hw).
  set (Q := fun j => call_starts c h a j \/ leaves_line c k (at_ c init_sys h j) (h j)).
  assert (Qd : forall j, Q j \/ ~ Q j).
  { intros j. unfold Q. destruct (call_starts_dec c h a j) as [?|N1]; [auto|]. destruct (leaves_line_dec c k (at_ c init_sys h j) (h j)) as [?|N2]; [auto|].
    right. intros [?|(cc' & i & m' & H1 & H2 & H3)]; [auto|]. apply H3. now apply N2. }
  destruct (St_starts c skew h (safeguard_key k) m (Datatypes.S n) Q F Wm Qd) with (n := Datatypes.S n) (p := p) as (j & Hj & Cj).
  - intros j [i Hi]. left. exists m, i. split; assumption.
  - intros j Hj Hn Nj. apply D; [lia| |].
    + intros q Hq. specialize (Hn q). unfold Q in Hn. split; intros X; apply Hn; auto; lia.
    + destruct (leaves_line_dec c k (at_ c init_sys h j) (h j)) as [X|X]; [|exact X]. destruct Nj. right. exact X.
  - split; [lia|]. split; [intros; lia|exact L].
  - exists j. split; [lia|exact Cj].
Qed.

(** ** A safeguard that runs when the holders are gone serves the line *)

Lemma safeguard_serves c s cc maxc t i m : reachable c s ->
  (forall st x, In (st, x) (d_slots (s_db s) cc) -> 0 <= st <= t - c_redeliver c) ->
  In (i, m) (firstn (Z.to_nat maxc) (line cc s)) -> no_reserved_names (map snd (firstn (Z.to_nat maxc) (line cc s))) ->
  let s' := fst (step c s (OScavenge cc maxc t)) in
  served_line cc (Z.to_nat maxc) s s' /\ d_slots (s_db s') cc = [] /\ ~ In (i, m) (line cc s').
Proof.
  intros R St Hin NR s'.
  assert (Ne : line cc s <> []) by (intros E; rewrite E in Hin; destruct (Z.to_nat maxc); destruct Hin).
  pose proof (scavenge_serves c s cc maxc t R) as X. cbv zeta in X. fold s' in X.
  set (free := Z.to_nat (maxc - Z.of_nat (length (d_slots (s_db s') cc)))) in *.
  assert (Le : (free <= Z.to_nat maxc)%nat) by (unfold free; lia).
  destruct X as [X1 X2].
  { assert (Sub : forall x, In x (map snd (firstn free (line cc s))) -> In x (map snd (firstn (Z.to_nat maxc) (line cc s)))).
    { intros x Hx. apply in_map_iff in Hx as (e & <- & He). apply in_map. replace (firstn free (line cc s)) with (firstn free (firstn (Z.to_nat maxc) (line cc s))) in He by (rewrite firstn_firstn; f_equal; lia).
      rewrite <- (firstn_skipn free (firstn (Z.to_nat maxc) (line cc s))). apply in_or_app. now left. }
    intros x y Hx Hy. apply NR; auto. }
  assert (Em : d_slots (s_db s') cc = []).
  { destruct (d_slots (s_db s') cc) as [|[st x] l] eqn:E; [reflexivity|exfalso].
    destruct (proj1 (X2 st x) (or_introl eq_refl)) as [Y [Z|Z]]; [contradiction|]. apply Z, (St st x Y). }
  assert (Ef : free = Z.to_nat maxc) by (unfold free; rewrite Em; cbn; f_equal; lia). rewrite Ef in X1.
  split; [exact X1|]. split; [exact Em|]. destruct X1 as (-> & _). intros Hs.
  pose proof (ids_sorted_NoDup _ (di_wsorted _ (proj1 (reachable_GInv c s R)))) as Nd.
  assert (Nl : NoDup (line cc s)).
  { apply (NoDup_map_inv fst). unfold line, wids in *. revert Nd. clear. generalize (d_wait (s_db s)) as l.
    induction l as [|[cc' [i m]] l IH]; cbn [map filter]; intros Nd; [constructor|]. inversion Nd as [|? ? N1 N2]; subst.
    cbn [fst]. destruct (String.eqb cc' cc); cbn [map]; [|now apply IH]. constructor; [|now apply IH].
    intros H. apply N1. apply in_map_iff in H as (e & E1 & H). apply in_map_iff in H as (e2 & E2 & H). apply filter_In in H as [H _].
    apply in_map_iff. exists e. split; [exact E1|]. apply in_map_iff. eauto. }
  rewrite <- (firstn_skipn (Z.to_nat maxc) (line cc s)) in Nl. revert Hin Hs Nl.
  generalize (firstn (Z.to_nat maxc) (line cc s)) as l1. intros l1. induction l1 as [|e l1 IH]; [intros []|].
  intros [->|H1] H2 N; inversion N as [|? ? N1 N2]; subst; [apply N1, in_or_app; now right|now apply IH].
Qed.

(** ** A leftover safeguard is cancelled *)

Lemma get_parker_app ps ps' q p : get_parker ps q = Some p -> get_parker (ps ++ ps') q = Some p.
Proof. unfold get_parker. induction ps as [|y ps IH]; cbn; [discriminate|]. destruct (q_id y =? q); auto. Qed.
Lemma get_parker_filter f ps q p : get_parker ps q = Some p -> f p = true -> get_parker (filter f ps) q = Some p.
Proof.
  unfold get_parker. intros H F. induction ps as [|y ps IH]; cbn in *; [discriminate|].
  destruct (q_id y =? q) eqn:E; [injection H as ->; rewrite F; cbn; now rewrite E|].
  destruct (f y); cbn; [rewrite E|]; auto.
Qed.
Lemma get_parker_set ps q q' pc p : get_parker ps q = Some p -> q' <> q -> get_parker (set_pc ps q' pc) q = Some p.
Proof.
  unfold get_parker, set_pc. intros H N. induction ps as [|y ps IH]; cbn in *; [discriminate|].
  destruct (q_id y =? q') eqn:E'; cbn; destruct (q_id y =? q) eqn:E; auto. lia.
Qed.
Lemma get_parker_set_same ps q pc p : get_parker ps q = Some p -> get_parker (set_pc ps q pc) q = Some (with_pc pc p).
Proof.
  unfold get_parker, set_pc. intros H. induction ps as [|y ps IH]; cbn in *; [discriminate|].
  destruct (q_id y =? q) eqn:E; cbn; rewrite E; [|auto]. now injection H as ->.
Qed.

Lemma others_keep c g o q p : get_parker (g_parkers g) q = Some p -> others_step q (q_worker p) o -> get_parker (g_parkers (fst (gstep c g o))) q = Some p.
Proof.
  intros H O. pose proof (get_parker_In _ _ _ H) as [_ Eq]. destruct o as [o|q' t]; cbn [gstep].
  - destruct (step c (g_sys g) o) as [s r]. destruct (after_op g o r) as [ps n] eqn:E. cbn [fst g_parkers].
    assert (E0 : (g_parkers g, g_next g) = (ps, n) -> get_parker ps q = Some p) by (intros [= <- <-]; exact H).
    destruct o; try (apply E0; exact E); cbn in E.
    + destruct r as [| | | | | | | |[]]; try (apply E0; exact E). destruct (get_exec (s_execs (g_sys g)) h); [|apply E0; exact E].
      injection E as <- <-. now apply get_parker_app.
    + injection E as <- <-. apply get_parker_filter; [exact H|]. cbn in O. destruct (String.eqb_spec (q_worker p) w); [congruence|reflexivity].
  - cbn in O. destruct (get_parker (g_parkers g) q') as [p'|]; [|exact H].
    destruct (match parker_call c p' t with Some o => step c (g_sys g) o | None => (g_sys g, ODone) end) as [s r]. cbn [fst g_parkers].
    destruct (parker_next _ p') as [pc|]; [now apply get_parker_set|]. apply get_parker_filter; [exact H|]. lia.
Qed.
Lemma others_keep_all c q p l : forall g, get_parker (g_parkers g) q = Some p -> Forall (others_step q (q_worker p)) l ->
  get_parker (g_parkers (gfinal c g l)) q = Some p.
Proof. induction l as [|o l IH]; intros g H F; cbn; [exact H|]. inversion F; subst. apply IH; [now apply others_keep|assumption]. Qed.

Lemma go_next c g q p t pc : get_parker (g_parkers g) q = Some p -> parker_next (s_db (g_sys g)) p = Some pc ->
  get_parker (g_parkers (fst (gstep c g (GGo q t)))) q = Some (with_pc pc p).
Proof.
  intros H N. cbn [gstep]. rewrite H. destruct (match parker_call c p t with Some o => step c (g_sys g) o | None => (g_sys g, ODone) end) as [s r].
  rewrite N. cbn [fst g_parkers]. now apply get_parker_set_same.
Qed.

Lemma cancel_unparks d k t : d_parked (lua_cancel d k t) k = None /\ forall st, ~ In (st, k) (d_queue (lua_cancel d k t)).
Proof.
  assert (E : d_parked (lua_cancel d k t) = upd (d_parked d) k None /\ d_queue (lua_cancel d k t) = zrem k (d_queue d)).
  { unfold lua_cancel. set (d1 := match _ with Some i => xdel d i | None => d end).
    assert (E1 : d_parked d1 = d_parked d /\ d_queue d1 = d_queue d) by (unfold d1; destruct (match r_sid (rget d k) with Some i => Some i | None => d_lsid d k end); split; reflexivity).
    destruct E1 as [E1 E2]. rewrite <- E1, <- E2. cbv zeta. destruct (r_state _) as [[]|]; split; reflexivity. }
  destruct E as [-> ->]. split; [apply upd_eq|]. intros st H. apply zrem_In in H as [_ H]. now apply H.
Qed.

Lemma leftover_cancelled c g0 q p t1 t2 t3 L1 L2 : get_parker (g_parkers g0) q = Some p -> q_pc p = GAdd ->
  Forall (others_step q (q_worker p)) (L1 ++ L2) ->
  let g1 := gfinal c g0 (GGo q t1 :: L1) in
  r_state (rget (s_db (g_sys g1)) (q_key p)) <> Some SScheduled ->
  let g3 := gfinal c g1 (GGo q t2 :: L2 ++ [GGo q t3]) in
  d_parked (s_db (g_sys g3)) (safeguard_key (q_key p)) = None /\ forall st, ~ In (st, safeguard_key (q_key p)) (d_queue (s_db (g_sys g3))).
Proof.
  intros H E F g1 St g3. apply Forall_app in F as [F1 F2].
  assert (H1 : get_parker (g_parkers g1) q = Some (with_pc GRead p)).
  { unfold g1. cbn [gfinal]. apply others_keep_all; [|exact F1]. apply go_next; [exact H|]. unfold parker_next. now rewrite E. }
  assert (H2 : get_parker (g_parkers (gfinal c g1 (GGo q t2 :: L2))) q = Some (with_pc GCancel p)).
  { cbn [gfinal]. apply others_keep_all; [|exact F2]. change (with_pc GCancel p) with (with_pc GCancel (with_pc GRead p)). apply go_next; [exact H1|].
    unfold parker_next. cbn [with_pc q_pc q_key]. destruct (r_state (rget (s_db (g_sys g1)) (q_key p))) as [[]|]; congruence. }
  unfold g3. change (GGo q t2 :: L2 ++ [GGo q t3]) with ((GGo q t2 :: L2) ++ [GGo q t3]). rewrite gfinal_app. revert H2. generalize (gfinal c g1 (GGo q t2 :: L2)).
  intros g H2. cbn [gfinal gstep]. rewrite H2. unfold parker_call. cbn [with_pc q_pc q_key step fst snd g_sys s_db set_db]. apply cancel_unparks.
Qed.
