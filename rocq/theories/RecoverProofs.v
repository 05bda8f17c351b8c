(** Proofs about recovery. *)
From Verif Require Import Base ZSet Model GInv KView KSim Spec KInv Hist Steps Steps2 Steps3 SpecConc WaitProofs SpecRecover.

(** ** No delivery time is in the future *)

Lemma pel_step c s o p : In p (d_pel (s_db (fst (step c s o)))) -> In p (d_pel (s_db s)) \/ pe_time p = d_now (s_db s).
Proof.
  assert (K : forall d i, In p (d_pel (xack d i)) -> In p (d_pel d)) by (intros d i; cbn; rewrite filter_In; tauto).
  assert (W1 : forall cc d e, d_pel (wake_one cc d e) = d_pel d).
  { intros cc d [wid m]. unfold wake_one. destruct (r_state _) as [[]|]; reflexivity. }
  assert (W : forall d cc cap, d_pel (wake d cc cap) = d_pel d).
  { intros d cc cap. unfold wake. destruct (0 <? cap); [|reflexivity]. generalize (firstn (Z.to_nat cap) (waiters d cc)). intros l. revert d.
    induction l as [|e l IH]; intros d; simpl; [reflexivity|]. now rewrite IH, W1. }
  assert (P : forall d k w imm clr m, d_pel (place d k w imm clr m) = d_pel d).
  { intros. unfold place, hincr_gen. destruct imm; [reflexivity|]. destruct clr; reflexivity. }
  assert (R : forall d k, d_pel (lua_replace_existing d k) = d_pel d).
  { intros. unfold lua_replace_existing. destruct (match r_sid _ with Some _ => _ | None => _ end); reflexivity. }
  destruct o; cbn [step].
  - destruct (0 <=? dt) eqn:E; cbn; auto.
  - unfold do_schedule, lua_schedule. destruct (negb false && lua_exists _ _); cbn [fst set_db s_db publish set_pubs d_pel]; rewrite ?P; auto.
  - unfold do_schedule, lua_schedule. cbn [negb andb]. cbn [fst set_db s_db publish set_pubs d_pel]. rewrite ?P, ?R; auto.
  - cbn. destruct (cancel_rest (s_db s) k t) as (_ & _ & _ & _ & E & _). cbv zeta in E. rewrite E. auto.
  - cbn. unfold cancel_finish. destruct (0 <? c_ttl c); cbn; auto.
  - cbn; auto.
  - cbn; auto.
  - destruct (ready_clear s _) as [sn|]; [|cbn; auto]. cbn.
    assert (F1 : forall l d, d_pel (fold_left (clear_run (c_ttl c)) l d) = d_pel d).
    { induction l as [|k l IH]; intros d; simpl; [reflexivity|]. rewrite IH. unfold clear_run. destruct (0 <? c_ttl c); reflexivity. }
    assert (F2 : forall l d, d_pel (fold_left (clear_scheduled (c_ttl c)) l d) = d_pel d).
    { induction l as [|k l IH]; intros d; simpl; [reflexivity|]. rewrite IH. unfold clear_scheduled, clear_run. destruct (0 <? c_ttl c); reflexivity. }
    rewrite F1, F2. destruct (0 <? cs_count sn); cbn; auto.
  - assert (F : forall l d, d_pel (fold_left stream_one l d) = d_pel d).
    { induction l as [|k l IH]; intros d; simpl; [reflexivity|]. rewrite IH. unfold stream_one. destruct (d_parked d k); reflexivity. }
    unfold lua_stream_due. cbn. destruct (0 <? Z.of_nat _); cbn; rewrite F; auto.
  - unfold read_group. destruct (next_new (s_db s)) as [[i m]|]; cbn; auto. rewrite in_app_iff. intros [H|[<-|[]]]; auto.
  - unfold autoclaim. destruct (find _ _); [|cbn; auto]. destruct (claimable _ _ _); [|cbn; auto]. destruct (lookup_entry _ _); cbn [deliver fst s_db set_pel d_pel]; [|eauto].
    rewrite in_map_iff. intros (q & E & Q). destruct (pe_id q =? i); subst p; auto.
  - cbn [fst s_db set_db]. unfold renew. cbn [d_pel set_pel]. rewrite in_map_iff. intros (q & E & Q). apply filter_In in Q as [Q _].
    destruct (existsb _ _); subst p; auto.
  - destruct (get_exec _ _) as [x|]; [|cbn; auto]. destruct (x_phase x); try (cbn; auto; fail). unfold lua_claim. destruct (superseded _ _ _); cbn [fst set_execs s_db xdel set_stream d_pel]; eauto.
  - destruct (get_exec _ _) as [x|]; [|cbn; auto]. destruct (x_phase x); cbn; auto.
  - destruct (get_exec _ _) as [x|]; [|cbn; auto]. destruct (x_phase x); cbn; auto.
  - destruct (get_exec _ _) as [x|]; [|cbn; auto]. destruct (x_phase x); cbn; auto.
  - destruct (get_exec _ _) as [x|]; [|cbn; auto]. destruct (may_finish _ _); [|cbn; auto]. unfold lua_terminal.
    destruct (superseded _ _ _); cbv zeta; cbn [fst].
    + destruct (prog_mine _ _ _); cbn [fst set_execs s_db]; intros H; left; cbn in H; rewrite filter_In in H; tauto.
    + destruct (0 <? c_ttl c); cbn [fst set_execs s_db]; intros H; left; cbn in H; rewrite filter_In in H; tauto.
  - destruct (get_exec _ _) as [x|]; [|cbn; auto]. destruct (may_resched _); [|cbn; auto]. cbn [lua_schedule fst]. unfold lua_reschedule. cbn [fst set_execs s_db publish set_pubs d_pel hdel set_runs]. rewrite P. cbn. rewrite filter_In. tauto.
  - destruct (get_exec _ _) as [x|]; [|cbn; auto]. destruct (x_phase x); try (cbn; auto; fail). destruct (x_slot x); try (cbn; auto; fail).
    unfold lua_acquire_or_park. destruct (zscore _ _); [destruct (x_redel x && _); cbn; try rewrite filter_In; tauto|].
    destruct (zcard _ <? maxc); [cbn; auto|]. destruct (zrangebyscore _ _ _) as [|[]]; cbn; try rewrite filter_In; tauto.
  - destruct (get_exec _ _) as [x|]; [|cbn; auto]. destruct (x_slot x) as [[cc mx]|]; [|cbn; auto].
    unfold lua_release. destruct (x_phase x); cbn [fst set_execs s_db]; rewrite ?W; auto;
      match goal with |- context [match ?w with [] => _ | _ => _ end] => destruct w end; cbn; auto.
  - destruct (get_exec _ _) as [x|]; [|cbn; auto]. destruct (x_slot x) as [[cc mx]|]; cbn; auto.
  - unfold lua_scavenge. cbn. destruct (waiters _ _); [auto|]. rewrite W. cbn. auto.
  - cbn. unfold cancel_cleanup. destruct (own_place _ _ _ _); [|auto]. cbn. auto.
  - cbn; auto.
Qed.

Lemma past c s p : reachable c s -> In p (d_pel (s_db s)) -> pe_time p <= d_now (s_db s).
Proof.
  intros [l ->]. enough (H : forall s, (forall p, In p (d_pel (s_db s)) -> pe_time p <= d_now (s_db s)) ->
    forall p, In p (d_pel (s_db (final c s l))) -> pe_time p <= d_now (s_db (final c s l))) by (apply H; intros ? []).
  clear p. induction l as [|o l IH]; intros s H; [exact H|]. rewrite final_cons. apply IH. intros p Q.
  pose proof (now_step c s o). apply pel_step in Q as [Q|Q]; [apply H in Q; lia|lia].
Qed.

Lemma reach_final c s l : reachable c s -> reachable c (final c s l).
Proof. intros [l0 ->]. exists (l0 ++ l). now rewrite final_app. Qed.

(** ** Deliveries *)

(** A step that only hands over messages. *)
Definition Hands (s s' : sys) : Prop :=
  d_stream (s_db s') = d_stream (s_db s) /\ d_runs (s_db s') = d_runs (s_db s) /\ d_now (s_db s') = d_now (s_db s) /\
  exists tl, s_execs s' = s_execs s ++ tl.

Lemma get_exec_app l l' h x : get_exec l h = Some x -> get_exec (l ++ l') h = Some x.
Proof. unfold get_exec. induction l as [|y l IH]; cbn; [discriminate|]. destruct (x_id y =? h); auto. Qed.

Lemma handed_Hands s s' w h i m : Hands s s' -> handed s w h i m -> handed s' w h i m.
Proof. intros (_ & _ & _ & tl & E) (x & X & R). exists x. split; [rewrite E; now apply get_exec_app|exact R]. Qed.
Lemma live_runs s s' m : d_runs (s_db s') = d_runs (s_db s) -> live s m -> live s' m.
Proof. unfold live, superseded, rget. now intros ->. Qed.

Lemma Hands_refl s : Hands s s.
Proof. repeat split. exists []. now rewrite app_nil_r. Qed.
Lemma Hands_trans s1 s2 s3 : Hands s1 s2 -> Hands s2 s3 -> Hands s1 s3.
Proof.
  intros (A1 & A2 & A3 & l1 & A4) (B1 & B2 & B3 & l2 & B4). repeat split; try congruence. exists (l1 ++ l2). rewrite B4, A4, app_assoc. reflexivity.
Qed.

Lemma read_Hands c s w : Hands s (fst (step c s (ORead w))).
Proof.
  cbn [step]. unfold read_group. destruct (next_new (s_db s)) as [[i m]|]; cbn [deliver fst].
  - repeat split. eexists. reflexivity.
  - destruct s. apply Hands_refl.
Qed.
Lemma autoclaim_Hands c s w i : Hands s (fst (step c s (OAutoclaim w i))).
Proof.
  cbn [step]. unfold autoclaim. destruct (find _ _) as [p|]; [|destruct s; apply Hands_refl]. destruct (claimable _ _ _); [|destruct s; apply Hands_refl].
  destruct (lookup_entry _ _) as [m|]; cbn [deliver fst]; (repeat split); [eexists; reflexivity|exists []; now rewrite app_nil_r].
Qed.

Lemma reads_Hands c w n : forall s, Hands s (final c s (repeat (ORead w) n)).
Proof. induction n as [|n IH]; intros s; [apply Hands_refl|]. cbn [repeat]. rewrite final_cons. eapply Hands_trans; [apply read_Hands|apply IH]. Qed.
Lemma autoclaims_Hands c w l : forall s, Hands s (final c s (map (OAutoclaim w) l)).
Proof. induction l as [|i l IH]; intros s; [apply Hands_refl|]. cbn [map]. rewrite final_cons. eapply Hands_trans; [apply autoclaim_Hands|apply IH]. Qed.

Lemma new_handed s d w i m r cl : (forall x, In x (s_execs s) -> x_id x < s_nextx s) ->
  handed (mkSys d (s_execs s ++ [mkExec (s_nextx s) w i m r PDelivered None]) (s_nextx s + 1) cl) w (s_nextx s) i m.
Proof.
  intros N. exists (mkExec (s_nextx s) w i m r PDelivered None). cbn [s_execs]. split; [|repeat split].
  assert (G : get_exec (s_execs s) (s_nextx s) = None).
  { destruct (get_exec (s_execs s) (s_nextx s)) as [x|] eqn:E; [|reflexivity]. apply get_exec_spec in E as [E1 E2]. apply N in E1. lia. }
  clear N. generalize dependent (s_nextx s). intros n. unfold get_exec. induction (s_execs s) as [|y l IH]; cbn; [rewrite Z.eqb_refl; reflexivity|].
  destruct (x_id y =? n); [discriminate|]. exact IH.
Qed.

Lemma autoclaims_hand c w i m l : forall s p, GInv s -> on_stream s i m ->
  find (fun p => pe_id p =? i) (d_pel (s_db s)) = Some p -> c_redeliver c <= d_now (s_db s) - pe_time p -> In i l ->
  exists h, handed (final c s (map (OAutoclaim w) l)) w h i m.
Proof.
  induction l as [|j l IH]; intros s p G O F T H; [contradiction|]. cbn [map]. rewrite final_cons.
  destruct (Z.eq_dec j i) as [->|N].
  - exists (s_nextx s). eapply handed_Hands; [apply autoclaims_Hands|]. cbn [step]. unfold autoclaim. rewrite F.
    rewrite claimable_idle by lia.
    destruct (lookup_entry i (d_stream (s_db s))) as [m'|] eqn:L; [|exfalso; eapply lookup_entry_None; eauto].
    apply lookup_entry_In in L. pose proof (ids_sorted_inj _ _ _ (di_sorted _ (proj1 G)) L O eq_refl) as E. injection E as ->.
    cbn [deliver fst]. apply new_handed. apply (xi_next _ (proj2 G)).
  - destruct (autoclaim_Hands c s w j) as (E1 & E2 & E3 & _).
    apply (IH _ p); [now apply GInv_step|unfold on_stream; now rewrite E1| |rewrite E3; exact T|destruct H; [congruence|assumption]].
    clear - F N. cbn [step]. unfold autoclaim. destruct (find (fun p => pe_id p =? j) _) as [q|]; [|exact F]. destruct (claimable _ _ _); [|exact F].
    destruct (lookup_entry _ _) as [m'|]; cbn [deliver fst s_db set_pel xack d_pel].
    + revert F. induction (d_pel (s_db s)) as [|a l' IH']; cbn; [discriminate|]. destruct (Z.eqb_spec (pe_id a) j) as [Ea|Ea]; cbn.
      * destruct (Z.eqb_spec (pe_id a) i); [congruence|]. destruct (Z.eqb_spec j i); [congruence|]. exact IH'.
      * destruct (pe_id a =? i); auto.
    + revert F. induction (d_pel (s_db s)) as [|a l' IH']; cbn; [discriminate|]. destruct (Z.eqb_spec (pe_id a) j) as [Ea|Ea]; cbn.
      * destruct (Z.eqb_spec (pe_id a) i); [congruence|]. exact IH'.
      * destruct (pe_id a =? i); auto.
Qed.

Lemma filter_len_lt {A} (f g : A -> bool) a l : (forall x, g x = true -> f x = true) -> In a l -> f a = true -> g a = false ->
  (length (filter g l) < length (filter f l))%nat.
Proof.
  intros Fg. assert (Le : forall l, (length (filter g l) <= length (filter f l))%nat).
  { induction l0 as [|x l0 IH]; cbn; [lia|]. specialize (Fg x). destruct (g x); [rewrite Fg by reflexivity; cbn; lia|]. destruct (f x); cbn; lia. }
  induction l as [|x l IH]; intros H Fa Ga; [contradiction|]. cbn. destruct H as [->|H].
  - rewrite Fa, Ga. cbn. specialize (Le l). lia.
  - specialize (IH H Fa Ga). specialize (Fg x). destruct (g x); [rewrite Fg by reflexivity; cbn; lia|]. destruct (f x); cbn; lia.
Qed.

Lemma reads_hand c w i m n : forall s, GInv s -> on_stream s i m -> d_last (s_db s) < i ->
  (length (filter (fun e => Z.ltb (d_last (s_db s)) (fst e)) (d_stream (s_db s))) <= n)%nat ->
  exists h, handed (final c s (repeat (ORead w) n)) w h i m.
Proof.
  induction n as [|n IH]; intros s G O L Hn.
  - exfalso. assert (H : In (i, m) (filter (fun e => Z.ltb (d_last (s_db s)) (fst e)) (d_stream (s_db s)))) by (apply filter_In; split; [exact O|cbn; lia]).
    destruct (filter _ _); [contradiction|cbn in Hn; lia].
  - cbn [repeat]. rewrite final_cons. destruct (next_new (s_db s)) as [[j m']|] eqn:E.
    2: { exfalso. unfold next_new in E. apply find_none with (x := (i, m)) in E; [cbn in E; lia|exact O]. }
    pose proof (next_new_first _ _ _ (di_sorted _ (proj1 G)) E) as Fst. pose proof (next_new_spec _ _ _ E) as [N1 N2].
    assert (St : fst (step c s (ORead w)) = mkSys (set_pel (set_last (s_db s) j) (d_pel (s_db s) ++ [mkPent j w (d_now (s_db s)) 1]))
       (s_execs s ++ [mkExec (s_nextx s) w j m' false PDelivered None]) (s_nextx s + 1) (s_clear s)).
    { cbn [step]. unfold read_group. rewrite E. reflexivity. }
    destruct (Z.eq_dec j i) as [->|N].
    + pose proof (ids_sorted_inj _ _ _ (di_sorted _ (proj1 G)) N1 O eq_refl) as X. injection X as ->. exists (s_nextx s).
      eapply handed_Hands; [apply reads_Hands|]. rewrite St. apply new_handed. apply (xi_next _ (proj2 G)).
    + assert (j < i) by (destruct (Z.lt_ge_cases j i) as [Lt|Ge]; [exact Lt|]; destruct (Fst i m O Ge); lia).
      apply IH; [now apply GInv_step|rewrite St; exact O|rewrite St; exact H|]. rewrite St. cbn [s_db set_pel set_last d_last d_stream].
      enough (length (filter (fun e => Z.ltb j (fst e)) (d_stream (s_db s))) < length (filter (fun e => Z.ltb (d_last (s_db s)) (fst e)) (d_stream (s_db s))))%nat by lia.
      apply (filter_len_lt _ _ (j, m')); [|exact N1|cbn; lia|cbn; lia]. intros x Hx. unfold sid in *. lia.
Qed.

Lemma filter_le_length {A} (f : A -> bool) l : (length (filter f l) <= length l)%nat.
Proof. induction l as [|x l IH]; cbn; [lia|]. destruct (f x); cbn; lia. Qed.

(** What is on the stream is handed to a worker that polls. *)
Lemma poll_hands c s w l n i m : GInv s -> on_stream s i m ->
  (forall p, In p (d_pel (s_db s)) -> c_redeliver c <= d_now (s_db s) - pe_time p) ->
  (forall j, In j (map pe_id (d_pel (s_db s))) -> In j l) -> (length (d_stream (s_db s)) <= n)%nat ->
  let s' := final c s (map (OAutoclaim w) l ++ repeat (ORead w) n) in
  Hands s s' /\ exists h, handed s' w h i m.
Proof.
  intros G O T L N s'. unfold s'. rewrite final_app. set (s1 := final c s (map (OAutoclaim w) l)).
  assert (H1 : Hands s s1) by apply autoclaims_Hands. split; [eapply Hands_trans; [exact H1|apply reads_Hands]|].
  destruct (Z.le_gt_cases i (d_last (s_db s))) as [Le|Gt].
  - pose proof (di_deliv _ (proj1 G) i m O Le) as Hp.
    destruct (find (fun p => pe_id p =? i) (d_pel (s_db s))) as [p|] eqn:F.
    + destruct (autoclaims_hand c w i m l s p G O F) as (h & Hh); [apply T; apply find_some in F; tauto|auto|].
      exists h. eapply handed_Hands; [apply reads_Hands|exact Hh].
    + exfalso. apply in_map_iff in Hp as (q & Q1 & Q2). apply find_none with (x := q) in F; [lia|exact Q2].
  - apply reads_hand.
    + apply GInv_final. exact G.
    + unfold on_stream. destruct H1 as [-> _]. exact O.
    + assert (E : forall l s, d_last (s_db (final c s (map (OAutoclaim w) l))) = d_last (s_db s)).
      { clear. induction l as [|j l IH]; intros s; [reflexivity|]. cbn [map]. rewrite final_cons, IH. cbn [step]. unfold autoclaim.
        destruct (find _ _); [|reflexivity]. destruct (claimable _ _ _); [|reflexivity]. destruct (lookup_entry _ _); reflexivity. }
      unfold s1. rewrite E. exact Gt.
    + destruct H1 as [-> _]. eapply Nat.le_trans; [apply filter_le_length|exact N].
Qed.

(** ** Claiming *)

Lemma get_upd_other l h h' f : (forall x, x_id (f x) = x_id x) -> h' <> h -> get_exec (upd_exec l h' f) h = get_exec l h.
Proof.
  intros Hf N. unfold get_exec, upd_exec. induction l as [|z l IH]; cbn; [reflexivity|].
  destruct (Z.eqb_spec (x_id z) h') as [E|E]; [rewrite Hf|]; destruct (Z.eqb_spec (x_id z) h); try congruence; exact IH.
Qed.
Lemma get_upd_same l h f x : (forall x, x_id (f x) = x_id x) -> get_exec l h = Some x -> get_exec (upd_exec l h f) h = Some (f x).
Proof.
  intros Hf. unfold get_exec, upd_exec. induction l as [|z l IH]; cbn; [discriminate|]. destruct (Z.eqb_spec (x_id z) h) as [E|E].
  - intros [= ->]. rewrite Hf, E, Z.eqb_refl. reflexivity.
  - rewrite (proj2 (Z.eqb_neq _ _) E). exact IH.
Qed.

Lemma live_gen_same s s' m : r_gen (rget (s_db s') (m_key m)) = r_gen (rget (s_db s) (m_key m)) -> live s m -> live s' m.
Proof. unfold live, superseded. now intros ->. Qed.

Lemma another_keeps c h o s w i m : starts_another h o -> handed s w h i m -> live s m ->
  handed (fst (step c s o)) w h i m /\ live (fst (step c s o)) m.
Proof.
  intros A H L. assert (Up : forall h' p, h' <> h -> forall d, handed (set_execs s d (upd_exec (s_execs s) h' (with_phase p))) w h i m).
  { intros h' p N d. destruct H as (x & X & R). exists x. split; [|exact R]. cbn [s_execs set_execs]. rewrite get_upd_other; auto. }
  destruct o; cbn in A; try contradiction; cbn [step].
  - destruct s; cbn in *. split; [exact H|]. exact L.
  - destruct (get_exec (s_execs s) h0) as [x|] eqn:X; [|auto]. destruct (x_phase x); auto. unfold lua_claim.
    destruct (superseded _ _ _); cbn [fst]; (split; [now apply Up|]); [exact L|].
    eapply live_gen_same; [|exact L]. cbn [set_execs s_db]. unfold rget. cbn. destruct (String.eqb_spec (m_key (x_msg x)) (m_key m)) as [->|Nk].
    + rewrite !upd_eq. cbn. unfold rget. destruct (d_runs (s_db s) (m_key m)); reflexivity.
    + rewrite !upd_neq by congruence. reflexivity.
  - destruct (get_exec (s_execs s) h0) as [x|] eqn:X; [|auto]. destruct (x_phase x); auto. cbn [fst]. split; [now apply Up|exact L].
Qed.

Lemma others_keep c h w i m l : forall s, Forall (starts_another h) l -> handed s w h i m -> live s m ->
  handed (final c s l) w h i m /\ live (final c s l) m.
Proof.
  induction l as [|o l IH]; intros s A H L; [auto|]. inversion A; subst. rewrite final_cons.
  destruct (another_keeps c h o s w i m) as [H1 L1]; auto.
Qed.

Lemma claim_starts c s w h i m t : handed s w h i m -> live s m -> starts c (fst (step c s (OClaim h t))) (OBodyStart h) m i.
Proof.
  intros (x & X & W & I & M & P) L. subst. unfold live in L. unfold starts.
  assert (E : fst (step c s (OClaim h t)) = set_execs s (fst (lua_claim (s_db s) (m_key (x_msg x)) (x_worker x) t (m_gen (x_msg x)) (x_mid x))) (upd_exec (s_execs s) h (with_phase PClaimed))).
  { cbn [step]. rewrite X, P. unfold lua_claim. rewrite L. reflexivity. }
  rewrite E. cbn [step set_execs s_execs]. rewrite (get_upd_same _ _ _ x) by (auto; reflexivity). reflexivity.
Qed.

(** ** The crash, the wait, the poll *)

Lemma crashes c ws : forall s, s_db (final c s (map OCrash ws)) = s_db s /\
  forall x, In x (s_execs (final c s (map OCrash ws))) <-> In x (s_execs s) /\ ~ In (x_worker x) ws.
Proof.
  induction ws as [|w ws IH]; intros s; [cbn; intuition|]. cbn [map]. rewrite final_cons. destruct (IH (fst (step c s (OCrash w)))) as [E X].
  rewrite E. split; [reflexivity|]. intros x. rewrite X. cbn [step fst set_execs s_execs]. rewrite filter_In, Bool.negb_true_iff, String.eqb_neq. cbn. intuition congruence.
Qed.

Lemma after_crash c s dt : 0 <= dt ->
  let s1 := final c s (crash_all s ++ [OTick dt]) in
  s_execs s1 = [] /\ d_stream (s_db s1) = d_stream (s_db s) /\ d_pel (s_db s1) = d_pel (s_db s) /\ d_parked (s_db s1) = d_parked (s_db s) /\
  d_queue (s_db s1) = d_queue (s_db s) /\ d_now (s_db s1) = d_now (s_db s) + dt.
Proof.
  intros T s1. unfold s1. rewrite final_app. unfold crash_all. destruct (crashes c (map x_worker (s_execs s)) s) as [E X].
  set (s0 := final c s (map OCrash (map x_worker (s_execs s)))) in *. rewrite final_cons. cbn [final run step fst].
  replace (0 <=? dt) with true by lia. cbn [fst set_db s_db s_execs]. rewrite E. split; [|repeat split].
  destruct (s_execs s0) as [|x l]; [reflexivity|]. destruct (proj1 (X x) (or_introl eq_refl)) as [X1 X2]. destruct X2. now apply in_map.
Qed.

Lemma poll_recovers c s1 w t n i m : reachable c s1 ->
  (forall p, In p (d_pel (s_db s1)) -> c_redeliver c <= d_now (s_db s1) - pe_time p) ->
  (on_stream s1 i m \/ (in_future s1 m /\ 0 <= m_when m <= t)) -> live s1 m ->
  (length (d_stream (s_db (fst (step c s1 (OScheduler t))))) <= n)%nat ->
  let s2 := final c s1 (poll w s1 t n) in
  exists h i', handed s2 w h i' m /\ live s2 m.
Proof.
  intros R T O L N s2. pose proof (scheduler_moves_due c s1 t R) as (ms & _ & Es & _ & _ & Hm & _ & Hr & _).
  set (s' := fst (step c s1 (OScheduler t))) in *.
  assert (F : forall l d, d_pel (fold_left stream_one l d) = d_pel d /\ d_now (fold_left stream_one l d) = d_now d).
  { induction l as [|k l IH]; intros d; simpl; [auto|]. destruct (IH (stream_one d k)) as [-> ->]. unfold stream_one. destruct (d_parked d k); auto. }
  assert (P : d_pel (s_db s') = d_pel (s_db s1) /\ d_now (s_db s') = d_now (s_db s1)).
  { unfold s'. cbn [step]. unfold lua_stream_due. cbn [fst]. destruct (0 <? Z.of_nat _); cbn; [|auto]. apply F. }
  assert (O' : exists i', on_stream s' i' m).
  { unfold on_stream. destruct O as [O|O].
    - exists i. rewrite Es. apply in_or_app. now left.
    - apply Hm in O. rewrite Es. clear - O. generalize (d_next (s_db s1)). induction ms as [|a ms IH]; intros z; [contradiction|]. destruct O as [->|O].
      + exists z. cbn. apply in_or_app. right. now left.
      + destruct (IH O (z + 1)) as (i' & H). exists i'. cbn. apply in_app_or in H as [H|H]; apply in_or_app; [now left|right; now right]. }
  destruct O' as (i' & O').
  assert (L' : live s' m).
  { eapply live_gen_same; [|exact L]. unfold rget. rewrite Hr. destruct (existsb _ _); reflexivity. }
  destruct P as [P1 P2].
  destruct (poll_hands c s' w (map pe_id (d_pel (s_db s1))) n i' m) as (H & h & Hh).
  - apply GInv_step. exact (reachable_GInv c s1 R).
  - exact O'.
  - rewrite P1, P2. exact T.
  - rewrite P1. auto.
  - exact N.
  - exists h, i'. unfold s2, poll. rewrite final_app. change (final c s1 [OScheduler t]) with s'. split; [exact Hh|].
    destruct H as (_ & E & _). eapply live_runs; [exact E|exact L'].
Qed.

(** ** The waiting line *)

Lemma served_In m ws : forall sched, sched (m_key m) = true -> In m ws -> (forall m', In m' ws -> m_key m' = m_key m -> m' = m) -> In m (served sched ws).
Proof.
  induction ws as [|a ws IH]; intros sched Sc H U; [contradiction|]. cbn. destruct (String.eqb_spec (m_key a) (m_key m)) as [E|E].
  - rewrite E, Sc. left. apply U; [now left|exact E].
  - destruct H as [->|H]; [congruence|]. destruct (sched (m_key a)) eqn:Sa.
    + right. apply IH; [|exact H|intros; apply U; [now right|assumption]]. rewrite Sc. cbn. destruct (String.eqb_spec (m_key m) (m_key a)); [congruence|reflexivity].
    + apply IH; [exact Sc|exact H|intros; apply U; [now right|assumption]].
Qed.

Lemma scavenge_all c s cc maxc t : line cc s <> [] ->
  (forall st k, In (st, k) (d_slots (s_db s) cc) -> 0 <= st <= t - c_redeliver c) ->
  d_slots (s_db (fst (step c s (OScavenge cc maxc t)))) cc = [].
Proof.
  intros L A. change (s_db (fst (step c s (OScavenge cc maxc t)))) with (lua_scavenge (s_db s) cc maxc (t - c_redeliver c)).
  unfold lua_scavenge. destruct (waiters (s_db s) cc) as [|e r] eqn:Ew; [destruct L; exact Ew|].
  rewrite slots_of_wake. unfold evict_stale. cbn. rewrite upd_eq. unfold zremrangebyscore, zwithin.
  induction (d_slots (s_db s) cc) as [|[st k] l IH]; cbn; [reflexivity|].
  pose proof (A st k (or_introl eq_refl)). replace (negb _) with false by lia. apply IH. intros; eapply A; right; eassumption.
Qed.

Lemma Forall2_In_r {A B} (P : A -> B -> Prop) l l' b : Forall2 P l l' -> In b l' -> exists a, In a l /\ P a b.
Proof. induction 1; intros []; [subst; eexists; split; [now left|eassumption]|]. destruct (IHForall2 H1) as (a & ? & ?). exists a. split; [now right|assumption]. Qed.

Lemma scavenge_recovers c s cc maxc t i m : reachable c s -> In (i, m) (firstn (Z.to_nat maxc) (line cc s)) ->
  (forall st k, In (st, k) (d_slots (s_db s) cc) -> 0 <= st <= t - c_redeliver c) ->
  no_reserved_names (map snd (line cc s)) ->
  (forall i' m', In (i', m') (line cc s) -> m_key m' = m_key m -> m' = m) ->
  r_state (rget (s_db s) (m_key m)) = Some SScheduled ->
  let s' := fst (step c s (OScavenge cc maxc t)) in
  exists i' m', on_stream s' i' m' /\ same_task m' m /\ live s' m' /\ d_pel (s_db s') = d_pel (s_db s) /\ d_now (s_db s') = d_now (s_db s).
Proof.
  intros R H A N U S s'.
  assert (Sub : forall e, In e (firstn (Z.to_nat maxc) (line cc s)) -> In e (line cc s)).
  { intros e He. rewrite <- (firstn_skipn (Z.to_nat maxc) (line cc s)). apply in_or_app. now left. }
  assert (Z0 : d_slots (s_db s') cc = []).
  { apply scavenge_all; [|exact A]. intros E. rewrite E, firstn_nil in H. exact H. }
  destruct (scavenge_serves c s cc maxc t R) as [(_ & _ & new & E1 & E2 & E3) _].
  { fold s'. rewrite Z0. cbn [length]. rewrite Z.sub_0_r. intros a b Ha Hb. apply N; apply in_map_iff; [apply in_map_iff in Ha as (x & <- & X)|apply in_map_iff in Hb as (x & <- & X)]; exists x; auto. }
  fold s' in E1, E2, E3. rewrite Z0 in E2. cbn [length] in E2. rewrite Z.sub_0_r in E2.
  assert (I : In m (served (scheduled s) (map snd (firstn (Z.to_nat maxc) (line cc s))))).
  { apply served_In; [unfold scheduled; now rewrite S|apply in_map_iff; now exists (i, m)|]. intros m' Hm K. apply in_map_iff in Hm as ([j q] & Q & Hq). cbn in Q. subst q. eapply U; eauto. }
  destruct (Forall2_In_r _ _ _ _ E2 I) as (m' & Hm & Same). apply in_map_iff in Hm as ([i' q] & Q & Hq). cbn in Q; subst q.
  exists i', m'. split; [unfold on_stream; rewrite E1; apply in_or_app; now right|]. split; [exact Same|]. split.
  - destruct (E3 _ _ Hq) as (_ & G & _). unfold live, superseded. rewrite G. destruct (0 <? m_gen m'); cbn; lia.
  - unfold s'. change (s_db (fst (step c s (OScavenge cc maxc t)))) with (lua_scavenge (s_db s) cc maxc (t - c_redeliver c)).
    assert (W1 : forall d e, d_pel (wake_one cc d e) = d_pel d /\ d_now (wake_one cc d e) = d_now d).
    { clear. intros d [wid q]. unfold wake_one. destruct (r_state _) as [[]|]; split; reflexivity. }
    assert (W : forall d cap, d_pel (wake d cc cap) = d_pel d /\ d_now (wake d cc cap) = d_now d).
    { intros d cap. unfold wake. destruct (0 <? cap); [|auto]. generalize (firstn (Z.to_nat cap) (waiters d cc)). intros l. revert d.
      induction l as [|e l IH]; intros d; simpl; [auto|]. destruct (IH (wake_one cc d e)) as [-> ->]. apply W1. }
    unfold lua_scavenge. destruct (waiters _ _); [auto|]. destruct (W (evict_stale (s_db s) cc (t - c_redeliver c)) (maxc - zcard (d_slots (evict_stale (s_db s) cc (t - c_redeliver c)) cc))) as [-> ->]. auto.
Qed.
