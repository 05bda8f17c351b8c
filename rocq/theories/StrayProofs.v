From Verif Require Import Base ZSet Model GInv KView KSim Spec KInv SpecConc ConcProofs ConcHist Periodic SlotLoop SlotLoopProofs Stray SpecStray.

Lemma zadd_member t k z k' : In k' (map snd (zadd t k z)) -> k' = k \/ In k' (map snd z).
Proof.
  intros H. apply map_snd_In in H as [st H]. apply zadd_In in H. destruct H as [H|H]; [left; congruence|].
  right. apply map_snd_In. exists st. tauto.
Qed.
Lemma zrem_member k z k' : In k' (map snd (zrem k z)) -> In k' (map snd z) /\ k' <> k.
Proof. intros H. apply map_snd_In in H as [st H]. apply zrem_In in H. split; [apply map_snd_In; exists st; tauto|tauto]. Qed.
Lemma evict_member lo hi z k' : In k' (map snd (zremrangebyscore lo hi z)) -> In k' (map snd z).
Proof. intros H. apply map_snd_In in H as [st H]. apply zremrangebyscore_In in H. apply map_snd_In. exists st. tauto. Qed.

Lemma slot_taken_iff cc k s : slot_taken cc k s <-> In k (map snd (d_slots (s_db s) cc)).
Proof. unfold slot_taken. now rewrite map_snd_In. Qed.

(** A task gets into a slot set by acquiring or renewing only. *)
Lemma slot_member_step c s o cc k : slot_taken cc k (fst (step c s o)) ->
  slot_taken cc k s \/
  (exists h mx t x, o = OAcquire h cc mx t /\ get_exec (s_execs s) h = Some x /\ m_key (x_msg x) = k /\ snd (step c s o) = OAcquired true) \/
  (exists h t, o = ORenewSlot h t).
Proof.
  rewrite !slot_taken_iff.
  set (P := In k (map snd (d_slots (s_db s) cc))).
  assert (L : P -> P) by auto.
  assert (C : forall d', calm (s_db s) d' -> In k (map snd (d_slots d' cc)) -> P) by (intros d' (-> & _ & _); exact L).
  assert (I : forall X Y Q : Prop, (X -> Y) -> X -> Y \/ Q) by auto.
  destruct o; cbn [step]; 
    lazymatch goal with
    | |- _ -> _ \/ (exists h mx t x, OAcquire _ _ _ _ = _ /\ _) \/ _ => idtac
    | |- _ -> _ \/ _ \/ (exists h t, ORenewSlot _ _ = _) => idtac
    | _ => apply I
    end; clear I; unfold P in *; clear P.
  - destruct (0 <=? dt); [|exact L]. cbn [fst set_db s_db]. rewrite slots_tick. destruct (expired _ _); [contradiction|exact L].
  - unfold do_schedule in *. assert (E := calm_schedule (s_db s) (a_key a) (a_when a) (a_when a <=? t) false None (call_msg a)).
    destruct (lua_schedule _ _ _ _ _ _ _) as [d r]. now apply C.
  - unfold do_schedule in *. assert (E := calm_schedule (s_db s) (a_key a) (a_when a) (a_when a <=? t) true None (call_msg a)).
    destruct (lua_schedule _ _ _ _ _ _ _) as [d r]. now apply C.
  - apply C, calm_cancel.
  - apply C. unfold cancel_finish; destruct (0 <? c_ttl c); calm_triv.
  - exact L.
  - exact L.
  - destruct (ready_clear s _) as [sn|]; [|exact L]. assert (E := calm_clear (c_ttl c) (s_db s) sn). destruct (clear_apply _ _ _) as [d m]. now apply C.
  - assert (E := calm_stream_due (s_db s) t). destruct (lua_stream_due _ _) as [d [a b]]. now apply C.
  - unfold read_group. destruct (next_new (s_db s)) as [[i m]|]; cbn [fst deliver s_db]; apply C; calm_triv.
  - unfold autoclaim. destruct (find _ _) as [p|]; [|apply C; calm_triv]. destruct (claimable _ _ _); [|apply C; calm_triv].
    destruct (lookup_entry _ _); cbn [fst deliver s_db]; apply C; calm_triv.
  - apply C. calm_triv.
  - destruct (get_exec _ _) as [x|]; [|exact L]. destruct (x_phase x); try exact L.
    assert (E := calm_claim (s_db s) (m_key (x_msg x)) (x_worker x) t (m_gen (x_msg x)) (x_mid x)). destruct (lua_claim _ _ _ _ _ _) as [d []]; now apply C.
  - destruct (get_exec _ _) as [x|]; [|exact L]. destruct (x_phase x); exact L.
  - destruct (get_exec _ _) as [x|]; [|exact L]. destruct (x_phase x); exact L.
  - destruct (get_exec _ _) as [x|]; [|exact L]. destruct (x_phase x); exact L.
  - destruct (get_exec _ _) as [x|]; [|exact L]. destruct (may_finish _ _); [|exact L].
    assert (E := calm_terminal (s_db s) (m_key (x_msg x)) (m_gen (x_msg x)) s0 t (c_ttl c) err res (x_mid x)). destruct (lua_terminal _ _ _ _ _ _ _ _ _) as [d r]. now apply C.
  - destruct (get_exec _ _) as [x|]; [|exact L]. destruct (may_resched _); [|exact L].
    assert (E := calm_schedule (s_db s) (m_key (resched_msg (x_msg x) when bump)) when (when <=? t) bump (Some (x_mid x)) (resched_msg (x_msg x) when bump)).
    destruct (lua_schedule _ _ _ _ _ _ _) as [d r]. now apply C.
  - destruct (get_exec (s_execs s) h) as [x|] eqn:Gx; [|auto]. destruct (x_phase x); try (cbn; now auto). destruct (x_slot x) eqn:Sx; [cbn; auto|].
    set (k' := m_key (x_msg x)) in *. unfold lua_acquire_or_park in *.
    assert (T : forall z, (forall q, In q (map snd z) -> In q (map snd (d_slots (s_db s) c0))) ->
      In k (map snd (d_slots (take_slot (s_db s) c0 z k' t (slot_ttl c)) cc)) -> In k (map snd (d_slots (s_db s) cc)) \/ (c0 = cc /\ k' = k)).
    { intros z Hz. cbn [take_slot d_slots set_slotexp set_slots]. destruct (string_dec c0 cc) as [->|Nc]; [rewrite upd_eq|rewrite upd_neq by congruence; auto].
      intros H. apply zadd_member in H as [->|H]; auto. }
    assert (Z : forall z b, (forall q, In q (map snd z) -> In q (map snd (d_slots (s_db s) c0))) ->
      In k (map snd (d_slots (s_db (fst (set_execs s (take_slot (s_db s) c0 z k' t (slot_ttl c)) b, OAcquired true))) cc)) ->
      In k (map snd (d_slots (s_db s) cc)) \/ (exists h0 mx t0 x0, OAcquire h c0 maxc t = OAcquire h0 cc mx t0 /\ get_exec (s_execs s) h0 = Some x0 /\ m_key (x_msg x0) = k /\ OAcquired true = OAcquired true) \/ (exists h0 t0, OAcquire h c0 maxc t = ORenewSlot h0 t0)).
    { intros z b Hz H. cbn [fst s_db set_execs] in H. apply (T z Hz) in H as [H|[-> Ek]]; [auto|]. right; left. exists h, maxc, t, x. auto. }
    destruct (zscore k' (d_slots (s_db s) c0)).
    + destruct (_ && _); [apply Z; auto|]. intros H. left. revert H. apply C. calm_triv.
    + destruct (_ <? _); [apply Z; auto|]. destruct (zrangebyscore _ _ _) as [|[? k0] ?]; [intros H; left; revert H; apply C; calm_triv|]. apply Z. intros q H. now apply zrem_member in H.
  - destruct (get_exec _ _) as [x|]; [|exact L]. destruct (x_slot x) as [[c0 mx]|]; [|exact L].
    assert (W : In k (map snd (d_slots (lua_release (s_db s) c0 (m_key (x_msg x)) mx (t - c_redeliver c)) cc)) -> In k (map snd (d_slots (s_db s) cc))).
    { unfold lua_release. cbv zeta. rewrite slots_wake. set (d1 := set_slots _ _).
      assert (D1 : In k (map snd (d_slots d1 cc)) -> In k (map snd (d_slots (s_db s) cc))).
      { unfold d1. cbn [d_slots set_slots]. destruct (string_dec c0 cc) as [->|Nc]; [rewrite upd_eq|rewrite upd_neq by congruence; auto]. intros H. now apply zrem_member in H. }
      destruct (waiters d1 c0); [exact D1|]. cbn [evict_stale d_slots set_slots]. destruct (string_dec c0 cc) as [->|Nc]; [rewrite upd_eq|rewrite upd_neq by congruence; auto].
      intros H. apply evict_member in H. auto. }
    destruct (x_phase x); cbn [fst set_execs s_db]; auto.
  - right. right. eauto.
  - unfold lua_scavenge. cbn [fst set_db s_db]. destruct (waiters (s_db s) c0); [exact L|]. cbv zeta. rewrite slots_wake.
    cbn [evict_stale d_slots set_slots]. destruct (string_dec c0 cc) as [->|Nc]; [rewrite upd_eq|rewrite upd_neq by congruence; auto].
    intros H. apply evict_member in H. auto.
  - cbn [fst set_db s_db]. rewrite slots_cleanup. exact L.
  - exact L.
Qed.

Record AFree (cc : string) (k : key) (s : asys) : Prop := mkAFree {
  af_g : GInv (as_sys s);
  af_slot : ~ slot_taken cc k (as_sys s);
  af_held : ~ held cc k (as_sys s);
  af_air : ~ in_air cc k s }.

Lemma drop_nth_In {A} n (l : list A) e : In e (drop_nth n l) -> In e l.
Proof.
  unfold drop_nth. rewrite in_app_iff. intros [H|H].
  - rewrite <- (firstn_skipn n l). apply in_or_app. now left.
  - rewrite <- (firstn_skipn (S n) l). apply in_or_app. now right.
Qed.

Lemma good_zadd_slot d cc k t : good d (zadd_slot d cc k t).
Proof. unfold zadd_slot. peels. Qed.
Lemma good_expire_slots d cc ttl : good d (expire_slots d cc ttl).
Proof. unfold expire_slots. destruct (d_slots d cc); [apply good_refl|peels]. Qed.
Lemma slots_expire_slots d cc ttl c' : d_slots (expire_slots d cc ttl) c' = d_slots d c'.
Proof. unfold expire_slots. now destruct (d_slots d cc). Qed.

(** A set without an expiry stays as it is, however much time passes. *)
Lemma no_expiry_ticks c cc dts : forall s, d_slotexp (s_db (as_sys s)) cc = None ->
  d_slots (s_db (as_sys (arun c s (map (fun dt => ADo (OTick dt)) dts)))) cc = d_slots (s_db (as_sys s)) cc.
Proof.
  induction dts as [|dt dts IH]; intros s E; [reflexivity|]. cbn [map arun].
  assert (X : forall d, d_slotexp d cc = None -> d_slots (tick d dt) cc = d_slots d cc /\ d_slotexp (tick d dt) cc = None).
  { intros d Ed. cbn. now rewrite Ed. }
  destruct (X _ E) as [X1 X2]. rewrite IH; cbn [astep fst step as_sys]; destruct (0 <=? dt); cbn [fst set_db s_db]; auto.
Qed.

Lemma AFree_step c cc k s o : AFree cc k s -> ~ gives c cc k s o -> AFree cc k (fst (astep c s o)).
Proof.
  intros I N. pose proof I as [G F1 F2 F3]. destruct o as [h t|n|h|n|o]; cbn [astep] in *.
  - destruct (get_exec _ _) as [x|] eqn:Gx; [|exact I]. destruct (x_slot x) as [[c0 mx]|] eqn:Sx; [|exact I].
    constructor; cbn [fst as_sys as_air]; auto. intros [t0 H]. apply in_app_iff in H as [H|[H|[]]]; [apply F3; now exists t0|].
    injection H as -> <- _. apply F2. exists x. split; [|reflexivity]. apply holders_In. split; [now apply get_exec_spec in Gx|].
    unfold SpecConc.holds. rewrite Sx. apply String.eqb_refl.
  - destruct (nth_error _ _) as [[[c0 k0] t]|] eqn:E; [|exact I]. apply nth_error_In in E. constructor; cbn [fst as_sys as_air].
    + apply GInv_db; auto. apply good_zadd_slot.
    + rewrite slot_taken_iff in *. cbn [set_db s_db zadd_slot set_slotexp set_slots d_slots].
      destruct (string_dec c0 cc) as [->|Nc]; [rewrite upd_eq|rewrite upd_neq by congruence; exact F1].
      intros H. apply zadd_member in H as [->|H]; [|auto]. apply F3. now exists t.
    + exact F2.
    + intros [t0 H]. apply drop_nth_In in H. apply F3. now exists t0.
  - destruct (get_exec _ _) as [x|]; [|exact I]. destruct (x_slot x) as [[c0 mx]|]; [|exact I].
    constructor; cbn [fst as_sys as_air]; auto; [apply GInv_db; auto; apply good_expire_slots|].
    rewrite slot_taken_iff in *. cbn [set_db s_db]. now rewrite slots_expire_slots.
  - constructor; cbn [fst as_sys as_air]; auto. intros [t0 H]. apply drop_nth_In in H. apply F3. now exists t0.
  - assert (D : (forall h t, o <> ORenewSlot h t) -> (forall h mx t x, o = OAcquire h cc mx t -> get_exec (s_execs (as_sys s)) h = Some x -> m_key (x_msg x) = k -> snd (step c (as_sys s) o) <> OAcquired true) ->
      AFree cc k (mkA (fst (step c (as_sys s) o)) (as_air s))).
    { intros Nr Na. constructor; cbn [as_sys as_air]; auto.
      - now apply GInv_step.
      - intros H. apply slot_member_step in H as [H|[(h & mx & t & x & E & Gx & Ek & Eo)|(h & t & E)]]; [auto| |now apply Nr in E]. now apply (Na h mx t x).
      - intros (x' & Hx & Ek). destruct (holder_step c (as_sys s) o cc x' G Hx) as [(x & Hx' & _ & Em)|(mx & t & y & Eo & Eb & Hy & Ey & Em)].
        + apply F2. exists x. split; [exact Hx'|congruence].
        + destruct (get_exec (s_execs (as_sys s)) (x_id x')) as [z|] eqn:Gz.
          * apply (Na _ mx t z Eo Gz); [|exact Eb]. destruct (get_exec_spec _ _ _ Gz) as [Hz Hz'].
            assert (z = y) by (eapply execs_inj; eauto; [apply G|congruence]). congruence.
          * subst o. cbn [step] in Eb. rewrite Gz in Eb. discriminate. }
    destruct o; try exact I; try (cbn [fst]; apply D; [discriminate|discriminate]).
    cbn [fst]. apply D; [discriminate|]. intros h0 mx t0 x E Gx Ek Eb. apply N. exists h0, mx, t0, x. cbn [astep snd]. injection E as -> -> -> ->. auto.
Qed.

Lemma AFree_run c cc k l : forall s, AFree cc k s -> a_never c (gives c cc k) s l -> AFree cc k (arun c s l).
Proof. induction l as [|o l IH]; intros s I A; [exact I|]. destruct A as [A1 A2]. apply IH; auto. now apply AFree_step. Qed.

Lemma GInv_astep c s o : GInv (as_sys s) -> GInv (as_sys (fst (astep c s o))).
Proof.
  intros G. destruct o as [h t|n|h|n|o]; cbn [astep].
  - destruct (get_exec _ _) as [x|]; [|exact G]. now destruct (x_slot x) as [[? ?]|].
  - destruct (nth_error _ _) as [[[c0 k0] t]|]; [|exact G]. cbn [fst as_sys]. apply GInv_db; auto. apply good_zadd_slot.
  - destruct (get_exec _ _) as [x|]; [|exact G]. destruct (x_slot x) as [[? ?]|]; [|exact G]. cbn [fst as_sys]. apply GInv_db; auto. apply good_expire_slots.
  - exact G.
  - destruct o; try exact G; cbn [fst as_sys]; now apply GInv_step.
Qed.
Lemma GInv_arun c l : forall s, GInv (as_sys s) -> GInv (as_sys (arun c s l)).
Proof. induction l as [|o l IH]; intros s G; [exact G|]. apply IH. now apply GInv_astep. Qed.

Lemma arun_app c l1 l2 : forall s, arun c s (l1 ++ l2) = arun c (arun c s l1) l2.
Proof. induction l1 as [|o l IH]; intros s; [reflexivity|]. apply IH. Qed.
