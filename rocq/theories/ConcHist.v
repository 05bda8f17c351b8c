(** Leases of a concurrency limit told from the history alone (C23). *)
From Coq Require Import Permutation.
From Verif Require Import Base ZSet Model GInv KView KSim Spec SpecConc ConcProofs.

(** Nothing about slots, their expiry or the time differs. *)
Definition calm (d d' : db) : Prop :=
  d_slots d' = d_slots d /\ d_slotexp d' = d_slotexp d /\ d_now d' = d_now d.
Lemma calm_refl d : calm d d. Proof. repeat split. Qed.
Lemma calm_trans d1 d2 d3 : calm d1 d2 -> calm d2 d3 -> calm d1 d3.
Proof. intros (A & B & C) (A' & B' & C'). repeat split; congruence. Qed.

Ltac calm_triv := repeat split; reflexivity.

Lemma calm_place d k w imm clr m : calm d (place d k w imm clr m).
Proof. unfold place, hincr_gen. cbv zeta. destruct imm, clr; calm_triv. Qed.
Lemma calm_schedule d k w imm repl mid m : calm d (fst (lua_schedule d k w imm repl mid m)).
Proof.
  unfold lua_schedule. destruct mid as [i|].
  - unfold lua_reschedule. cbn [fst]. eapply calm_trans; [|eapply calm_trans; [apply (calm_place (xdel (xack d i) i) k w imm true m)|]]; calm_triv.
  - destruct (negb repl && lua_exists d k); [calm_triv|]. cbn [fst].
    eapply calm_trans; [|eapply calm_trans; [apply (calm_place (if repl then lua_replace_existing d k else d) k w imm false m)|calm_triv]].
    destruct repl; [|apply calm_refl]. unfold lua_replace_existing. destruct (match r_sid _ with Some _ => _ | None => _ end); calm_triv.
Qed.
Lemma calm_claim d k w t g i : calm d (fst (lua_claim d k w t g i)).
Proof. unfold lua_claim. destruct (superseded d k g); calm_triv. Qed.
Lemma calm_terminal d k g st t ttl e r i : calm d (fst (lua_terminal d k g st t ttl e r i)).
Proof.
  unfold lua_terminal. destruct (superseded d k g); [destruct (prog_mine _ k g); calm_triv|].
  destruct (0 <? ttl); calm_triv.
Qed.
Lemma calm_cancel d k t : calm d (lua_cancel d k t).
Proof.
  unfold lua_cancel. cbv zeta. set (d1 := match _ with Some i => xdel d i | None => d end).
  assert (E : calm d d1) by (unfold d1; destruct (match r_sid _ with Some _ => _ | None => _ end); calm_triv).
  clearbody d1. destruct (r_state _) as [[]|]; exact E.
Qed.
Lemma calm_stream_due d t : calm d (fst (lua_stream_due d t)).
Proof.
  unfold lua_stream_due. cbv zeta. cbn [fst].
  assert (E : forall l d, calm d (fold_left stream_one l d)).
  { induction l as [|k l IH]; intros d0; [apply calm_refl|]. cbn [fold_left]. eapply calm_trans; [|apply IH]. unfold stream_one.
    destruct (d_parked d0 k); calm_triv. }
  destruct (0 <? _); [|apply E]. eapply calm_trans; [apply (E (map snd (zrangebyscore 0 t (d_queue d))) d)|calm_triv].
Qed.
Lemma calm_clear ttl d sn : calm d (fst (clear_apply ttl d sn)).
Proof.
  unfold clear_apply. cbv zeta. cbn [fst].
  assert (A : forall k d, calm d (clear_run ttl d k)) by (intros k d0; unfold clear_run; destruct (0 <? ttl); calm_triv).
  assert (B : forall l d, calm d (fold_left (clear_run ttl) l d))
    by (induction l as [|k l IH]; intros d0; [apply calm_refl|]; cbn [fold_left]; eapply calm_trans; [apply (A k)|apply IH]).
  assert (C : forall l d, calm d (fold_left (clear_scheduled ttl) l d)).
  { induction l as [|k l IH]; intros d0; [apply calm_refl|]. cbn [fold_left]. eapply calm_trans; [|apply IH]. unfold clear_scheduled.
    eapply calm_trans; [|apply A]. calm_triv. }
  eapply calm_trans; [|apply B]. eapply calm_trans; [|apply C]. destruct (0 <? cs_count sn); calm_triv.
Qed.
Lemma calm_wake d c cap : calm d (wake d c cap).
Proof.
  unfold wake. destruct (0 <? cap); [|apply calm_refl]. generalize (firstn (Z.to_nat cap) (waiters d c)). intros l. revert d.
  induction l as [|[i m] l IH]; intros d; [apply calm_refl|]. cbn [fold_left]. eapply calm_trans; [|apply IH]. unfold wake_one.
  destruct (r_state (rget d (m_key m))) as [[]|]; calm_triv.
Qed.
Lemma calm_cleanup d k cc i : calm d (cancel_cleanup d k cc i).
Proof. unfold cancel_cleanup. destruct (own_place d k cc i); calm_triv. Qed.

(** Every holder's last touch is what the slot set says, and the set outlives it. *)
Definition LInv (c : cfg) (cc : string) (s : sys) (L : Z -> option (Z * Z)) : Prop :=
  forall x, In x (holders cc s) -> exists t0 n0 e,
    L (x_id x) = Some (t0, n0) /\ zscore (m_key (x_msg x)) (d_slots (s_db s) cc) = Some t0 /\
    d_slotexp (s_db s) cc = Some e /\ n0 + slot_ttl c * 1000000 <= e /\ n0 <= d_now (s_db s).

Lemma slot_ttl_long c : c_redeliver c <= slot_ttl c * 1000000.
Proof.
  unfold slot_ttl. pose proof (Z.div_mod (c_redeliver c * 4) 1000000 ltac:(lia)).
  pose proof (Z.mod_pos_bound (c_redeliver c * 4) 1000000 ltac:(lia)). lia.
Qed.

Lemma LInv_renewed c cc s L o : LInv c cc s L -> timely_at c cc s L o -> renewed c cc s o.
Proof.
  intros H T x Hx. destruct (H x Hx) as (t0 & n0 & e & E1 & E2 & E3 & E4 & E5). destruct (T x t0 n0 Hx E1) as [T1 T2]. split.
  - intros t st Et Es. assert (st = t0) by congruence. subst st. specialize (T1 t Et). lia.
  - intros dt e' -> Ee. assert (e' = e) by congruence. subst e'. specialize (T2 dt eq_refl). pose proof (slot_ttl_long c). lia.
Qed.

Lemma LInv_same c cc s s' L : LInv c cc s L -> calm (s_db s) (s_db s') ->
  (forall x', In x' (holders cc s') -> exists x, In x (holders cc s) /\ x_id x' = x_id x /\ x_msg x' = x_msg x) -> LInv c cc s' L.
Proof.
  intros H (A & B & C) K x' Hx'. destruct (K x' Hx') as (x & Hx & -> & ->). rewrite A, B, C. exact (H x Hx).
Qed.

Lemma holders_from cc s l h f : (forall x, In x (s_execs s) -> x_id x = h -> holds cc (f x) = true -> holds cc x = true /\ x_id (f x) = x_id x /\ x_msg (f x) = x_msg x) ->
  l = upd_exec (s_execs s) h f ->
  forall x', In x' (filter (holds cc) l) -> exists x, In x (holders cc s) /\ x_id x' = x_id x /\ x_msg x' = x_msg x.
Proof.
  intros F -> x' Hx'. apply filter_In in Hx' as [Hx' Hh]. unfold upd_exec in Hx'. apply in_map_iff in Hx' as (x & E & Hx).
  destruct (Z.eqb_spec (x_id x) h) as [Eh|Eh].
  - subst x'. destruct (F x Hx Eh Hh) as (A & B & C). exists x. split; [apply filter_In; auto|auto].
  - subst x'. exists x. split; [apply filter_In; auto|auto].
Qed.
Lemma holders_phase cc s h p l : l = upd_exec (s_execs s) h (with_phase p) ->
  forall x', In x' (filter (holds cc) l) -> exists x, In x (holders cc s) /\ x_id x' = x_id x /\ x_msg x' = x_msg x.
Proof. apply holders_from. intros x Hx E Hh. split; [exact Hh|split; reflexivity]. Qed.

Lemma LInv_step c n cc s L o : GInv s -> SInv n cc s -> LInv c cc s L -> limit_is n cc o -> timely_at c cc s L o ->
  LInv c cc (fst (step c s o)) (touch c cc s o L).
Proof.
  intros G S H Lm T. assert (R := LInv_renewed c cc s L o H T).
  assert (S' := SInv_step c n cc s o G S Lm R). assert (X := G). destruct X as [_ X].
  assert (Keep : forall l, l = s_execs s -> forall x', In x' (filter (holds cc) l) -> exists x, In x (holders cc s) /\ x_id x' = x_id x /\ x_msg x' = x_msg x)
    by (intros l -> x' Hx'; exists x'; auto).
  destruct o; cbn [step touch] in *.
  - (* tick *) destruct (0 <=? dt) eqn:Edt; [|exact H]. cbn [fst]. intros x Hx. change (holders cc (set_db s (tick (s_db s) dt))) with (holders cc s) in Hx.
    destruct (H x Hx) as (t0 & n0 & e & E1 & E2 & E3 & E4 & E5). exists t0, n0, e.
    assert (B := proj2 (R x Hx) dt e eq_refl E3).
    assert (Ex : expired (d_now (s_db s) + dt) (Some e) = false) by (unfold expired; lia).
    cbn [fst set_db s_db]. rewrite slots_tick. unfold tick. cbv zeta. cbn [set_slotexp d_slotexp set_slots set_runs set_now d_now].
    rewrite E3, Ex. repeat split; auto; lia.
  - unfold do_schedule in *. assert (C := calm_schedule (s_db s) (a_key a) (a_when a) (a_when a <=? t) false None (call_msg a)).
    destruct (lua_schedule _ _ _ _ _ _ _) as [d r]. apply (LInv_same c cc s); auto. now apply Keep.
  - unfold do_schedule in *. assert (C := calm_schedule (s_db s) (a_key a) (a_when a) (a_when a <=? t) true None (call_msg a)).
    destruct (lua_schedule _ _ _ _ _ _ _) as [d r]. apply (LInv_same c cc s); auto. now apply Keep.
  - apply (LInv_same c cc s); auto; [apply calm_cancel|now apply Keep].
  - apply (LInv_same c cc s); auto; [cbn; unfold cancel_finish; destruct (0 <? c_ttl c); calm_triv|now apply Keep].
  - apply (LInv_same c cc s); auto; [calm_triv|now apply Keep].
  - apply (LInv_same c cc s); auto; [calm_triv|now apply Keep].
  - destruct (ready_clear s _) as [sn|]; [|exact H]. assert (C := calm_clear (c_ttl c) (s_db s) sn).
    destruct (clear_apply _ _ _) as [d m]. apply (LInv_same c cc s); auto. now apply Keep.
  - assert (C := calm_stream_due (s_db s) t). destruct (lua_stream_due _ _) as [d [a b]]. apply (LInv_same c cc s); auto. now apply Keep.
  - (* read *) unfold read_group. destruct (next_new (s_db s)) as [[i m]|]; cbn [fst]; apply (LInv_same c cc s); auto; try calm_triv; try (now apply Keep).
    intros x' Hx'. exists x'. split; [|auto]. unfold holders in *. cbn [s_execs set_execs deliver fst] in Hx'. rewrite filter_app' in Hx'. cbn in Hx'. now rewrite app_nil_r in Hx'.
  - unfold autoclaim. destruct (find _ _) as [p|]; [|apply (LInv_same c cc s); auto; [calm_triv|now apply Keep]].
    destruct (claimable _ _ _); [|apply (LInv_same c cc s); auto; [calm_triv|now apply Keep]].
    destruct (lookup_entry _ _); cbn [fst]; apply (LInv_same c cc s); auto; try calm_triv; try (now apply Keep).
    intros x' Hx'. exists x'. split; [|auto]. unfold holders in *. cbn [s_execs set_execs deliver fst] in Hx'. rewrite filter_app' in Hx'. cbn in Hx'. now rewrite app_nil_r in Hx'.
  - apply (LInv_same c cc s); auto; [calm_triv|now apply Keep].
  - destruct (get_exec _ _) as [x|]; [|exact H]. destruct (x_phase x); try exact H.
    assert (C := calm_claim (s_db s) (m_key (x_msg x)) (x_worker x) t (m_gen (x_msg x)) (x_mid x)).
    destruct (lua_claim _ _ _ _ _ _) as [d []]; apply (LInv_same c cc s); auto; eapply holders_phase; reflexivity.
  - destruct (get_exec _ _) as [x|]; [|exact H]. destruct (x_phase x); try exact H.
    apply (LInv_same c cc s); auto; [calm_triv|eapply holders_phase; reflexivity].
  - destruct (get_exec _ _) as [x|]; [|exact H]. destruct (x_phase x); try exact H.
    apply (LInv_same c cc s); auto; [calm_triv|eapply holders_phase; reflexivity].
  - destruct (get_exec _ _) as [x|]; [|exact H]. destruct (x_phase x); try exact H.
    apply (LInv_same c cc s); auto; [calm_triv|eapply holders_phase; reflexivity].
  - destruct (get_exec _ _) as [x|]; [|exact H]. destruct (may_finish _ _); [|exact H].
    assert (C := calm_terminal (s_db s) (m_key (x_msg x)) (m_gen (x_msg x)) s0 t (c_ttl c) err res (x_mid x)).
    destruct (lua_terminal _ _ _ _ _ _ _ _ _) as [d r]. apply (LInv_same c cc s); auto. eapply holders_phase; reflexivity.
  - destruct (get_exec _ _) as [x|]; [|exact H]. destruct (may_resched _); [|exact H].
    assert (C := calm_schedule (s_db s) (m_key (resched_msg (x_msg x) when bump)) when (when <=? t) bump (Some (x_mid x)) (resched_msg (x_msg x) when bump)).
    destruct (lua_schedule _ _ _ _ _ _ _) as [d r]. apply (LInv_same c cc s); auto. eapply holders_phase; reflexivity.
  - (* acquire *) destruct (get_exec (s_execs s) h) as [x|] eqn:Gx; [|exact H].
    destruct (get_exec_spec _ _ _ Gx) as [Hx Hid].
    destruct (x_phase x); try exact H. destruct (x_slot x) eqn:Sx; [exact H|].
    assert (Own : forall y, In y (s_execs s) -> x_id y = h -> y = x) by (intros y Hy E; eapply execs_inj; eauto; congruence).
    set (k := m_key (x_msg x)) in *.
    assert (Spec : forall d b, lua_acquire_or_park (s_db s) c0 maxc k t (x_redel x) (t - c_redeliver c) (slot_ttl c) (x_mid x) (x_msg x) = (d, b) ->
      (b = false /\ calm (s_db s) d) \/
      (b = true /\ exists z, d = take_slot (s_db s) c0 z k t (slot_ttl c) /\
         forall st k', In (st, k') (d_slots (s_db s) c0) -> k' <> k -> t < st + c_redeliver c -> znodup (d_slots (s_db s) c0) -> In (st, k') z)).
    { intros d b. unfold lua_acquire_or_park. destruct (zscore k (d_slots (s_db s) c0)) as [st|].
      - destruct (x_redel x && (st <=? t - c_redeliver c)); intros E; injection E as <- <-; [right|left].
        + split; [auto|]. eexists. split; [reflexivity|]. auto.
        + split; [auto|calm_triv].
      - destruct (zcard (d_slots (s_db s) c0) <? maxc); [intros E; injection E as <- <-; right; split; [auto|]; eexists; split; [reflexivity|]; auto|].
        destruct (zrangebyscore 0 (t - c_redeliver c) (d_slots (s_db s) c0)) as [|[st0 k0] rest] eqn:Er; intros E; injection E as <- <-.
        + left. split; [auto|calm_triv].
        + right. split; [auto|]. eexists. split; [reflexivity|]. intros st k' I N Fr ND. apply zrem_In. split; [exact I|]. cbn. intros ->.
          assert (I0 : In (st0, k0) (d_slots (s_db s) c0) /\ 0 <= st0 <= t - c_redeliver c).
          { change st0 with (fst (st0, k0)). apply (zrangebyscore_In 0 (t - c_redeliver c) (d_slots (s_db s) c0)). rewrite Er. now left. }
          destruct I0 as [I0 I1]. apply (zscore_In _ _ _ ND) in I. apply (zscore_In _ _ _ ND) in I0. assert (st = st0) by congruence. lia. }
    destruct (lua_acquire_or_park _ _ _ _ _ _ _ _ _ _) as [d b]. destruct (Spec d b eq_refl) as [[-> C]|[-> (z & -> & Kz)]]; cbn [fst snd] in *.
    + apply (LInv_same c cc s); auto. eapply holders_phase; reflexivity.
    + destruct (string_dec c0 cc) as [->|Nc].
      * rewrite String.eqb_refl. intros y' Hy'. unfold holders in Hy'. cbn [s_execs set_execs] in Hy'. apply filter_In in Hy' as [Iy' Hy'].
        unfold upd_exec in Iy'. apply in_map_iff in Iy' as (y & Ey & Iy).
        assert (ND := si_nodup _ _ _ S'). cbn [set_execs s_db] in *. clear Spec. unfold take_slot in *. cbn [set_slotexp set_slots d_slots d_slotexp d_now] in *. rewrite upd_eq in ND. rewrite !upd_eq.
        destruct (Z.eqb_spec (x_id y) h) as [Eh|Eh].
        -- assert (y = x) by auto. subst y y'. exists t, (d_now (s_db s)), (d_now (s_db s) + slot_ttl c * 1000000).
           cbn [with_slot x_id x_msg]. unfold set_lease. rewrite Hid, Z.eqb_refl. fold k. split; [reflexivity|]. split; [|split; [reflexivity|lia]].
           apply zscore_In; [exact ND|]. apply zadd_In. now left.
        -- subst y'. assert (Hy : In y (holders cc s)) by (apply filter_In; auto). destruct (H y Hy) as (t0 & n0 & e & E1 & E2 & E3 & E4 & E5).
           exists t0, n0, (d_now (s_db s) + slot_ttl c * 1000000). unfold set_lease. rewrite (proj2 (Z.eqb_neq _ _) Eh). split; [exact E1|]. split; [|split; [reflexivity|lia]].
           apply zscore_In; [exact ND|]. apply zadd_In. right. cbn [snd].
           assert (Nk : m_key (x_msg y) <> k).
           { intros Ek. assert (NK := si_keys _ _ _ S'). unfold holders in NK. cbn [s_execs set_execs] in NK.
             assert (P := holders_gain cc maxc (s_execs s) x (xi_nodup _ X) Hx Sx). rewrite Hid in P. unfold hkeys in P. apply (Permutation_NoDup P) in NK.
             inversion NK as [|? ? N1 N2]; subst. apply N1. fold k. rewrite <- Ek. apply (in_map (fun x => m_key (x_msg x))). exact Hy. }
           split; [|exact Nk]. apply Kz; auto; [now apply zscore_Some_In|apply (proj1 (T y t0 n0 Hy E1) t eq_refl)|apply S].
      * rewrite (eqb_neq_string _ _ Nc). intros y' Hy'. 
        assert (K : exists y, In y (holders cc s) /\ x_id y' = x_id y /\ x_msg y' = x_msg y).
        { refine (holders_from cc s _ h (with_slot (Some (c0, maxc))) _ eq_refl y' Hy'). intros y Iy Ey Hh. unfold holds in Hh. cbn in Hh. now rewrite (eqb_neq_string _ _ Nc) in Hh. }
        destruct K as (y & Hy & Ei & Em). rewrite Ei, Em. unfold take_slot. cbn [set_execs s_db set_slotexp set_slots d_slots d_slotexp d_now]. rewrite !upd_neq by congruence. exact (H y Hy).
  - (* release *) destruct (get_exec (s_execs s) h) as [x|] eqn:Gx; [|exact H].
    destruct (get_exec_spec _ _ _ Gx) as [Hx Hid].
    destruct (x_slot x) as [[c1 m1]|] eqn:Sx; [|destruct (x_phase x); exact H].
    assert (Own : forall y, In y (s_execs s) -> x_id y = h -> y = x) by (intros y Hy E; eapply execs_inj; eauto; congruence).
    assert (Main : SInv n cc (set_execs s (lua_release (s_db s) c1 (m_key (x_msg x)) m1 (t - c_redeliver c))
                 (upd_exec (s_execs s) h (fun x => with_slot None (unwind x)))) ->
       LInv c cc (set_execs s (lua_release (s_db s) c1 (m_key (x_msg x)) m1 (t - c_redeliver c))
                 (upd_exec (s_execs s) h (fun x => with_slot None (unwind x)))) L); [clear S'|destruct (x_phase x); try exact H; exact (Main S')].
    intros S' y' Hy'. set (k := m_key (x_msg x)) in *.
    assert (Nh : x_id y' <> h).
    { intros E. unfold holders in Hy'. cbn [s_execs set_execs] in Hy'. apply filter_In in Hy' as [Iy' Hh]. unfold upd_exec in Iy'. apply in_map_iff in Iy' as (y & Ey & Iy).
      destruct (Z.eqb_spec (x_id y) h) as [Eh|Eh]; [subst y'; discriminate Hh|congruence]. }
    assert (K : In y' (holders cc s)).
    { unfold holders in *. cbn [s_execs set_execs] in Hy'. apply filter_In in Hy' as [Iy' Hh]. unfold upd_exec in Iy'. apply in_map_iff in Iy' as (y & Ey & Iy).
      destruct (Z.eqb_spec (x_id y) h) as [Eh|Eh]; [subst y'; discriminate Hh|]. subst y'. apply filter_In. auto. }
    destruct (H y' K) as (t0 & n0 & e & E1 & E2 & E3 & E4 & E5). exists t0, n0, e.
    assert (ND := si_nodup _ _ _ S'). cbn [s_db set_execs] in *.
    assert (Nk : c1 = cc -> m_key (x_msg y') <> k).
    { intros -> Ek. apply Nh. rewrite <- Hid. f_equal.
      assert (Hd : In x (holders cc s)) by (apply filter_In; split; [exact Hx|unfold holds; now rewrite Sx, String.eqb_refl]).
      assert (NK := si_keys _ _ _ S). clear - NK Hd K Ek. unfold k in Ek. induction (holders cc s) as [|a l IH]; [contradiction|].
      cbn in NK. inversion NK as [|? ? N1 N2]; subst. destruct Hd as [->|Hd], K as [->|K]; auto.
      - exfalso. apply N1. rewrite <- Ek. apply (in_map (fun x => m_key (x_msg x))). exact K.
      - exfalso. apply N1. rewrite Ek. apply (in_map (fun x => m_key (x_msg x))). exact Hd. }
    assert (Fr := proj1 (T y' t0 n0 K E1) t eq_refl).
    unfold lua_release in *. cbv zeta in *.
    set (d1 := set_slots (s_db s) (upd (d_slots (s_db s)) c1 (zrem k (d_slots (s_db s) c1)))) in *.
    set (d2 := match waiters d1 c1 with [] => d1 | _ => evict_stale d1 c1 (t - c_redeliver c) end) in *.
    destruct (calm_wake d2 c1 (m1 - zcard (d_slots d2 c1))) as (W1 & W2 & W3). rewrite W1, W2, W3. rewrite W1 in ND.
    assert (D2 : d_slotexp d2 = d_slotexp (s_db s) /\ d_now d2 = d_now (s_db s)) by (unfold d2; destruct (waiters d1 c1); split; reflexivity).
    destruct D2 as [-> ->]. repeat split; auto. apply zscore_In; [exact ND|].
    assert (I := zscore_Some_In _ _ _ E2).
    assert (I1 : In (t0, m_key (x_msg y')) (d_slots d1 cc)).
    { unfold d1. cbn. destruct (string_dec c1 cc) as [->|Nc]; [rewrite upd_eq; apply zrem_In; split; [exact I|cbn; now apply Nk]|rewrite upd_neq by congruence; exact I]. }
    unfold d2. destruct (waiters d1 c1); [exact I1|]. unfold evict_stale. cbn [set_slots d_slots].
    destruct (string_dec c1 cc) as [->|Nc]; [rewrite upd_eq; apply zremrangebyscore_In; split; [exact I1|cbn; lia]|rewrite upd_neq by congruence; exact I1].
  - (* renew slot *) destruct (get_exec (s_execs s) h) as [x|] eqn:Gx.
    2:{ assert (Nx : forall y, In y (s_execs s) -> x_id y <> h) by (intros y Iy Ey; apply (find_none _ _ Gx) in Iy; lia).
        intros y Hy. destruct (H y Hy) as (t0 & n0 & e & E1 & E). exists t0, n0, e. split; [|exact E].
        assert (Ne := Nx y (proj1 (proj1 (filter_In _ _ _) Hy))).
        destruct (L h); [unfold set_lease; rewrite (proj2 (Z.eqb_neq _ _) Ne)|]; exact E1. }
    destruct (get_exec_spec _ _ _ Gx) as [Hx Hid].
    assert (Own : forall y, In y (s_execs s) -> x_id y = h -> y = x) by (intros y Hy E; eapply execs_inj; eauto; congruence).
    destruct (x_slot x) as [[c1 m1]|] eqn:Sx.
    2:{ intros y Hy. destruct (H y Hy) as (t0 & n0 & e & E1 & E). exists t0, n0, e. split; [|exact E].
        assert (Ne : x_id y <> h).
        { intros Ey. apply filter_In in Hy as [Iy Hh]. rewrite (Own y Iy Ey) in Hh. unfold holds in Hh. rewrite Sx in Hh. discriminate. }
        destruct (L h); [unfold set_lease; rewrite (proj2 (Z.eqb_neq _ _) Ne)|]; exact E1. }
    cbn [fst]. intros y Hy. change (In y (holders cc s)) in Hy. destruct (H y Hy) as (t0 & n0 & e & E1 & E2 & E3 & E4 & E5).
    assert (Iy := proj1 (proj1 (filter_In _ _ _) Hy)). assert (ND := si_nodup _ _ _ S'). cbn [fst set_db s_db] in *.
    unfold renew_slot, take_slot in *. cbn [set_slotexp set_slots d_slots d_slotexp d_now] in *.
    destruct (Z.eqb_spec (x_id y) h) as [Eh|Eh].
    + assert (y = x) by auto. subst y.
      assert (c1 = cc) by (apply filter_In in Hy as [_ Hh]; unfold holds in Hh; rewrite Sx in Hh; now apply String.eqb_eq). subst c1. rewrite upd_eq in ND. rewrite !upd_eq.
      exists t, (d_now (s_db s)), (d_now (s_db s) + slot_ttl c * 1000000). rewrite <- Hid, E1. unfold set_lease. rewrite Z.eqb_refl.
      split; [reflexivity|]. split; [|split; [reflexivity|lia]]. apply zscore_In; [exact ND|]. apply zadd_In. now left.
    + assert (EL : match L h with Some _ => set_lease L h (t, d_now (s_db s)) | None => L end (x_id y) = Some (t0, n0))
        by (destruct (L h); [unfold set_lease; rewrite (proj2 (Z.eqb_neq _ _) Eh)|]; exact E1).
      destruct (string_dec c1 cc) as [->|Nc].
      * rewrite upd_eq in ND. rewrite !upd_eq. exists t0, n0, (d_now (s_db s) + slot_ttl c * 1000000). split; [exact EL|]. split; [|split; [reflexivity|lia]].
        apply zscore_In; [exact ND|]. apply zadd_In. right. split; [now apply zscore_Some_In|]. cbn [snd]. intros Ek. apply Eh. rewrite <- Hid. f_equal.
        assert (Hd : In x (holders cc s)) by (apply filter_In; split; [exact Hx|unfold holds; now rewrite Sx, String.eqb_refl]).
        assert (NK := si_keys _ _ _ S). clear - NK Hd Hy Ek. induction (holders cc s) as [|a l IH]; [contradiction|].
        cbn in NK. inversion NK as [|? ? N1 N2]; subst. destruct Hd as [->|Hd], Hy as [->|Hy]; auto.
        -- exfalso. apply N1. rewrite <- Ek. apply (in_map (fun x => m_key (x_msg x))). exact Hy.
        -- exfalso. apply N1. rewrite Ek. apply (in_map (fun x => m_key (x_msg x))). exact Hd.
      * rewrite !upd_neq by congruence. exists t0, n0, e. auto.
  - (* scavenge *) unfold lua_scavenge in *. destruct (waiters (s_db s) c0) as [|w ws] eqn:Ew; [apply (LInv_same c cc s); auto; [calm_triv|now apply Keep]|].
    cbv zeta in *. intros y Hy. change (In y (holders cc s)) in Hy. destruct (H y Hy) as (t0 & n0 & e & E1 & E2 & E3 & E4 & E5). exists t0, n0, e.
    assert (ND := si_nodup _ _ _ S'). cbn [fst set_db s_db] in *.
    set (d2 := evict_stale (s_db s) c0 (t - c_redeliver c)) in *.
    destruct (calm_wake d2 c0 (maxc - zcard (d_slots d2 c0))) as (W1 & W2 & W3). rewrite W1, W2, W3. rewrite W1 in ND.
    repeat split; auto. apply zscore_In; [exact ND|]. assert (I := zscore_Some_In _ _ _ E2).
    assert (Fr := proj1 (T y t0 n0 Hy E1) t eq_refl).
    unfold d2, evict_stale. cbn [set_slots d_slots].
    destruct (string_dec c0 cc) as [->|Nc]; [rewrite upd_eq; apply zremrangebyscore_In; split; [exact I|cbn; lia]|rewrite upd_neq by congruence; exact I].
  - apply (LInv_same c cc s); auto; [apply calm_cleanup|now apply Keep].
  - (* crash *) apply (LInv_same c cc s); auto; [calm_triv|]. intros x' Hx'. exists x'. split; [|auto]. unfold holders in *. cbn [fst s_execs] in Hx'.
    apply filter_In in Hx' as [Hx' Hh]. apply filter_In in Hx' as [Hx' _]. apply filter_In. auto.
Qed.

Lemma timely_along c n cc l : forall s L, GInv s -> SInv n cc s -> LInv c cc s L ->
  Forall (limit_is n cc) l -> timely_from c cc s L l -> along c (fun s o => limit_is n cc o /\ renewed c cc s o) s l.
Proof.
  induction l as [|o l IH]; intros s L G S H F T; [exact I|]. inversion F as [|? ? F1 F2]; subst. destruct T as [T1 T2].
  assert (R := LInv_renewed c cc s L o H T1). split; [auto|].
  apply (IH _ (touch c cc s o L)); auto; [now apply GInv_step|now apply SInv_step|now apply (LInv_step c n)].
Qed.

Lemma timely_init c n cc l : Forall (limit_is n cc) l -> timely c cc l ->
  along c (fun s o => limit_is n cc o /\ renewed c cc s o) init_sys l.
Proof. intros F T. apply (timely_along c n cc l init_sys (fun _ => None)); auto; [exact GInv_init|apply SInv_init|]. intros x []. Qed.
