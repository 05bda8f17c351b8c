(** Slots of a concurrency limit and their holders (C23). *)
From Coq Require Import Permutation.
From Verif Require Import Base ZSet Model GInv KView KSim Spec SpecConc.

Record SInv (n : Z) (cc : string) (s : sys) : Prop := mkSInv {
  si_nodup : znodup (d_slots (s_db s) cc);
  si_card : zcard (d_slots (s_db s) cc) <= Z.max 0 n;
  si_in : forall x, In x (holders cc s) -> In (m_key (x_msg x)) (map snd (d_slots (s_db s) cc));
  si_keys : NoDup (map (fun x => m_key (x_msg x)) (holders cc s)) }.

Lemma SInv_init n cc : SInv n cc init_sys.
Proof. constructor; cbn; try tauto; try constructor. lia. Qed.

(** ** Operations that leave the slots alone *)

Lemma slots_place d k w imm clr m : d_slots (place d k w imm clr m) = d_slots d.
Proof. unfold place, hincr_gen. cbv zeta. destruct imm, clr; reflexivity. Qed.
Lemma slots_schedule d k w imm repl mid m : d_slots (fst (lua_schedule d k w imm repl mid m)) = d_slots d.
Proof.
  unfold lua_schedule. destruct mid as [i|].
  - unfold lua_reschedule. cbn [fst]. change (d_slots (place (xdel (xack d i) i) k w imm true m) = d_slots d). now rewrite slots_place.
  - destruct (negb repl && lua_exists d k); [reflexivity|]. cbn [fst].
    change (d_slots (publish ?d _ _)) with (d_slots d). rewrite slots_place. destruct repl; [|reflexivity].
    unfold lua_replace_existing. destruct (match r_sid _ with Some _ => _ | None => _ end); reflexivity.
Qed.
Lemma slots_claim d k w t g i : d_slots (fst (lua_claim d k w t g i)) = d_slots d.
Proof. unfold lua_claim. destruct (superseded d k g); reflexivity. Qed.
Lemma slots_terminal d k g st t ttl e r i : d_slots (fst (lua_terminal d k g st t ttl e r i)) = d_slots d.
Proof.
  unfold lua_terminal. destruct (superseded d k g); [destruct (prog_mine _ k g); reflexivity|].
  destruct (0 <? ttl); reflexivity.
Qed.
Lemma slots_cancel d k t : d_slots (lua_cancel d k t) = d_slots d.
Proof.
  unfold lua_cancel. cbv zeta. set (d1 := match _ with Some i => xdel d i | None => d end).
  assert (E : d_slots d1 = d_slots d) by (unfold d1; destruct (match r_sid _ with Some _ => _ | None => _ end); reflexivity).
  clearbody d1. destruct (r_state _) as [[]|]; exact E.
Qed.
Lemma slots_stream_due d t : d_slots (fst (lua_stream_due d t)) = d_slots d.
Proof.
  unfold lua_stream_due. cbv zeta. cbn [fst].
  assert (E : forall l d, d_slots (fold_left stream_one l d) = d_slots d).
  { induction l as [|k l IH]; intros d0; [reflexivity|]. cbn [fold_left]. rewrite IH. unfold stream_one.
    destruct (d_parked d0 k); reflexivity. }
  destruct (0 <? _); [|apply E]. cbn. apply E.
Qed.
Lemma slots_clear ttl d sn : d_slots (fst (clear_apply ttl d sn)) = d_slots d.
Proof.
  unfold clear_apply. cbv zeta. cbn [fst].
  assert (A : forall k d, d_slots (clear_run ttl d k) = d_slots d) by (intros k d0; unfold clear_run; destruct (0 <? ttl); reflexivity).
  assert (B : forall l d, d_slots (fold_left (clear_run ttl) l d) = d_slots d)
    by (induction l as [|k l IH]; intros d0; [reflexivity|]; cbn [fold_left]; now rewrite IH, A).
  assert (C : forall l d, d_slots (fold_left (clear_scheduled ttl) l d) = d_slots d).
  { induction l as [|k l IH]; intros d0; [reflexivity|]. cbn [fold_left]. rewrite IH. unfold clear_scheduled. now rewrite A. }
  rewrite B, C. now destruct (0 <? cs_count sn).
Qed.
Lemma slots_park d c k i m : d_slots (lua_park d c k i m) = d_slots d.
Proof. reflexivity. Qed.
Lemma slots_wake d c cap : d_slots (wake d c cap) = d_slots d.
Proof.
  unfold wake. destruct (0 <? cap); [|reflexivity]. generalize (firstn (Z.to_nat cap) (waiters d c)). intros l. revert d.
  induction l as [|[i m] l IH]; intros d; [reflexivity|]. cbn [fold_left]. rewrite IH. unfold wake_one.
  destruct (r_state (rget d (m_key m))) as [[]|]; reflexivity.
Qed.
Lemma slots_cleanup d k cc i : d_slots (cancel_cleanup d k cc i) = d_slots d.
Proof. unfold cancel_cleanup. destruct (own_place d k cc i); reflexivity. Qed.

Lemma slots_tick d dt cc : d_slots (tick d dt) cc = if expired (d_now d + dt) (d_slotexp d cc) then [] else d_slots d cc.
Proof. reflexivity. Qed.

(** ** Sets *)

Lemma zcard_le_evict lo hi z : zcard (zremrangebyscore lo hi z) <= zcard z.
Proof. unfold zcard, zremrangebyscore. pose proof (filter_length_le (fun p => negb (zwithin lo hi p)) z). lia. Qed.

Lemma zremrange_keeps k lo hi z st : zscore k z = Some st -> ~ (lo <= st <= hi) -> In k (map snd (zremrangebyscore lo hi z)).
Proof.
  intros E N. apply map_snd_In. exists st. apply zremrangebyscore_In. split; [now apply zscore_Some_In|exact N].
Qed.

Lemma in_zscore k z : In k (map snd z) -> exists st, zscore k z = Some st.
Proof. intros H. destruct (zscore k z) as [st|] eqn:E; [eauto|]. apply zscore_None in E. contradiction. Qed.

(** ** Preservation *)

Definition hkeys (cc : string) (l : list exec) : list key := map (fun x => m_key (x_msg x)) (filter (holds cc) l).

Lemma holders_upd cc l h f :
  (forall x, In x l -> x_id x = h -> holds cc (f x) = holds cc x /\ x_msg (f x) = x_msg x) ->
  hkeys cc (upd_exec l h f) = hkeys cc l.
Proof.
  unfold hkeys. induction l as [|x l IH]; intros H; [reflexivity|]. cbn [upd_exec map filter]. change (map _ l) with (upd_exec l h f) at 1.
  assert (IH' := IH (fun y Hy => H y (or_intror Hy))).
  destruct (Z.eqb_spec (x_id x) h) as [E|E].
  - destruct (H x (or_introl eq_refl) E) as [H1 H2]. rewrite H1. destruct (holds cc x); [|exact IH']. cbn [map]. now rewrite IH', H2.
  - destruct (holds cc x); [|exact IH']. cbn [map]. now rewrite IH'.
Qed.

Lemma upd_exec_absent l h f : ~ In h (map x_id l) -> upd_exec l h f = l.
Proof.
  induction l as [|x l IH]; intros H; [reflexivity|]. cbn in H |- *. destruct (Z.eqb_spec (x_id x) h) as [E|E]; [tauto|].
  f_equal. apply IH. tauto.
Qed.

Lemma holders_drop cc l h f : (forall x, In x l -> x_id x = h -> holds cc (f x) = false) ->
  filter (holds cc) (upd_exec l h f) = filter (fun x => negb (x_id x =? h)) (filter (holds cc) l).
Proof.
  induction l as [|x l IH]; intros Hf; [reflexivity|]. cbn [upd_exec map filter]. change (map _ l) with (upd_exec l h f).
  assert (IH' := IH (fun y Hy => Hf y (or_intror Hy))).
  destruct (Z.eqb_spec (x_id x) h) as [E|E].
  - rewrite (Hf x (or_introl eq_refl) E), IH'. destruct (holds cc x); [|reflexivity]. cbn [filter]. rewrite E, Z.eqb_refl. reflexivity.
  - destruct (holds cc x); [|exact IH']. cbn [filter]. rewrite (proj2 (Z.eqb_neq _ _) E). cbn. now rewrite IH'.
Qed.

Lemma holders_gain cc mx l x0 : NoDup (map x_id l) -> In x0 l -> x_slot x0 = None ->
  Permutation (hkeys cc (upd_exec l (x_id x0) (with_slot (Some (cc, mx))))) (m_key (x_msg x0) :: hkeys cc l).
Proof.
  unfold hkeys. induction l as [|x l IH]; intros N Hin Hs; [contradiction|]. cbn in N. inversion N as [|? ? N1 N2]; subst.
  cbn [upd_exec map filter]. change (map _ l) with (upd_exec l (x_id x0) (with_slot (Some (cc, mx)))) at 1.
  destruct Hin as [->|Hin].
  - rewrite Z.eqb_refl. assert (A1 : holds cc (with_slot (Some (cc, mx)) x0) = true) by (unfold holds; cbn; apply String.eqb_refl).
    assert (A2 : holds cc x0 = false) by (unfold holds; now rewrite Hs). rewrite A1, A2. cbn [map].
    rewrite upd_exec_absent by exact N1. apply Permutation_refl.
  - destruct (Z.eqb_spec (x_id x) (x_id x0)) as [E|E].
    { exfalso. apply N1. rewrite E. now apply in_map. }
    destruct (holds cc x); [|apply IH; auto]. cbn [map]. eapply Permutation_trans; [|apply perm_swap]. apply perm_skip, IH; auto.
Qed.

Lemma SInv_intro n cc s : znodup (d_slots (s_db s) cc) -> zcard (d_slots (s_db s) cc) <= Z.max 0 n ->
  (forall k, In k (hkeys cc (s_execs s)) -> In k (map snd (d_slots (s_db s) cc))) -> NoDup (hkeys cc (s_execs s)) -> SInv n cc s.
Proof. intros A B C D. constructor; auto. intros x Hx. apply C. unfold hkeys. apply (in_map (fun x => m_key (x_msg x))), Hx. Qed.

Lemma SInv_hkeys n cc s k : SInv n cc s -> In k (hkeys cc (s_execs s)) -> In k (map snd (d_slots (s_db s) cc)).
Proof. intros H Hk. unfold hkeys in Hk. apply in_map_iff in Hk as (x & <- & Hx). now apply (si_in _ _ _ H). Qed.

Lemma SInv_same n cc s s' : SInv n cc s -> d_slots (s_db s') cc = d_slots (s_db s) cc ->
  hkeys cc (s_execs s') = hkeys cc (s_execs s) -> SInv n cc s'.
Proof.
  intros H E K. apply SInv_intro; rewrite ?E, ?K; try apply H. intros k. apply (SInv_hkeys n cc s k H).
Qed.

Lemma hkeys_upd_phase cc l h p : hkeys cc (upd_exec l h (with_phase p)) = hkeys cc l.
Proof. apply holders_upd. intros; split; reflexivity. Qed.

Lemma hkeys_renewed c cc s o k t : renewed c cc s o -> op_clock o = Some t -> In k (hkeys cc (s_execs s)) ->
  forall st, zscore k (d_slots (s_db s) cc) = Some st -> t - c_redeliver c < st.
Proof.
  intros R T Hk st E. unfold hkeys in Hk. apply in_map_iff in Hk as (x & <- & Hx). apply (proj1 (R x Hx) t st T E).
Qed.

Lemma SInv_step c n cc s o : GInv s -> SInv n cc s -> limit_is n cc o -> renewed c cc s o -> SInv n cc (fst (step c s o)).
Proof.
  intros G H L R. assert (G' := G). destruct G' as [_ X].
  destruct o; cbn [step].
  - (* tick *) destruct (0 <=? dt); [|exact H]. cbn [fst].
    destruct (expired (d_now (s_db s) + dt) (d_slotexp (s_db s) cc)) eqn:E.
    + destruct (hkeys cc (s_execs s)) as [|k l] eqn:Hk.
      * apply SInv_intro; cbn [fst set_db s_db s_execs]; rewrite ?slots_tick, ?E, ?Hk; cbn; try constructor; try tauto; lia.
      * exfalso. unfold hkeys in Hk. destruct (filter (holds cc) (s_execs s)) as [|x xs] eqn:F; [discriminate|].
        unfold expired in E. destruct (d_slotexp (s_db s) cc) as [e|] eqn:Ee; [|discriminate].
        assert (B := proj2 (R x ltac:(unfold holders; rewrite F; now left)) dt e eq_refl Ee). lia.
    + apply (SInv_same n cc s); auto. cbn [fst set_db s_db]. now rewrite slots_tick, E.
  - (* add *) unfold do_schedule. destruct (lua_schedule _ _ _ _ _ _ _) as [d r] eqn:E. apply (SInv_same n cc s); auto. cbn.
    assert (S := slots_schedule (s_db s) (a_key a) (a_when a) (a_when a <=? t) false None (call_msg a)). rewrite E in S. cbn in S. now rewrite S.
  - unfold do_schedule. destruct (lua_schedule _ _ _ _ _ _ _) as [d r] eqn:E. apply (SInv_same n cc s); auto. cbn.
    assert (S := slots_schedule (s_db s) (a_key a) (a_when a) (a_when a <=? t) true None (call_msg a)). rewrite E in S. cbn in S. now rewrite S.
  - apply (SInv_same n cc s); auto. cbn. now rewrite slots_cancel.
  - apply (SInv_same n cc s); auto. cbn. unfold cancel_finish. now destruct (0 <? c_ttl c).
  - apply (SInv_same n cc s); auto.
  - apply (SInv_same n cc s); auto.
  - destruct (ready_clear s _) as [sn|]; [|exact H]. assert (S := slots_clear (c_ttl c) (s_db s) sn).
    destruct (clear_apply _ _ _) as [d m]. apply (SInv_same n cc s); auto. cbn in *. now rewrite S.
  - assert (S := slots_stream_due (s_db s) t). destruct (lua_stream_due _ _) as [d [a b]]. apply (SInv_same n cc s); auto. cbn in *. now rewrite S.
  - (* read *) unfold read_group. destruct (next_new (s_db s)) as [[i m]|]; cbn; apply (SInv_same n cc s); auto.
    cbn. unfold hkeys. rewrite filter_app'. cbn. now rewrite app_nil_r.
  - unfold autoclaim. destruct (find _ _) as [p|]; [|apply (SInv_same n cc s); auto].
    destruct (claimable _ _ _); [|apply (SInv_same n cc s); auto]. destruct (lookup_entry _ _); cbn; apply (SInv_same n cc s); auto.
    cbn. unfold hkeys. rewrite filter_app'. cbn. now rewrite app_nil_r.
  - apply (SInv_same n cc s); auto.
  - destruct (get_exec _ _) as [x|]; [|exact H]. destruct (x_phase x); try exact H.
    assert (S := slots_claim (s_db s) (m_key (x_msg x)) (x_worker x) t (m_gen (x_msg x)) (x_mid x)).
    destruct (lua_claim _ _ _ _ _ _) as [d []]; apply (SInv_same n cc s); auto; cbn [fst set_execs s_db s_execs] in *; rewrite ?S; auto using hkeys_upd_phase.
  - destruct (get_exec _ _) as [x|]; [|exact H]. destruct (x_phase x); try exact H.
    apply (SInv_same n cc s); auto. apply hkeys_upd_phase.
  - destruct (get_exec _ _) as [x|]; [|exact H]. destruct (x_phase x); try exact H.
    apply (SInv_same n cc s); auto. apply hkeys_upd_phase.
  - destruct (get_exec _ _) as [x|]; [|exact H]. destruct (x_phase x); try exact H.
    apply (SInv_same n cc s); auto. apply hkeys_upd_phase.
  - destruct (get_exec _ _) as [x|]; [|exact H]. destruct (may_finish _ _); [|exact H].
    assert (S := slots_terminal (s_db s) (m_key (x_msg x)) (m_gen (x_msg x)) s0 t (c_ttl c) err res (x_mid x)).
    destruct (lua_terminal _ _ _ _ _ _ _ _ _) as [d r]. apply (SInv_same n cc s); auto; cbn [fst set_execs s_db s_execs] in *; rewrite ?S; auto using hkeys_upd_phase.
  - destruct (get_exec _ _) as [x|]; [|exact H]. destruct (may_resched _); [|exact H].
    assert (S := slots_schedule (s_db s) (m_key (resched_msg (x_msg x) when bump)) when (when <=? t) bump (Some (x_mid x)) (resched_msg (x_msg x) when bump)).
    destruct (lua_schedule _ _ _ _ _ _ _) as [d r]. apply (SInv_same n cc s); auto; cbn [fst set_execs s_db s_execs] in *; rewrite ?S; auto using hkeys_upd_phase.
  - (* acquire *) destruct (get_exec (s_execs s) h) as [x|] eqn:Gx; [|exact H].
    destruct (get_exec_spec _ _ _ Gx) as [Hx Hid].
    destruct (x_phase x); try exact H. destruct (x_slot x) eqn:Sx; [exact H|].
    set (k := m_key (x_msg x)).
    assert (Own : forall y, In y (s_execs s) -> x_id y = h -> y = x) by (intros y Hy E; eapply execs_inj; eauto; congruence).
    destruct (string_dec c0 cc) as [->|Nc].
    + assert (Hn : maxc = n) by (apply L; reflexivity). subst maxc.
      assert (Old : forall k', In k' (hkeys cc (s_execs s)) -> forall st, zscore k' (d_slots (s_db s) cc) = Some st -> t - c_redeliver c < st).
      { intros k' Hk. apply (hkeys_renewed c cc s _ k' t R eq_refl Hk). }
      assert (Gain : forall z, znodup (zadd t k z) -> zcard (zadd t k z) <= Z.max 0 n -> ~ In k (hkeys cc (s_execs s)) ->
         (forall k', In k' (hkeys cc (s_execs s)) -> In k' (map snd z)) ->
         SInv n cc (set_execs s (take_slot (s_db s) cc z k t (slot_ttl c)) (upd_exec (s_execs s) h (with_slot (Some (cc, n)))))).
      { intros z Z1 Z2 Z3 Z4. assert (P := holders_gain cc n (s_execs s) x (xi_nodup _ X) Hx Sx). rewrite Hid in P.
        apply SInv_intro; unfold take_slot; cbn [fst set_execs s_db s_execs set_slotexp set_slots d_slots]; rewrite ?upd_eq; auto.
        - intros k' Hk. apply (Permutation_in _ P) in Hk. apply zadd_map_snd. destruct Hk as [<-|Hk]; [now left|right; auto].
        - apply (Permutation_NoDup (Permutation_sym P)). constructor; [exact Z3|apply H]. }
      unfold lua_acquire_or_park. fold k. destruct (zscore k (d_slots (s_db s) cc)) as [st|] eqn:Ez.
      * destruct (x_redel x && (st <=? t - c_redeliver c)) eqn:Eb; cbn [fst].
        -- apply Gain.
           ++ apply zadd_nodup, H.
           ++ unfold zcard. rewrite zadd_length_present; [apply H|apply H|]. apply map_snd_In. exists st. now apply zscore_Some_In.
           ++ intros Hk. specialize (Old k Hk st Ez). lia.
           ++ intros k' Hk. now apply (SInv_hkeys n cc s).
        -- apply (SInv_same n cc s); auto. apply hkeys_upd_phase.
      * assert (Nk : ~ In k (hkeys cc (s_execs s))).
        { intros Hk. apply (SInv_hkeys n cc s k H) in Hk. apply zscore_None in Ez. contradiction. }
        destruct (zcard (d_slots (s_db s) cc) <? n) eqn:Ec; cbn [fst].
        -- apply Gain; auto.
           ++ apply zadd_nodup, H.
           ++ unfold zcard. rewrite zadd_length_absent; [|now apply zscore_None]. unfold zcard in Ec. lia.
           ++ intros k' Hk. now apply (SInv_hkeys n cc s).
        -- destruct (zrangebyscore 0 (t - c_redeliver c) (d_slots (s_db s) cc)) as [|[st0 k0] rest] eqn:Er; cbn [fst].
           ++ apply (SInv_same n cc s); auto. apply hkeys_upd_phase.
           ++ assert (I0 : In (st0, k0) (d_slots (s_db s) cc) /\ 0 <= st0 <= t - c_redeliver c).
              { change st0 with (fst (st0, k0)). apply (zrangebyscore_In 0 (t - c_redeliver c) (d_slots (s_db s) cc)). rewrite Er. now left. }
              destruct I0 as [I0 I1].
              assert (S0 : zscore k0 (d_slots (s_db s) cc) = Some st0) by (apply zscore_In; [apply H|exact I0]).
              assert (Nk0 : ~ In k0 (hkeys cc (s_execs s))) by (intros Hk; specialize (Old k0 Hk st0 S0); lia).
              apply Gain; auto.
              ** apply zadd_nodup, zrem_nodup, H.
              ** assert (C := si_card _ _ _ H). unfold zcard in *. rewrite zadd_length_absent.
                 --- assert (P := zrem_length_present k0 (d_slots (s_db s) cc) (si_nodup _ _ _ H)).
                     assert (Ik : In k0 (map snd (d_slots (s_db s) cc))) by (apply map_snd_In; eauto). specialize (P Ik). lia.
                 --- intros Hk. apply zrem_map_snd in Hk as [Hk _]. apply zscore_None in Ez. contradiction.
              ** intros k' Hk. apply zrem_map_snd. split; [now apply (SInv_hkeys n cc s)|]. intros ->. contradiction.
    + assert (Hk : forall b, hkeys cc (upd_exec (s_execs s) h (if b : bool then with_slot (Some (c0, maxc)) else with_phase PDone)) = hkeys cc (s_execs s)).
      { intros b. apply holders_upd. intros y Hy Ey. rewrite (Own y Hy Ey). destruct b; [|split; reflexivity]. unfold holds. cbn. rewrite Sx.
        now rewrite (eqb_neq_string _ _ Nc). }
      assert (S : d_slots (fst (lua_acquire_or_park (s_db s) c0 maxc k t (x_redel x) (t - c_redeliver c) (slot_ttl c) (x_mid x) (x_msg x))) cc = d_slots (s_db s) cc).
      { unfold lua_acquire_or_park. destruct (zscore _ _); [destruct (_ && _); [|reflexivity]|destruct (_ <? _); [|destruct (zrangebyscore _ _ _) as [|[? ?] ?]; [reflexivity|]]];
          cbn; rewrite upd_neq by congruence; reflexivity. }
      destruct (lua_acquire_or_park _ _ _ _ _ _ _ _ _ _) as [d b]. apply (SInv_same n cc s); [exact H|exact S|apply Hk].
  - (* release *) destruct (get_exec (s_execs s) h) as [x|] eqn:Gx; [|exact H].
    destruct (get_exec_spec _ _ _ Gx) as [Hx Hid].
    destruct (x_slot x) as [[c1 m1]|] eqn:Sx; [|destruct (x_phase x); exact H].
    assert (Own : forall y, In y (s_execs s) -> x_id y = h -> y = x) by (intros y Hy E; eapply execs_inj; eauto; congruence).
    assert (Main : SInv n cc (set_execs s (lua_release (s_db s) c1 (m_key (x_msg x)) m1 (t - c_redeliver c))
                 (upd_exec (s_execs s) h (fun x => with_slot None (unwind x))))); [|destruct (x_phase x); try exact H; exact Main].
    set (k := m_key (x_msg x)).
    assert (Sl : d_slots (lua_release (s_db s) c1 k m1 (t - c_redeliver c)) =
       d_slots (let d := set_slots (s_db s) (upd (d_slots (s_db s)) c1 (zrem k (d_slots (s_db s) c1))) in
                match waiters d c1 with [] => d | _ => evict_stale d c1 (t - c_redeliver c) end)).
    { unfold lua_release. cbv zeta. now rewrite slots_wake. }
    destruct (string_dec c1 cc) as [->|Nc].
    + assert (F : filter (holds cc) (upd_exec (s_execs s) h (fun x => with_slot None (unwind x))) =
                  filter (fun x => negb (x_id x =? h)) (filter (holds cc) (s_execs s))) by (apply holders_drop; intros; reflexivity).
      assert (Hd : In x (holders cc s)) by (apply filter_In; split; [exact Hx|unfold holds; now rewrite Sx, String.eqb_refl]).
      assert (Kn : forall y, In y (holders cc s) -> x_id y <> h -> m_key (x_msg y) <> k).
      { intros y Hy Ny Ek. apply Ny. rewrite <- Hid. f_equal.
        assert (NK := si_keys _ _ _ H). clear - NK Hd Hy Ek. unfold k in Ek. induction (holders cc s) as [|a l IH]; [contradiction|].
        cbn in NK. inversion NK as [|? ? N1 N2]; subst. destruct Hd as [->|Hd], Hy as [->|Hy]; auto.
        - exfalso. apply N1. rewrite <- Ek. apply (in_map (fun x => m_key (x_msg x))). exact Hy.
        - exfalso. apply N1. rewrite Ek. apply (in_map (fun x => m_key (x_msg x))). exact Hd. }
      assert (E1 : d_slots (lua_release (s_db s) cc k m1 (t - c_redeliver c)) cc = zrem k (d_slots (s_db s) cc) \/
                   d_slots (lua_release (s_db s) cc k m1 (t - c_redeliver c)) cc = zremrangebyscore 0 (t - c_redeliver c) (zrem k (d_slots (s_db s) cc))).
      { rewrite Sl. cbv zeta. destruct (waiters _ cc); [left|right]; unfold evict_stale; cbn; rewrite ?upd_eq; reflexivity. }
      apply SInv_intro; cbn [s_db s_execs set_execs].
      * destruct E1 as [->| ->]; [|apply zremrangebyscore_nodup]; apply zrem_nodup, H.
      * assert (C := si_card _ _ _ H). assert (C2 := zrem_length_le k (d_slots (s_db s) cc)).
        assert (C3 := zcard_le_evict 0 (t - c_redeliver c) (zrem k (d_slots (s_db s) cc))). unfold zcard in *. destruct E1 as [->| ->]; lia.
      * intros k' Hk. unfold hkeys in Hk. rewrite F in Hk. apply in_map_iff in Hk as (y & <- & Hy). apply filter_In in Hy as [Hy Ny].
        assert (Nh : x_id y <> h) by lia. specialize (Kn y Hy Nh).
        assert (Iy := si_in _ _ _ H y Hy). destruct (in_zscore _ _ Iy) as [st Est].
        assert (Fr := proj1 (R y Hy) t st eq_refl Est).
        assert (Ez : zscore (m_key (x_msg y)) (zrem k (d_slots (s_db s) cc)) = Some st).
        { apply zscore_In; [apply zrem_nodup, H|]. apply zrem_In. split; [now apply zscore_Some_In|exact Kn]. }
        destruct E1 as [->| ->].
        -- apply map_snd_In. exists st. now apply zscore_Some_In.
        -- apply (zremrange_keeps _ _ _ _ st Ez). lia.
      * unfold hkeys. rewrite F. apply NoDup_map_filter. apply H.
    + apply (SInv_same n cc s); auto; cbn [s_db s_execs set_execs].
      * rewrite Sl. cbv zeta. destruct (waiters _ c1); unfold evict_stale; cbn; rewrite ?(upd_neq _ c1 cc) by congruence; reflexivity.
      * apply holders_upd. intros y Hy Ey. rewrite (Own y Hy Ey). unfold holds. cbn. rewrite Sx.
        rewrite (eqb_neq_string _ _ Nc). split; [reflexivity|apply unwind_same].
  - (* renew slot *) destruct (get_exec (s_execs s) h) as [x|] eqn:Gx; [|exact H].
    destruct (get_exec_spec _ _ _ Gx) as [Hx Hid].
    destruct (x_slot x) as [[c1 m1]|] eqn:Sx; [|exact H]. destruct (string_dec c1 cc) as [->|Nc].
    + assert (Hd : In x (holders cc s)) by (apply filter_In; split; [exact Hx|unfold holds; now rewrite Sx, String.eqb_refl]).
      assert (I := si_in _ _ _ H x Hd).
      apply SInv_intro; unfold renew_slot, take_slot; cbn [fst set_db s_db s_execs set_slotexp set_slots d_slots]; rewrite ?upd_eq.
      * apply zadd_nodup, H.
      * unfold zcard. rewrite zadd_length_present; [apply H|apply H|exact I].
      * intros k' Hk. apply zadd_map_snd. right. now apply (SInv_hkeys n cc s).
      * apply H.
    + apply (SInv_same n cc s); auto. cbn. now rewrite upd_neq by congruence.
  - (* scavenge *) unfold lua_scavenge. destruct (waiters (s_db s) c0) as [|w ws] eqn:Ew; [apply (SInv_same n cc s); auto|].
    cbv zeta. destruct (string_dec c0 cc) as [->|Nc].
    + assert (E1 : d_slots (wake (evict_stale (s_db s) cc (t - c_redeliver c)) cc (maxc - zcard (d_slots (evict_stale (s_db s) cc (t - c_redeliver c)) cc))) cc
               = zremrangebyscore 0 (t - c_redeliver c) (d_slots (s_db s) cc)) by (rewrite slots_wake; cbn; now rewrite upd_eq).
      apply SInv_intro; cbn [fst set_db s_db s_execs]; rewrite ?E1.
      * apply zremrangebyscore_nodup, H.
      * assert (C := si_card _ _ _ H). assert (C3 := zcard_le_evict 0 (t - c_redeliver c) (d_slots (s_db s) cc)). lia.
      * intros k' Hk. destruct (in_zscore _ _ (SInv_hkeys n cc s k' H Hk)) as [st Est].
        assert (Fr := hkeys_renewed c cc s _ k' t R eq_refl Hk st Est). apply (zremrange_keeps _ _ _ _ st Est). lia.
      * apply H.
    + apply (SInv_same n cc s); auto. cbn [fst set_db s_db]. rewrite slots_wake. cbn. now rewrite upd_neq by congruence.
  - apply (SInv_same n cc s); auto. cbn. now rewrite slots_cleanup.
  - (* crash *) apply SInv_intro; cbn [fst s_db s_execs]; try apply H.
    + intros k Hk. unfold hkeys in Hk. apply in_map_iff in Hk as (x & <- & Hx). apply filter_In in Hx as [Hx Hh]. apply filter_In in Hx as [Hx _].
      apply (si_in _ _ _ H). apply filter_In. auto.
    + unfold hkeys. assert (Fc : forall (f g : exec -> bool) l, filter f (filter g l) = filter g (filter f l)).
      { intros f g l. induction l as [|a l IH]; [reflexivity|]. cbn. destruct (f a) eqn:Ef, (g a) eqn:Eg; cbn; rewrite ?Ef, ?Eg; congruence. }
      rewrite Fc. apply NoDup_map_filter. apply H.
Qed.

Lemma SInv_final c n cc l : forall s, GInv s -> SInv n cc s -> along c (fun s o => limit_is n cc o /\ renewed c cc s o) s l ->
  SInv n cc (final c s l).
Proof.
  induction l as [|o l IH]; intros s G H A; [exact H|]. destruct A as [[A1 A2] A3]. rewrite final_cons.
  apply IH; [now apply GInv_step|now apply SInv_step|exact A3].
Qed.

Lemma SInv_bound n cc s : SInv n cc s -> Z.of_nat (length (holders cc s)) <= Z.max 0 n.
Proof.
  intros H. assert (L : (length (hkeys cc (s_execs s)) <= length (map snd (d_slots (s_db s) cc)))%nat).
  { apply NoDup_incl_length; [apply H|]. intros k Hk. now apply (SInv_hkeys n cc s). }
  unfold hkeys in L. rewrite !map_length in L. assert (C := si_card _ _ _ H). unfold zcard in C. unfold holders. lia.
Qed.

(** ** A running body that asked for a slot still holds it *)

Definition early (x : exec) : bool := match x_phase x with PClaimed | PBody => true | _ => false end.

Lemma slot_step c s o x' : GInv s -> In x' (s_execs (fst (step c s o))) ->
  (exists x, In x (s_execs s) /\ x_id x' = x_id x /\ (x_phase x' = PDelivered -> x_phase x = PDelivered) /\
     (early x' = true -> (early x = true /\ x_slot x' = x_slot x) \/ x_phase x = PDelivered \/
        exists cc mx t, o = OAcquire (x_id x) cc mx t /\ x_slot x' = Some (cc, mx))) \/
  x_id x' = s_nextx s.
Proof.
  intros [_ X].
  set (T := exists x, _). 
  assert (R : In x' (s_execs s) -> T) by (intros H; exists x'; repeat split; auto).
  assert (U : forall h z f, get_exec (s_execs s) h = Some z ->
    x_id (f z) = x_id z -> (x_phase (f z) = PDelivered -> x_phase z = PDelivered) ->
    (early (f z) = true -> (early z = true /\ x_slot (f z) = x_slot z) \/ x_phase z = PDelivered \/
        exists cc mx t, o = OAcquire (x_id z) cc mx t /\ x_slot (f z) = Some (cc, mx)) ->
    In x' (upd_exec (s_execs s) h f) -> T).
  { intros h z f Gz H1 H2 H3 H. destruct (get_exec_spec _ _ _ Gz) as [Hz Hid]. apply upd_exec_In in H. destruct H as (y & Hy & [->|[Eh ->]]); [auto|].
    assert (y = z) by (eapply execs_inj; eauto; congruence). subst y. exists z. auto. }
  destruct o; unfold step; cbv zeta;
    repeat match goal with |- context [get_exec (s_execs s) ?h] => destruct (get_exec (s_execs s) h) as [z|] eqn:Gz end;
    try (cbn; now auto);
    try match goal with
    | |- context [if ?b then _ else _] => destruct b; cbn; now auto
    | |- context [do_schedule ?a ?b ?c ?d] => destruct (do_schedule a b c d); cbn; now auto
    | |- context [ready_clear s ?w] => destruct (ready_clear s _); [destruct (clear_apply _ _ _)|]; cbn; now auto
    | |- context [lua_stream_due ?a ?b] => destruct (lua_stream_due a b) as [? [? ?]]; cbn; now auto
    end.
  - unfold deliver. destruct (read_group _ _) as [? [[? ?]|]]; cbn; [|auto].
    intros H; apply in_app_or in H; destruct H as [H|[<-|[]]]; [left; auto|right; auto].
  - unfold deliver. destruct (autoclaim _ _ _ _) as [? [[? ?]|]]; cbn; [|auto].
    intros H; apply in_app_or in H; destruct H as [H|[<-|[]]]; [left; auto|right; auto].
  - destruct (x_phase z) eqn:P; try (cbn; now auto).
    destruct (lua_claim _ _ _ _ _ _) as [? []]; cbn [fst s_execs set_execs]; intros H; left;
      (eapply U; [exact Gz| | | |exact H]; [reflexivity|cbn; discriminate|auto]).
  - destruct (x_phase z) eqn:P; try (cbn; now auto). cbn [fst s_execs set_execs]. intros H; left.
    eapply U; [exact Gz| | | |exact H]; [reflexivity|cbn; discriminate|]. left. unfold early. rewrite P. auto.
  - destruct (x_phase z) eqn:P; try (cbn; now auto). cbn [fst s_execs set_execs]. intros H; left.
    eapply U; [exact Gz| | | |exact H]; [reflexivity|cbn; discriminate|]. cbn; discriminate.
  - destruct (x_phase z) eqn:P; try (cbn; now auto). cbn [fst s_execs set_execs]. intros H; left.
    eapply U; [exact Gz| | | |exact H]; [reflexivity|cbn; discriminate|]. cbn; discriminate.
  - destruct (may_finish _ _); [|cbn; auto]. destruct (lua_terminal _ _ _ _ _ _ _ _ _). cbn [fst s_execs set_execs]. intros H; left.
    eapply U; [exact Gz| | | |exact H]; [reflexivity|cbn; discriminate|]. cbn; discriminate.
  - destruct (may_resched _); [|cbn; auto]. destruct (lua_schedule _ _ _ _ _ _ _). cbn [fst s_execs set_execs]. intros H; left.
    eapply U; [exact Gz| | | |exact H]; [reflexivity|cbn; discriminate|]. cbn; discriminate.
  - destruct (x_phase z) eqn:P; try (cbn; now auto). destruct (x_slot z) eqn:Sz; [cbn; now auto|].
    destruct (get_exec_spec _ _ _ Gz) as [Hz Hid].
    destruct (lua_acquire_or_park _ _ _ _ _ _ _ _ _ _) as [? []]; cbn [fst s_execs set_execs]; intros H; left;
      (eapply U; [exact Gz| | | |exact H]; [reflexivity|cbn; rewrite ?P; discriminate|]).
    + intros _. right; right. exists c0, maxc, t. rewrite Hid. auto.
    + cbn. discriminate.
  - destruct (x_slot z) as [[? ?]|]; [|cbn; auto].
    destruct (x_phase z) eqn:P; try (cbn; now auto); cbn [fst s_execs set_execs]; intros H; left;
      (eapply U; [exact Gz| | | |exact H]; unfold unwind; rewrite P; cbn; rewrite ?P; [reflexivity|discriminate|unfold early; cbn; rewrite ?P; discriminate]).
  - destruct (x_slot z) as [[? ?]|]; cbn; auto.
  - cbn [fst s_execs]. intros H. apply filter_In in H. left. apply R; tauto.
Qed.

Lemma nextx_step c s o : s_nextx s <= s_nextx (fst (step c s o)).
Proof.
  destruct o; unfold step, deliver; cbv zeta;
    repeat match goal with |- context [match ?x with _ => _ end] => destruct x end; cbn; lia.
Qed.

Lemma acquire_true c s h cc maxc t : snd (step c s (OAcquire h cc maxc t)) = OAcquired true ->
  exists x, get_exec (s_execs s) h = Some x /\ x_phase x = PClaimed /\ x_slot x = None /\
    s_execs (fst (step c s (OAcquire h cc maxc t))) = upd_exec (s_execs s) h (with_slot (Some (cc, maxc))) /\
    s_nextx (fst (step c s (OAcquire h cc maxc t))) = s_nextx s.
Proof.
  cbn [step]. destruct (get_exec (s_execs s) h) as [x|]; [|discriminate]. destruct (x_phase x) eqn:P; try discriminate.
  destruct (x_slot x) eqn:S; [discriminate|]. destruct (lua_acquire_or_park _ _ _ _ _ _ _ _ _ _) as [d b]. cbn. intros H. injection H as ->. exists x. split; [auto|]. split; [auto|]. split; [auto|]. split; reflexivity.
Qed.

Definition AInv (cc : string) (h : Z) (s : sys) : Prop :=
  h < s_nextx s /\ forall x, In x (s_execs s) -> x_id x = h -> x_phase x <> PDelivered /\ (early x = true -> holds cc x = true).

Lemma AInv_step c cc h s o : GInv s -> AInv cc h s -> AInv cc h (fst (step c s o)).
Proof.
  intros G [A1 A2]. split; [pose proof (nextx_step c s o); lia|].
  intros x' Hx' E. destruct (slot_step c s o x' G Hx') as [(x & Hx & Ei & Ep & Ee)|Ei]; [|lia].
  destruct (A2 x Hx ltac:(congruence)) as [B1 B2]. split; [auto|]. intros Y. destruct (Ee Y) as [[Y1 Y2]|[Y1|(c' & mx & t & Eo & Y2)]]; [|contradiction|].
  - unfold holds. rewrite Y2. apply (B2 Y1).
  - (* a second acquisition needs an execution without a slot *)
    subst o. cbn [step] in Hx'. destruct (get_exec (s_execs s) (x_id x)) as [z|] eqn:Gz.
    2: { destruct (B2 ltac:(clear - Y Hx' Hx G Ei; cbn in Hx'; assert (x' = x) by (eapply execs_inj; eauto; apply G); now subst)). assert (x' = x) by (eapply execs_inj; eauto; apply G). subst. unfold holds. now rewrite Y2. }
    assert (z = x) by (destruct (get_exec_spec _ _ _ Gz); eapply execs_inj; eauto; apply G). subst z.
    assert (Same : In x' (s_execs s) -> holds cc x' = true).
    { intros H. assert (x' = x) by (eapply execs_inj; eauto; apply G). subst. auto. }
    destruct (x_phase x) eqn:P; try (now apply Same).
    destruct (x_slot x) as [[? ?]|] eqn:Sx; [now apply Same|].
    assert (B3 : early x = true) by (unfold early; now rewrite P). specialize (B2 B3). unfold holds in B2. rewrite Sx in B2. discriminate.
Qed.

Lemma AInv_final c cc h l : forall s, GInv s -> AInv cc h s -> AInv cc h (final c s l).
Proof.
  induction l as [|o l IH]; intros s G H; [exact H|]. rewrite final_cons. apply IH; [now apply GInv_step|now apply AInv_step].
Qed.

Lemma acquired_holds c l cc h x : acquired_in c l cc h -> In x (s_execs (final c init_sys l)) -> x_id x = h -> early x = true ->
  holds cc x = true.
Proof.
  intros (l1 & maxc & t & l2 & -> & E) Hx Hid Y. rewrite final_app, final_cons in Hx.
  assert (G1 : GInv (final c init_sys l1)) by (apply GInv_final, GInv_init).
  set (s1 := final c init_sys l1) in *.
  assert (A : AInv cc h (fst (step c s1 (OAcquire h cc maxc t)))).
  { destruct (acquire_true c s1 h cc maxc t E) as (z & Gz & Pz & Sz & Ex & En). destruct (get_exec_spec _ _ _ Gz) as [Hz Hz'].
    split; [rewrite En; destruct G1 as [_ X1]; pose proof (xi_next _ X1 z Hz); lia|].
    intros y Hy Ey. rewrite Ex in Hy. unfold upd_exec in Hy. apply in_map_iff in Hy as (w & E' & Hw).
    destruct (Z.eqb_spec (x_id w) h) as [Ew|Ew]; [|congruence].
    assert (w = z) by (eapply execs_inj; eauto; [apply G1|congruence]). subst w y.
    cbn. rewrite Pz. split; [discriminate|]. intros _. unfold holds. cbn. apply String.eqb_refl. }
  apply (AInv_final c cc h l2 _ (GInv_step c s1 _ G1) A); auto.
Qed.
