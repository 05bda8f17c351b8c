(** Every step of the full model acts on one key through key events. *)
From Verif Require Import Base ZSet Model GInv KView.

Lemma ks_eq a b c d e f g h i a' b' c' d' e' f' g' h' i' :
  a = a' -> b = b' -> c = c' -> d = d' -> e = e' -> f = f' -> g = g' -> h = h' -> i = i' ->
  mkKs a b c d e f g h i = mkKs a' b' c' d' e' f' g' h' i'.
Proof. intros; subst; reflexivity. Qed.

(** ** Primitive operations, same key and other keys *)

Lemma filter_comm {A} (f g : A -> bool) l : filter f (filter g l) = filter g (filter f l).
Proof.
  induction l as [|x l IH]; simpl; [reflexivity|].
  destruct (f x) eqn:F, (g x) eqn:G; simpl; rewrite ?F, ?G, IH; reflexivity.
Qed.

Lemma kd_xadd_same k d xs m : m_key m = k -> kd k (set_next (set_stream d (d_stream d ++ [(d_next d, m)])) (d_next d + 1)) xs = kadd (kd k d xs) m.
Proof.
  intros Hk. unfold kd, kadd, kset_next, kset_stream; simpl. apply ks_eq; auto.
  rewrite filter_app'; simpl. unfold has_key at 2; simpl. rewrite Hk, String.eqb_refl. reflexivity.
Qed.

Lemma kd_xadd_other k d xs m : m_key m <> k -> kd k (set_next (set_stream d (d_stream d ++ [(d_next d, m)])) (d_next d + 1)) xs = kset_next (kd k d xs) (d_next d + 1).
Proof.
  intros Hk. unfold kd, kset_next; simpl. apply ks_eq; auto.
  rewrite filter_app'; simpl. unfold has_key at 2; simpl. rewrite (eqb_neq_string _ _ Hk). apply app_nil_r.
Qed.

Lemma kd_xdel k d xs i : kd k (xdel d i) xs = kdel (kd k d xs) i.
Proof. unfold kd, kdel, kset_stream; simpl. apply ks_eq; auto. unfold del_entry. apply filter_comm. Qed.

Lemma kdel_absent v i : (forall m, ~ In (i, m) (k_stream v)) -> kdel v i = v.
Proof.
  intros H. unfold kdel, kset_stream. destruct v as [a b c d e f g h j]; simpl in *. apply ks_eq; auto.
  apply filter_all. intros [i' m] Hin; simpl. destruct (Z.eqb_spec i' i) as [->|]; [exfalso; eapply H; eauto|reflexivity].
Qed.

Lemma kd_xdel_other k k' d xs i : k' <> k ->
  (forall m, In (i, m) (d_stream d) -> m_key m = k') -> kd k (xdel d i) xs = kd k d xs.
Proof.
  intros Hk H. rewrite kd_xdel. apply kdel_absent. simpl. intros m Hm.
  apply filter_In in Hm as [Hm1 Hm2]. unfold has_key in Hm2; simpl in Hm2. apply String.eqb_eq in Hm2.
  apply H in Hm1. congruence.
Qed.

Lemma kd_pel k d xs p : kd k (set_pel d p) xs = kd k d xs. Proof. reflexivity. Qed.
Lemma kd_xack k d xs i : kd k (xack d i) xs = kd k d xs. Proof. reflexivity. Qed.
Lemma kd_publish k d xs k' s : kd k (publish d k' s) xs = kd k d xs. Proof. reflexivity. Qed.
Lemma kd_legacy k d xs k' : kd k (del_legacy d k') xs = kd k d xs. Proof. reflexivity. Qed.
Lemma kd_slots k d xs z : kd k (set_slots d z) xs = kd k d xs. Proof. reflexivity. Qed.
Lemma kd_slotexp k d xs z : kd k (set_slotexp d z) xs = kd k d xs. Proof. reflexivity. Qed.
Lemma kd_now k d xs z : kd k (set_now d z) xs = kd k d xs. Proof. reflexivity. Qed.
Lemma kd_take_slot k d xs c z k' t ttl : kd k (take_slot d c z k' t ttl) xs = kd k d xs. Proof. reflexivity. Qed.

Lemma kd_hset_same k d xs f : kd k (hset d k f) xs = khset (kd k d xs) f.
Proof. unfold kd, khset, kset_runs; simpl. apply ks_eq; auto. now rewrite upd_eq. Qed.
Lemma kd_hset_other k k' d xs f : k' <> k -> kd k (hset d k' f) xs = kd k d xs.
Proof. intros H; unfold kd; simpl. apply ks_eq; auto. rewrite upd_neq; auto. Qed.
Lemma kd_hdel_same k d xs f : kd k (hdel d k f) xs = khdel (kd k d xs) f.
Proof. unfold kd, khdel, kset_runs; simpl. apply ks_eq; auto. now rewrite upd_eq. Qed.
Lemma kd_hdel_other k k' d xs f : k' <> k -> kd k (hdel d k' f) xs = kd k d xs.
Proof. intros H; unfold kd; simpl. apply ks_eq; auto. rewrite upd_neq; auto. Qed.
Lemma kd_del_runs_same k d xs : kd k (del_runs d k) xs = kset_runs (kd k d xs) None.
Proof. unfold kd, kset_runs; simpl. apply ks_eq; auto. now rewrite upd_eq. Qed.
Lemma kd_del_runs_other k k' d xs : k' <> k -> kd k (del_runs d k') xs = kd k d xs.
Proof. intros H; unfold kd; simpl. apply ks_eq; auto. rewrite upd_neq; auto. Qed.
Lemma kd_del_prog_same k d xs : kd k (del_prog d k) xs = kset_prog (kd k d xs) None.
Proof. unfold kd, kset_prog; simpl. apply ks_eq; auto. now rewrite upd_eq. Qed.
Lemma kd_set_prog_same k d xs o : kd k (set_prog d (upd (d_prog d) k o)) xs = kset_prog (kd k d xs) o.
Proof. unfold kd, kset_prog; simpl. apply ks_eq; auto. now rewrite upd_eq. Qed.
Lemma kd_set_prog_other k k' d xs o : k' <> k -> kd k (set_prog d (upd (d_prog d) k' o)) xs = kd k d xs.
Proof. intros H; unfold kd; simpl. apply ks_eq; auto. rewrite upd_neq; auto. Qed.
Lemma kd_del_prog_other k k' d xs : k' <> k -> kd k (del_prog d k') xs = kd k d xs.
Proof. apply kd_set_prog_other. Qed.
Lemma kd_set_parked_same k d xs o : kd k (set_parked d (upd (d_parked d) k o)) xs = kset_parked (kd k d xs) o.
Proof. unfold kd, kset_parked; simpl. apply ks_eq; auto. now rewrite upd_eq. Qed.
Lemma kd_set_parked_other k k' d xs o : k' <> k -> kd k (set_parked d (upd (d_parked d) k' o)) xs = kd k d xs.
Proof. intros H; unfold kd; simpl. apply ks_eq; auto. rewrite upd_neq; auto. Qed.

Lemma zscore_zins k k' s z : ~ In k' (map snd z) -> zscore k (zins s k' z) = if String.eqb k' k then Some s else zscore k z.
Proof.
  unfold zscore. induction z as [|p t IH]; simpl; intros H.
  - destruct (String.eqb_spec k' k); reflexivity.
  - destruct (zlt (s, k') p); simpl.
    + destruct (String.eqb_spec k' k) as [->|E]; simpl; [reflexivity|].
      destruct (String.eqb_spec (snd p) k); reflexivity.
    + destruct (String.eqb_spec (snd p) k) as [E|E]; simpl.
      * destruct (String.eqb_spec k' k); [exfalso; apply H; left; congruence|reflexivity].
      * apply IH. tauto.
Qed.

Lemma zscore_zrem k k' z : zscore k (zrem k' z) = if String.eqb k' k then None else zscore k z.
Proof.
  unfold zscore, zrem. induction z as [|p t IH]; simpl.
  - destruct (String.eqb k' k); reflexivity.
  - destruct (String.eqb_spec (snd p) k') as [E|E]; simpl.
    + rewrite IH. destruct (String.eqb_spec k' k) as [E'|E']; [reflexivity|].
      destruct (String.eqb_spec (snd p) k); [congruence|reflexivity].
    + destruct (String.eqb_spec (snd p) k) as [E'|E']; simpl; [|exact IH].
      destruct (String.eqb_spec k' k); [congruence|reflexivity].
Qed.

Lemma zscore_zadd k k' s z : zscore k (zadd s k' z) = if String.eqb k' k then Some s else zscore k z.
Proof.
  unfold zadd. rewrite zscore_zins by apply zrem_notin. rewrite zscore_zrem. destruct (String.eqb k' k); reflexivity.
Qed.

Lemma zscore_remrange k lo hi z : znodup z ->
  zscore k (zremrangebyscore lo hi z) =
  match zscore k z with Some s => if (lo <=? s) && (s <=? hi) then None else Some s | None => None end.
Proof.
  unfold znodup, zscore, zremrangebyscore, zwithin. induction z as [|p t IH]; simpl; intros H; [reflexivity|].
  inversion H as [|? ? H1 H2]; subst. specialize (IH H2).
  destruct ((lo <=? fst p) && (fst p <=? hi)) eqn:W; simpl; destruct (String.eqb_spec (snd p) k) as [E|E]; simpl.
  - rewrite W. fold (zscore k t) in *. fold (zscore k (filter (fun p => negb ((lo <=? fst p) && (fst p <=? hi))) t)).
    apply zscore_None. intros Hin. apply H1. rewrite E.
    apply in_map_iff in Hin as (q & E1 & Hq). apply filter_In in Hq as [Hq _]. rewrite <- E1. now apply in_map.
  - apply IH.
  - rewrite W. reflexivity.
  - apply IH.
Qed.

Lemma kd_unpark_same k d xs : kd k (unpark_future d k) xs = kset_score (kset_parked (kd k d xs) None) None.
Proof.
  unfold kd, kset_score, kset_parked; simpl. apply ks_eq; auto; [now rewrite upd_eq|].
  rewrite zscore_zrem, String.eqb_refl. reflexivity.
Qed.
Lemma kd_unpark_other k k' d xs : k' <> k -> kd k (unpark_future d k') xs = kd k d xs.
Proof.
  intros H; unfold kd; simpl. apply ks_eq; auto; [rewrite upd_neq; auto|].
  rewrite zscore_zrem, eqb_neq_string; auto.
Qed.
Lemma kd_park_same k d xs w m : kd k (park_future d k w m) xs = kset_score (kset_parked (kd k d xs) (Some m)) (Some w).
Proof.
  unfold kd, kset_score, kset_parked; simpl. apply ks_eq; auto; [now rewrite upd_eq|].
  rewrite zscore_zadd, String.eqb_refl. reflexivity.
Qed.
Lemma kd_park_other k k' d xs w m : k' <> k -> kd k (park_future d k' w m) xs = kd k d xs.
Proof.
  intros H; unfold kd; simpl. apply ks_eq; auto; [rewrite upd_neq; auto|].
  rewrite zscore_zadd, eqb_neq_string; auto.
Qed.
Lemma kd_del_waiter k d xs c i : kd k (del_waiter c i d) xs = kdel_waiter c i (kd k d xs).
Proof. unfold kd, kdel_waiter, kset_wait; simpl. apply ks_eq; auto. apply filter_comm. Qed.

Lemma kdel_waiter_absent c i v : (forall c' m, ~ In (c', (i, m)) (k_wait v)) -> kdel_waiter c i v = v.
Proof.
  intros H. unfold kdel_waiter, kset_wait. destruct v as [a b c0 d e f g h j]; simpl in *. apply ks_eq; auto.
  apply filter_all. intros [c' [i' m]] Hin; simpl.
  destruct (Z.eqb_spec i' i) as [->|]; [exfalso; eapply H; eauto|]. now rewrite andb_false_r.
Qed.

Lemma kd_del_waiter_other k k' d xs c i : k' <> k ->
  (forall m, In (i, m) (wids d) -> m_key m = k') -> kd k (del_waiter c i d) xs = kd k d xs.
Proof.
  intros Hk H. rewrite kd_del_waiter. apply kdel_waiter_absent. simpl. intros c' m Hm.
  apply filter_In in Hm as [Hm1 Hm2]. unfold whas_key, has_key in Hm2; simpl in Hm2. apply String.eqb_eq in Hm2.
  assert (In (i, m) (wids d)) as Hw by (change (i, m) with (snd (c', (i, m))); now apply in_map).
  apply H in Hw. congruence.
Qed.

Lemma kd_del_waiter_own k k' d xs c i : k' <> k -> own_place d k' c i = true -> kd k (del_waiter c i d) xs = kd k d xs.
Proof.
  intros Hk H. rewrite kd_del_waiter. unfold kdel_waiter, kset_wait. apply ks_eq; try reflexivity. cbn [k_wait kd].
  apply filter_all. intros [c' [i' m]] Hin. apply filter_In in Hin as [Hin Hm]. unfold whas_key, has_key in Hm. cbn in Hm. apply String.eqb_eq in Hm.
  unfold own_place in H. rewrite forallb_forall in H. apply H in Hin. cbn in Hin |- *. apply orb_prop in Hin as [Hin|Hin]; [exact Hin|].
  apply String.eqb_eq in Hin. congruence.
Qed.

Lemma kd_wait_add_same k d xs c m : m_key m = k ->
  kd k (set_next (set_wait d (d_wait d ++ [(c, (d_next d, m))])) (d_next d + 1)) xs =
  kset_next (kset_wait (kd k d xs) (k_wait (kd k d xs) ++ [(c, (d_next d, m))])) (d_next d + 1).
Proof.
  intros Hk. unfold kd, kset_next, kset_wait; simpl. apply ks_eq; auto.
  rewrite filter_app'; simpl. unfold whas_key at 2, has_key; simpl. now rewrite Hk, String.eqb_refl.
Qed.
Lemma kd_wait_add_other k d xs c m : m_key m <> k ->
  kd k (set_next (set_wait d (d_wait d ++ [(c, (d_next d, m))])) (d_next d + 1)) xs =
  kset_next (kd k d xs) (d_next d + 1).
Proof.
  intros Hk. unfold kd, kset_next; simpl. apply ks_eq; auto.
  rewrite filter_app'; simpl. unfold whas_key at 2, has_key; simpl. rewrite (eqb_neq_string _ _ Hk). apply app_nil_r.
Qed.

(** ** Scripts *)

Lemma kr_kd k d xs : kr (kd k d xs) = rget d k. Proof. reflexivity. Qed.

Lemma kd_place_same k d xs w imm clr m : m_key m = k ->
  kd k (place d k w imm clr m) xs = kplace (kd k d xs) w imm clr m.
Proof.
  intros Hk. unfold place, kplace, hincr_gen. rewrite kr_kd. cbv zeta.
  set (g := default 0 (r_gen (rget d k)) + 1). rewrite <- kd_hset_same.
  destruct imm.
  - unfold xadd. set (d1 := hset d k (rset_gen g)).
    rewrite kd_hset_same. change (k_next (kd k d1 xs)) with (d_next d1). f_equal.
    apply kd_xadd_same. exact Hk.
  - destruct clr; rewrite ?kd_hdel_same, kd_hset_same, kd_park_same; reflexivity.
Qed.

Lemma kset_next_self v : kset_next v (k_next v) = v. Proof. destruct v; reflexivity. Qed.
Lemma kset_last_self v : kset_last v (k_last v) = v. Proof. destruct v; reflexivity. Qed.

Lemma kd_place_other k k' d xs w imm clr m : m_key m = k' -> k' <> k ->
  kd k (place d k' w imm clr m) xs = kset_next (kd k d xs) (d_next (place d k' w imm clr m)).
Proof.
  intros Hm Hk. unfold place, hincr_gen. cbv zeta. set (g := default 0 (r_gen (rget d k')) + 1).
  destruct imm.
  - unfold xadd. set (d1 := hset d k' (rset_gen g)). rewrite kd_hset_other by auto.
    rewrite (kd_xadd_other k d1 xs) by (simpl; congruence). unfold d1.
    rewrite kd_hset_other by auto. reflexivity.
  - destruct clr; rewrite ?kd_hdel_other, kd_hset_other, kd_park_other, kd_hset_other by auto; reflexivity.
Qed.

Lemma existing_sid d k : DInv d ->
  match r_sid (rget d k) with Some i => Some i | None => d_lsid d k end = r_sid (rget d k).
Proof. intros H. destruct (r_sid (rget d k)); [reflexivity|]. apply (di_legacy _ H k). Qed.

Lemma kd_replace_existing_same k d xs : DInv d ->
  kd k (lua_replace_existing d k) xs = kreplace_existing (kd k d xs).
Proof.
  intros H. unfold lua_replace_existing, kreplace_existing. cbv zeta. rewrite existing_sid by auto.
  rewrite kd_legacy, kd_unpark_same, kr_kd. destruct (r_sid (rget d k)); [|reflexivity].
  now rewrite kd_xdel.
Qed.

Lemma kd_existing_other k k' d xs : DInv d -> k' <> k ->
  kd k (match r_sid (rget d k') with Some i => xdel d i | None => d end) xs = kd k d xs.
Proof.
  intros H Hk. destruct (r_sid (rget d k')) as [i|] eqn:E; [|reflexivity].
  apply (kd_xdel_other k k'); auto. apply (di_sid _ H k' i E).
Qed.

Lemma kd_replace_existing_other k k' d xs : DInv d -> k' <> k ->
  kd k (lua_replace_existing d k') xs = kd k d xs.
Proof.
  intros H Hk. unfold lua_replace_existing. cbv zeta. rewrite existing_sid by auto.
  rewrite kd_legacy, kd_unpark_other by auto. now apply kd_existing_other.
Qed.

Lemma d_next_replace_existing d k : d_next (lua_replace_existing d k) = d_next d.
Proof.
  unfold lua_replace_existing. cbv zeta. simpl.
  destruct (match r_sid (rget d k) with Some i => Some i | None => d_lsid d k end); reflexivity.
Qed.

Lemma kd_reschedule_same k d xs w imm i m : m_key m = k ->
  kd k (lua_reschedule d k w imm i m) xs = kresched (kd k d xs) i w imm m.
Proof.
  intros Hk. unfold lua_reschedule, kresched. cbv zeta.
  now rewrite kd_publish, kd_hdel_same, kd_place_same, kd_xdel, kd_xack.
Qed.

Lemma kd_reschedule_other k k' d xs w imm i m : m_key m = k' -> k' <> k ->
  (forall m, In (i, m) (d_stream d) -> m_key m = k') ->
  kd k (lua_reschedule d k' w imm i m) xs = kset_next (kd k d xs) (d_next (lua_reschedule d k' w imm i m)).
Proof.
  intros Hm Hk Hi. unfold lua_reschedule. cbv zeta.
  rewrite kd_publish, kd_hdel_other, kd_place_other by auto.
  rewrite (kd_xdel_other k k') by auto. reflexivity.
Qed.

Lemma lua_exists_kexists k d xs : DInv d -> lua_exists d k = kexists (kd k d xs).
Proof.
  intros H. unfold lua_exists, kexists. rewrite kr_kd. destruct (is_some _); [reflexivity|].
  destruct (r_state (rget d k)) as [[]|]; auto; apply (di_legacy _ H k).
Qed.

Lemma kd_schedule_same k d xs imm repl a : DInv d -> a_key a = k ->
  kd k (fst (lua_schedule d k (a_when a) imm repl None (call_msg a))) xs = ksched (kd k d xs) repl imm a.
Proof.
  intros H Hk. unfold lua_schedule, ksched. rewrite (lua_exists_kexists k d xs H).
  destruct (negb repl && kexists (kd k d xs)); [reflexivity|]. cbn [fst]. rewrite kd_publish, kd_place_same by auto.
  destruct repl; [now rewrite kd_replace_existing_same|reflexivity].
Qed.

Lemma kd_schedule_other k k' d xs imm repl a : DInv d -> a_key a = k' -> k' <> k ->
  kd k (fst (lua_schedule d k' (a_when a) imm repl None (call_msg a))) xs =
  kset_next (kd k d xs) (d_next (fst (lua_schedule d k' (a_when a) imm repl None (call_msg a)))).
Proof.
  intros H Hk Hn. unfold lua_schedule.
  destruct (negb repl && lua_exists d k'); [cbn [fst]; now rewrite <- (kset_next_self (kd k d xs))|]. cbn [fst].
  rewrite kd_publish, kd_place_other by auto.
  destruct repl; [rewrite kd_replace_existing_other by auto|]; reflexivity.
Qed.

Lemma superseded_ksuper d k xs g : superseded d k g = ksuper (kd k d xs) g. Proof. reflexivity. Qed.

Lemma kd_claim_same k d xs w t g i :
  kd k (fst (lua_claim d k w t g i)) xs = kclaim (kd k d xs) w t g i.
Proof.
  unfold lua_claim, kclaim. rewrite <- superseded_ksuper. destruct (superseded d k g); cbn [fst]; cbv zeta.
  - now rewrite kd_xdel, kd_xack.
  - now rewrite kd_publish, kd_legacy, kd_hdel_same, kd_set_prog_same, kd_hset_same.
Qed.

Lemma kd_claim_other k k' d xs w t g i : k' <> k -> (forall m, In (i, m) (d_stream d) -> m_key m = k') ->
  kd k (fst (lua_claim d k' w t g i)) xs = kd k d xs.
Proof.
  intros Hk Hi. unfold lua_claim. destruct (superseded d k' g); cbn [fst]; cbv zeta.
  - rewrite (kd_xdel_other k k'); auto.
  - rewrite kd_publish, kd_legacy, kd_hdel_other, kd_set_prog_other, kd_hset_other by auto. reflexivity.
Qed.

Lemma kd_expire_same k d xs t : kd k (expire_runs d k t) xs = khdel (kd k d xs) (rset_expire (Some (d_now d + t * 1000000))).
Proof. unfold expire_runs. now rewrite kd_hdel_same. Qed.

Lemma kd_terminal_same k d xs g s t ttl e r i :
  kd k (fst (lua_terminal d k g s t ttl e r i)) xs = kterminal (kd k d xs) g s t (d_now d) ttl e r i.
Proof.
  unfold lua_terminal, kterminal, kexpire. rewrite <- superseded_ksuper. destruct (superseded d k g); cbn [fst]; cbv zeta.
  - rewrite kd_xdel, kd_xack. change (prog_mine (publish d k s) k g) with (kprog_mine (kd k d xs) g).
    destruct (kprog_mine (kd k d xs) g); [now rewrite kd_del_prog_same, kd_publish|now rewrite kd_publish].
  - rewrite kd_xdel, kd_xack, kd_del_prog_same, kd_publish.
    destruct (0 <? ttl); [rewrite kd_expire_same|rewrite kd_del_runs_same]; rewrite kd_hset_same; reflexivity.
Qed.

Lemma kd_terminal_other k k' d xs g s t ttl e r i : k' <> k -> (forall m, In (i, m) (d_stream d) -> m_key m = k') ->
  kd k (fst (lua_terminal d k' g s t ttl e r i)) xs = kd k d xs.
Proof.
  intros Hk Hi. unfold lua_terminal. destruct (superseded d k' g); cbn [fst]; cbv zeta.
  - rewrite (kd_xdel_other k k'), kd_xack; auto.
    + destruct (prog_mine _ k' g); [rewrite kd_del_prog_other by auto|]; apply kd_publish.
    + intros m Hm. apply Hi. destruct (prog_mine _ k' g); exact Hm.
  - rewrite (kd_xdel_other k k'), kd_xack, kd_del_prog_other, kd_publish; auto.
    + destruct (0 <? ttl); unfold expire_runs; rewrite ?kd_hdel_other, ?kd_del_runs_other, kd_hset_other; auto.
    + intros m Hm. apply Hi. destruct (0 <? ttl); exact Hm.
Qed.

Lemma kd_cancel_same k d xs t : DInv d -> kd k (lua_cancel d k t) xs = kcancel (kd k d xs) t.
Proof.
  intros H. unfold lua_cancel, kcancel. cbv zeta. rewrite existing_sid by auto.
  set (d1 := hdel _ _ _).
  assert (E : kd k d1 xs = khdel (kset_prog (kreplace_existing (kd k d xs)) None) rdel_known).
  { unfold d1. rewrite kd_hdel_same, kd_del_prog_same, kd_legacy, kd_unpark_same. unfold kreplace_existing. rewrite kr_kd.
    destruct (r_sid (rget d k)); [|reflexivity]. now rewrite kd_xdel. }
  rewrite <- E, kr_kd. destruct (r_state (rget d1 k)) as [[]|]; try reflexivity; apply kd_hset_same.
Qed.

Lemma kd_cancel_other k k' d xs t : DInv d -> k' <> k -> kd k (lua_cancel d k' t) xs = kd k d xs.
Proof.
  intros H Hk. unfold lua_cancel. cbv zeta. rewrite existing_sid by auto.
  set (d1 := hdel _ _ _).
  assert (E : kd k d1 xs = kd k d xs).
  { unfold d1. rewrite kd_hdel_other, kd_del_prog_other, kd_legacy, kd_unpark_other by auto. now apply kd_existing_other. }
  destruct (r_state (rget d1 k')) as [[]|]; auto; rewrite kd_hset_other; auto.
Qed.

Lemma kd_stream_one_same k d xs : DInv d -> kd k (stream_one d k) xs = kmove (kd k d xs).
Proof.
  intros H. unfold stream_one, kmove. simpl k_parked. destruct (d_parked d k) as [m|] eqn:P; [|reflexivity].
  pose proof (di_parked _ H k m P) as Hm. unfold xadd. rewrite kd_publish, Hm, kd_hset_same, kd_set_parked_same.
  f_equal. f_equal. now rewrite <- kd_xadd_same.
Qed.

Lemma kd_stream_one_other k k' d xs : DInv d -> k' <> k ->
  kd k (stream_one d k') xs = kset_next (kd k d xs) (d_next (stream_one d k')).
Proof.
  intros H Hk. unfold stream_one. destruct (d_parked d k') as [m|] eqn:P; [|now rewrite <- (kset_next_self (kd k d xs))].
  pose proof (di_parked _ H k' m P) as Hm. unfold xadd. rewrite kd_publish, kd_hset_other, kd_set_parked_other by congruence.
  rewrite (kd_xadd_other k d xs) by congruence. reflexivity.
Qed.

Lemma kd_park_wait_same k d xs c i m : m_key m = k ->
  kd k (lua_park d c k i m) xs = kpark (kd k d xs) c i m.
Proof.
  intros Hk. unfold lua_park, kpark, hincr_gen. cbv zeta.
  rewrite kd_publish, kd_hdel_same, kd_hset_same. rewrite kd_wait_add_same by (simpl; auto).
  rewrite kd_hset_same, kd_xdel, kd_xack. reflexivity.
Qed.

Lemma kd_park_wait_other k k' d xs c i m : m_key m = k' -> k' <> k -> (forall m, In (i, m) (d_stream d) -> m_key m = k') ->
  kd k (lua_park d c k' i m) xs = kset_next (kd k d xs) (d_next (lua_park d c k' i m)).
Proof.
  intros Hm Hk Hi. unfold lua_park, hincr_gen. cbv zeta.
  rewrite kd_publish, kd_hdel_other, kd_hset_other by auto. rewrite kd_wait_add_other by (simpl; congruence).
  rewrite kd_hset_other, (kd_xdel_other k k'), kd_xack by auto. reflexivity.
Qed.

Lemma kd_drop_safeguard_same k d xs : kd (safeguard_key k) (drop_safeguard d k) xs =
  kset_runs (kset_score (kset_parked (kd (safeguard_key k) d xs) None) None) None.
Proof. unfold drop_safeguard. now rewrite kd_del_runs_same, kd_unpark_same. Qed.
Lemma kd_drop_safeguard_other k k' d xs : safeguard_key k' <> k -> kd k (drop_safeguard d k') xs = kd k d xs.
Proof. intros H. unfold drop_safeguard. now rewrite kd_del_runs_other, kd_unpark_other. Qed.

Lemma kd_delete_known_same k d xs : kd k (delete_known d k) xs = khdel (kd k d xs) rdel_known.
Proof. unfold delete_known. now rewrite kd_legacy, kd_hdel_same. Qed.
Lemma kd_delete_known_other k k' d xs : k' <> k -> kd k (delete_known d k') xs = kd k d xs.
Proof. intros H. unfold delete_known. now rewrite kd_legacy, kd_hdel_other. Qed.

(** ** Paths *)

Section Sim.
Variable c : cfg.
Variable k : key.

(** Operations that act on a key through at most one event. *)
Definition single (o : op) : bool :=
  match o with ORelease _ _ | OScavenge _ _ _ | OClearApply _ | OScheduler _ => false | _ => true end.

Definition sim (o : op) (v v' : ks) : Prop :=
  exists es, kpath c k v es v' /\ Forall (label k o) es /\
    (single o = true -> es = [] \/ exists e, es = [e]).

Lemma sim_refl o v : sim o v v.
Proof. exists []; repeat split; [constructor|constructor|auto]. Qed.

Lemma sim_trans o v1 v2 v3 : single o = false -> sim o v1 v2 -> sim o v2 v3 -> sim o v1 v3.
Proof.
  intros So (e1 & P1 & L1 & _) (e2 & P2 & L2 & _). exists (e1 ++ e2); repeat split; [eapply kpath_app; eauto|apply Forall_app; auto|congruence].
Qed.

Lemma sim_one o v e v' : kok k v e -> label k o e -> v' = kapply c v e -> sim o v v'.
Proof. intros H1 H2 ->. exists [e]; repeat split; [now apply kpath_one|constructor; auto|eauto]. Qed.

Lemma sim_idle o v n : k_next v <= n -> k_last v < n -> sim o v (kset_next v n).
Proof.
  intros H1 H2. apply (sim_one o v (KIdle n (k_last v))); [simpl; lia|exact I|destruct v; reflexivity].
Qed.

Lemma kd_good_bounds d xs : DInv d -> k_last (kd k d xs) < k_next (kd k d xs).
Proof. intros H. apply (di_last _ H). Qed.

Lemma sim_next o d d' xs : DInv d -> good d d' -> kd k d' xs = kset_next (kd k d xs) (d_next d') -> sim o (kd k d xs) (kd k d' xs).
Proof.
  intros H G E. destruct (G H) as [_ X]. rewrite E. apply sim_idle; simpl; [apply (ex_next _ _ X)|].
  pose proof (di_last _ H). pose proof (ex_next _ _ X). lia.
Qed.

Lemma sim_same o d d' xs : kd k d' xs = kd k d xs -> sim o (kd k d xs) (kd k d' xs).
Proof. intros ->; apply sim_refl. Qed.

Lemma sim_eq o v v' : v' = v -> sim o v v'.
Proof. intros ->; apply sim_refl. Qed.

(** Scheduler *)
Lemma kd_stream_ones ks d xs : ~ In k ks -> DInv d ->
  kd k (fold_left stream_one ks d) xs = kset_next (kd k d xs) (d_next (fold_left stream_one ks d)).
Proof.
  revert d; induction ks as [|k' ks IH]; simpl; intros d Hn H; [now rewrite <- (kset_next_self (kd k d xs))|].
  rewrite IH; [|tauto|apply (good_stream_one d k' H)]. rewrite kd_stream_one_other by (auto; tauto). reflexivity.
Qed.

Lemma queue_stream_one d k' : d_queue (stream_one d k') = d_queue d.
Proof. unfold stream_one. destruct (d_parked d k'); reflexivity. Qed.

Lemma queue_stream_ones ks d : d_queue (fold_left stream_one ks d) = d_queue d.
Proof. revert d; induction ks as [|k' ks IH]; simpl; intros d; [reflexivity|]. now rewrite IH, queue_stream_one. Qed.

Lemma good_stream_ones ks d : good d (fold_left stream_one ks d).
Proof. apply good_fold; intros; apply good_stream_one. Qed.

Lemma kmove_parked v : k_parked (kmove v) = None.
Proof. unfold kmove. destruct (k_parked v) eqn:E; [reflexivity|exact E]. Qed.

Lemma sim_stream_due d xs t : DInv d ->
  sim (OScheduler t) (kd k d xs) (kd k (fst (lua_stream_due d t)) xs).
Proof.
  intros H. unfold lua_stream_due. cbv zeta. cbn [fst].
  set (due := map snd (zrangebyscore 0 t (d_queue d))). set (d1 := fold_left stream_one due d).
  assert (Hd1 : DInv d1) by (apply (good_stream_ones due d H)).
  assert (Hnd : NoDup due) by (apply zrangebyscore_nodup, (di_queue _ H)).
  assert (Hq : d_queue d1 = d_queue d) by apply queue_stream_ones.
  assert (Hsc : k_score (kd k d1 xs) = zscore k (d_queue d)) by (simpl; now rewrite Hq).
  destruct (in_dec string_dec k due) as [Hin|Hin].
  - assert (Hs : exists w, zscore k (d_queue d) = Some w /\ 0 <= w <= t).
    { apply in_map_iff in Hin as ([w k'] & E & Hp). simpl in E; subst k'.
      apply zrangebyscore_In in Hp as [Hp1 Hp2]. exists w; split; [|exact Hp2]. apply zscore_In; auto. apply (di_queue _ H). }
    destruct Hs as (w & Hw & Hwt).
    assert (P : sim (OScheduler t) (kd k d xs) (kd k d1 xs) /\ k_parked (kd k d1 xs) = None).
    { apply in_split in Hin as (l1 & l2 & El).
      assert (N1 : ~ In k l1 /\ ~ In k l2).
      { rewrite El in Hnd. apply NoDup_remove_2 in Hnd. rewrite in_app_iff in Hnd. tauto. }
      unfold d1. rewrite El, fold_left_app. cbn [fold_left].
      set (da := fold_left stream_one l1 d).
      assert (Ha : DInv da) by (apply (good_stream_ones l1 d H)).
      assert (Hb : DInv (stream_one da k)) by (apply (good_stream_one da k Ha)).
      split.
      - eapply sim_trans; [reflexivity|apply (sim_next _ d da xs H); [apply good_stream_ones|apply kd_stream_ones; tauto]|].
        eapply sim_trans; [reflexivity| |].
        + apply (sim_one _ _ (KMove t)); [|reflexivity|reflexivity]. simpl. exists w; split; [|exact Hwt].
          unfold da; rewrite queue_stream_ones; exact Hw.
        + simpl. rewrite <- kd_stream_one_same by auto.
          apply sim_next; [exact Hb|apply good_stream_ones|apply kd_stream_ones; tauto].
      - rewrite kd_stream_ones by tauto. cbn [k_parked kset_next]. rewrite kd_stream_one_same by auto. apply kmove_parked. }
    destruct P as [P1 P2]. destruct (0 <? _); [|exact P1].
    eapply sim_trans; [reflexivity|exact P1|].
    apply (sim_one _ _ KDropScore); [exact P2|eexists; reflexivity|].
    unfold kd, kset_score; simpl. apply ks_eq; auto.
    rewrite zscore_remrange by (rewrite Hq; apply (di_queue _ H)). rewrite Hq, Hw.
    replace ((0 <=? w) && (w <=? t)) with true by lia. reflexivity.
  - assert (P1 : sim (OScheduler t) (kd k d xs) (kd k d1 xs)).
    { apply sim_next; [exact H|apply good_stream_ones|apply kd_stream_ones; auto]. }
    destruct (0 <? _); [|exact P1].
    eapply sim_trans; [reflexivity|exact P1|]. apply sim_same. unfold kd; simpl. apply ks_eq; auto.
    rewrite zscore_remrange by (rewrite Hq; apply (di_queue _ H)). rewrite Hq.
    destruct (zscore k (d_queue d)) as [w|] eqn:Ew; [|reflexivity].
    destruct ((0 <=? w) && (w <=? t)) eqn:Et; [|reflexivity]. exfalso; apply Hin.
    apply zscore_Some_In in Ew. apply in_map_iff. exists (w, k); split; [reflexivity|].
    apply zrangebyscore_In; split; [exact Ew|simpl; lia].
Qed.

(** Wake loop *)
Lemma safeguard_neq (a : key) : safeguard_key a <> a.
Proof.
  unfold safeguard_key. intros E. apply (f_equal String.length) in E.
  simpl in E. lia.
Qed.

Lemma wake_one_other d xs cc e : DInv d -> In (cc, e) (d_wait d) ->
  m_key (snd e) <> k -> safeguard_key (m_key (snd e)) <> k ->
  kd k (wake_one cc d e) xs = kset_next (kd k d xs) (d_next (wake_one cc d e)).
Proof.
  destruct e as [wid m]; cbn [fst snd]. intros H Hin Hk Hs.
  assert (Hw : forall m', In (wid, m') (wids d) -> m_key m' = m_key m).
  { intros m' Hm'. assert (X : (wid, m') = (wid, m)).
    { eapply ids_sorted_inj; [apply (di_wsorted _ H)|exact Hm'| |reflexivity].
      change (wid, m) with (snd (cc, (wid, m))). now apply in_map. }
    congruence. }
  unfold wake_one; cbv zeta.
  assert (E0 : kd k (drop_safeguard (del_waiter cc wid d) (m_key m)) xs = kd k d xs).
  { rewrite kd_drop_safeguard_other by auto. apply (kd_del_waiter_other k (m_key m)); auto. }
  destruct (r_state (rget d (m_key m))) as [[]|]; try (rewrite E0; now rewrite <- (kset_next_self (kd k d xs))).
  unfold hincr_gen, xadd. cbv beta iota zeta. rewrite kd_publish, kd_drop_safeguard_other, kd_hset_other by auto.
  rewrite (kd_del_waiter_other k (m_key m)) by auto.
  rewrite kd_xadd_other by auto. rewrite kd_hset_other by auto. reflexivity.
Qed.

Lemma wake_one_same d xs cc e : DInv d -> m_key (snd e) = k ->
  kd k (wake_one cc d e) xs = kwake (kd k d xs) cc (fst e) (snd e).
Proof.
  destruct e as [wid m]; cbn [fst snd]. intros H Hk. unfold wake_one, kwake; cbv zeta. rewrite !kr_kd, !Hk.
  assert (E0 : kd k (drop_safeguard (del_waiter cc wid d) k) xs = kdel_waiter cc wid (kd k d xs)).
  { rewrite kd_drop_safeguard_other by apply safeguard_neq. apply kd_del_waiter. }
  destruct (r_state (rget d k)) as [[]|]; auto.
  unfold hincr_gen, xadd. cbv beta iota zeta. cbv zeta. rewrite kd_publish, kd_drop_safeguard_other by apply safeguard_neq.
  rewrite kd_hset_same, kd_del_waiter. rewrite kd_xadd_same by exact Hk. rewrite kd_hset_same. reflexivity.
Qed.

Lemma wake_one_safeguard d xs cc e : DInv d -> In (cc, e) (d_wait d) -> safeguard_key (m_key (snd e)) = k ->
  kd k (wake_one cc d e) xs =
  kset_next (kset_runs (kset_score (kset_parked (kd k d xs) None) None) None) (d_next (wake_one cc d e)).
Proof.
  destruct e as [wid m]; cbn [fst snd]. intros H Hin Hs.
  assert (Hk : m_key m <> k) by (rewrite <- Hs; apply not_eq_sym, safeguard_neq).
  assert (Hw : forall m', In (wid, m') (wids d) -> m_key m' = m_key m).
  { intros m' Hm'. assert (X : (wid, m') = (wid, m)).
    { eapply ids_sorted_inj; [apply (di_wsorted _ H)|exact Hm'| |reflexivity].
      change (wid, m) with (snd (cc, (wid, m))). now apply in_map. }
    congruence. }
  unfold wake_one; cbv zeta.
  assert (E0 : kd k (drop_safeguard (del_waiter cc wid d) (m_key m)) xs =
               kset_runs (kset_score (kset_parked (kd k d xs) None) None) None).
  { rewrite <- Hs, kd_drop_safeguard_same, Hs. now rewrite (kd_del_waiter_other k (m_key m)) by auto. }
  destruct (r_state (rget d (m_key m))) as [[]|]; try (rewrite E0; reflexivity).
  unfold hincr_gen, xadd. cbv beta iota zeta. rewrite kd_publish. rewrite <- Hs at 1. rewrite kd_drop_safeguard_same, Hs.
  rewrite kd_hset_other by auto. rewrite (kd_del_waiter_other k (m_key m)) by auto.
  rewrite kd_xadd_other by auto. rewrite kd_hset_other by auto. reflexivity.
Qed.

Lemma wake_one_keeps d cc e e' : In e' (d_wait d) -> fst (snd e') <> fst e -> In e' (d_wait (wake_one cc d e)).
Proof.
  destruct e as [wid m]. simpl. intros Hin Hne.
  assert (X : In e' (filter (fun e => negb (String.eqb (fst e) cc && (fst (snd e) =? wid))) (d_wait d))).
  { apply filter_In; split; [exact Hin|]. apply negb_true_iff, andb_false_iff. right; now apply Z.eqb_neq. }
  destruct (r_state (rget d (m_key m))) as [[]|]; exact X.
Qed.

Definition wake_op (o : op) : Prop := match o with ORelease _ _ | OScavenge _ _ _ => True | _ => False end.
Definition wake_label (o : op) (cc : string) : Prop :=
  (exists h t, o = ORelease h t) \/ (exists mx t, o = OScavenge cc mx t).

Lemma wake_single o cc : wake_label o cc -> single o = false.
Proof. intros [(h & t & ->)|(mx & t & ->)]; reflexivity. Qed.

Lemma sim_wake_one o d xs cc e : wake_label o cc -> DInv d -> In (cc, e) (d_wait d) ->
  sim o (kd k d xs) (kd k (wake_one cc d e) xs).
Proof.
  intros Ho H Hin.
  destruct (string_dec (m_key (snd e)) k) as [E1|E1].
  - apply (sim_one _ _ (KWake cc (fst e) (snd e))).
    + simpl. apply filter_In; split; [now rewrite <- surjective_pairing|].
      unfold whas_key, has_key; simpl. rewrite E1. apply String.eqb_refl.
    + exact Ho.
    + rewrite wake_one_same; auto.
  - destruct (string_dec (safeguard_key (m_key (snd e))) k) as [E2|E2].
    + assert (X : ext d (wake_one cc d e)) by (apply (good_wake_one cc d e H)).
      rewrite wake_one_safeguard by auto.
      assert (L1 : label k o KUnpark) by (destruct Ho as [(h & t & ->)|(mx & t & ->)]; simpl; eexists; symmetry; exact E2).
      eapply sim_trans; [exact (wake_single _ _ Ho)|apply (sim_one _ _ KUnpark); [exact I|exact L1|reflexivity]|].
      apply sim_idle; simpl; [apply (ex_next _ _ X)|].
      pose proof (di_last _ H). pose proof (ex_next _ _ X). lia.
    + apply sim_next; [exact H|apply good_wake_one|apply wake_one_other; auto].
Qed.

Lemma sim_wake_fold o cc xs l : forall d, wake_label o cc -> DInv d -> ids_sorted l ->
  (forall e, In e l -> In (cc, e) (d_wait d)) ->
  sim o (kd k d xs) (kd k (fold_left (wake_one cc) l d) xs).
Proof.
  induction l as [|e l IH]; simpl; intros d Ho H Hs Hin; [apply sim_refl|].
  destruct Hs as [Hs1 Hs2]. eapply sim_trans; [exact (wake_single _ _ Ho)|apply (sim_wake_one o d xs cc e); auto|].
  apply IH; auto; [apply (good_wake_one cc d e H)|].
  intros e' He'. apply wake_one_keeps; auto. specialize (Hs1 _ He'). simpl. lia.
Qed.

Lemma waiters_In d cc e : In e (waiters d cc) <-> In (cc, e) (d_wait d).
Proof.
  unfold waiters. rewrite in_map_iff. split.
  - intros ([c' e'] & E & Hf). apply filter_In in Hf as [Hf1 Hf2]. simpl in *. apply String.eqb_eq in Hf2. congruence.
  - intros Hin. exists (cc, e); split; [reflexivity|]. apply filter_In; split; [exact Hin|]. simpl. apply String.eqb_refl.
Qed.

Lemma firstn_In {A} n (l : list A) x : In x (firstn n l) -> In x l.
Proof. revert l; induction n as [|n IH]; intros [|a l]; simpl; try tauto. intros [->|Hx]; auto. Qed.

Lemma ids_sorted_firstn n l : ids_sorted l -> ids_sorted (firstn n l).
Proof.
  revert l; induction n as [|n IH]; intros [|e l]; simpl; try tauto. intros [H1 H2]; split; auto.
  intros e' He'; apply firstn_In in He'; auto.
Qed.

Lemma waiters_sorted d cc : DInv d -> ids_sorted (waiters d cc).
Proof. intros H. apply ids_sorted_map_filter, (di_wsorted _ H). Qed.

Lemma sim_wake o d xs cc cap : wake_label o cc -> DInv d ->
  sim o (kd k d xs) (kd k (wake d cc cap) xs).
Proof.
  intros Ho H. unfold wake. destruct (0 <? cap); [|apply sim_refl].
  apply sim_wake_fold; auto; [apply ids_sorted_firstn, waiters_sorted, H|].
  intros e He. apply waiters_In. eapply firstn_In; eauto.
Qed.

Lemma sim_release h t d xs cc k' mx st : DInv d ->
  sim (ORelease h t) (kd k d xs) (kd k (lua_release d cc k' mx st) xs).
Proof.
  intros H. unfold lua_release. cbv zeta.
  set (d1 := set_slots d _).
  assert (H1 : DInv d1) by (apply (good_slots d _ H)).
  change (kd k d xs) with (kd k d1 xs).
  set (d2 := match waiters d1 cc with [] => d1 | _ :: _ => evict_stale d1 cc st end).
  assert (H2 : DInv d2) by (unfold d2; destruct (waiters d1 cc); [exact H1|apply (good_slots d1 _ H1)]).
  assert (E : kd k d1 xs = kd k d2 xs) by (unfold d2; destruct (waiters d1 cc); reflexivity).
  rewrite E. apply sim_wake; auto. left; eauto.
Qed.

Lemma sim_scavenge t d xs cc mx st : DInv d ->
  sim (OScavenge cc mx t) (kd k d xs) (kd k (lua_scavenge d cc mx st) xs).
Proof.
  intros H. unfold lua_scavenge. destruct (waiters d cc); [apply sim_refl|]. cbv zeta.
  change (kd k d xs) with (kd k (evict_stale d cc st) xs). apply sim_wake; [right; eauto|].
  apply (good_slots d _ H).
Qed.

(** Clear *)
Lemma sim_clear_run wc d xs ttl k' : sim (OClearApply wc) (kd k d xs) (kd k (clear_run ttl d k') xs).
Proof.
  unfold clear_run. destruct (string_dec k' k) as [->|E].
  - destruct (0 <? ttl).
    + apply (sim_one _ _ (KSetExpire (d_now d + ttl * 1000000))); [exact I|exact I|apply kd_expire_same].
    + apply (sim_one _ _ KForget); [exact I|exact I|apply kd_del_runs_same].
  - apply sim_same. destruct (0 <? ttl); [apply kd_hdel_other|apply kd_del_runs_other]; auto.
Qed.

Lemma sim_clear_scheduled wc d xs ttl k' : sim (OClearApply wc) (kd k d xs) (kd k (clear_scheduled ttl d k') xs).
Proof.
  unfold clear_scheduled. eapply sim_trans; [reflexivity| |apply sim_clear_run]. rewrite kd_legacy.
  destruct (string_dec k' k) as [->|E].
  - apply (sim_one _ _ KDropParked); [exact I|exists wc; reflexivity|apply kd_set_parked_same].
  - apply sim_same, kd_set_parked_other, E.
Qed.

Lemma sim_fold {A} o (f : db -> A -> db) l xs : single o = false ->
  (forall d a, sim o (kd k d xs) (kd k (f d a) xs)) ->
  forall d, sim o (kd k d xs) (kd k (fold_left f l d) xs).
Proof.
  intros So H. induction l as [|a l IH]; simpl; intros d; [apply sim_refl|].
  eapply sim_trans; [exact So|apply H|apply IH].
Qed.

Lemma sim_clear_apply wc d xs ttl sn : sim (OClearApply wc) (kd k d xs) (kd k (fst (clear_apply ttl d sn)) xs).
Proof.
  unfold clear_apply; cbv zeta; cbn [fst].
  eapply sim_trans; [reflexivity| |apply (sim_fold (OClearApply wc) (clear_run ttl)); [reflexivity|]; intros; apply sim_clear_run].
  eapply sim_trans; [reflexivity| |apply (sim_fold (OClearApply wc) (clear_scheduled ttl)); [reflexivity|]; intros; apply sim_clear_scheduled].
  set (d1 := if 0 <? cs_count sn then set_stream d [] else d).
  apply (sim_trans _ _ (kd k d1 xs)); [reflexivity| |apply (sim_one _ _ KDropQueue); [exact I|exists wc; reflexivity|reflexivity]].
  unfold d1.
  destruct (0 <? cs_count sn); [|apply sim_refl].
  apply (sim_one _ _ KDropStream); [exact I|exists wc; reflexivity|]. reflexivity.
Qed.

(** ** Executions *)

Lemma filter_upd_exec xs h f : (forall x, x_msg (f x) = x_msg x) ->
  filter (xhas_key k) (upd_exec xs h f) = upd_exec (filter (xhas_key k) xs) h f.
Proof.
  intros Hf. induction xs as [|x xs IH]; simpl; [reflexivity|].
  assert (E : xhas_key k (if x_id x =? h then f x else x) = xhas_key k x).
  { destruct (x_id x =? h); [|reflexivity]. unfold xhas_key. now rewrite Hf. }
  rewrite E. destruct (xhas_key k x); simpl; rewrite IH; reflexivity.
Qed.

Lemma upd_exec_absent xs h f : (forall x, In x xs -> x_id x <> h) -> upd_exec xs h f = xs.
Proof.
  intros H. unfold upd_exec. rewrite <- (map_id xs) at 2. apply map_ext_in.
  intros x Hx. specialize (H x Hx). destruct (Z.eqb_spec (x_id x) h); [contradiction|reflexivity].
Qed.

Lemma execs_inj s x y : XInv s -> In x (s_execs s) -> In y (s_execs s) -> x_id x = x_id y -> x = y.
Proof.
  intros [_ _ N _]. generalize dependent (s_execs s). intros l N. induction l as [|a l IH]; simpl; [tauto|].
  inversion N as [|? ? N1 N2]; subst. intros [->|Hx] [->|Hy] E; auto.
  - exfalso; apply N1. rewrite E. now apply in_map.
  - exfalso; apply N1. rewrite <- E. now apply in_map.
Qed.

Lemma upd_exec_other s h x f : XInv s -> get_exec (s_execs s) h = Some x -> m_key (x_msg x) <> k ->
  upd_exec (filter (xhas_key k) (s_execs s)) h f = filter (xhas_key k) (s_execs s).
Proof.
  intros HX G Hk. apply get_exec_spec in G as [G1 G2]. apply upd_exec_absent.
  intros y Hy E. apply filter_In in Hy as [Hy1 Hy2].
  assert (x = y) by (eapply execs_inj; eauto; congruence). subst y.
  unfold xhas_key in Hy2. apply String.eqb_eq in Hy2. contradiction.
Qed.

Lemma kd_upd_exec d xs h f : (forall x, x_msg (f x) = x_msg x) ->
  kd k d (upd_exec xs h f) = kphase (kd k d xs) h f.
Proof. intros Hf. unfold kd, kphase, kset_execs; simpl. apply ks_eq; auto. now apply filter_upd_exec. Qed.

Lemma kd_upd_exec_other s d h x f : XInv s -> get_exec (s_execs s) h = Some x -> m_key (x_msg x) <> k ->
  (forall x, x_msg (f x) = x_msg x) ->
  kd k d (upd_exec (s_execs s) h f) = kd k d (s_execs s).
Proof.
  intros HX G Hk Hf. unfold kd. apply ks_eq; auto. rewrite filter_upd_exec by auto. eapply upd_exec_other; eauto.
Qed.

Lemma in_kexecs s h x : get_exec (s_execs s) h = Some x -> m_key (x_msg x) = k -> In x (filter (xhas_key k) (s_execs s)).
Proof.
  intros G Hk. apply get_exec_spec in G as [G _]. apply filter_In; split; [exact G|].
  unfold xhas_key. rewrite Hk. apply String.eqb_refl.
Qed.

Lemma exec_entry s h x : XInv s -> get_exec (s_execs s) h = Some x ->
  forall m, In (x_mid x, m) (d_stream (s_db s)) -> m_key m = m_key (x_msg x).
Proof. intros HX G m Hm. apply get_exec_spec in G as [G _]. now rewrite (xi_msg _ HX x m G Hm). Qed.

Lemma kphase_db v f h : kphase v h f = kset_execs v (upd_exec (k_execs v) h f). Proof. reflexivity. Qed.

Theorem sim_step s o : GInv s -> sim o (kabs k s) (kabs k (fst (step c s o))).
Proof.
  intros [HD HX]. unfold kabs. destruct o; cbn [step]; cbv zeta; unfold set_db, set_execs; cbn [fst].
  - (* OTick *) destruct (0 <=? dt); cbn [fst s_db s_execs]; [|apply sim_refl].
    destruct (match d_runs (s_db s) k with Some r => expired (d_now (s_db s) + dt) (r_expire r) | None => false end) eqn:E.
    + apply (sim_one _ _ KForget); [exact I|exact I|]. unfold kd, kset_runs; simpl. apply ks_eq; auto.
      destruct (d_runs (s_db s) k); [now rewrite E|discriminate].
    + apply sim_eq. unfold kd; simpl. apply ks_eq; auto. destruct (d_runs (s_db s) k); [now rewrite E|reflexivity].
  - (* OAdd *) unfold do_schedule. destruct (lua_schedule _ _ _ _ _ _ _) as [d r] eqn:E; cbn [fst s_db s_execs].
    replace d with (fst (lua_schedule (s_db s) (a_key a) (a_when a) (a_when a <=? t) false None (call_msg a))) by now rewrite E.
    destruct (string_dec (a_key a) k) as [Hk|Hk].
    + rewrite Hk. apply (sim_one _ _ (KSched false (a_when a <=? t) a)); [exact Hk|simpl; eauto|]. now rewrite kd_schedule_same.
    + apply sim_next; [exact HD|now apply good_schedule|]. now apply kd_schedule_other.
  - (* OReplace *) unfold do_schedule. destruct (lua_schedule _ _ _ _ _ _ _) as [d r] eqn:E; cbn [fst s_db s_execs].
    replace d with (fst (lua_schedule (s_db s) (a_key a) (a_when a) (a_when a <=? t) true None (call_msg a))) by now rewrite E.
    destruct (string_dec (a_key a) k) as [Hk|Hk].
    + rewrite Hk. apply (sim_one _ _ (KSched true (a_when a <=? t) a)); [exact Hk|simpl; eauto|]. now rewrite kd_schedule_same.
    + apply sim_next; [exact HD|now apply good_schedule|]. now apply kd_schedule_other.
  - (* OCancel *) cbn [s_db s_execs]. destruct (string_dec k0 k) as [->|Hk].
    + apply (sim_one _ _ (KCancel t)); [exact I|reflexivity|]. now rewrite kd_cancel_same.
    + apply sim_eq. now apply kd_cancel_other.
  - (* OCancelFinish *) cbn [s_db s_execs]. unfold cancel_finish. destruct (string_dec k0 k) as [->|Hk].
    + destruct (0 <? c_ttl c).
      * apply (sim_one _ _ (KSetExpire (d_now (s_db s) + c_ttl c * 1000000))); [exact I|reflexivity|]. now rewrite kd_expire_same.
      * apply (sim_one _ _ KForget); [exact I|reflexivity|]. now rewrite kd_del_runs_same.
    + apply sim_eq. destruct (0 <? c_ttl c); [apply kd_hdel_other|apply kd_del_runs_other]; auto.
  - (* OClearRead *) apply sim_refl.
  - (* OClearKeys *) apply sim_refl.
  - (* OClearApply *) destruct (ready_clear s _) as [sn|]; [|apply sim_refl].
    destruct (clear_apply _ _ _) as [d n] eqn:E; cbn [fst s_db s_execs].
    replace d with (fst (clear_apply (c_ttl c) (s_db s) sn)) by now rewrite E. apply sim_clear_apply.
  - (* OScheduler *) destruct (lua_stream_due _ _) as [d [a b]] eqn:E; cbn [fst s_db s_execs].
    replace d with (fst (lua_stream_due (s_db s) t)) by now rewrite E. now apply sim_stream_due.
  - (* ORead *) unfold deliver. destruct (read_group _ _) as [d o] eqn:E.
    assert (Hd : DInv d /\ ext (s_db s) d) by (replace d with (fst (read_group (s_db s) w)) by (now rewrite E); now apply good_read).
    unfold read_group in E. destruct (next_new (s_db s)) as [[i m]|] eqn:N; [|injection E as <- <-; apply sim_refl].
    injection E as <- <-. cbn [fst s_db s_execs]. apply next_new_spec in N as [N1 N2].
    pose proof (di_next _ HD _ N1) as N3. simpl in N3. cbn [fst s_db s_execs].
    destruct (string_dec (m_key m) k) as [Hk|Hk].
    + apply (sim_one _ _ (KDeliver (mkExec (s_nextx s) w i m false PDelivered None) i)); simpl; [|reflexivity|].
      * repeat split; auto; try lia.
        -- apply filter_In; split; [exact N1|]. unfold has_key; simpl. rewrite Hk. apply String.eqb_refl.
        -- intros y Hy. apply filter_In in Hy as [Hy _]. now apply (xi_next _ HX).
      * unfold kd, kset_last, kset_execs; simpl. apply ks_eq; auto. rewrite filter_app'; simpl.
        unfold xhas_key at 2; simpl. now rewrite Hk, String.eqb_refl.
    + apply (sim_one _ _ (KIdle (d_next (s_db s)) i)); simpl; [|exact I|].
      * pose proof (di_last _ HD); lia.
      * unfold kd, kset_last, kset_next; simpl. apply ks_eq; auto. rewrite filter_app'; simpl.
        unfold xhas_key at 2; simpl. rewrite (eqb_neq_string _ _ Hk). apply app_nil_r.
  - (* OAutoclaim *) unfold deliver. destruct (autoclaim _ _ _ _) as [d o] eqn:E.
    destruct o as [[j m]|].
    + cbn [fst s_db s_execs]. assert (E' := E). apply autoclaim_spec in E' as (-> & E1 & E2 & E3).
      assert (Es : kd k d (s_execs s) = kd k (s_db s) (s_execs s) /\ d_stream d = d_stream (s_db s)).
      { revert E. unfold autoclaim. destruct (find _ (d_pel (s_db s))); [|discriminate]. destruct (claimable _ _ _); [|discriminate].
        destruct (lookup_entry i (d_stream (s_db s))); [|discriminate]. intros [= <- _]. split; reflexivity. }
      destruct Es as [Es Ez].
      pose proof (di_pel _ HD _ E2) as E4.
      destruct (string_dec (m_key m) k) as [Hk|Hk].
      * apply (sim_one _ _ (KDeliver (mkExec (s_nextx s) w i m true PDelivered None) (d_last (s_db s)))); simpl; [|reflexivity|].
        -- repeat split; auto; try lia; try discriminate.
           ++ apply filter_In; split; [now rewrite <- Ez|]. unfold has_key; simpl. rewrite Hk. apply String.eqb_refl.
           ++ apply (di_last _ HD).
           ++ intros y Hy. apply filter_In in Hy as [Hy _]. now apply (xi_next _ HX).
        -- rewrite <- Es. unfold kd, kset_last, kset_execs; simpl. apply ks_eq; auto. rewrite filter_app'; simpl.
           unfold xhas_key at 2; simpl. now rewrite Hk, String.eqb_refl.
      * rewrite <- Es. match goal with |- sim _ ?a ?b => replace b with a; [apply sim_refl|symmetry] end. unfold kd; simpl. apply ks_eq; auto. rewrite filter_app'; simpl.
        unfold xhas_key at 2; simpl. rewrite (eqb_neq_string _ _ Hk). apply app_nil_r.
    + cbn [fst s_db s_execs]. revert E. unfold autoclaim. destruct (find _ (d_pel (s_db s))); [|intros [= <-]; apply sim_refl].
      destruct (claimable _ _ _); [|intros [= <-]; apply sim_refl].
      destruct (lookup_entry i (d_stream (s_db s))); [discriminate|]. intros [= <-]. apply sim_eq. reflexivity.
  - (* ORenew *) apply sim_eq. reflexivity.
  - (* OClaim *) destruct (get_exec _ _) as [x|] eqn:G; [|apply sim_refl]. destruct (x_phase x) eqn:P; try apply sim_refl.
    set (mk := m_key (x_msg x)) in *.
    destruct (lua_claim _ _ _ _ _ _) as [d r] eqn:E.
    assert (Ed : d = fst (lua_claim (s_db s) mk (x_worker x) t (m_gen (x_msg x)) (x_mid x))) by now rewrite E.
    assert (Er : r = RSuperseded /\ superseded (s_db s) mk (m_gen (x_msg x)) = true \/
                 r = ROk /\ superseded (s_db s) mk (m_gen (x_msg x)) = false).
    { revert E. unfold lua_claim. destruct (superseded _ _ _); intros [= _ <-]; auto. }
    assert (Hh : x_id x = h) by (apply get_exec_spec in G; tauto).
    destruct (string_dec mk k) as [Hk|Hk].
    + apply (sim_one _ _ (KClaim x t)); [split; [eapply in_kexecs; eauto|exact P]|simpl; congruence|].
      cbn [kapply]. cbv zeta. rewrite <- superseded_ksuper, <- Hk. rewrite <- kd_claim_same, <- Ed.
      destruct Er as [[-> ->]|[-> ->]]; cbn [fst s_db s_execs]; rewrite Hk, Hh; apply kd_upd_exec; reflexivity.
    + apply sim_eq.
      assert (Ek : kd k d (s_execs s) = kd k (s_db s) (s_execs s)).
      { rewrite Ed. apply kd_claim_other; auto. eapply exec_entry; eauto. }
      destruct Er as [[-> _]|[-> _]]; cbn [fst s_db s_execs]; erewrite kd_upd_exec_other; eauto.
  - (* OBodyStart *) destruct (get_exec _ _) as [x|] eqn:G; [|apply sim_refl]. destruct (x_phase x) eqn:P; try apply sim_refl.
    cbn [fst s_db s_execs]. assert (Hh : x_id x = h) by (apply get_exec_spec in G; tauto).
    destruct (string_dec (m_key (x_msg x)) k) as [Hk|Hk].
    + apply (sim_one _ _ (KPhase x PBody)); [split; [eapply in_kexecs; eauto|auto]|simpl; left; split; congruence|].
      cbn [kapply]. rewrite Hh. now apply kd_upd_exec.
    + apply sim_eq. eapply kd_upd_exec_other; eauto.
  - (* OBodyEnd *) destruct (get_exec _ _) as [x|] eqn:G; [|apply sim_refl]. destruct (x_phase x) eqn:P; try apply sim_refl.
    cbn [fst s_db s_execs]. assert (Hh : x_id x = h) by (apply get_exec_spec in G; tauto).
    destruct (string_dec (m_key (x_msg x)) k) as [Hk|Hk].
    + apply (sim_one _ _ (KPhase x PEnded)); [split; [eapply in_kexecs; eauto|auto]|simpl; right; left; split; congruence|].
      cbn [kapply]. rewrite Hh. now apply kd_upd_exec.
    + apply sim_eq. eapply kd_upd_exec_other; eauto.
  - (* ODelKnown *) destruct (get_exec _ _) as [x|] eqn:G; [|apply sim_refl]. destruct (x_phase x) eqn:P; try apply sim_refl.
    cbn [fst s_db s_execs]. assert (Hh : x_id x = h) by (apply get_exec_spec in G; tauto).
    destruct (string_dec (m_key (x_msg x)) k) as [Hk|Hk].
    + apply (sim_one _ _ (KStruck x)); [split; [eapply in_kexecs; eauto|auto]|simpl; congruence|].
      cbn [kapply]. rewrite Hh, Hk, <- kd_delete_known_same. now apply kd_upd_exec.
    + apply sim_eq. erewrite kd_upd_exec_other by eauto. now apply kd_delete_known_other.
  - (* OTerminal *) destruct (get_exec _ _) as [x|] eqn:G; [|apply sim_refl]. destruct (may_finish _ _) eqn:P; try apply sim_refl.
    destruct (lua_terminal _ _ _ _ _ _ _ _ _) as [d r] eqn:E; cbn [fst s_db s_execs].
    assert (Ed : d = fst (lua_terminal (s_db s) (m_key (x_msg x)) (m_gen (x_msg x)) s0 t (c_ttl c) err res (x_mid x))) by now rewrite E.
    assert (Hh : x_id x = h) by (apply get_exec_spec in G; tauto).
    destruct (string_dec (m_key (x_msg x)) k) as [Hk|Hk].
    + apply (sim_one _ _ (KFinish x s0 t (d_now (s_db s)) err res)); [split; [eapply in_kexecs; eauto|exact P]|simpl; congruence|].
      cbn [kapply]. rewrite Hh, <- kd_terminal_same. rewrite Hk in Ed. rewrite <- Ed. now apply kd_upd_exec.
    + apply sim_eq. erewrite kd_upd_exec_other by eauto. rewrite Ed. apply kd_terminal_other; auto. eapply exec_entry; eauto.
  - (* OResched *) destruct (get_exec _ _) as [x|] eqn:G; [|apply sim_refl]. destruct (may_resched _) eqn:P; try apply sim_refl.
    cbn [lua_schedule fst s_db s_execs]. assert (Hh : x_id x = h) by (apply get_exec_spec in G; tauto).
    cbn [m_key resched_msg].
    destruct (string_dec (m_key (x_msg x)) k) as [Hk|Hk].
    + apply (sim_one _ _ (KResched x when bump (when <=? t))); [split; [eapply in_kexecs; eauto|exact P]|simpl; exists t; split; congruence|].
      cbn [kapply]. rewrite Hh. rewrite <- kd_reschedule_same by exact Hk. rewrite Hk. now apply kd_upd_exec.
    + erewrite kd_upd_exec_other by eauto. apply sim_next; [exact HD|now apply good_reschedule|].
      apply kd_reschedule_other; auto. eapply exec_entry; eauto.
  - (* OAcquire *) destruct (get_exec _ _) as [x|] eqn:G; [|apply sim_refl].
    destruct (x_phase x) eqn:P; try apply sim_refl; destruct (x_slot x) eqn:PS; try apply sim_refl.
    destruct (lua_acquire_or_park _ _ _ _ _ _ _ _ _ _) as [d b] eqn:E; cbn [fst s_db s_execs].
    assert (Hh : x_id x = h) by (apply get_exec_spec in G; tauto).
    assert (Hd : (b = true /\ kd k d (s_execs s) = kd k (s_db s) (s_execs s)) \/
                 (b = false /\ d = lua_park (s_db s) c0 (m_key (x_msg x)) (x_mid x) (x_msg x))).
    { revert E. unfold lua_acquire_or_park. destruct (zscore _ _).
      - destruct (_ && _); intros [= <- <-]; auto.
      - destruct (_ <? _); [intros [= <- <-]; auto|]. destruct (zrangebyscore _ _ _) as [|[? ?] ?]; intros [= <- <-]; auto. }
    destruct (string_dec (m_key (x_msg x)) k) as [Hk|Hk].
    + destruct Hd as [[-> Ed]|[-> ->]].
      * apply (sim_one _ _ (KSlot x (Some (c0, maxc)))); [eapply in_kexecs; eauto|simpl; exists t; congruence|].
        cbn [kapply]. rewrite Hh, <- Ed. now apply kd_upd_exec.
      * apply (sim_one _ _ (KPark x c0)); [split; [eapply in_kexecs; eauto|exact P]|simpl; exists maxc, t; congruence|].
        cbn [kapply]. rewrite Hh, <- kd_park_wait_same by exact Hk. rewrite Hk. now apply kd_upd_exec.
    + assert (Hf : forall (b : bool) x, x_msg ((if b then with_slot (Some (c0, maxc)) else with_phase PDone) x) = x_msg x) by (intros [] ?; reflexivity).
      erewrite kd_upd_exec_other by eauto.
      destruct Hd as [[-> Ed]|[-> ->]]; [apply sim_eq, Ed|].
      apply sim_next; [exact HD|now apply good_lua_park|]. apply kd_park_wait_other; auto. eapply exec_entry; eauto.
  - (* ORelease *) destruct (get_exec _ _) as [x|] eqn:G; [|apply sim_refl].
    destruct (x_slot x) as [[cc mx]|] eqn:PS; [|destruct (x_phase x); apply sim_refl].
    assert (Hh : x_id x = h) by (apply get_exec_spec in G; tauto).
    set (d' := lua_release (s_db s) cc (m_key (x_msg x)) mx (t - c_redeliver c)).
    assert (Hf : forall x, x_msg (with_slot None (unwind x)) = x_msg x) by (intros y; simpl; apply unwind_same).
    assert (Main : (x_phase x = PClaimed \/ x_phase x = PEnded \/ x_phase x = PDone) ->
      sim (ORelease h t) (kd k (s_db s) (s_execs s)) (kd k d' (upd_exec (s_execs s) h (fun x => with_slot None (unwind x))))).
    { intros Hp. destruct (string_dec (m_key (x_msg x)) k) as [Hk|Hk].
      - eapply sim_trans; [reflexivity|apply (sim_release h t (s_db s) (s_execs s) cc (m_key (x_msg x)) mx (t - c_redeliver c) HD)|].
        fold d'. rewrite kd_upd_exec by auto.
        assert (Hin : In x (filter (xhas_key k) (s_execs s))) by (eapply in_kexecs; eauto).
        assert (Eu : forall v, k_execs v = filter (xhas_key k) (s_execs s) ->
          kphase v h (fun x => with_slot None (unwind x)) =
          match x_phase x with
          | PClaimed => kphase (kphase v h (with_phase PEnded)) h (with_slot None)
          | _ => kphase v h (with_slot None) end).
        { intros v Hv. unfold kphase, kset_execs. cbn [k_execs]. rewrite Hv.
          assert (X : forall y, In y (filter (xhas_key k) (s_execs s)) -> x_id y = h -> y = x).
          { intros y Hy Ey. apply filter_In in Hy as [Hy _]. eapply execs_inj; eauto; [|congruence].
            apply get_exec_spec in G; tauto. }
          destruct (x_phase x) eqn:Px; f_equal; unfold upd_exec; rewrite ?map_map; apply map_ext_in; intros y Hy;
            (destruct (Z.eqb_spec (x_id y) h) as [Ey|Ey];
             [rewrite (X y Hy Ey); unfold unwind; rewrite Px; cbn [with_phase x_id]; rewrite ?Hh, ?Z.eqb_refl; reflexivity|
              rewrite ?(proj2 (Z.eqb_neq _ _) Ey); reflexivity]). }
        rewrite Eu by reflexivity.
        assert (Hn : forall v', k_execs v' = filter (xhas_key k) (s_execs s) ->
           (x_phase x = PEnded \/ x_phase x = PDone) -> sim (ORelease h t) v' (kphase v' h (with_slot None))).
        { intros v' Hv' _. apply (sim_one _ _ (KSlot x None)); [simpl; rewrite Hv'; exact Hin|simpl; exists t; congruence|].
          cbn [kapply]. now rewrite Hh. }
        destruct (x_phase x) eqn:Px; try (exfalso; intuition discriminate).
        + eapply sim_trans; [reflexivity| |].
          * apply (sim_one _ _ (KPhase x PEnded)); [split; [exact Hin|auto]|simpl; right; right; exists t; split; congruence|reflexivity].
          * cbn [kapply]. rewrite Hh. apply (sim_one _ _ (KSlot (with_phase PEnded x) None)).
            -- simpl. unfold upd_exec. apply in_map_iff. exists x. rewrite Hh, Z.eqb_refl. auto.
            -- simpl; exists t; congruence.
            -- cbn [kapply with_phase x_id]. now rewrite Hh.
        + apply Hn; auto.
        + apply Hn; auto.
      - erewrite kd_upd_exec_other by eauto. apply sim_release; auto. }
    destruct (x_phase x) eqn:P; try apply sim_refl; cbn [fst s_db s_execs]; apply Main; auto.
  - (* ORenewSlot *) destruct (get_exec _ _) as [x|] eqn:G; [|apply sim_refl]. destruct (x_slot x) as [[cc mx]|]; [|apply sim_refl].
    cbn [fst s_db s_execs]. apply sim_eq. reflexivity.
  - (* OScavenge *) cbn [s_db s_execs]. now apply sim_scavenge.
  - (* OCancelCleanup *) cbn [s_db s_execs]. unfold cancel_cleanup.
    destruct (own_place (s_db s) k0 cc i) eqn:W; [|apply sim_refl]. cbv zeta.
    destruct (string_dec k0 k) as [->|Hk].
    + apply (sim_one _ _ (KCleanup cc i)); [exact I|reflexivity|].
      cbn [kapply]. unfold kcleanup. now rewrite kd_hdel_same, kd_del_prog_same, kd_del_waiter.
    + apply sim_eq. rewrite kd_hdel_other, kd_del_prog_other by auto.
      apply (kd_del_waiter_own k k0); auto.
  - (* OCrash *) cbn [s_db s_execs]. apply (sim_one _ _ (KCrash w)); [exact I|reflexivity|].
    unfold kd, kset_execs; simpl. apply ks_eq; auto. apply filter_comm.
Qed.

End Sim.
