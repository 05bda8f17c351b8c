(** Serving the waiting line of a concurrency limit (C24). *)
From Verif Require Import Base ZSet Model GInv KView KSim Spec KInv KLine Hist Steps Steps2 Steps3 SpecConc.

Local Opaque safeguard_key.

Lemma line_waiters cc s : line cc s = waiters (s_db s) cc.
Proof. reflexivity. Qed.

Lemma same_task_gen m g : same_task (with_gen m g) m.
Proof. repeat split. Qed.

(** ** One entry *)

Lemma waiters_del c d i m l : ids_sorted ((i, m) :: l) -> waiters d c = (i, m) :: l -> waiters (del_waiter c i d) c = l.
Proof.
  intros [S _]. unfold waiters, del_waiter. cbn [d_wait set_wait]. revert l S. generalize (d_wait d). clear.
  induction l as [|[c' [j m']] l IH]; intros r S E; [discriminate|]. cbn [filter fst snd] in *.
  destruct (String.eqb_spec c' c) as [->|N]; cbn [map snd] in E.
  - injection E as -> -> E. rewrite Z.eqb_refl. cbn [andb negb]. 
    assert (H : forall e, In e (map snd (filter (fun e => String.eqb (fst e) c) l)) -> i < fst e) by (rewrite E; intros; apply (S e); auto).
    rewrite <- E. clear - H. induction l as [|[c' [j m']] l IH]; [reflexivity|]. cbn [filter fst snd] in *.
    destruct (String.eqb_spec c' c) as [->|N]; cbn [andb].
    + cbn [map snd] in H. assert (i < j) by (apply (H (j, m')); left; reflexivity). destruct (Z.eqb_spec j i); [lia|]. cbn [negb filter fst]. rewrite String.eqb_refl.
      cbn [map]. f_equal. apply IH. intros e He. apply H. now right.
    + cbn [negb filter fst]. destruct (String.eqb_spec c' c); [contradiction|]. apply IH. exact H.
  - cbn [andb negb filter fst]. destruct (String.eqb_spec c' c); [contradiction|]. now apply IH.
Qed.

Lemma waiters_del_other c c' i d : c' <> c -> waiters (del_waiter c i d) c' = waiters d c'.
Proof.
  intros N. unfold waiters, del_waiter. cbn [d_wait set_wait]. f_equal. induction (d_wait d) as [|[c0 [j m]] l IH]; [reflexivity|].
  cbn [filter fst snd]. destruct (String.eqb_spec c0 c) as [->|]; cbn [andb].
  - destruct (String.eqb_spec c c'); [congruence|]. destruct (j =? i); cbn [negb filter fst]; [exact IH|]. destruct (String.eqb_spec c c'); [congruence|exact IH].
  - cbn [negb filter fst]. destruct (String.eqb c0 c'); now rewrite IH.
Qed.

Lemma wake_one_wait c d i m : d_wait (wake_one c d (i, m)) = d_wait (del_waiter c i d).
Proof. unfold wake_one. destruct (r_state (rget d (m_key m))) as [[]|]; reflexivity. Qed.

Lemma waiters_eq d d' c : d_wait d = d_wait d' -> waiters d c = waiters d' c.
Proof. unfold waiters. now intros ->. Qed.

Lemma wake_one_rget c d i m k : k <> m_key m -> k <> safeguard_key (m_key m) -> rget (wake_one c d (i, m)) k = rget d k.
Proof.
  intros N1 N2. unfold wake_one, rget.
  destruct (r_state _) as [[]|]; cbn; rewrite ?upd_neq by congruence; reflexivity.
Qed.

Lemma wake_one_not c d i m : r_state (rget d (m_key m)) <> Some SScheduled -> m_key m <> safeguard_key (m_key m) ->
  d_stream (wake_one c d (i, m)) = d_stream d /\ rget (wake_one c d (i, m)) (m_key m) = rget d (m_key m).
Proof.
  intros N1 N2. unfold wake_one. destruct (r_state (rget d (m_key m))) as [[]|]; try congruence; (split; [reflexivity|]);
    unfold rget; cbn; rewrite ?upd_neq by congruence; reflexivity.
Qed.

Lemma wake_one_yes c d i m : r_state (rget d (m_key m)) = Some SScheduled -> m_key m <> safeguard_key (m_key m) ->
  exists g j, d_stream (wake_one c d (i, m)) = d_stream d ++ [(j, with_gen m g)] /\
    let r := rget (wake_one c d (i, m)) (m_key m) in
    r_state r = Some SQueued /\ r_gen r = Some g /\ r_sid r = Some j /\ r_wstream r = None /\ r_wid r = None.
Proof.
  intros E N2. unfold wake_one. rewrite E. cbn [hincr_gen xadd].
  exists (default 0 (r_gen (rget d (m_key m))) + 1), (d_next (hset d (m_key m) (rset_gen (default 0 (r_gen (rget d (m_key m))) + 1)))).
  split; [reflexivity|]. cbv zeta. unfold rget; cbn. rewrite !upd_neq by congruence. rewrite !upd_eq. cbn. rewrite ?upd_eq.
  split; [reflexivity|]. split; [unfold rget; cbn; rewrite upd_eq; reflexivity|]. auto.
Qed.

Lemma served_ext f g ws : (forall m, In m ws -> f (m_key m) = g (m_key m)) -> served f ws = served g ws.
Proof.
  revert f g. induction ws as [|m ws IH]; intros f g H; [reflexivity|]. cbn [served]. rewrite <- (H m) by (left; reflexivity).
  rewrite (IH f g) by (intros; apply H; now right).
  destruct (f (m_key m)); [|reflexivity]. f_equal. apply IH. intros m' H'. rewrite (H m') by (now right). reflexivity.
Qed.

Definition sched_in (d : db) (k : key) : bool := match r_state (rget d k) with Some SScheduled => true | _ => false end.

Lemma sched_in_spec d k : sched_in d k = true <-> r_state (rget d k) = Some SScheduled.
Proof. unfold sched_in. destruct (r_state (rget d k)) as [[]|]; split; congruence. Qed.

(** ** The whole line *)

Lemma wake_fold c l : forall d rest, DInv d -> waiters d c = l ++ rest -> no_reserved_names (map snd l) ->
  let d' := fold_left (wake_one c) l d in
  waiters d' c = rest /\ (forall c', c' <> c -> waiters d' c' = waiters d c') /\
  (forall k, (forall e, In e l -> k <> m_key (snd e) /\ k <> safeguard_key (m_key (snd e))) -> rget d' k = rget d k) /\
  (forall k, In k (map (fun e => m_key (snd e)) l) -> r_state (rget d k) <> Some SScheduled -> rget d' k = rget d k) /\
  exists new, d_stream d' = d_stream d ++ new /\
    Forall2 same_task (map snd new) (served (sched_in d) (map snd l)) /\
    forall i m, In (i, m) new -> let r := rget d' (m_key m) in
      r_state r = Some SQueued /\ r_gen r = Some (m_gen m) /\ r_sid r = Some i /\ r_wstream r = None /\ r_wid r = None.
Proof.
  induction l as [|[i m] l IH]; intros d rest D W N.
  - cbn. split; [exact W|]. split; [reflexivity|]. split; [reflexivity|]. split; [reflexivity|]. exists []. rewrite app_nil_r. split; [reflexivity|]. split; [constructor|]. intros ? ? [].
  - cbn [fold_left]. set (d1 := wake_one c d (i, m)).
    assert (D1 : DInv d1) by (apply (good_wake_one c d (i, m) D)).
    assert (W1 : waiters d1 c = l ++ rest).
    { unfold d1. rewrite (waiters_eq _ (del_waiter c i d)) by apply wake_one_wait.
      eapply waiters_del; [|exact W]. pose proof (waiters_sorted d c D) as S. rewrite W in S. exact S. }
    assert (N1 : no_reserved_names (map snd l)) by (intros a b A B; apply N; cbn; auto).
    destruct (IH d1 rest D1 W1 N1) as (I1 & I2 & I3 & I4 & new & I5 & I6 & I7). clear IH.
    set (d' := fold_left (wake_one c) l d1) in *. cbv zeta.
    assert (Ns : m_key m <> safeguard_key (m_key m)) by (apply (N m m); cbn; auto).
    assert (Keep : forall k, In k (map (fun e => m_key (snd e)) l) -> k <> m_key m -> rget d1 k = rget d k).
    { intros k Hk Nk. apply wake_one_rget; [exact Nk|]. apply in_map_iff in Hk as ([j m'] & <- & Hk). cbn.
      apply (N m' m); cbn; [right; apply (in_map snd) in Hk; exact Hk|auto]. }
    (* the record of m after the rest, if it is not scheduled after its own turn *)
    assert (After : r_state (rget d1 (m_key m)) <> Some SScheduled -> rget d' (m_key m) = rget d1 (m_key m)).
    { intros Hs. destruct (in_dec string_dec (m_key m) (map (fun e => m_key (snd e)) l)) as [Hi|Hi]; [now apply I4|].
      apply I3. intros e He. split; [intros Q; apply Hi; rewrite Q; apply (in_map (fun e => m_key (snd e))); exact He|].
      apply (N m (snd e)); cbn; [auto|right; now apply (in_map snd)]. }
    split; [exact I1|]. split.
    { intros c' Nc. rewrite I2 by exact Nc. unfold d1. rewrite (waiters_eq _ (del_waiter c i d)) by apply wake_one_wait. now apply waiters_del_other. }
    split.
    { intros k Hk. rewrite I3 by (intros e He; apply Hk; now right). destruct (Hk (i, m) (or_introl eq_refl)) as [A B]. now apply wake_one_rget. }
    split.
    { intros k Hk Hs. cbn [map snd] in Hk. destruct (string_dec k (m_key m)) as [->|Nk].
      - destruct (wake_one_not c d i m Hs Ns) as [_ E]. rewrite After by (unfold d1; now rewrite E). unfold d1. exact E.
      - destruct Hk as [Hk|Hk]; [congruence|]. rewrite <- (Keep k Hk Nk) in Hs |- *. now apply I4. }
    cbn [map snd served]. destruct (sched_in d (m_key m)) eqn:Es.
    + apply sched_in_spec in Es. destruct (wake_one_yes c d i m Es Ns) as (g & j & Y1 & Y2). fold d1 in Y1, Y2. cbv zeta in Y2.
      exists ((j, with_gen m g) :: new). split; [rewrite I5, Y1, <- app_assoc; reflexivity|]. split.
      * cbn [map snd]. constructor; [apply same_task_gen|]. erewrite served_ext; [exact I6|].
        intros m' Hm'. cbn beta. destruct (String.eqb_spec (m_key m') (m_key m)) as [Eq|Nq]; cbn [negb].
        -- rewrite Eq, andb_false_r. symmetry. unfold sched_in. destruct Y2 as [-> _]. reflexivity.
        -- rewrite andb_true_r. unfold sched_in. rewrite Keep; [reflexivity| |exact Nq]. apply in_map_iff in Hm' as ([j' m''] & <- & Hm').
           apply (in_map (fun e => m_key (snd e))) in Hm'. exact Hm'.
      * intros i' m' [H|H]; [|now apply I7]. injection H as <- <-. cbn [m_key m_gen with_gen]. rewrite After; [exact Y2|]. destruct Y2 as [-> _]. discriminate.
    + assert (Hs : r_state (rget d (m_key m)) <> Some SScheduled) by (intros H; apply sched_in_spec in H; congruence).
      destruct (wake_one_not c d i m Hs Ns) as [E1 E2]. fold d1 in E1, E2. exists new. rewrite I5, E1. split; [reflexivity|]. split; [|exact I7].
      erewrite served_ext; [exact I6|]. intros m' Hm'. unfold sched_in. destruct (string_dec (m_key m') (m_key m)) as [->|Nq]; [now rewrite E2|].
      rewrite Keep; [reflexivity| |exact Nq]. apply in_map_iff in Hm' as ([j' m''] & <- & Hm'). apply (in_map (fun e => m_key (snd e))) in Hm'. exact Hm'.
Qed.

Lemma wake_served c cap d : DInv d -> no_reserved_names (map snd (firstn (Z.to_nat cap) (waiters d c))) ->
  let d' := wake d c cap in
  waiters d' c = skipn (Z.to_nat cap) (waiters d c) /\ (forall c', c' <> c -> waiters d' c' = waiters d c') /\
  exists new, d_stream d' = d_stream d ++ new /\
    Forall2 same_task (map snd new) (served (sched_in d) (map snd (firstn (Z.to_nat cap) (waiters d c)))) /\
    forall i m, In (i, m) new -> let r := rget d' (m_key m) in
      r_state r = Some SQueued /\ r_gen r = Some (m_gen m) /\ r_sid r = Some i /\ r_wstream r = None /\ r_wid r = None.
Proof.
  intros D N. unfold wake. destruct (Z.ltb_spec 0 cap).
  - destruct (wake_fold c (firstn (Z.to_nat cap) (waiters d c)) d (skipn (Z.to_nat cap) (waiters d c)) D) as (A & B & _ & _ & E); [now rewrite firstn_skipn|exact N|]. cbv zeta in *. auto.
  - replace (Z.to_nat cap) with 0%nat by lia. cbn. split; [reflexivity|]. split; [reflexivity|]. exists []. rewrite app_nil_r. split; [reflexivity|]. split; [constructor|]. intros ? ? [].
Qed.

Lemma slots_of_wake d c cap : d_slots (wake d c cap) = d_slots d.
Proof.
  unfold wake. destruct (0 <? cap); [|reflexivity]. generalize (firstn (Z.to_nat cap) (waiters d c)). intros l. revert d.
  induction l as [|[i m] l IH]; intros d; [reflexivity|]. cbn [fold_left]. rewrite IH. unfold wake_one.
  destruct (r_state (rget d (m_key m))) as [[]|]; reflexivity.
Qed.

Lemma release_serves c s h x cc maxc t : reachable c s -> get_exec (s_execs s) h = Some x -> x_slot x = Some (cc, maxc) ->
  x_phase x <> PBody -> x_phase x <> PDelivered -> x_phase x <> PStruck ->
  let s' := fst (step c s (ORelease h t)) in
  let free := Z.to_nat (maxc - Z.of_nat (length (d_slots (s_db s') cc))) in
  no_reserved_names (map snd (firstn free (line cc s))) ->
  served_line cc free s s' /\
  (forall st k, In (st, k) (d_slots (s_db s') cc) <->
     In (st, k) (d_slots (s_db s) cc) /\ k <> m_key (x_msg x) /\ (line cc s = [] \/ ~ (0 <= st <= t - c_redeliver c))).
Proof.
  intros R Gx Sx P1 P2 P3 s'. pose proof (reachable_GInv c s R) as [D _].
  assert (Es : s_db s' = lua_release (s_db s) cc (m_key (x_msg x)) maxc (t - c_redeliver c)).
  { unfold s'. cbn [step]. rewrite Gx, Sx. destruct (x_phase x); try congruence; reflexivity. }
  set (d0 := set_slots (s_db s) (upd (d_slots (s_db s)) cc (zrem (m_key (x_msg x)) (d_slots (s_db s) cc)))).
  set (d1 := match waiters d0 cc with [] => d0 | _ => evict_stale d0 cc (t - c_redeliver c) end).
  assert (E1 : s_db s' = wake d1 cc (maxc - zcard (d_slots d1 cc))) by (rewrite Es; reflexivity).
  assert (W : forall c', waiters d1 c' = line c' s) by (intros c'; unfold d1; destruct (waiters d0 cc); reflexivity).
  assert (D1 : DInv d1).
  { assert (D0 : DInv d0) by (apply (good_slots (s_db s) _ D)). unfold d1. destruct (waiters d0 cc); [exact D0|apply (good_slots d0 _ D0)]. }
  assert (Sl : d_slots (s_db s') cc = d_slots d1 cc) by (rewrite E1; now rewrite slots_of_wake).
  intros free N. assert (Ef : free = Z.to_nat (maxc - zcard (d_slots d1 cc))) by (unfold free; now rewrite Sl).
  split.
  - rewrite Ef in N |- *. rewrite <- W in N. destruct (wake_served cc (maxc - zcard (d_slots d1 cc)) d1 D1 N) as (A & B & new & C1 & C2 & C3).
    rewrite <- E1 in A, B, C1, C3. split; [rewrite line_waiters, A, W; reflexivity|]. split; [intros c' Nc; rewrite line_waiters, B by exact Nc; apply W|].
    exists new. split; [rewrite C1; unfold d1; destruct (waiters d0 cc); reflexivity|]. split; [|exact C3].
    rewrite W in C2. erewrite served_ext; [exact C2|]. intros m _. unfold scheduled, sched_in, d1. destruct (waiters d0 cc); reflexivity.
  - intros st k. rewrite Sl. assert (L : waiters d0 cc = line cc s) by reflexivity. unfold d1. rewrite L. destruct (line cc s) as [|e r] eqn:El.
    + unfold d0. cbn. rewrite upd_eq. unfold zrem. rewrite filter_In. cbn. split; [intros [A B]|intros (A & B & _)]; (split; [exact A|]).
      * split; [intros ->; rewrite String.eqb_refl in B; discriminate|auto].
      * destruct (String.eqb_spec k (m_key (x_msg x))); [contradiction|reflexivity].
    + unfold evict_stale, d0. cbn. rewrite !upd_eq. unfold zremrangebyscore, zrem, zwithin. rewrite !filter_In. cbn. split.
      * intros [[A B] C]. split; [exact A|]. split; [intros ->; rewrite String.eqb_refl in B; discriminate|]. right. lia.
      * intros (A & B & [C|C]); [discriminate|]. split; [split; [exact A|destruct (String.eqb_spec k (m_key (x_msg x))); [contradiction|reflexivity]]|]. lia.
Qed.

Lemma scavenge_serves c s cc maxc t : reachable c s ->
  let s' := fst (step c s (OScavenge cc maxc t)) in
  let free := Z.to_nat (maxc - Z.of_nat (length (d_slots (s_db s') cc))) in
  no_reserved_names (map snd (firstn free (line cc s))) ->
  served_line cc free s s' /\
  (forall st k, In (st, k) (d_slots (s_db s') cc) <->
     In (st, k) (d_slots (s_db s) cc) /\ (line cc s = [] \/ ~ (0 <= st <= t - c_redeliver c))).
Proof.
  intros R s'. pose proof (reachable_GInv c s R) as [D _].
  assert (Es : s_db s' = lua_scavenge (s_db s) cc maxc (t - c_redeliver c)) by reflexivity.
  intros free N. unfold lua_scavenge in Es. destruct (waiters (s_db s) cc) as [|e r] eqn:Ew.
  - rewrite Es. split; [|split; [intros A; split; [exact A|left; exact Ew]|intros [A _]; exact A]].
    assert (L : line cc s = []) by exact Ew. unfold served_line. rewrite L, skipn_nil, firstn_nil, Es. split; [rewrite line_waiters, Es; exact Ew|].
    split; [intros c' _; rewrite !line_waiters, Es; reflexivity|]. exists []. rewrite app_nil_r. split; [reflexivity|]. split; [constructor|intros ? ? []].
  - set (d1 := evict_stale (s_db s) cc (t - c_redeliver c)) in *. cbv zeta in Es.
    assert (W : forall c', waiters d1 c' = line c' s) by reflexivity.
    assert (D1 : DInv d1) by (apply (good_slots (s_db s) _ D)).
    assert (Sl : d_slots (s_db s') cc = d_slots d1 cc) by (rewrite Es; now rewrite slots_of_wake).
    assert (Ef : free = Z.to_nat (maxc - zcard (d_slots d1 cc))) by (unfold free; now rewrite Sl).
    split.
    + rewrite Ef in N |- *. rewrite <- W in N. destruct (wake_served cc (maxc - zcard (d_slots d1 cc)) d1 D1 N) as (A & B & new & C1 & C2 & C3).
      rewrite <- Es in A, B, C1, C3. split; [rewrite line_waiters, A, W; reflexivity|]. split; [intros c' Nc; rewrite line_waiters, B by exact Nc; apply W|].
      exists new. split; [rewrite C1; reflexivity|]. split; [|exact C3]. rewrite W in C2. exact C2.
    + intros st k. rewrite Sl. assert (L : line cc s = e :: r) by exact Ew. rewrite L.
      unfold d1, evict_stale. cbn. rewrite !upd_eq. unfold zremrangebyscore, zwithin. rewrite !filter_In. cbn. split.
      * intros [A C]. split; [exact A|]. right. lia.
      * intros (A & [C|C]); [discriminate|]. split; [exact A|]. lia.
Qed.

(** ** Parking *)

Lemma park_atomic c s h x cc maxc t : reachable c s -> get_exec (s_execs s) h = Some x ->
  snd (step c s (OAcquire h cc maxc t)) = OAcquired false ->
  let s' := fst (step c s (OAcquire h cc maxc t)) in
  exists i m, same_task m (x_msg x) /\ line cc s' = line cc s ++ [(i, m)] /\ (forall cc', cc' <> cc -> line cc' s' = line cc' s) /\
    (forall e, In e (d_wait (s_db s)) -> fst (snd e) < i) /\
    (forall j m', on_stream s' j m' <-> on_stream s j m' /\ j <> x_mid x) /\ ~ In (x_mid x) (map pe_id (d_pel (s_db s'))) /\
    d_slots (s_db s') = d_slots (s_db s) /\
    let r := rget (s_db s') (m_key m) in
    r_state r = Some SScheduled /\ r_gen r = Some (m_gen m) /\ r_sid r = None /\ r_wstream r = Some cc /\ r_wid r = Some i /\
    exists x', get_exec (s_execs s') h = Some x' /\ x_phase x' = PDone.
Proof.
  intros R Gx O s'. pose proof (reachable_GInv c s R) as [D X]. cbn [step] in O. unfold s'. cbn [step]. rewrite Gx in O |- *.
  destruct (x_phase x); try discriminate. destruct (x_slot x); [discriminate|].
  set (k := m_key (x_msg x)) in *.
  assert (Hp : lua_acquire_or_park (s_db s) cc maxc k t (x_redel x) (t - c_redeliver c) (slot_ttl c) (x_mid x) (x_msg x) =
    (lua_park (s_db s) cc k (x_mid x) (x_msg x), false)).
  { destruct (lua_acquire_or_park _ _ _ _ _ _ _ _ _ _) as [d b] eqn:E. cbn in O. injection O as ->. revert E. unfold lua_acquire_or_park.
    destruct (zscore k _).
    - destruct (x_redel x && _); intros [= <-]; reflexivity.
    - destruct (_ <? _); [discriminate|]. destruct (zrangebyscore _ _ _) as [|[? ?] ?]; [intros [= <-]; reflexivity|discriminate]. }
  rewrite Hp. clear Hp O. cbn [fst set_execs s_db s_execs].
  set (g := default 0 (r_gen (rget (s_db s) k)) + 1).
  exists (d_next (s_db s)), (with_gen (x_msg x) g).
  split; [apply same_task_gen|]. split; [|split; [|split; [|split; [|split; [|split]]]]].
  - rewrite !line_waiters. unfold waiters. cbn. rewrite filter_app, map_app. cbn. rewrite String.eqb_refl. reflexivity.
  - intros cc' N. rewrite !line_waiters. unfold waiters. cbn. rewrite filter_app, map_app. cbn. destruct (String.eqb_spec cc cc'); [congruence|]. apply app_nil_r.
  - intros e He. apply (di_wnext _ D). unfold wids. now apply in_map.
  - intros j m'. unfold on_stream. cbn. unfold del_entry. rewrite filter_In. cbn. split; intros [A B]; (split; [exact A|lia]).
  - cbn. intros H. apply in_map_iff in H as (p & E & H). apply filter_In in H as [_ H]. rewrite E, Z.eqb_refl in H. discriminate.
  - reflexivity.
  - cbv zeta. assert (Er : rget (lua_park (s_db s) cc k (x_mid x) (x_msg x)) k =
      rdel_sid (rset_parked cc (d_next (s_db s)) (with_gen (x_msg x) g) (rset_gen g (rget (s_db s) k)))).
    { unfold lua_park, rget. cbn. rewrite !upd_eq. cbn. unfold rget. cbn. rewrite !upd_eq. reflexivity. }
    cbn [m_key with_gen]. fold k. rewrite Er. cbn. repeat split. exists (with_phase PDone x). split; [|reflexivity].
    destruct (get_exec_spec _ _ _ Gx) as [Hin Hid]. clear - Gx Hid. unfold get_exec, upd_exec in *. induction (s_execs s) as [|y l IH]; [discriminate|].
    cbn in *. destruct (Z.eqb_spec (x_id y) h) as [E|E]; cbn.
    + injection Gx as ->. rewrite Hid, Z.eqb_refl. reflexivity.
    + destruct (Z.eqb_spec (x_id y) h); [contradiction|auto].
Qed.

(** ** A cancelled waiter *)

Record Idle (v : ks) : Prop := mkIdle {
  id_stream : k_stream v = [];
  id_parked : k_parked v = None;
  id_state : r_state (kr v) <> Some SScheduled;
  id_exec : forall x, In x (k_execs v) -> x_phase x = PDone }.

Lemma Idle_apply c k v e : kok k v e -> UInv k v -> (forall r i a, e <> KSched r i a) -> Idle v -> Idle (kapply c v e).
Proof.
  intros Hok U N [G1 G2 G3 G4].
  assert (NE : forall x w b i, e = KResched x w b i -> False).
  { intros x w b i ->. destruct Hok as [H1 H2]. apply G4 in H1. rewrite H1 in H2. discriminate H2. }
  assert (NP : forall x cc, e = KPark x cc -> False).
  { intros x cc ->. destruct Hok as [H1 H2]. apply G4 in H1. congruence. }
  constructor.
  - destruct (k_stream (kapply c v e)) as [|[i m] l] eqn:E; [reflexivity|exfalso].
    assert (H : In (i, m) (k_stream (kapply c v e))) by (rewrite E; left; reflexivity).
    destruct (stream_apply c k v e i m Hok H) as [H1|(_ & [(t & -> & H1)|[(repl & a & -> & _)|[(x & w & b & -> & _)|(cc & wid & m0 & -> & _)]]])].
    + rewrite G1 in H1. contradiction.
    + congruence.
    + now apply (N repl true a).
    + eapply NE; reflexivity.
    + cbn [kapply] in H. unfold kwake in H. destruct (r_state (kr v)) as [[]|]; try (cbn in H; rewrite G1 in H; exact H). now apply G3.
  - destruct (k_parked (kapply c v e)) as [m|] eqn:E; [|reflexivity]. exfalso.
    apply (parked_apply c k v e m Hok) in E as [E|[(repl & a & ->)|(x & w & b & ->)]]; [congruence|now apply (N repl false a)|eapply NE; reflexivity].
  - destruct e; cbn [kapply]; auto.
    + cbn. discriminate.
    + rewrite khdel_state by reflexivity. exact G3.
    + exfalso. eapply N; reflexivity.
    + unfold kcancel. cbv zeta. set (v1 := khdel _ _). destruct (r_state (kr v1)) as [[]|] eqn:E; cbn; congruence.
    + unfold kmove. rewrite G2. exact G3.
    + exfalso. destruct Hok as [H1 H2]. apply G4 in H1. congruence.
    + exfalso. destruct Hok as [H1 H2]. apply G4 in H1. congruence.
    + exfalso. destruct Hok as [H1 H2]. apply G4 in H1. rewrite H1 in H2. discriminate H2.
    + exfalso. eapply NE; reflexivity.
    + exfalso. eapply NP; reflexivity.
    + unfold kwake. destruct (r_state (kr v)) as [[]|] eqn:E; try (change (r_state (kr v) <> Some SScheduled); congruence). contradiction.
    + unfold kcleanup. rewrite khdel_state by reflexivity. exact G3.
    + cbn. discriminate.
  - intros x H. apply (exec_apply c k v e x Hok U) in H as [(l & ->)|(y & H1 & _ & _ & _ & _ & _ & H2)].
    + destruct Hok as [Hs _]. rewrite G1 in Hs. contradiction.
    + pose proof (G4 y H1) as Py. destruct H2 as [H2|[(t & -> & E & _)|[(p & -> & _)|[(-> & E & _)|[H2 _]]]]]; try congruence.
      destruct Hok as [_ [[E _]|[E _]]]; congruence.
Qed.

Lemma Idle_step c k s o : GInv s -> UInv k (kabs k s) -> no_schedule k o -> Idle (kabs k s) -> Idle (kabs k (fst (step c s o))).
Proof.
  intros G U N. apply step_ind; auto. intros v e Hok L U1 _ _. apply (Idle_apply c k); auto.
  intros r i a ->. simpl in L, Hok. destruct L as (t & -> & _). destruct r; simpl in N; congruence.
Qed.

Lemma Idle_final c k l : forall s, GInv s -> UInv k (kabs k s) -> along c (fun _ o => no_schedule k o) s l -> Idle (kabs k s) -> Idle (kabs k (final c s l)).
Proof.
  induction l as [|o l IH]; intros s G U A H; [exact H|]. destruct A as [A1 A2]. rewrite final_cons.
  apply IH; auto; [now apply GInv_step|now apply UInv_step|now apply Idle_step].
Qed.

Lemma cancelled_waiter_never_starts c s k t l o m i : reachable c s ->
  (forall p m, stored_at s p m -> m_key m = k -> held_by_schedule s k p m \/ exists cc j, p = AtLine cc j) ->
  (forall x, In x (s_execs s) -> m_key (x_msg x) = k -> x_phase x = PDone) ->
  let s1 := fst (step c s (OCancel k t)) in
  along c (fun _ o => no_schedule k o) s1 l ->
  (starts c (final c s1 l) o m i -> m_key m <> k) /\
  (forall j m', on_stream (final c s1 l) j m' -> m_key m' <> k).
Proof.
  intros R H1 H2 s1 A. pose proof (reachable_GInv c s R) as G. pose proof (reachable_UInv c k s R) as U.
  assert (Id : Idle (kabs k s1)).
  { destruct (cancel_rest (s_db s) k t) as (_ & _ & R3 & _ & _ & R6 & R7 & _ & _ & _ & _ & _ & _ & R14). cbv zeta in *.
    rewrite existing_sid in R3 by apply G.
    constructor.
    - destruct (k_stream (kabs k s1)) as [|[j m0] l0] eqn:Es; [reflexivity|exfalso].
      assert (H : In (j, m0) (k_stream (kabs k s1))) by (rewrite Es; left; reflexivity). apply kstream_In in H as [H3 H4].
      unfold on_stream, s1 in H3. cbn [step fst set_db s_db] in H3. rewrite R3 in H3.
      assert (H5 : In (j, m0) (d_stream (s_db s))) by (destruct (r_sid _); [now apply del_entry_In in H3|exact H3]).
      destruct (H1 (AtStream j) m0 H5 H4) as [H6|(cc & i' & H6)]; [|discriminate]. cbn in H6. rewrite H6 in H3. apply del_entry_In in H3 as [_ H3]. now apply H3.
    - change (d_parked (s_db s1) k = None). unfold s1. cbn [step fst set_db s_db]. rewrite R7, String.eqb_refl. reflexivity.
    - change (r_state (rget (lua_cancel (s_db s) k t) k) <> Some SScheduled). clear. unfold lua_cancel. cbv zeta. set (d0 := hdel _ _ _).
      clearbody d0.
      assert (X : r_state (rget (hset d0 k (rset_cancelled t)) k) <> Some SScheduled) by (unfold hset, rget at 1; cbn; rewrite upd_eq; cbn; discriminate).
      destruct (r_state (rget d0 k)) as [[]|] eqn:E; try exact X; congruence.
    - intros x Hx. apply kexecs_In in Hx as [H3 H4]. apply H2; auto. }
  assert (If : Idle (kabs k (final c s1 l))) by (apply Idle_final; auto; [now apply GInv_step|now apply UInv_step]).
  split.
  - intros S E. apply starts_inv in S as (h & x & -> & Hx & Hp & Em & _). apply get_exec_spec in Hx as [Hin _].
    assert (x_phase x = PDone) by (apply (id_exec _ If), kexecs_In; split; [exact Hin|congruence]). congruence.
  - intros j m' H E. assert (X : In (j, m') (k_stream (kabs k (final c s1 l)))) by (apply kstream_In; auto). rewrite (id_stream _ If) in X. exact X.
Qed.
