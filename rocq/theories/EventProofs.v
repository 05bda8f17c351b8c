(** State events and the records (C98). *)
From Verif Require Import Base ZSet Model GInv Spec SpecEvents.

Definition st (d : db) (k : key) : option state := r_state (rget d k).
Definition Says (d : db) (evs : list (key * state)) (d' : db) : Prop :=
  d_pubs d' = d_pubs d ++ evs /\ forall k, st d' k = told k evs (st d k).
Definition Quiet (d d' : db) : Prop := d_pubs d' = d_pubs d /\ forall k, st d' k = st d k.

Lemma told_app k a b s : told k (a ++ b) s = told k b (told k a s).
Proof. revert s. induction a as [|e a IH]; intros s; [reflexivity|]. cbn. apply IH. Qed.
Lemma Quiet_Says d d' : Quiet d d' -> Says d [] d'.
Proof. intros [A B]. split; [now rewrite app_nil_r|exact B]. Qed.
Lemma Quiet_refl d : Quiet d d. Proof. split; auto. Qed.
Lemma Quiet_trans a b c : Quiet a b -> Quiet b c -> Quiet a c.
Proof. intros [A B] [C D]. split; [congruence|]. intros k. now rewrite D. Qed.
Lemma Says_trans a e b f c : Says a e b -> Says b f c -> Says a (e ++ f) c.
Proof. intros [A B] [C D]. split; [rewrite C, A; now rewrite app_assoc|]. intros k. now rewrite D, B, told_app. Qed.
Lemma Says_quiet a e b c : Says a e b -> Quiet b c -> Says a e c.
Proof. intros H Q. rewrite <- (app_nil_r e). eapply Says_trans; [exact H|now apply Quiet_Says]. Qed.
Lemma quiet_Says a b e c : Quiet a b -> Says b e c -> Says a e c.
Proof. intros Q H. exact (Says_trans a [] b e c (Quiet_Says a b Q) H). Qed.

Lemma st_hset d k f j : st (hset d k f) j = if String.eqb k j then r_state (f (rget d k)) else st d j.
Proof. unfold st, rget, hset, set_runs; cbn. unfold upd. rewrite String.eqb_sym. destruct (String.eqb_spec k j) as [->|]; [|reflexivity]. reflexivity. Qed.
Lemma Quiet_hset d k f : (forall r, r_state (f r) = r_state r) -> Quiet d (hset d k f).
Proof. intros H. split; [reflexivity|]. intros j. rewrite st_hset. destruct (String.eqb_spec k j) as [->|]; [|reflexivity]. apply H. Qed.
Lemma Quiet_hdel d k f : (forall r, r_state (f r) = r_state r) -> Quiet d (hdel d k f).
Proof.
  intros H. split; [reflexivity|]. intros j. unfold st, rget, hdel, set_runs; cbn. unfold upd. destruct (String.eqb_spec j k) as [->|]; [|reflexivity].
  destruct (d_runs d k); cbn; [apply H|reflexivity].
Qed.
Lemma Says_set d k f s : (forall r, r_state (f r) = Some s) -> Says d [(k, s)] (publish (hset d k f) k s).
Proof. intros H. split; [reflexivity|]. intros j. change (st (publish (hset d k f) k s) j) with (st (hset d k f) j). rewrite st_hset. cbn [told fst snd]. destruct (String.eqb k j); [apply H|reflexivity]. Qed.
Lemma Says_pub d d' k s : d_pubs d' = d_pubs d -> (forall j, st d' j = if String.eqb k j then Some s else st d j) -> Says d [(k, s)] (publish d' k s).
Proof. intros A B. split; [cbn; now rewrite A|]. intros j. change (st (publish d' k s) j) with (st d' j). rewrite B. reflexivity. Qed.

Lemma place_st d k w imm clr m : d_pubs (place d k w imm clr m) = d_pubs d /\
  forall j, st (place d k w imm clr m) j = if String.eqb k j then Some (if imm then SQueued else SScheduled) else st d j.
Proof.
  unfold place, hincr_gen, xadd. cbv zeta. destruct imm.
  - split; [reflexivity|]. intros j. rewrite st_hset. destruct (String.eqb k j) eqn:E; [reflexivity|].
    change (st (hset d k (rset_gen (default 0 (r_gen (rget d k)) + 1))) j = st d j). rewrite st_hset, E. reflexivity.
  - assert (X : forall j, st (hset (park_future (hset d k (rset_gen (default 0 (r_gen (rget d k)) + 1))) k w (with_gen m (default 0 (r_gen (rget d k)) + 1))) k
       (rset_scheduled w (with_gen m (default 0 (r_gen (rget d k)) + 1)))) j = if String.eqb k j then Some SScheduled else st d j).
    { intros j. rewrite st_hset. destruct (String.eqb k j) eqn:E; [reflexivity|].
      change (st (hset d k (rset_gen (default 0 (r_gen (rget d k)) + 1))) j = st d j). rewrite st_hset, E. reflexivity. }
    destruct clr; [|split; [reflexivity|exact X]]. split; [reflexivity|]. intros j. rewrite <- X. symmetry.
    set (u := hset _ _ _). symmetry. apply (Quiet_hdel u k rdel_sid). reflexivity.
Qed.

Lemma Quiet_same d d' : d_pubs d' = d_pubs d -> d_runs d' = d_runs d -> Quiet d d'.
Proof. intros A B. split; [exact A|]. intros k. unfold st, rget. now rewrite B. Qed.
Lemma Says_same d e d1 d' : Says d e d1 -> d_pubs d' = d_pubs d1 -> d_runs d' = d_runs d1 -> Says d e d'.
Proof. intros H A B. eapply Says_quiet; [exact H|now apply Quiet_same]. Qed.

Lemma Says_schedule d k w imm repl m : exists evs,
  Says d evs (fst (lua_schedule d k w imm repl None m)) /\ NoDup (map fst evs).
Proof.
  unfold lua_schedule. destruct (negb repl && lua_exists d k); [exists ([] : list (key * state)); split; [apply Quiet_Says, Quiet_refl|constructor]|].
  exists ([(k, if imm then SQueued else SScheduled)] : list (key * state)). split; [|repeat constructor; auto]. cbn [fst].
  set (d1 := if repl then lua_replace_existing d k else d).
  assert (Q : Quiet d d1). { unfold d1. destruct repl; [|apply Quiet_refl]. unfold lua_replace_existing. match goal with |- context [match ?x with Some i => xdel _ i | None => _ end] => destruct x end; apply Quiet_same; reflexivity. }
  eapply quiet_Says; [exact Q|]. destruct (place_st d1 k w imm false m). apply Says_pub; auto.
Qed.

Lemma Says_resched d k w (imm : bool) i m : Says d [(k, if imm then SQueued else SScheduled)] (lua_reschedule d k w imm i m).
Proof.
  unfold lua_reschedule. destruct (place_st (xdel (xack d i) i) k w imm true m) as [A B].
  assert (Q : Quiet (place (xdel (xack d i) i) k w imm true m) (hdel (place (xdel (xack d i) i) k w imm true m) k rdel_worker)) by (apply Quiet_hdel; reflexivity).
  destruct Q as [Q1 Q2]. apply Says_pub; [rewrite Q1, A; reflexivity|]. intros j. rewrite Q2, B. reflexivity.
Qed.

Lemma Says_claim d k w t g i : exists evs, Says d evs (fst (lua_claim d k w t g i)) /\ NoDup (map fst evs).
Proof.
  unfold lua_claim. destruct (superseded d k g); cbn [fst]; [exists ([] : list (key * state)); split; [apply Quiet_Says, Quiet_same; reflexivity|constructor]|].
  exists [(k, SRunning)]. split; [|repeat constructor; auto]. apply Says_pub; [reflexivity|]. intros j.
  set (u := set_prog _ _). change (st (hdel u k rdel_known) j = if String.eqb k j then Some SRunning else st d j).
  rewrite (proj2 (Quiet_hdel u k rdel_known ltac:(reflexivity)) j). unfold u. change (st (hset d k (rset_running w t)) j = if String.eqb k j then Some SRunning else st d j).
  rewrite st_hset. reflexivity.
Qed.

Lemma Says_terminal d k g s t ttl err res i : superseded d k g = false -> let d' := fst (lua_terminal d k g s t ttl err res i) in
  d_pubs d' = d_pubs d ++ [(k, s)] /\ forall j, st d' j = (if String.eqb k j then if 0 <? ttl then Some s else None else st d j).
Proof.
  intros S. unfold lua_terminal. rewrite S. cbn [fst]. destruct (0 <? ttl) eqn:E.
  - split; [reflexivity|]. intros j. set (u := hset d k (rset_terminal s t err res)). change (st (expire_runs u k ttl) j = if String.eqb k j then Some s else st d j).
    unfold expire_runs. rewrite (proj2 (Quiet_hdel u k (rset_expire (Some (d_now u + ttl * 1000000))) ltac:(reflexivity)) j). unfold u. rewrite st_hset. reflexivity.
  - split; [reflexivity|]. intros j. set (u := hset d k (rset_terminal s t err res)). change (st (del_runs u k) j = if String.eqb k j then None else st d j).
    unfold del_runs, st, rget. cbn. unfold upd. rewrite (String.eqb_sym k j). destruct (String.eqb j k) eqn:Ej; reflexivity.
Qed.
Lemma stale_terminal d k g s t ttl err res i : superseded d k g = true -> let d' := fst (lua_terminal d k g s t ttl err res i) in
  d_pubs d' = d_pubs d ++ [(k, s)] /\ forall j, st d' j = st d j.
Proof. intros S. unfold lua_terminal. rewrite S. cbn [fst]. destruct (prog_mine _ _ _); split; reflexivity. Qed.

Lemma cancel_quiet d k t : let d' := lua_cancel d k t in d_pubs d' = d_pubs d /\
  st d' k = Some (match st d k with Some SCompleted => SCompleted | Some SFailed => SFailed | _ => SCancelled end) /\ forall j, j <> k -> st d' j = st d j.
Proof.
  unfold lua_cancel. cbv zeta. set (d1 := match _ with Some i => xdel d i | None => d end).
  assert (Q1 : Quiet d d1) by (unfold d1; match goal with |- context [match ?x with Some i => xdel _ i | None => _ end] => destruct x end; apply Quiet_same; reflexivity).
  set (d2 := hdel _ k rdel_known). assert (Q : Quiet d d2).
  { eapply Quiet_trans; [exact Q1|]. unfold d2. eapply Quiet_trans; [|apply Quiet_hdel; reflexivity]. apply Quiet_same; reflexivity. }
  destruct Q as [A B]. assert (H : r_state (rget d2 k) = st d k) by exact (B k). rewrite H.
  assert (X : d_pubs (hset d2 k (rset_cancelled t)) = d_pubs d /\ st (hset d2 k (rset_cancelled t)) k = Some SCancelled /\ forall j, j <> k -> st (hset d2 k (rset_cancelled t)) j = st d j).
  { split; [exact A|]. split; [rewrite st_hset, String.eqb_refl; reflexivity|]. intros j N. rewrite st_hset. destruct (String.eqb_spec k j); [congruence|apply B]. }
  destruct (st d k) as [[]|] eqn:E; try exact X; (split; [exact A|]; split; [rewrite B, E; reflexivity|intros j _; apply B]).
Qed.

(** ** The scheduler *)
Lemma Says_stream l : forall d, (forall k m, d_parked d k = Some m -> m_key m = k) -> let d' := fold_left stream_one l d in
  exists evs, Says d evs d' /\ NoDup (map fst evs) /\ (forall k, In k (map fst evs) -> is_some (d_parked d k) = true) /\
  (forall k, d_parked d' k = None \/ d_parked d' k = d_parked d k) .
Proof.
  induction l as [|k l IH]; intros d P; cbn [fold_left]; [exists ([] : list (key * state)); split; [apply Quiet_Says, Quiet_refl|split; [constructor|split; [intros k []|auto]]]|].
  unfold stream_one at 2 4 6. destruct (d_parked d k) as [m|] eqn:E; [|apply IH; exact P].
  assert (Ek := P k m E). rewrite Ek. cbn [xadd].
  set (d1 := publish _ _ _).
  assert (S1 : Says d [(k, SQueued)] d1).
  { unfold d1. eapply quiet_Says; [|apply Says_set; reflexivity]. apply Quiet_same; reflexivity. }
  assert (P1 : d_parked d1 = upd (d_parked d) k None) by reflexivity. clearbody d1.
  destruct (IH d1) as (evs & A & B & C & D). { intros j n. rewrite P1. unfold upd. destruct (String.eqb_spec j k); [discriminate|apply P]. }
  exists ((k, SQueued) :: evs). split; [change ((k, SQueued) :: evs) with ([(k, SQueued)] ++ evs); eapply Says_trans; eauto|]. split; [|split].
  - cbn. constructor; [|exact B]. intros I. apply C in I. rewrite P1, upd_eq in I. discriminate.
  - intros j [<-|I]; [cbn; now rewrite E|]. apply C in I. rewrite P1 in I. unfold upd in I. destruct (String.eqb_spec j k); [discriminate|exact I].
  - intros j. destruct (D j) as [H|H]; [auto|]. rewrite P1 in H. unfold upd in H. destruct (String.eqb_spec j k); auto.
Qed.

(** ** Waking waiters *)
Definition Most (d : db) (evs : list (key * state)) (d' : db) : Prop :=
  d_pubs d' = d_pubs d ++ evs /\ NoDup (map fst evs) /\ (forall k, In k (map fst evs) -> st d' k <> Some SScheduled) /\
  forall k, st d' k = told k evs (st d k) \/ (st d' k = None /\ exists k', k = safeguard_key k').

Lemma told_or k b x y : told k b x = told k b y \/ (told k b x = x /\ ~ In k (map fst b)).
Proof.
  revert x y. induction b as [|e b IH]; intros x y; [right; split; [reflexivity|intros []]|]. cbn [told map In].
  destruct (String.eqb_spec (fst e) k) as [E|E]; [left; reflexivity|]. destruct (IH x y) as [H|[H N]]; [auto|right; split; [exact H|]]. intros [F|F]; auto.
Qed.
Lemma told_notin k b x : ~ In k (map fst b) -> told k b x = x.
Proof. revert x. induction b as [|e b IH]; intros x H; [reflexivity|]. cbn in *. destruct (String.eqb_spec (fst e) k); [exfalso; auto|]. apply IH. auto. Qed.

Lemma Most_same d d' : d_pubs d' = d_pubs d -> d_runs d' = d_runs d -> Most d [] d'.
Proof. intros A B. split; [now rewrite app_nil_r|]. split; [constructor|]. split; [intros k []|]. intros k. left. unfold st, rget. now rewrite B. Qed.

Lemma safeguard_neq k : safeguard_key k <> k.
Proof. intros H. apply (f_equal String.length) in H. unfold safeguard_key in H. cbn in H. lia. Qed.

Lemma st_drop d k j : st (drop_safeguard d k) j = if String.eqb j (safeguard_key k) then None else st d j.
Proof. unfold drop_safeguard. generalize (safeguard_key k). intros g. unfold del_runs, st, rget. cbn. unfold upd. destruct (String.eqb j g); reflexivity. Qed.

Lemma Most_wake_one c d e : exists evs, Most d evs (wake_one c d e) /\ forall k, st (wake_one c d e) k = Some SScheduled -> st d k = Some SScheduled.
Proof.
  destruct e as [i m]. unfold wake_one. set (k := m_key m). assert (Q : forall d0, (forall j, st d0 j = st d j) -> d_pubs d0 = d_pubs d ->
    exists evs, Most d evs (drop_safeguard d0 k) /\ forall j, st (drop_safeguard d0 k) j = Some SScheduled -> st d j = Some SScheduled).
  { intros d0 H0 P0. exists []. split.
    - split; [cbn; now rewrite app_nil_r|]. split; [constructor|]. split; [intros j []|]. intros j. rewrite st_drop.
      destruct (String.eqb_spec j (safeguard_key k)); [right; eauto|left; apply H0].
    - intros j. rewrite st_drop. destruct (String.eqb j _); [discriminate|]. now rewrite H0. }
  destruct (r_state (rget d k)) as [[]|] eqn:E; try match goal with |- context [drop_safeguard (del_waiter c i d) k] => exact (Q (del_waiter c i d) ltac:(reflexivity) eq_refl) end.
  unfold hincr_gen, xadd. cbv zeta. exists [(k, SQueued)].
  set (d1 := hset (del_waiter c i _) k _).
  assert (H1 : d_pubs d1 = d_pubs d /\ forall j, st d1 j = if String.eqb k j then Some SQueued else st d j).
  { split; [reflexivity|]. intros j. unfold d1. rewrite st_hset. destruct (String.eqb k j) eqn:Ej; [reflexivity|].
    change (st (hset d k (rset_gen (default 0 (r_gen (rget d k)) + 1))) j = st d j). rewrite st_hset, Ej. reflexivity. }
  clearbody d1. destruct H1 as [H1 H2].
  assert (H3 : forall j, st (publish (drop_safeguard d1 k) k SQueued) j = if String.eqb j (safeguard_key k) then None else if String.eqb k j then Some SQueued else st d j).
  { intros j. change (st (publish (drop_safeguard d1 k) k SQueued) j) with (st (drop_safeguard d1 k) j). rewrite st_drop, H2. reflexivity. }
  split.
  - split; [cbn; now rewrite H1|]. split; [repeat constructor; auto|]. split.
    + intros j [<-|[]]. cbn [fst]. rewrite H3. destruct (String.eqb k (safeguard_key k)); [discriminate|]. rewrite String.eqb_refl. discriminate.
    + intros j. rewrite H3. cbn [told fst snd]. destruct (String.eqb_spec j (safeguard_key k)); [right; eauto|left; reflexivity].
  - intros j. rewrite H3. destruct (String.eqb j _); [discriminate|]. destruct (String.eqb k j); [discriminate|auto].
Qed.

Lemma Most_wake c l : forall d, exists evs, Most d evs (fold_left (wake_one c) l d) /\ (forall k, st (fold_left (wake_one c) l d) k = Some SScheduled -> st d k = Some SScheduled) /\
  forall k, In k (map fst evs) -> st d k = Some SScheduled.
Proof.
  induction l as [|e l IH]; intros d; cbn [fold_left].
  { exists []. split; [now apply Most_same|]. split; [auto|intros k []]. }
  destruct (Most_wake_one c d e) as (e1 & (A1 & A2 & A3 & A4) & A5).
  assert (A6 : forall k, In k (map fst e1) -> st d k = Some SScheduled).
  { clear - A1. destruct e as [i m]. unfold wake_one in A1. destruct (r_state (rget d (m_key m))) as [[]|] eqn:E;
      try (change (d_pubs d = d_pubs d ++ e1) in A1; rewrite <- (app_nil_r (d_pubs d)) in A1 at 1; apply app_inv_head in A1; subst e1; intros k []).
    unfold hincr_gen, xadd in A1. cbv zeta in A1. change (d_pubs d ++ [(m_key m, SQueued)] = d_pubs d ++ e1) in A1. apply app_inv_head in A1. subst e1. intros k [<-|[]]. exact E. }
  destruct (IH (wake_one c d e)) as (e2 & (B1 & B2 & B3 & B4) & B5 & B6).
  assert (N : forall k, In k (map fst e1) -> ~ In k (map fst e2)) by (intros k I J; exact (A3 k I (B6 k J))).
  exists (e1 ++ e2). split; [|split].
  - split; [rewrite B1, A1; now rewrite app_assoc|]. split; [|split].
    + rewrite map_app. clear - A2 B2 N. induction (map fst e1) as [|a l1 IH]; [exact B2|]. inversion A2; subst. cbn. constructor.
      * intros I. apply in_app_or in I as [I|I]; [contradiction|]. apply (N a); cbn; auto.
      * apply IH; [assumption|]. intros k I. apply N. cbn. auto.
    + intros k I. rewrite map_app in I. apply in_app_or in I as [I|I]; [|now apply B3]. intros F. apply B5 in F. exact (A3 k I F).
    + intros k. rewrite told_app. destruct (B4 k) as [H|H]; [|right; exact H]. destruct (A4 k) as [G|[G1 G2]]; [left; now rewrite H, G|].
      destruct (told_or k e2 (st (wake_one c d e) k) (told k e1 (st d k))) as [T|[T _]]; [left; now rewrite H, T|]. right. split; [now rewrite H, T|exact G2].
  - intros k H. now apply A5, B5.
  - intros k I. rewrite map_app in I. apply in_app_or in I as [I|I]; [now apply A6|]. now apply A5, B6.
Qed.

Lemma Most_wake' d c cap : exists evs, Most d evs (wake d c cap).
Proof. unfold wake. destruct (0 <? cap); [|exists []; now apply Most_same]. destruct (Most_wake c (firstn (Z.to_nat cap) (waiters d c)) d) as (evs & H & _). eauto. Qed.
Lemma Most_pre d d1 evs d' : d_pubs d1 = d_pubs d -> d_runs d1 = d_runs d -> Most d1 evs d' -> Most d evs d'.
Proof. intros A B (C & D & E & F). split; [congruence|]. split; [exact D|]. split; [exact E|]. intros k. destruct (F k) as [G|G]; [left|auto]. rewrite G. unfold st, rget. now rewrite B. Qed.
Lemma Most_release d c k mx stale : exists evs, Most d evs (lua_release d c k mx stale).
Proof.
  unfold lua_release. cbv zeta. set (d1 := match _ with [] => _ | _ => _ end). destruct (Most_wake' d1 c (mx - zcard (d_slots d1 c))) as [evs H].
  exists evs. eapply Most_pre; [| |exact H]; unfold d1; destruct (waiters _ c); reflexivity.
Qed.
Lemma Most_scavenge d c mx stale : exists evs, Most d evs (lua_scavenge d c mx stale).
Proof.
  unfold lua_scavenge. destruct (waiters d c); [exists []; now apply Most_same|]. destruct (Most_wake' (evict_stale d c stale) c (mx - zcard (d_slots (evict_stale d c stale) c))) as [evs H].
  exists evs. eapply Most_pre; [| |exact H]; reflexivity.
Qed.

(** ** One step *)
Lemma Quiet_clear_run ttl d k : 0 < ttl -> Quiet d (clear_run ttl d k).
Proof. intros H. unfold clear_run. destruct (0 <? ttl) eqn:E; [|lia]. unfold expire_runs. apply Quiet_hdel. reflexivity. Qed.
Lemma gone_or_quiet_run ttl d k : d_pubs (clear_run ttl d k) = d_pubs d /\ forall j, st (clear_run ttl d k) j = st d j \/ (st (clear_run ttl d k) j = None /\ ttl <= 0).
Proof.
  destruct (Z_lt_le_dec 0 ttl) as [H|H]; [destruct (Quiet_clear_run ttl d k H); auto|]. unfold clear_run. destruct (0 <? ttl) eqn:E; [lia|].
  split; [reflexivity|]. intros j. unfold del_runs, st, rget. cbn. unfold upd. destruct (String.eqb j k); auto.
Qed.
Definition Dropped (ttl : Z) (d d' : db) : Prop := d_pubs d' = d_pubs d /\ forall j, st d' j = st d j \/ (st d' j = None /\ ttl <= 0).
Lemma Dropped_trans ttl a b c : Dropped ttl a b -> Dropped ttl b c -> Dropped ttl a c.
Proof. intros [A B] [C D]. split; [congruence|]. intros j. destruct (D j) as [->|H]; [apply B|auto]. Qed.
Lemma Dropped_same ttl d d' : d_pubs d' = d_pubs d -> d_runs d' = d_runs d -> Dropped ttl d d'.
Proof. intros A B. split; [exact A|]. intros j. left. unfold st, rget. now rewrite B. Qed.
Lemma Dropped_fold ttl (f : db -> key -> db) l : (forall d k, Dropped ttl d (f d k)) -> forall d : db, Dropped ttl d (fold_left f l d).
Proof. intros H. induction l as [|k l IH]; intros d; [now apply Dropped_same|]. cbn. eapply Dropped_trans; [apply H|apply IH]. Qed.
Lemma Dropped_clear ttl d sn : Dropped ttl d (fst (clear_apply ttl d sn)).
Proof.
  unfold clear_apply. cbv zeta. cbn [fst]. eapply Dropped_trans; [|apply Dropped_fold; intros; apply gone_or_quiet_run].
  eapply Dropped_trans; [|apply Dropped_fold].
  - destruct (0 <? cs_count sn); apply Dropped_same; reflexivity.
  - intros e k. unfold clear_scheduled. eapply Dropped_trans; [|apply gone_or_quiet_run]. apply Dropped_same; reflexivity.
Qed.

Lemma tick_st d dt : d_pubs (tick d dt) = d_pubs d /\ forall j, st (tick d dt) j = st d j \/ (st (tick d dt) j = None /\ exists r e, d_runs d j = Some r /\ r_expire r = Some e).
Proof.
  split; [reflexivity|]. intros j. unfold st, rget, tick. cbn. destruct (d_runs d j) as [r|] eqn:E; [|auto].
  unfold expired. destruct (r_expire r) as [e|] eqn:Ex; [|auto]. destruct (e <=? _); [right; eauto|auto].
Qed.

Lemma step_tells c s o : GInv s -> exists evs, published s (fst (step c s o)) evs /\ NoDup (map fst evs) /\ forall k,
  state_of (fst (step c s o)) k = told k evs (state_of s k) \/
  (state_of (fst (step c s o)) k = None /\ may_drop c s o k) \/
  (exists t, o = OCancel k t /\ evs = []) \/
  (stale_report s o k /\ state_of (fst (step c s o)) k = state_of s k).
Proof.
  intros G.
  assert (Same : forall s', d_pubs (s_db s') = d_pubs (s_db s) -> (forall k, state_of s' k = state_of s k) -> exists evs, published s s' evs /\ NoDup (map fst evs) /\ forall k,
    state_of s' k = told k evs (state_of s k) \/ (state_of s' k = None /\ may_drop c s o k) \/ (exists t, o = OCancel k t /\ evs = []) \/ (stale_report s o k /\ state_of s' k = state_of s k)).
  { intros s' A B. exists []. split; [unfold published; now rewrite app_nil_r|]. split; [constructor|]. intros k. left. apply B. }
  assert (SaysS : forall s' evs, Says (s_db s) evs (s_db s') -> NoDup (map fst evs) -> exists evs, published s s' evs /\ NoDup (map fst evs) /\ forall k,
    state_of s' k = told k evs (state_of s k) \/ (state_of s' k = None /\ may_drop c s o k) \/ (exists t, o = OCancel k t /\ evs = []) \/ (stale_report s o k /\ state_of s' k = state_of s k)).
  { intros s' evs [A B] N. exists evs. split; [exact A|]. split; [exact N|]. intros k. left. apply B. }
  assert (QuietS : forall s', Quiet (s_db s) (s_db s') -> exists evs, published s s' evs /\ NoDup (map fst evs) /\ forall k,
    state_of s' k = told k evs (state_of s k) \/ (state_of s' k = None /\ may_drop c s o k) \/ (exists t, o = OCancel k t /\ evs = []) \/ (stale_report s o k /\ state_of s' k = state_of s k))
    by (intros s' [A B]; apply Same; auto).
  assert (N1 : forall k s0, NoDup (map fst [(k, s0) : key * state])) by (intros; repeat constructor; auto).
  destruct o; cbn [step].
  - (* tick *) destruct (0 <=? dt); [|apply QuietS, Quiet_refl]. destruct (tick_st (s_db s) dt) as [A B]. exists []. split; [unfold published; cbn; now rewrite app_nil_r|].
    split; [constructor|]. intros k. destruct (B k) as [H|[H1 H2]]; [left; exact H|right; left; split; [exact H1|exact H2]].
  - unfold do_schedule. destruct (Says_schedule (s_db s) (a_key a) (a_when a) (a_when a <=? t) false (call_msg a)) as (evs & A & B).
    destruct (lua_schedule _ _ _ _ _ _ _) as [d r]. now apply (SaysS _ evs).
  - unfold do_schedule. destruct (Says_schedule (s_db s) (a_key a) (a_when a) (a_when a <=? t) true (call_msg a)) as (evs & A & B).
    destruct (lua_schedule _ _ _ _ _ _ _) as [d r]. now apply (SaysS _ evs).
  - (* cancel *) destruct (cancel_quiet (s_db s) k t) as (A & B & C). exists []. split; [unfold published; cbn [fst set_db s_db]; now rewrite app_nil_r|]. split; [constructor|].
    intros j. destruct (string_dec j k) as [->|Nj]; [right; right; left; eauto|left; exact (C j Nj)].
  - destruct (gone_or_quiet_run (c_ttl c) (s_db s) k) as [A B]. exists []. split; [unfold published; cbn [fst set_db s_db]; now rewrite app_nil_r|]. split; [constructor|].
    intros j. destruct (B j) as [H|[H1 H2]]; [left; exact H|]. destruct (string_dec j k) as [->|Nj]; [right; left; split; [exact H1|split; auto]|].
    left. unfold state_of. cbn. unfold cancel_finish. destruct (0 <? c_ttl c) eqn:E; [lia|]. unfold del_runs, rget. cbn. unfold upd. destruct (String.eqb_spec j k); [contradiction|reflexivity].
  - apply QuietS, Quiet_refl.
  - apply QuietS, Quiet_refl.
  - destruct (ready_clear s _) as [sn|]; [|apply QuietS, Quiet_refl]. destruct (Dropped_clear (c_ttl c) (s_db s) sn) as [A B]. destruct (clear_apply _ _ _) as [d n]. cbn [fst] in *.
    exists []. split; [unfold published; cbn [s_db]; now rewrite app_nil_r|]. split; [constructor|]. intros j. destruct (B j) as [H|[H1 H2]]; [left; exact H|right; left; split; [exact H1|exact H2]].
  - unfold lua_stream_due. cbn [fst]. destruct G as [D _].
    destruct (Says_stream (map snd (zrangebyscore 0 t (d_queue (s_db s)))) (s_db s) (di_parked _ D)) as (evs & A & B & _).
    apply (SaysS _ evs); [|exact B]. eapply Says_same; [exact A| |]; cbn [fst set_db s_db]; destruct (0 <? _); reflexivity.
  - unfold read_group. destruct (next_new (s_db s)) as [[i m]|]; cbn [deliver fst]; apply QuietS; apply Quiet_same; reflexivity.
  - unfold autoclaim. destruct (find _ _) as [p|]; [|apply QuietS; apply Quiet_same; reflexivity]. destruct (claimable _ _ _); [|apply QuietS; apply Quiet_same; reflexivity].
    destruct (lookup_entry _ _); apply QuietS; apply Quiet_same; reflexivity.
  - apply QuietS; apply Quiet_same; reflexivity.
  - destruct (get_exec _ _) as [x|]; [|apply QuietS, Quiet_refl]. destruct (x_phase x); try apply QuietS, Quiet_refl.
    destruct (Says_claim (s_db s) (m_key (x_msg x)) (x_worker x) t (m_gen (x_msg x)) (x_mid x)) as (evs & A & B).
    destruct (lua_claim _ _ _ _ _ _) as [d []]; now apply (SaysS _ evs).
  - destruct (get_exec _ _) as [x|]; [|apply QuietS, Quiet_refl]. destruct (x_phase x); apply QuietS, Quiet_refl.
  - destruct (get_exec _ _) as [x|]; [|apply QuietS, Quiet_refl]. destruct (x_phase x); apply QuietS, Quiet_refl.
  - destruct (get_exec _ _) as [x|]; [|apply QuietS, Quiet_refl]. destruct (x_phase x); try apply QuietS, Quiet_refl.
    apply QuietS. cbn [fst set_execs s_db]. unfold delete_known. eapply Quiet_trans; [apply (Quiet_hdel (s_db s) (m_key (x_msg x)) rdel_known); reflexivity|apply Quiet_same; reflexivity].
  - (* terminal *) destruct (get_exec (s_execs s) h) as [x|] eqn:Gx; [|apply QuietS, Quiet_refl]. destruct (may_finish _ _); [|apply QuietS, Quiet_refl].
    set (k := m_key (x_msg x)). destruct (superseded (s_db s) k (m_gen (x_msg x))) eqn:S.
    + destruct (stale_terminal (s_db s) k (m_gen (x_msg x)) s0 t (c_ttl c) err res (x_mid x) S) as [A B].
      destruct (lua_terminal _ _ _ _ _ _ _ _ _) as [d r]. exists [(k, s0)]. split; [exact A|]. split; [apply N1|]. intros j. cbn [told fst snd].
      destruct (String.eqb_spec k j) as [<-|Nj]; [|left; apply B]. right; right; right. split; [|apply B]. exists h, s0, t, err, res, x. auto.
    + destruct (Says_terminal (s_db s) k (m_gen (x_msg x)) s0 t (c_ttl c) err res (x_mid x) S) as [A B].
      destruct (lua_terminal _ _ _ _ _ _ _ _ _) as [d r]. exists [(k, s0)]. split; [exact A|]. split; [apply N1|]. intros j. cbn [told fst snd]. specialize (B j). cbn [fst] in B.
      destruct (String.eqb_spec k j) as [Ej|Nj]; [|left; exact B]. destruct (0 <? c_ttl c) eqn:E; [left; exact B|]. right; left. split; [exact B|]. split; [lia|]. eauto.
  - destruct (get_exec (s_execs s) h) as [x|] eqn:Gx; [|apply QuietS, Quiet_refl]. destruct (may_resched _); [|apply QuietS, Quiet_refl].
    cbn [lua_schedule fst set_execs s_db]. eapply SaysS; [apply Says_resched|apply N1].
  - destruct (get_exec (s_execs s) h) as [x|] eqn:Gx; [|apply QuietS, Quiet_refl]. destruct (x_phase x); try apply QuietS, Quiet_refl. destruct (x_slot x); [apply QuietS, Quiet_refl|].
    assert (Pk : Says (s_db s) [(m_key (x_msg x), SScheduled)] (lua_park (s_db s) c0 (m_key (x_msg x)) (x_mid x) (x_msg x))).
    { unfold lua_park, hincr_gen. cbv zeta. apply Says_pub; [reflexivity|]. intros j. set (u := hset (set_next _ _) _ _).
      rewrite (proj2 (Quiet_hdel u (m_key (x_msg x)) rdel_sid ltac:(reflexivity)) j). unfold u. rewrite st_hset. destruct (String.eqb (m_key (x_msg x)) j) eqn:Ej; [reflexivity|].
      match goal with |- st (set_next (set_wait (hset ?a ?k ?f) _) _) _ = _ => change (st (hset a k f) j = st (s_db s) j) end. rewrite st_hset, Ej. reflexivity. }
    unfold lua_acquire_or_park. destruct (zscore _ _) as [st0|].
    + destruct (x_redel x && _); [apply QuietS; apply Quiet_same; reflexivity|eapply SaysS; [exact Pk|apply N1]].
    + destruct (_ <? maxc); [apply QuietS; apply Quiet_same; reflexivity|]. destruct (zrangebyscore _ _ _) as [|[z0 k0] l]; [eapply SaysS; [exact Pk|apply N1]|apply QuietS; apply Quiet_same; reflexivity].
  - destruct (get_exec (s_execs s) h) as [x|] eqn:Gx; [|apply QuietS, Quiet_refl]. destruct (x_slot x) as [[cc mx]|]; [|apply QuietS, Quiet_refl].
    assert (R : exists evs, published s (set_execs s (lua_release (s_db s) cc (m_key (x_msg x)) mx (t - c_redeliver c)) (upd_exec (s_execs s) h (fun x => with_slot None (unwind x)))) evs /\ NoDup (map fst evs) /\ forall k,
       state_of (set_execs s (lua_release (s_db s) cc (m_key (x_msg x)) mx (t - c_redeliver c)) (upd_exec (s_execs s) h (fun x => with_slot None (unwind x)))) k = told k evs (state_of s k) \/
       (state_of (set_execs s (lua_release (s_db s) cc (m_key (x_msg x)) mx (t - c_redeliver c)) (upd_exec (s_execs s) h (fun x => with_slot None (unwind x)))) k = None /\ may_drop c s (ORelease h t) k) \/
       (exists t0, ORelease h t = OCancel k t0 /\ evs = []) \/ (stale_report s (ORelease h t) k /\ state_of (set_execs s (lua_release (s_db s) cc (m_key (x_msg x)) mx (t - c_redeliver c)) (upd_exec (s_execs s) h (fun x => with_slot None (unwind x)))) k = state_of s k)).
    { destruct (Most_release (s_db s) cc (m_key (x_msg x)) mx (t - c_redeliver c)) as (evs & A & B & _ & D). exists evs. split; [exact A|]. split; [exact B|].
      intros k. destruct (D k) as [H|[H1 H2]]; [left; exact H|right; left; split; [exact H1|exact H2]]. }
    destruct (x_phase x); first [exact R|apply QuietS, Quiet_refl].
  - destruct (get_exec (s_execs s) h) as [x|] eqn:Gx; [|apply QuietS, Quiet_refl]. destruct (x_slot x) as [[cc mx]|]; [|apply QuietS, Quiet_refl]. apply QuietS; apply Quiet_same; reflexivity.
  - destruct (Most_scavenge (s_db s) c0 maxc (t - c_redeliver c)) as (evs & A & B & _ & D). exists evs. split; [exact A|]. split; [exact B|].
    intros k. destruct (D k) as [H|[H1 H2]]; [left; exact H|right; left; split; [exact H1|exact H2]].
  - unfold cancel_cleanup. destruct (own_place _ _ _ _); [|apply QuietS, Quiet_refl]. apply QuietS. cbn [fst set_db s_db].
    eapply Quiet_trans; [|apply (Quiet_hdel _ k rdel_waiter); reflexivity]. apply Quiet_same; reflexivity.
  - apply QuietS, Quiet_refl.
Qed.

Lemma cancel_untold c s k t : published s (fst (step c s (OCancel k t))) [] /\
  state_of (fst (step c s (OCancel k t))) k = Some (match state_of s k with Some SCompleted => SCompleted | Some SFailed => SFailed | _ => SCancelled end).
Proof. destruct (cancel_quiet (s_db s) k t) as (A & B & _). split; [unfold published; cbn [step fst set_db s_db]; now rewrite app_nil_r|exact B]. Qed.

Lemma history_told c k l : forall s, GInv s -> along c (tells_all c k) s l -> state_of s k = told k (d_pubs (s_db s)) None ->
  state_of (final c s l) k = told k (d_pubs (s_db (final c s l))) None.
Proof.
  induction l as [|o l IH]; intros s G H E; [exact E|]. destruct H as [(A & B & C) H]. rewrite final_cons. apply IH; auto; [now apply GInv_step|].
  destruct (step_tells c s o G) as (evs & P & _ & T). unfold published in P. rewrite P, told_app, <- E.
  destruct (T k) as [X|[[_ X]|[(t & X & _)|[X _]]]]; [exact X|contradiction|exfalso; exact (A t X)|contradiction].
Qed.
