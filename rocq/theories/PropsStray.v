(** C114: a released slot is free. *)
From Verif Require Import Base ZSet Model GInv KView KSim Spec KInv Check SpecConc ConcProofs ConcHist PropsHist Stray SpecStray StrayProofs SlotLoopProofs.

Lemma release_done c s h t x cc mx : get_exec (s_execs s) h = Some x -> x_slot x = Some (cc, mx) -> snd (step c s (ORelease h t)) = ODone ->
  fst (step c s (ORelease h t)) = set_execs s (lua_release (s_db s) cc (m_key (x_msg x)) mx (t - c_redeliver c)) (upd_exec (s_execs s) h (fun x => with_slot None (unwind x))).
Proof. intros G S. cbn [step]. rewrite G, S. now destruct (x_phase x). Qed.

(** Once the only holder for a task has released its slot while none of its renewals was on its
    way, no slot is taken for the task until it is given one again, whatever else happens.  Missing
    from the full statement: a renewal that was sent before the loop was cancelled (false, see below). *)
Theorem C114_released_partial c l1 l2 h t x cc mx :
  let s1 := arun c as_init l1 in
  let k := m_key (x_msg x) in
  get_exec (s_execs (as_sys s1)) h = Some x -> x_slot x = Some (cc, mx) ->
  snd (astep c s1 (ADo (ORelease h t))) = ODone ->
  ~ in_air cc k s1 ->
  (forall y, In y (holders cc (as_sys s1)) -> m_key (x_msg y) = k -> x_id y = h) ->
  a_never c (gives c cc k) (fst (astep c s1 (ADo (ORelease h t)))) l2 ->
  ~ slot_taken cc k (as_sys (arun c as_init (l1 ++ ADo (ORelease h t) :: l2))).
Proof.
  intros s1 k Gx Sx Eo Na Only Nv. rewrite arun_app. cbn [arun]. fold s1.
  assert (G : GInv (as_sys s1)) by (apply GInv_arun, GInv_init).
  apply AFree_run; [|exact Nv]. cbn [astep fst snd] in *.
  assert (G' : GInv (fst (step c (as_sys s1) (ORelease h t)))) by now apply GInv_step.
  pose proof (release_done c (as_sys s1) h t x cc mx Gx Sx Eo) as E. fold k in E.
  constructor; cbn [as_sys as_air]; [exact G'| | |exact Na]; rewrite E.
  - rewrite slot_taken_iff. cbn [set_execs s_db]. unfold lua_release. cbv zeta. rewrite slots_wake.
    set (d1 := set_slots _ _). assert (D1 : ~ In k (map snd (d_slots d1 cc))).
    { unfold d1. cbn [d_slots set_slots]. rewrite upd_eq. intros H. apply zrem_member in H. tauto. }
    destruct (waiters d1 cc); [exact D1|]. cbn [evict_stale d_slots set_slots]. rewrite upd_eq. intros H. apply evict_member in H. auto.
  - intros (y & Hy & Ky). apply holders_In in Hy as [Hy Hh]. cbn [set_execs s_execs] in Hy.
    unfold upd_exec in Hy. apply in_map_iff in Hy as (z & Ez & Hz). destruct (Z.eqb_spec (x_id z) h) as [Ei|Ei]; [subst y; discriminate Hh|].
    subst y. apply Ei, Only; [apply holders_In; auto|exact Ky].
Qed.
Print Assumptions C114_released_partial.

(** A slot that nobody renewed for the redelivery timeout does not keep a task out that has no slot. *)
Theorem C114_stale_given_up c s h x cc mx t st k0 :
  get_exec (s_execs s) h = Some x -> x_phase x = PClaimed -> x_slot x = None ->
  ~ slot_taken cc (m_key (x_msg x)) s -> In (st, k0) (d_slots (s_db s) cc) -> 0 <= st <= t - c_redeliver c ->
  snd (step c s (OAcquire h cc mx t)) = OAcquired true.
Proof.
  intros G P S N I B. cbn [step]. rewrite G, P, S. unfold lua_acquire_or_park.
  destruct (zscore (m_key (x_msg x)) (d_slots (s_db s) cc)) as [q|] eqn:E.
  { exfalso. apply N. exists q. now apply zscore_Some_In. }
  destruct (_ <? _); [reflexivity|]. destruct (zrangebyscore 0 (t - c_redeliver c) (d_slots (s_db s) cc)) as [|[? ?] ?] eqn:Er; [|reflexivity].
  exfalso. assert (X : In (st, k0) []) by (rewrite <- Er; apply zrangebyscore_In; auto). destruct X.
Qed.
Print Assumptions C114_stale_given_up.

(** "a" (limit 1) renews twice; the second renewal is on its way when its loop is cancelled. *)
Definition ex_air : list aop :=
  map ADo [OAdd (mkCall "a" 0 "f" "" "") 0; ORead "w1"; OClaim 0 1; OAcquire 0 "c" 1 1; OBodyStart 0; OTick 75000000] ++
  [ASend 0 75000000; AArrive 0; AExpire 0] ++ [ADo (OTick 75000000)].
Definition ex_air_end : list aop := map ADo [OBodyEnd 0; OTick 1000000].
Definition ex_next (k : key) (h : Z) : list aop := map ADo [OAdd (mkCall k 151000001 "f" "" "") 151000001; ORead "w1"; OClaim h 151000001].

Example C114_case :
  let l1 := ex_air ++ ex_air_end in
  let s1 := arun ex_cfg as_init l1 in
  (exists x, get_exec (s_execs (as_sys s1)) 0 = Some x /\ x_slot x = Some ("c"%string, 1) /\ m_key (x_msg x) = "a"%string) /\
  snd (astep ex_cfg s1 (ADo (ORelease 0 151000000))) = ODone /\ as_air s1 = [] /\ d_slots (s_db (as_sys s1)) "c" = [(75000000, "a"%string)] /\
  snd (astep ex_cfg (arun ex_cfg s1 (ADo (ORelease 0 151000000) :: ADo (OTerminal 0 SCompleted 151000000 None None) :: ex_next "b" 1)) (ADo (OAcquire 1 "c" 1 151000001))) = OAcquired true.
Proof.
  split; [eexists; split; [vm_compute; reflexivity|split; reflexivity]|]. split; [vm_compute; reflexivity|]. split; [vm_compute; reflexivity|].
  split; vm_compute; reflexivity.
Qed.

(** A renewal that is on its way when the slot is released takes the slot again: nobody holds
    it, nothing runs, and another task of the group, or the same task scheduled anew, is put to wait. *)
Theorem C114_stray_renewal_refuted :
  exists c l h t l2 cc k,
    let s1 := arun c as_init l in
    let s2 := arun c (fst (astep c s1 (ADo (ORelease h t)))) l2 in
    snd (astep c s1 (ADo (ORelease h t))) = ODone /\ a_never c (gives c cc k) (fst (astep c s1 (ADo (ORelease h t)))) l2 /\
    as_air s2 = [] /\ holders cc (as_sys s2) = [] /\ d_stream (s_db (as_sys s2)) = [] /\ slot_taken cc k (as_sys s2) /\
    snd (astep c (arun c s2 (ex_next "b" 1)) (ADo (OAcquire 1 cc 1 151000001))) = OAcquired false /\
    snd (astep c (arun c s2 (ex_next k 1)) (ADo (OAcquire 1 cc 5 151000001))) = OAcquired false.
Proof.
  exists ex_cfg, (ex_air ++ [ASend 0 150000000] ++ ex_air_end), 0, 151000000, [AArrive 0; ADo (OTerminal 0 SCompleted 151000000 None None)], "c"%string, "a"%string.
  cbv zeta. split; [vm_compute; reflexivity|]. split.
  { cbn [a_never]. split; [intros (h & mx & t & x & E & _); discriminate|]. split; [intros (h & mx & t & x & E & _); discriminate|exact Logic.I]. }
  split; [vm_compute; reflexivity|]. split; [vm_compute; reflexivity|]. split; [vm_compute; reflexivity|].
  split; [exists 150000000; vm_compute; now left|]. split; vm_compute; reflexivity.
Qed.
Print Assumptions C114_stray_renewal_refuted.

(** Nor does that slot end by itself: the set was made anew by the stray ZADD, and the EXPIRE
    that would have followed was not sent any more; however much time passes, it stays. *)
Theorem C114_no_expiry_refuted :
  exists c l h t l2 cc k, forall dts,
    let s1 := arun c as_init l in
    let s2 := arun c (fst (astep c s1 (ADo (ORelease h t)))) l2 in
    snd (astep c s1 (ADo (ORelease h t))) = ODone /\ as_air s2 = [] /\ holders cc (as_sys s2) = [] /\
    slot_taken cc k (as_sys (arun c s2 (map (fun dt => ADo (OTick dt)) dts))).
Proof.
  exists ex_cfg, (ex_air ++ [ASend 0 150000000] ++ ex_air_end), 0, 151000000, [AArrive 0; ADo (OTerminal 0 SCompleted 151000000 None None)], "c"%string, "a"%string.
  intros dts. cbv zeta. split; [vm_compute; reflexivity|]. split; [vm_compute; reflexivity|]. split; [vm_compute; reflexivity|].
  exists 150000000. rewrite no_expiry_ticks; [vm_compute; now left|vm_compute; reflexivity].
Qed.
Print Assumptions C114_no_expiry_refuted.

(** While the loop runs its renewals keep an expiry on the set, and without a holder it ends:
    a crashed worker's slot is gone after four redelivery timeouts. *)
Example C114_crashed_slot_ends :
  let s := arun ex_cfg as_init (ex_air ++ [ADo (OCrash "w1"); ADo (OTick 1125000000)]) in
  d_slots (s_db (as_sys s)) "c" = [] /\
  d_slots (s_db (as_sys (arun ex_cfg as_init (ex_air ++ [ADo (OCrash "w1"); ADo (OTick 1100000000)])))) "c" = [(75000000, "a"%string)].
Proof. split; vm_compute; reflexivity. Qed.
