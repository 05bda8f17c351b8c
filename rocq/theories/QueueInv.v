(** Every key on the future queue has its payload. *)
From Verif Require Import Base ZSet Model GInv.

Definition QP (d : db) : Prop := forall k, In k (map snd (d_queue d)) -> d_parked d k <> None.

Lemma QP_same d d' : d_queue d' = d_queue d -> d_parked d' = d_parked d -> QP d -> QP d'.
Proof. unfold QP. now intros -> ->. Qed.
Lemma QP_park d k w m : QP d -> QP (park_future d k w m).
Proof.
  intros H k' I. cbn in *. destruct (upd_spec (d_parked d) k k' (Some m)) as [[-> ->]|[N ->]]; [discriminate|]. apply H.
  rewrite in_map_iff in *. destruct I as (p & E & I). apply zadd_In in I as [->|[I _]]; [cbn in E; congruence|]. eauto.
Qed.
Lemma QP_unpark d k : QP d -> QP (unpark_future d k).
Proof.
  intros H k' I. cbn in *. rewrite in_map_iff in I. destruct I as (p & E & I). apply zrem_In in I as [I N].
  rewrite upd_neq by congruence. apply H. rewrite in_map_iff. eauto.
Qed.
Ltac qsame := eapply QP_same; [reflexivity|reflexivity|].
Lemma QP_hset d k f : QP d -> QP (hset d k f). Proof. now intros; qsame. Qed.
Lemma QP_hdel d k f : QP d -> QP (hdel d k f). Proof. now intros; qsame. Qed.
Lemma QP_xdel d i : QP d -> QP (xdel d i). Proof. now intros; qsame. Qed.
Lemma QP_xack d i : QP d -> QP (xack d i). Proof. now intros; qsame. Qed.

Lemma QP_place d k w imm cs m : QP d -> QP (place d k w imm cs m).
Proof.
  intros H. unfold place. destruct (hincr_gen d k) as [d1 g] eqn:E. assert (H1 : QP d1) by (unfold hincr_gen in E; injection E as <- _; qsame; exact H).
  destruct imm; [|destruct cs].
  - destruct (xadd d1 (with_gen m g)) as [d2 i] eqn:E2. unfold xadd in E2. injection E2 as <- _. qsame. exact H1.
  - apply QP_hdel, QP_hset, QP_park, H1.
  - apply QP_hset, QP_park, H1.
Qed.
Lemma QP_replace d k : QP d -> QP (lua_replace_existing d k).
Proof. intros H. unfold lua_replace_existing. eapply QP_same; [reflexivity|reflexivity|]. apply QP_unpark. destruct (match r_sid (rget d k) with Some i => Some i | None => d_lsid d k end); [apply QP_xdel|]; exact H. Qed.
Lemma QP_schedule d k w imm repl mid m : QP d -> QP (fst (lua_schedule d k w imm repl mid m)).
Proof.
  intros H. unfold lua_schedule. destruct mid as [i|].
  - unfold lua_reschedule. cbn [fst]. qsame. apply QP_place. qsame. exact H.
  - destruct (_ && _); [exact H|]. cbn [fst]. qsame. apply QP_place. destruct repl; [apply QP_replace|]; exact H.
Qed.
Lemma QP_claim d k w t g i : QP d -> QP (fst (lua_claim d k w t g i)).
Proof. intros H. unfold lua_claim. destruct (superseded d k g); qsame; exact H. Qed.
Lemma QP_terminal d k g st t ttl e r i : QP d -> QP (fst (lua_terminal d k g st t ttl e r i)).
Proof. intros H. unfold lua_terminal. destruct (superseded d k g); [destruct (prog_mine _ _ _)|destruct (0 <? ttl)]; qsame; exact H. Qed.
Lemma QP_cancel d k t : QP d -> QP (lua_cancel d k t).
Proof.
  intros H. unfold lua_cancel. set (d0 := match match r_sid (rget d k) with Some i => Some i | None => d_lsid d k end with Some i => xdel d i | None => d end).
  assert (H0 : QP d0) by (unfold d0; destruct (match r_sid (rget d k) with Some i => Some i | None => d_lsid d k end); [apply QP_xdel|]; exact H).
  set (d1 := hdel (del_prog (del_legacy (unpark_future d0 k) k) k) k rdel_known).
  assert (H1 : QP d1) by (pose proof (QP_unpark d0 k H0) as Q; revert Q; apply QP_same; reflexivity). clearbody d1.
  destruct (r_state (rget d1 k)) as [[]|]; try exact H1; apply QP_hset, H1.
Qed.
Lemma stream_one_queue d k : d_queue (stream_one d k) = d_queue d.
Proof. unfold stream_one. destruct (d_parked d k); reflexivity. Qed.
Lemma stream_one_parked d k k' : k' <> k -> d_parked (stream_one d k) k' = d_parked d k'.
Proof. intros N. unfold stream_one. destruct (d_parked d k); [|reflexivity]. cbn. now rewrite upd_neq by exact N. Qed.
Lemma stream_none d l : filter (fun k => is_some (d_parked d k)) l = [] -> fold_left stream_one l d = d.
Proof. induction l as [|k l IH]; cbn; [reflexivity|]. unfold stream_one. destruct (d_parked d k); cbn; [discriminate|exact IH]. Qed.
Lemma QP_due d t : znodup (d_queue d) -> QP d -> QP (fst (lua_stream_due d t)).
Proof.
  intros Nd H. unfold lua_stream_due. set (due := map snd (zrangebyscore 0 t (d_queue d))). cbn [fst].
  assert (Fq : forall l d0, d_queue (fold_left stream_one l d0) = d_queue d0) by (induction l as [|k l IH]; intros d0; cbn; [reflexivity|]; now rewrite IH, stream_one_queue).
  assert (Fp : forall l d0 k, ~ In k l -> d_parked (fold_left stream_one l d0) k = d_parked d0 k).
  { induction l as [|k l IH]; intros d0 k' N; cbn in *; [reflexivity|]. rewrite IH by tauto. apply stream_one_parked. intros ->. tauto. }
  destruct (filter (fun k => is_some (d_parked d k)) due) as [|k0 rest] eqn:E.
  - cbn. rewrite stream_none by exact E. exact H.
  - replace (0 <? _) with true by (cbn; lia). intros k I. cbn in *. rewrite Fq in I. rewrite in_map_iff in I. destruct I as (p & <- & I). apply zremrangebyscore_In in I as [I N].
    rewrite Fp; [apply H, in_map, I|]. unfold due. rewrite in_map_iff. intros (q & Eq & Iq). apply zrangebyscore_In in Iq as [Iq Rq].
    assert (p = q); [|subst; tauto]. destruct p as [a ka], q as [b kb]. cbn in Eq. subst kb.
    apply (zscore_In ka _ a Nd) in I. apply (zscore_In ka _ b Nd) in Iq. congruence.
Qed.
Lemma QP_lua_park d c k i m : QP d -> QP (lua_park d c k i m).
Proof. intros H. unfold lua_park, hincr_gen. qsame. exact H. Qed.
Lemma QP_acquire d c mx k t rd st ttl i m : QP d -> QP (fst (lua_acquire_or_park d c mx k t rd st ttl i m)).
Proof.
  intros H. unfold lua_acquire_or_park. destruct (zscore k (d_slots d c)).
  - destruct (_ && _); cbn [fst]; [qsame; exact H|now apply QP_lua_park].
  - destruct (_ <? _); [qsame; exact H|]. destruct (zrangebyscore _ _ _) as [|[? ?] ?]; cbn [fst]; [now apply QP_lua_park|qsame; exact H].
Qed.
Lemma QP_drop d k : QP d -> QP (drop_safeguard d k).
Proof. intros H. unfold drop_safeguard. qsame. now apply QP_unpark. Qed.
Lemma QP_wake d c cap : QP d -> QP (wake d c cap).
Proof.
  intros H. unfold wake. destruct (0 <? cap); [|exact H]. generalize (firstn (Z.to_nat cap) (waiters d c)). intros l. revert d H.
  induction l as [|[i m] l IH]; intros d H; [exact H|]. cbn [fold_left]. apply IH. unfold wake_one.
  assert (O : QP (drop_safeguard (del_waiter c i d) (m_key m))) by (apply QP_drop; revert H; apply QP_same; reflexivity).
  cbv zeta. destruct (r_state (rget d (m_key m))) as [[]|]; lazymatch goal with |- QP (drop_safeguard _ _) => exact O | _ => idtac end.
  destruct (hincr_gen d (m_key m)) as [d1 g] eqn:E1. assert (H1 : QP d1) by (unfold hincr_gen in E1; injection E1 as <- _; revert H; apply QP_same; reflexivity).
  destruct (xadd d1 (with_gen m g)) as [d2 j] eqn:E2. assert (H2 : QP d2) by (unfold xadd in E2; injection E2 as <- _; revert H1; apply QP_same; reflexivity).
  assert (H3 : QP (hset (del_waiter c i d2) (m_key m) (rset_woken j))) by (revert H2; apply QP_same; reflexivity).
  pose proof (QP_drop _ (m_key m) H3) as H4. revert H4. apply QP_same; reflexivity.
Qed.
Lemma QP_clear ttl d sn : QP d -> QP (fst (clear_apply ttl d sn)).
Proof.
  intros _. unfold clear_apply. cbn [fst].
  assert (A : forall l d0, d_queue d0 = [] -> d_queue (fold_left (clear_scheduled ttl) l d0) = []).
  { induction l as [|k l IH]; intros d0 E; [exact E|]. cbn [fold_left]. apply IH. unfold clear_scheduled, clear_run. destruct (0 <? ttl); exact E. }
  assert (B : forall l d0, d_queue d0 = [] -> d_queue (fold_left (clear_run ttl) l d0) = []).
  { induction l as [|k l IH]; intros d0 E; [exact E|]. cbn [fold_left]. apply IH. unfold clear_run. destruct (0 <? ttl); exact E. }
  intros k. rewrite B; [intros []|]. apply A. reflexivity.
Qed.

Lemma QP_step c s o : GInv s -> QP (s_db s) -> QP (s_db (fst (step c s o))).
Proof.
  intros G H. destruct o; cbn [step].
  - destruct (0 <=? dt); [qsame|]; exact H.
  - unfold do_schedule. pose proof (QP_schedule (s_db s) (a_key a) (a_when a) (a_when a <=? t) false None (call_msg a) H) as Q. destruct (lua_schedule _ _ _ _ _ _ _). exact Q.
  - unfold do_schedule. pose proof (QP_schedule (s_db s) (a_key a) (a_when a) (a_when a <=? t) true None (call_msg a) H) as Q. destruct (lua_schedule _ _ _ _ _ _ _). exact Q.
  - now apply QP_cancel.
  - cbn. unfold cancel_finish. destruct (0 <? c_ttl c); qsame; exact H.
  - exact H.
  - exact H.
  - destruct (ready_clear s _); [|exact H]. pose proof (QP_clear (c_ttl c) (s_db s) c0 H) as Q. destruct (clear_apply _ _ _). exact Q.
  - pose proof (QP_due (s_db s) t (di_queue _ (proj1 G)) H) as Q. destruct (lua_stream_due _ _) as [d [a b]]. exact Q.
  - unfold deliver, read_group. destruct (next_new _) as [[i m]|]; cbn; [qsame|]; exact H.
  - unfold deliver, autoclaim. destruct (find (fun p => pe_id p =? i) (d_pel (s_db s))); [|exact H]. destruct (claimable _ _ _); [|exact H].
    destruct (lookup_entry i (d_stream (s_db s))); cbn; qsame; exact H.
  - qsame; exact H.
  - destruct (get_exec (s_execs s) h) as [x|]; [|exact H]. destruct (x_phase x); try exact H.
    pose proof (QP_claim (s_db s) (m_key (x_msg x)) (x_worker x) t (m_gen (x_msg x)) (x_mid x) H) as Q. destruct (lua_claim _ _ _ _ _ _) as [d []]; exact Q.
  - destruct (get_exec (s_execs s) h) as [x|]; [|exact H]. destruct (x_phase x); exact H.
  - destruct (get_exec (s_execs s) h) as [x|]; [|exact H]. destruct (x_phase x); exact H.
  - destruct (get_exec (s_execs s) h) as [x|]; [|exact H]. destruct (x_phase x); exact H.
  - destruct (get_exec (s_execs s) h) as [x|]; [|exact H]. destruct (may_finish _ _); [|exact H].
    match goal with |- context [lua_terminal ?a ?b ?c ?d ?e ?f ?g ?h ?i] => pose proof (QP_terminal a b c d e f g h i H) as Q; destruct (lua_terminal a b c d e f g h i) end. exact Q.
  - destruct (get_exec (s_execs s) h) as [x|]; [|exact H]. destruct (may_resched _); [|exact H]. cbv zeta.
    pose proof (QP_schedule (s_db s) (m_key (resched_msg (x_msg x) when bump)) when (when <=? t) bump (Some (x_mid x)) (resched_msg (x_msg x) when bump) H) as Q. destruct (lua_schedule _ _ _ _ _ _ _). exact Q.
  - destruct (get_exec (s_execs s) h) as [x|]; [|exact H]. destruct (x_phase x); try exact H. destruct (x_slot x); [exact H|].
    match goal with |- context [lua_acquire_or_park ?a ?b ?c ?d ?e ?f ?g ?h ?i ?j] => pose proof (QP_acquire a b c d e f g h i j H) as Q; destruct (lua_acquire_or_park a b c d e f g h i j) end. exact Q.
  - destruct (get_exec (s_execs s) h) as [x|]; [|exact H]. destruct (x_slot x) as [[cc mx]|]; [|exact H].
    assert (Q : QP (lua_release (s_db s) cc (m_key (x_msg x)) mx (t - c_redeliver c))).
    { unfold lua_release. cbv zeta. apply QP_wake. destruct (waiters _ _); qsame; exact H. }
    destruct (x_phase x); try exact H; exact Q.
  - destruct (get_exec (s_execs s) h) as [x|]; [|exact H]. destruct (x_slot x) as [[cc mx]|]; [|exact H]. cbn. qsame. exact H.
  - cbn. unfold lua_scavenge. cbv zeta. destruct (waiters _ _); [exact H|]. apply QP_wake. qsame. exact H.
  - cbn. unfold cancel_cleanup. destruct (own_place _ _ _ _); exact H.
  - exact H.
Qed.
Lemma QP_reachable c s : reachable c s -> QP (s_db s).
Proof.
  intros [l ->]. assert (K : forall l s, GInv s -> QP (s_db s) -> QP (s_db (final c s l))).
  { clear l. induction l as [|o l IH]; intros s G H; [exact H|]. rewrite final_cons. apply IH; [now apply GInv_step|now apply QP_step]. }
  apply K; [apply (reachable_GInv c); exists []; reflexivity|]. intros k [].
Qed.
