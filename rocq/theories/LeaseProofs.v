(** Proofs about leases. *)
From Verif Require Import Base ZSet Model GInv Spec KSim RecoverProofs Lease Steps Steps2 Steps3.

(** Only ticks move the clock. *)
Lemma now_same c s o : (forall dt, o <> OTick dt) -> d_now (s_db (fst (step c s o))) = d_now (s_db s).
Proof.
  intros N.
  assert (W1 : forall cc d e, d_now (wake_one cc d e) = d_now d).
  { intros cc d [wid m]. unfold wake_one. destruct (r_state _) as [[]|]; reflexivity. }
  assert (W : forall d cc cap, d_now (wake d cc cap) = d_now d).
  { intros d cc cap. unfold wake. destruct (0 <? cap); [|reflexivity]. generalize (firstn (Z.to_nat cap) (waiters d cc)). intros l. revert d.
    induction l as [|e l IH]; intros d; simpl; [reflexivity|]. now rewrite IH, W1. }
  assert (P : forall d k w imm clr m, d_now (place d k w imm clr m) = d_now d).
  { intros. unfold place, hincr_gen. destruct imm; [reflexivity|]. destruct clr; reflexivity. }
  assert (R : forall d k, d_now (lua_replace_existing d k) = d_now d).
  { intros. unfold lua_replace_existing. destruct (match r_sid _ with Some _ => _ | None => _ end); reflexivity. }
  destruct o; cbn [step].
  - destruct (N dt eq_refl).
  - unfold do_schedule, lua_schedule. destruct (negb false && lua_exists _ _); cbn [fst set_db s_db publish set_pubs d_now]; rewrite ?P; lia.
  - unfold do_schedule, lua_schedule. cbn [negb andb]. cbn [fst set_db s_db publish set_pubs d_now]. rewrite ?P, ?R; lia.
  - cbn. destruct (cancel_rest (s_db s) k t) as [E _]. cbv zeta in E. rewrite E. lia.
  - cbn. unfold cancel_finish. destruct (0 <? c_ttl c); cbn; lia.
  - cbn; lia.
  - cbn; lia.
  - destruct (ready_clear s _) as [sn|]; [|cbn; lia]. cbn.
    assert (F1 : forall l d, d_now (fold_left (clear_run (c_ttl c)) l d) = d_now d).
    { induction l as [|k l IH]; intros d; simpl; [reflexivity|]. rewrite IH. unfold clear_run. destruct (0 <? c_ttl c); reflexivity. }
    assert (F2 : forall l d, d_now (fold_left (clear_scheduled (c_ttl c)) l d) = d_now d).
    { induction l as [|k l IH]; intros d; simpl; [reflexivity|]. rewrite IH. unfold clear_scheduled, clear_run. destruct (0 <? c_ttl c); reflexivity. }
    rewrite F1, F2. destruct (0 <? cs_count sn); cbn; lia.
  - assert (F : forall l d, d_now (fold_left stream_one l d) = d_now d).
    { induction l as [|k l IH]; intros d; simpl; [reflexivity|]. rewrite IH. unfold stream_one. destruct (d_parked d k); reflexivity. }
    unfold lua_stream_due. cbn. destruct (0 <? Z.of_nat _); cbn; rewrite F; lia.
  - unfold read_group. destruct (next_new (s_db s)) as [[i m]|]; cbn; lia.
  - unfold autoclaim. destruct (find _ _); [|cbn; lia]. destruct (claimable _ _ _); [|cbn; lia]. destruct (lookup_entry _ _); cbn; lia.
  - cbn; lia.
  - destruct (get_exec _ _) as [x|]; [|cbn; lia]. destruct (x_phase x); try (cbn; lia). unfold lua_claim. destruct (superseded _ _ _); cbn; lia.
  - destruct (get_exec _ _) as [x|]; [|cbn; lia]. destruct (x_phase x); cbn; lia.
  - destruct (get_exec _ _) as [x|]; [|cbn; lia]. destruct (x_phase x); cbn; lia.
  - destruct (get_exec _ _) as [x|]; [|cbn; lia]. destruct (x_phase x); cbn; lia.
  - destruct (get_exec _ _) as [x|]; [|cbn; lia]. destruct (may_finish _ _); [|cbn; lia]. unfold lua_terminal.
    destruct (superseded _ _ _); cbv zeta; cbn [fst].
    + destruct (prog_mine _ _ _); cbn; lia.
    + destruct (0 <? c_ttl c); cbn; lia.
  - destruct (get_exec _ _) as [x|]; [|cbn; lia]. destruct (may_resched _); [|cbn; lia]. cbn [lua_schedule fst]. unfold lua_reschedule. cbn [fst set_execs s_db publish set_pubs d_now hdel set_runs]. rewrite P. cbn. lia.
  - destruct (get_exec _ _) as [x|]; [|cbn; lia]. destruct (x_phase x); try (cbn; lia). destruct (x_slot x); try (cbn; lia).
    unfold lua_acquire_or_park. destruct (zscore _ _); [destruct (x_redel x && _); cbn; lia|].
    destruct (zcard _ <? maxc); [cbn; lia|]. destruct (zrangebyscore _ _ _) as [|[]]; cbn; lia.
  - destruct (get_exec _ _) as [x|]; [|cbn; lia]. destruct (x_slot x) as [[cc mx]|]; [|cbn; lia].
    unfold lua_release. destruct (x_phase x); cbn [fst set_execs s_db]; rewrite ?W; try lia;
      match goal with |- context [match ?w with [] => _ | _ => _ end] => destruct w end; cbn; lia.
  - destruct (get_exec _ _) as [x|]; [|cbn; lia]. destruct (x_slot x) as [[cc mx]|]; cbn; lia.
  - unfold lua_scavenge. cbn. destruct (waiters _ _); [lia|]. rewrite W. cbn. lia.
  - cbn. unfold cancel_cleanup. destruct (own_place _ _ _ _); [|lia]. cbn. lia.
  - cbn; lia.
Qed.

(** Where executions come from. *)
Lemma exec_origin c s o x' : GInv s -> In x' (s_execs (fst (step c s o))) ->
  (exists x, In x (s_execs s) /\ x_worker x' = x_worker x /\ x_mid x' = x_mid x /\ (x_phase x = PDone -> x_phase x' = PDone)) \/
  ((o = ORead (x_worker x') \/ o = OAutoclaim (x_worker x') (x_mid x')) /\
   forall p, In p (d_pel (s_db (fst (step c s o)))) -> pe_id p = x_mid x' -> pe_time p = d_now (s_db s)).
Proof.
  intros [D X]. set (T := exists x, _).
  assert (R : In x' (s_execs s) -> T) by (intros H; exists x'; repeat split; auto).
  assert (U : forall h z f, get_exec (s_execs s) h = Some z ->
    (x_worker (f z) = x_worker z /\ x_mid (f z) = x_mid z /\ (x_phase z = PDone -> x_phase (f z) = PDone)) ->
    In x' (upd_exec (s_execs s) h f) -> T).
  { intros h z f Gz H1 H. destruct (get_exec_spec _ _ _ Gz) as [Hz Hid]. apply upd_exec_In in H. destruct H as (y & Hy & [->|[Eh ->]]); [auto|].
    assert (y = z) by (eapply execs_inj; eauto; congruence). subst y. exists z. tauto. }
  assert (W : forall z p, x_worker (with_phase p z) = x_worker z /\ x_mid (with_phase p z) = x_mid z) by (split; reflexivity).
  destruct o; cbn [step].
  - destruct (0 <=? dt); cbn; auto.
  - destruct (do_schedule _ _ _ _); cbn; auto.
  - destruct (do_schedule _ _ _ _); cbn; auto.
  - cbn; auto.
  - cbn; auto.
  - cbn; auto.
  - cbn; auto.
  - destruct (ready_clear s _); [destruct (clear_apply _ _ _)|]; cbn; auto.
  - destruct (lua_stream_due _ _) as [? [? ?]]; cbn; auto.
  - unfold deliver, read_group. destruct (next_new (s_db s)) as [[i m]|] eqn:E; cbn; [|auto].
    intros H. apply in_app_or in H as [H|[<-|[]]]; [auto|]. right. cbn. split; [auto|]. intros p H E'. apply in_app_or in H as [H|[<-|[]]]; [|reflexivity].
    apply next_new_spec in E as [_ E]. pose proof (di_pel _ D _ (in_map pe_id _ _ H)). lia.
  - unfold deliver, autoclaim. destruct (find (fun p => pe_id p =? i) _) as [q|]; cbn; [|auto]. destruct (claimable _ _ _); cbn; [|auto].
    destruct (lookup_entry _ _) as [m|]; cbn; [|auto].
    intros H. apply in_app_or in H as [H|[<-|[]]]; [auto|]. right. cbn. split; [auto|]. intros p H E'. apply in_map_iff in H as (q' & Q1 & Q2).
    destruct (Z.eqb_spec (pe_id q') i) as [Ei|Ei]; subst p; [reflexivity|contradiction].
  - cbn; auto.
  - destruct (get_exec (s_execs s) h) as [z|] eqn:Gz; [|cbn; auto]. destruct (x_phase z) eqn:Pz; try (cbn; now auto).
    destruct (lua_claim _ _ _ _ _ _) as [d []]; cbn; intros H; left; eapply U; eauto; rewrite Pz; repeat split; discriminate.
  - destruct (get_exec (s_execs s) h) as [z|] eqn:Gz; [|cbn; auto]. destruct (x_phase z) eqn:Pz; try (cbn; now auto).
    cbn; intros H; left; eapply U; eauto; rewrite Pz; repeat split; discriminate.
  - destruct (get_exec (s_execs s) h) as [z|] eqn:Gz; [|cbn; auto]. destruct (x_phase z) eqn:Pz; try (cbn; now auto).
    cbn; intros H; left; eapply U; eauto; rewrite Pz; repeat split; discriminate.
  - destruct (get_exec (s_execs s) h) as [z|] eqn:Gz; [|cbn; auto]. destruct (x_phase z) eqn:Pz; try (cbn; now auto).
    cbn; intros H; left; eapply U; eauto; rewrite Pz; repeat split; discriminate.
  - destruct (get_exec (s_execs s) h) as [z|] eqn:Gz; [|cbn; auto]. destruct (may_finish _ _); [|cbn; auto]. destruct (lua_terminal _ _ _ _ _ _ _ _ _).
    cbn; intros H; left; eapply U; eauto; repeat split.
  - destruct (get_exec (s_execs s) h) as [z|] eqn:Gz; [|cbn; auto]. destruct (may_resched _); [|cbn; auto].
    cbv zeta. destruct (lua_schedule _ _ _ _ _ _ _). cbn; intros H; left; eapply U; eauto; repeat split.
  - destruct (get_exec (s_execs s) h) as [z|] eqn:Gz; [|cbn; auto]. destruct (x_phase z) eqn:Pz; try (cbn; now auto). destruct (x_slot z); [cbn; now auto|].
    destruct (lua_acquire_or_park _ _ _ _ _ _ _ _ _ _) as [d []]; cbn; intros H; left; eapply U; eauto; rewrite ?Pz; repeat split; discriminate.
  - destruct (get_exec (s_execs s) h) as [z|] eqn:Gz; [|cbn; auto]. destruct (x_slot z) as [[cc mx]|]; [|cbn; now auto].
    assert (Q : x_worker (with_slot None (unwind z)) = x_worker z /\ x_mid (with_slot None (unwind z)) = x_mid z /\ (x_phase z = PDone -> x_phase (with_slot None (unwind z)) = PDone)).
    { unfold unwind. destruct (x_phase z) eqn:Pz; repeat split; cbn; auto; congruence. }
    pose proof (U h z (fun x => with_slot None (unwind x)) Gz Q) as U'. destruct (x_phase z); cbn; auto.
  - destruct (get_exec (s_execs s) h) as [z|] eqn:Gz; [|cbn; auto]. destruct (x_slot z) as [[cc mx]|]; cbn; auto.
  - cbn; auto.
  - cbn; auto.
  - cbn. intros H. apply filter_In in H as [H _]. auto.
Qed.

Lemma get_timer_In l w t : get_timer l w = Some t -> In t l /\ tm_worker t = w.
Proof. intros H. apply find_some in H as [H E]. apply String.eqb_eq in E. auto. Qed.

(** A delivery needs an idle pending entry or a new message. *)
Lemma delivers_only c s o h i m : snd (step c s o) = ODelivered h i m ->
  (exists w, o = ORead w /\ d_last (s_db s) < i) \/
  (exists w p, o = OAutoclaim w i /\ In p (d_pel (s_db s)) /\ pe_id p = i /\ c_redeliver c <= d_now (s_db s) - pe_time p).
Proof.
  destruct o; cbn [step]; try discriminate;
  try (repeat match goal with
    | |- context [get_exec (s_execs s) ?h] => destruct (get_exec (s_execs s) h) as [z|]
    | |- context [do_schedule ?a ?b ?c ?d] => destruct (do_schedule a b c d)
    | |- context [clear_apply ?a ?b ?c] => destruct (clear_apply a b c)
    | |- context [match ready_clear s _ with _ => _ end] => destruct (ready_clear s _)
    | |- context [lua_stream_due ?a ?b] => destruct (lua_stream_due a b) as [? [? ?]]
    | |- context [lua_claim ?a ?b ?c ?d ?e ?f] => destruct (lua_claim a b c d e f) as [? []]
    | |- context [lua_terminal ?a ?b ?c ?d ?e ?f ?g ?h ?i] => destruct (lua_terminal a b c d e f g h i)
    | |- context [lua_schedule ?a ?b ?c ?d ?e ?f ?g] => destruct (lua_schedule a b c d e f g)
    | |- context [lua_acquire_or_park ?a ?b ?c ?d ?e ?f ?g ?h ?i ?j] => destruct (lua_acquire_or_park a b c d e f g h i j)
    | |- context [match x_phase ?z with _ => _ end] => destruct (x_phase z)
    | |- context [match x_slot ?z with _ => _ end] => destruct (x_slot z) as [[? ?]|]
    | |- context [if ?b then _ else _] => destruct b
    end; discriminate).
  - unfold deliver, read_group. destruct (next_new (s_db s)) as [[j q]|] eqn:E; cbn; [|discriminate]. intros [= _ -> _]. left. apply next_new_spec in E as [_ E]. eauto.
  - unfold deliver, autoclaim. destruct (find _ _) as [p|] eqn:F; cbn; [|discriminate]. destruct (claimable _ _ _) eqn:L; cbn; [|discriminate].
    destruct (lookup_entry _ _) eqn:E; cbn; [|discriminate]. intros [= _ -> _]. right. apply find_some in F as [F1 F2]. exists w, p. apply Z.eqb_eq in F2. rewrite <- F2 in E. pose proof (claimable_inv _ _ _ _ L E). repeat split; auto; lia.
Qed.

(** The invariant of a timer. *)
Definition fresh (lt : ltimes) (s : lsys) (t : timer) : Prop :=
  let now := d_now (s_db (ls_sys s)) in
  0 <= tm_fails t /\ tm_due t <= now + lt_every lt /\ now <= tm_due t + lt_late lt /\
  forall x p, In x (s_execs (ls_sys s)) -> x_worker x = tm_worker t -> x_phase x <> PDone ->
    In p (d_pel (s_db (ls_sys s))) -> pe_id p = x_mid x ->
    tm_due t <= pe_time p + (tm_fails t + 1) * lt_every lt + tm_fails t * lt_late lt.
Record LeInv (lt : ltimes) (s : lsys) : Prop := mkLeInv {
  le_g : GInv (ls_sys s);
  le_t : forall t, In t (ls_timers s) -> fresh lt s t }.

Section Step.
Variables (c : cfg) (lt : ltimes).
Hypotheses (E0 : 0 <= lt_every lt) (L0 : 0 <= lt_late lt).

(** A step of the docket that is neither a renewal nor a delivery to a stranger. *)
Lemma fresh_do s o s' t : LeInv lt s -> In t (ls_timers s) -> s' = fst (step c (ls_sys s) o) ->
  d_now (s_db s') <= tm_due t + lt_late lt -> forall ts, fresh lt (mkLS s' ts) t.
Proof.
  intros [G H] Ht -> Late ts. destruct (H t Ht) as (A & B & C & P). unfold fresh. cbn [ls_sys]. pose proof (now_step c (ls_sys s) o) as Nw.
  split; [exact A|]. split; [lia|]. split; [exact Late|]. intros x p Hx W Ph Hp Ep.
  assert (A2 : 0 <= tm_fails t * lt_every lt) by nia. assert (A3 : 0 <= tm_fails t * lt_late lt) by nia.
  destruct (exec_origin c _ o x G Hx) as [(y & Y1 & Y2 & Y3 & Y4)|[Y1 Y2]].
  - apply pel_step in Hp as [Hp|Hp]; [|lia]. apply (P y p); auto; congruence.
  - rewrite (Y2 p Hp Ep). lia.
Qed.

Lemma LeInv_step s o : LeInv lt s -> LeInv lt (fst (kstep c lt s o)).
Proof.
  intros I. pose proof I as [G H]. set (now := d_now (s_db (ls_sys s))).
  assert (Do : forall o ts, (forall t, In t ts -> In t (ls_timers s)) -> (forall t, In t ts -> d_now (s_db (fst (step c (ls_sys s) o))) <= tm_due t + lt_late lt) ->
    LeInv lt (fst (kdo c s o ts))).
  { intros o' ts S Late. unfold kdo. destruct (step c (ls_sys s) o') as [s' r] eqn:E. cbn. constructor; cbn.
    - replace s' with (fst (step c (ls_sys s) o')) by now rewrite E. now apply GInv_step.
    - intros t Ht. apply (fresh_do s o'); [exact I|auto|now rewrite E|]. exact (Late t Ht). }
  assert (Do' : forall o, (forall dt, o <> OTick dt) -> LeInv lt (fst (kdo c s o (ls_timers s)))).
  { intros o' N. apply Do; [auto|]. intros t Ht. destruct (H t Ht) as (_ & _ & B & _). rewrite (now_same c (ls_sys s) o' N). exact B. }
  destruct o as [w|w ok|w|o]; cbn [kstep].
  - destruct (existsb _ _ || busy _ _) eqn:E; [exact I|]. apply orb_false_iff in E as [_ E]. constructor; cbn; [exact G|]. intros t Ht.
    apply in_app_or in Ht as [Ht|[<-|[]]]; [exact (H t Ht)|]. unfold fresh. cbn -[Z.mul Z.add]. repeat split; try lia.
    intros x p Hx W Ph. exfalso. assert (busy (ls_sys s) w = true); [|congruence]. unfold busy. apply existsb_exists. exists x. split; [exact Hx|].
    rewrite W, String.eqb_refl. destruct (x_phase x); reflexivity || congruence.
  - destruct (get_timer (ls_timers s) w) as [t0|] eqn:F; [|exact I]. destruct (_ <? _) eqn:Due; [exact I|]. apply get_timer_In in F as [F1 F2].
    destruct (H t0 F1) as (A0 & B0 & C0 & P0). destruct ok.
    + unfold kdo. cbn [step fst snd]. constructor; cbn [fst ls_sys ls_timers].
      * exact (GInv_step c (ls_sys s) (ORenew w) G).
      * intros t Ht. unfold set_timer in Ht. apply in_map_iff in Ht as (t1 & T1 & T2). destruct (String.eqb_spec (tm_worker t1) w) as [Ew|Ew]; subst t.
        -- unfold fresh. cbn -[Z.mul Z.add]. repeat split; try lia. intros x p Hx W Ph Hp Ep.
           apply in_map_iff in Hp as (q & Q1 & Q2). destruct (existsb _ _) eqn:Ex.
           ++ subst p. cbn -[Z.mul Z.add]. lia.
           ++ subst q. exfalso. assert (existsb (Z.eqb (pe_id p)) (map x_mid (filter (fun x => String.eqb (x_worker x) w && match x_phase x with PDone => false | _ => true end) (s_execs (ls_sys s)))) = true); [|congruence].
              apply existsb_exists. exists (x_mid x). split; [|lia]. apply in_map_iff. exists x. split; [reflexivity|]. apply filter_In. split; [exact Hx|].
              rewrite W, String.eqb_refl. destruct (x_phase x); reflexivity || congruence.
        -- apply (fresh_do s (ORenew w)); [exact I|exact T2|reflexivity|]. cbn. destruct (H t1 T2) as (_ & _ & X & _). exact X.
    + constructor; cbn; [exact G|]. intros t Ht. unfold set_timer in Ht. apply in_map_iff in Ht as (t1 & T1 & T2). destruct (String.eqb_spec (tm_worker t1) w) as [Ew|Ew]; subst t.
      * unfold fresh. cbn -[Z.mul Z.add]. fold now. repeat split; try lia. intros x p Hx W Ph Hp Ep. pose proof (P0 x p Hx (eq_trans W (eq_sym F2)) Ph Hp Ep). fold now in C0. nia.
      * exact (H t1 T2).
  - constructor; cbn; [exact G|]. intros t Ht. apply filter_In in Ht as [Ht _]. exact (H t Ht).
  - destruct o; try (apply Do'; discriminate); try exact I.
    + destruct (forallb _ _) eqn:Fb; [|exact I]. apply Do; [auto|]. intros t Ht. rewrite forallb_forall in Fb. specialize (Fb t Ht).
      destruct (H t Ht) as (_ & _ & B & _). cbn [step]. destruct (0 <=? dt); cbn; [lia|exact B].
    + destruct (existsb _ _); [|exact I]. apply Do'. discriminate.
    + destruct (existsb _ _); [|exact I]. apply Do'. discriminate.
    + apply Do; [intros t Ht; apply filter_In in Ht; tauto|]. intros t Ht. apply filter_In in Ht as [Ht _]. destruct (H t Ht) as (_ & _ & B & _). exact B.
Qed.

Lemma LeInv_run l : forall s, LeInv lt s -> LeInv lt (krun c lt s l).
Proof. induction l as [|o l IH]; intros s I; [exact I|]. cbn. apply IH, LeInv_step, I. Qed.

Lemma LeInv_init : LeInv lt ls_init.
Proof. constructor; [apply GInv_init|intros t []]. Qed.
End Step.
