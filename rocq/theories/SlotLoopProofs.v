From Verif Require Import Base ZSet Model GInv KView KSim Spec KInv SpecConc ConcProofs ConcHist LeaseProofs Steps3 Periodic SpecPeriodic PeriodicProofs SlotLoop SpecSlotLoop.

Lemma holders_In cc s x : In x (holders cc s) <-> In x (s_execs s) /\ SpecConc.holds cc x = true.
Proof. apply filter_In. Qed.

(** Who holds a slot after a step held it before, or was given it. *)
Lemma holder_step c s o cc x' : GInv s -> In x' (holders cc (fst (step c s o))) ->
  (exists x, In x (holders cc s) /\ x_id x = x_id x' /\ x_msg x = x_msg x') \/
  (exists mx t y, o = OAcquire (x_id x') cc mx t /\ snd (step c s o) = OAcquired true /\ In y (s_execs s) /\ x_id y = x_id x' /\ x_msg y = x_msg x').
Proof.
  intros G H. apply holders_In in H as [H Hh]. revert H. 
  set (T := _ \/ _).
  assert (R : In x' (s_execs s) -> T) by (intros H; left; exists x'; split; [now apply holders_In|split; reflexivity]).
  assert (U : forall h z f, get_exec (s_execs s) h = Some z -> x_id (f z) = x_id z /\ x_msg (f z) = x_msg z ->
    (SpecConc.holds cc (f z) = true -> SpecConc.holds cc z = true) -> In x' (upd_exec (s_execs s) h f) -> T).
  { intros h z f Gz [H1 H1'] H2 H. destruct (get_exec_spec _ _ _ Gz) as [Hz Hid]. apply upd_exec_In in H. destruct H as (y & Hy & [->|[Eh ->]]); [auto|].
    assert (y = z) by (eapply execs_inj; eauto; [apply G|congruence]). subst y. left. exists z. split; [apply holders_In; auto|split; congruence]. }
  destruct o; unfold T in *; clear T; unfold step in *; cbv zeta in *;
    repeat match goal with |- context [get_exec (s_execs s) ?h] => destruct (get_exec (s_execs s) h) as [z|] eqn:Gz end;
    try (cbn in *; now auto);
    try match goal with
    | |- context [if ?b then _ else _] => destruct b; cbn in *; now auto
    | |- context [do_schedule ?a ?b ?c ?d] => destruct (do_schedule a b c d); cbn in *; now auto
    | |- context [ready_clear s ?w] => destruct (ready_clear s _); [destruct (clear_apply _ _ _)|]; cbn in *; now auto
    | |- context [lua_stream_due ?a ?b] => destruct (lua_stream_due a b) as [? [? ?]]; cbn in *; now auto
    end.
  - unfold deliver in *. destruct (read_group _ _) as [? [[? ?]|]]; cbn in *; [|auto].
    intros H; apply in_app_or in H; destruct H as [H|[<-|[]]]; [auto|discriminate Hh].
  - unfold deliver in *. destruct (autoclaim _ _ _ _) as [? [[? ?]|]]; cbn in *; [|auto].
    intros H; apply in_app_or in H; destruct H as [H|[<-|[]]]; [auto|discriminate Hh].
  - destruct (x_phase z) eqn:P; try (cbn in *; now auto).
    destruct (lua_claim _ _ _ _ _ _) as [? []]; cbn [fst s_execs set_execs] in *; intros H;
      (eapply U; [exact Gz| | |exact H]; [split; reflexivity|auto]).
  - destruct (x_phase z) eqn:P; try (cbn in *; now auto). cbn [fst s_execs set_execs] in *. intros H. eapply U; [exact Gz| | |exact H]; [split; reflexivity|auto].
  - destruct (x_phase z) eqn:P; try (cbn in *; now auto). cbn [fst s_execs set_execs] in *. intros H. eapply U; [exact Gz| | |exact H]; [split; reflexivity|auto].
  - destruct (x_phase z) eqn:P; try (cbn in *; now auto). cbn [fst s_execs set_execs] in *. intros H. eapply U; [exact Gz| | |exact H]; [split; reflexivity|auto].
  - destruct (may_finish _ _); [|cbn in *; auto]. destruct (lua_terminal _ _ _ _ _ _ _ _ _). cbn [fst s_execs set_execs] in *. intros H.
    eapply U; [exact Gz| | |exact H]; [split; reflexivity|auto].
  - destruct (may_resched _); [|cbn in *; auto]. destruct (lua_schedule _ _ _ _ _ _ _). cbn [fst s_execs set_execs] in *. intros H.
    eapply U; [exact Gz| | |exact H]; [split; reflexivity|auto].
  - destruct (x_phase z) eqn:P; try (cbn in *; now auto). destruct (x_slot z) eqn:Sz; [cbn in *; now auto|].
    destruct (get_exec_spec _ _ _ Gz) as [Hz Hid].
    destruct (lua_acquire_or_park _ _ _ _ _ _ _ _ _ _) as [? []]; cbn [fst snd s_execs set_execs] in *; intros H.
    + apply upd_exec_In in H. destruct H as (y & Hy & [->|[Eh ->]]); [auto|].
      right. assert (y = z) by (eapply execs_inj; eauto; [apply G|congruence]). subst y.
      exists maxc, t, z. unfold SpecConc.holds in Hh. cbn in Hh. apply String.eqb_eq in Hh as ->. cbn. rewrite Hid. auto.
    + eapply U; [exact Gz| | |exact H]; [split; reflexivity|auto].
  - destruct (x_slot z) as [[? ?]|]; [|cbn in *; auto].
    destruct (x_phase z) eqn:P; try (cbn in *; now auto); cbn [fst s_execs set_execs] in *; intros H;
      (eapply U; [exact Gz| | |exact H]; unfold unwind; rewrite P; [split; reflexivity|cbn; discriminate]).
  - destruct (x_slot z) as [[? ?]|]; cbn in *; auto.
  - cbn [fst s_execs] in *. intros H. apply filter_In in H. apply R; tauto.
Qed.

Section Renewals.
Variables (c : cfg) (p : period) (cc : string) (fails lag ahead : Z).
Hypothesis S : sane p.
Hypothesis L0 : 0 <= lag.
Hypothesis Fit : (fails + 1) * cycle p + pe_slow p + lag + ahead < c_redeliver c.
Hypothesis A0 : 0 <= ahead.

(** A pass that began at [r] counts for the lease. *)
Definition covers (lease : Z * Z) (r : Z) : Prop := r - lag <= fst lease /\ r <= snd lease.
Definition kept (s : rsys) (L : Z -> option (Z * Z)) (h : Z) : Prop :=
  exists l e, rs_loop s h = Some l /\ L h = Some e /\ Good false p fails (covers e) (d_now (s_db (rs_sys s))) (sl_loop l).
Record RInv (s : rsys) (L : Z -> option (Z * Z)) : Prop := mkRInv {
  ri_g : GInv (rs_sys s);
  ri_clock : forall h l t b, rs_loop s h = Some l -> sl_left l = false -> pl_phase (sl_loop l) = PBegun t b ->
    b - lag <= t <= d_now (s_db (rs_sys s)) + ahead;
  ri_hold : forall x, In x (holders cc (rs_sys s)) -> kept s L (x_id x) }.

Lemma RInv_init : RInv rs_init (fun _ => None).
Proof. constructor; cbn; [apply GInv_init|discriminate|contradiction]. Qed.

Lemma good_age F now l : Good false p fails F now l -> pl_fails l <= fails -> exists r, F r /\ now <= r + (fails + 1) * cycle p + pe_slow p.
Proof.
  intros [G1 G2 G3 G4 G5] H. destruct S as (S1 & S2 & S3). destruct (G5 H) as (r & R0 & [R1|[X _]] & R2); [|discriminate].
  exists r. split; [exact R1|].
  assert ((pl_fails l + 1) * cycle p <= (fails + 1) * cycle p) by (unfold cycle; nia).
  unfold PeriodicProofs.timely, on_time in *. destruct (pl_phase l); lia.
Qed.

(** With loops that are on time the leases are fresh enough for whoever looks. *)
Lemma timely_at_of s L o : RInv s L -> r_fails cc fails s ->
  (forall t, op_clock o = Some t -> t <= d_now (s_db (rs_sys s)) + ahead) ->
  (forall dt, o = OTick dt -> slots_on_time p (d_now (s_db (rs_sys s)) + dt) s = true) ->
  timely_at c cc (rs_sys s) L o.
Proof.
  intros I Hf Hc Ht x t0 n0 Hx E. destruct (ri_hold _ _ I x Hx) as (l & e & El & Ee & G).
  rewrite E in Ee. injection Ee as <-. pose proof (Hf x l Hx El) as Hl. split.
  - intros t Et. apply Hc in Et. destruct (good_age _ _ _ G Hl) as (r & [R1 R2] & R3). cbn [fst snd] in *. lia.
  - intros dt ->. specialize (Ht _ eq_refl). destruct (Z.leb_spec 0 dt) as [Ed|Ed].
    + unfold slots_on_time in Ht. rewrite forallb_forall in Ht. apply holders_In in Hx as [Hx Hh]. apply Ht in Hx.
      unfold SpecConc.holds in Hh. destruct (x_slot x); [|discriminate]. rewrite El in Hx.
      apply (good_later false p fails _ _ (d_now (s_db (rs_sys s)) + dt)) in G; [|lia|exact Hx].
      destruct (good_age _ _ _ G Hl) as (r & [R1 R2] & R3). cbn [fst snd] in *. lia.
    + destruct (good_age _ _ _ G Hl) as (r & [R1 R2] & R3). cbn [fst snd] in *. lia.
Qed.

Lemma set_sloop_eq f h v : set_sloop f h v h = Some v.
Proof. unfold set_sloop. now rewrite Z.eqb_refl. Qed.
Lemma set_sloop_neq f h v h' : h' <> h -> set_sloop f h v h' = f h'.
Proof. unfold set_sloop. destruct (Z.eqb_spec h' h); [contradiction|auto]. Qed.

(** The loop of [h] moves, the docket does not. *)
Lemma RInv_loop s L h l l' : RInv s L -> rs_loop s h = Some l ->
  (forall e, Good false p fails (covers e) (d_now (s_db (rs_sys s))) (sl_loop l) -> Good false p fails (covers e) (d_now (s_db (rs_sys s))) (sl_loop l')) ->
  (forall t b, sl_left l' = false -> pl_phase (sl_loop l') = PBegun t b -> b - lag <= t <= d_now (s_db (rs_sys s)) + ahead) ->
  RInv (mkR (rs_sys s) (set_sloop (rs_loop s) h l')) L.
Proof.
  intros [I1 I2 I3] El G C. constructor; cbn [rs_sys rs_loop]; [exact I1| |].
  - intros h0 l0 t b. destruct (Z.eq_dec h0 h) as [->|Nh]; [rewrite set_sloop_eq|rewrite set_sloop_neq by exact Nh; apply I2]. intros [= <-]. apply C.
  - intros x Hx. destruct (I3 x Hx) as (l0 & e & E1 & E2 & E3). unfold kept. cbn [rs_sys rs_loop].
    destruct (Z.eq_dec (x_id x) h) as [Eh|Nh].
    + rewrite Eh in *. exists l', e. rewrite set_sloop_eq. split; [reflexivity|]. split; [exact E2|]. apply G. congruence.
    + exists l0, e. rewrite set_sloop_neq by exact Nh. auto.
Qed.

(** The docket moves, neither loops nor leases do. *)
Lemma RInv_do s L o : RInv s L -> (forall h cc' mx t, o = OAcquire h cc' mx t -> snd (step c (rs_sys s) o) <> OAcquired true) ->
  (forall dt, o = OTick dt -> slots_on_time p (d_now (s_db (rs_sys s)) + dt) s = true) ->
  RInv (mkR (fst (step c (rs_sys s) o)) (rs_loop s)) L.
Proof.
  intros [I1 I2 I3] Na T. pose proof (now_step c (rs_sys s) o) as Nw. constructor; cbn [rs_sys rs_loop].
  - now apply GInv_step.
  - intros h l t b E1 E2 E3. specialize (I2 h l t b E1 E2 E3). lia.
  - intros x' Hx'. destruct (holder_step c (rs_sys s) o cc x' I1 Hx') as [(x & Hx & <- & _)|(mx & t & y & -> & E & _)].
    2: { destruct (Na _ _ _ _ eq_refl E). }
    destruct (I3 x Hx) as (l & e & E1 & E2 & E3). exists l, e. cbn [rs_sys rs_loop]. split; [exact E1|]. split; [exact E2|].
    apply (good_later false p fails _ (d_now (s_db (rs_sys s)))); [exact Nw| |exact E3].
    assert (Same : d_now (s_db (fst (step c (rs_sys s) o))) = d_now (s_db (rs_sys s)) -> on_time p (d_now (s_db (fst (step c (rs_sys s) o)))) (sl_loop l) = true)
      by (intros ->; apply (gd_time _ _ _ _ _ _ E3)).
    destruct o; try (apply Same, now_same; discriminate).
    cbn [step]. destruct (0 <=? dt) eqn:Ed; [|apply (gd_time _ _ _ _ _ _ E3)]. cbn.
    specialize (T dt eq_refl). unfold slots_on_time in T. rewrite forallb_forall in T. apply holders_In in Hx as [Hx Hh]. apply T in Hx.
    unfold SpecConc.holds in Hh. destruct (x_slot x); [|discriminate]. now rewrite E1 in Hx.
Qed.

Lemma execs_renew s h t : s_execs (fst (step c s (ORenewSlot h t))) = s_execs s.
Proof. cbn [step]. destruct (get_exec _ _) as [x|]; [|reflexivity]. destruct (x_slot x) as [[? ?]|]; reflexivity. Qed.

Lemma RInv_command s L h l t l' : RInv s L -> rs_loop s h = Some l -> sl_left l = false -> loop_command (sl_loop l) = Some (t, l') ->
  RInv (mkR (fst (step c (rs_sys s) (ORenewSlot h t))) (set_sloop (rs_loop s) h (mkSloop l' false))) (touch c cc (rs_sys s) (ORenewSlot h t) L).
Proof.
  intros [I1 I2 I3] El Ea B.
  assert (Ph : exists a, pl_phase (sl_loop l) = PBegun t a /\ pl_phase l' = PMade t a).
  { unfold loop_command in B. destruct (pl_phase (sl_loop l)); try discriminate. injection B as <- <-. eauto. }
  destruct Ph as (a & Ph & Ph').
  assert (Nw : d_now (s_db (fst (step c (rs_sys s) (ORenewSlot h t)))) = d_now (s_db (rs_sys s))) by (apply now_same; discriminate).
  constructor; cbn [rs_sys rs_loop].
  - now apply GInv_step.
  - rewrite Nw. intros h0 l0 t0 b. destruct (Z.eq_dec h0 h) as [->|Nh]; [rewrite set_sloop_eq|rewrite set_sloop_neq by exact Nh; apply I2].
    intros [= <-] _. cbn [sl_loop]. congruence.
  - intros x Hx. unfold holders in Hx. rewrite execs_renew in Hx. destruct (I3 x Hx) as (l0 & e & E1 & E2 & E3).
    unfold kept. cbn [rs_sys rs_loop touch]. rewrite Nw. destruct (Z.eq_dec (x_id x) h) as [Eh|Nh].
    + rewrite Eh in *. rewrite E2. exists (mkSloop l' false), (t, d_now (s_db (rs_sys s))). rewrite set_sloop_eq. unfold set_lease. rewrite Z.eqb_refl.
      split; [reflexivity|]. split; [reflexivity|]. cbn [sl_loop]. assert (l0 = l) by congruence. subst l0.
      apply (good_command false p fails S (covers e) _ _ _ _ _ E3 B). intros b Eb. pose proof (I2 _ _ _ _ El Ea Eb).
      pose proof (gd_since _ _ _ _ _ _ E3) as G3. rewrite Eb in G3. split; cbn [fst snd]; lia.
    + exists l0, e. rewrite set_sloop_neq by exact Nh. split; [exact E1|]. split; [|exact E3].
      destruct (L h); [|exact E2]. unfold set_lease. destruct (Z.eqb_spec (x_id x) h); [contradiction|exact E2].
Qed.

Lemma RInv_acquired s L h cc' mx t : RInv s L -> snd (step c (rs_sys s) (OAcquire h cc' mx t)) = OAcquired true ->
  d_now (s_db (rs_sys s)) - lag <= t ->
  RInv (mkR (fst (step c (rs_sys s) (OAcquire h cc' mx t))) (set_sloop (rs_loop s) h (sloop_acquired (d_now (s_db (rs_sys s))) t)))
    (touch c cc (rs_sys s) (OAcquire h cc' mx t) L).
Proof.
  intros [I1 I2 I3] E Ct. set (o := OAcquire h cc' mx t) in *.
  assert (Nw : d_now (s_db (fst (step c (rs_sys s) o))) = d_now (s_db (rs_sys s))) by (apply now_same; discriminate).
  constructor; cbn [rs_sys rs_loop].
  - now apply GInv_step.
  - rewrite Nw. intros h0 l0 t0 b. destruct (Z.eq_dec h0 h) as [->|Nh]; [rewrite set_sloop_eq|rewrite set_sloop_neq by exact Nh; apply I2].
    intros [= <-] _. discriminate.
  - intros x' Hx'. unfold kept. cbn [rs_sys rs_loop]. rewrite Nw. unfold touch. subst o. cbv beta iota. rewrite E.
    destruct (holder_step c _ _ cc x' I1 Hx') as [(x & Hx & Ex & _)|(mx' & t' & y & Eo & _)].
    + assert (Nh : x_id x <> h).
      { intros Eh. destruct (acquire_true _ _ _ _ _ _ E) as (z & Gz & _ & Sz & _). destruct (get_exec_spec _ _ _ Gz) as [Hz Hz'].
        apply holders_In in Hx as [Hx Hh]. assert (x = z) by (eapply execs_inj; eauto; [apply I1|congruence]). subst z.
        unfold SpecConc.holds in Hh. rewrite Sz in Hh. discriminate. }
      destruct (I3 x Hx) as (l & e & E1 & E2 & E3). rewrite <- Ex. exists l, e. rewrite set_sloop_neq by exact Nh.
      split; [exact E1|]. split; [|exact E3]. destruct (String.eqb cc' cc); [|exact E2]. unfold set_lease. destruct (Z.eqb_spec (x_id x) h); [contradiction|exact E2].
    + injection Eo as Eh -> _ _. rewrite String.eqb_refl, <- Eh. exists (sloop_acquired (d_now (s_db (rs_sys s))) t), (t, d_now (s_db (rs_sys s))).
      rewrite set_sloop_eq. unfold set_lease. rewrite Z.eqb_refl. split; [reflexivity|]. split; [reflexivity|]. destruct S as (S1 & S2 & S3).
      assert (C0 : covers (t, d_now (s_db (rs_sys s))) (d_now (s_db (rs_sys s)))) by (split; cbn [fst snd]; lia).
      constructor; cbn [sl_loop sloop_acquired pl_phase pl_fails pl_since on_time]; try lia.
      * intros t0 b [= _ <-]. exact C0.
      * intros _. exists (d_now (s_db (rs_sys s))). split; [lia|]. split; [left; exact C0|]. unfold PeriodicProofs.timely, cycle. cbn [pl_phase pl_fails]. lia.
Qed.

Lemma good_leave F now l : Good false p fails F now l -> Good false p fails F now (sl_loop (sloop_leave now l)).
Proof.
  intros [G1 G2 G3 G4 G5]. destruct S as (S1 & S2 & S3).
  constructor; cbn [sl_loop sloop_leave pl_phase pl_fails pl_since on_time]; try lia; try discriminate.
  - destruct (pl_phase l); lia.
  - unfold on_time in G2. unfold PeriodicProofs.timely in *. destruct (pl_phase l) as [u|t b|t b] eqn:Ep; intros H.
    + destruct (G5 H) as (r & R0 & R1 & R2). exists r. split; [lia|]. split; [exact R1|]. cbn [pl_phase pl_fails]. lia.
    + destruct G5 as (r & R0 & R1 & R2); [lia|]. exists r. split; [lia|]. split; [exact R1|]. cbn [pl_phase pl_fails]. unfold cycle in *. nia.
    + exists b. split; [lia|]. split; [left; eauto|]. cbn [pl_phase pl_fails]. unfold cycle. nia.
Qed.

Definition touches (s : sys) (L : Z -> option (Z * Z)) (l : list op) : Z -> option (Z * Z) :=
  match l with [o] => touch c cc s o L | _ => L end.

Lemma RInv_step s L o : RInv s L -> r_clock lag ahead s o -> r_fails cc fails s ->
  RInv (fst (rstep c p s o)) (touches (rs_sys s) L (snd (rstep c p s o))) /\
  (snd (rstep c p s o) = [] /\ rs_sys (fst (rstep c p s o)) = rs_sys s \/
   exists o', snd (rstep c p s o) = [o'] /\ rs_sys (fst (rstep c p s o)) = fst (step c (rs_sys s) o') /\ timely_at c cc (rs_sys s) L o').
Proof.
  intros I K Hf.
  destruct o as [h t|h|h ok|h|o]; unfold rstep; cbv zeta.
  - destruct (rs_loop s h) as [l|] eqn:El; [|cbn; auto]. destruct (sl_left l) eqn:Ea; [cbn; auto|].
    destruct (loop_begin _ _ _) as [l'|] eqn:B; [|cbn; auto]. cbn [fst snd touches rs_sys]. split; [|auto].
    apply (RInv_loop s L h l); auto; cbn [sl_loop sl_left].
    + intros e G. now apply (good_begin false p fails S _ _ _ _ _ G B).
    + intros t0 b _ E. unfold loop_begin in B. destruct (pl_phase (sl_loop l)); try discriminate. destruct (_ <? _); [discriminate|]. injection B as <-.
      injection E as <- <-. cbn in K. lia.
  - destruct (rs_loop s h) as [l|] eqn:El; [|cbn; auto]. destruct (sl_left l) eqn:Ea; [cbn; auto|].
    destruct (loop_command _) as [[t l']|] eqn:B; [|cbn; auto]. cbn [fst snd touches rs_sys]. split; [now apply (RInv_command s L h l)|].
    right. exists (ORenewSlot h t). split; [reflexivity|]. split; [reflexivity|]. apply timely_at_of; auto; [|discriminate].
    cbn [op_clock]. intros t0 [= <-]. unfold loop_command in B. destruct (pl_phase (sl_loop l)) as [|t1 b|] eqn:Ep; try discriminate. injection B as <- _.
    apply (ri_clock _ _ I _ _ _ _ El Ea Ep).
  - destruct (rs_loop s h) as [l|] eqn:El; [|cbn; auto]. destruct (sl_left l) eqn:Ea; [cbn; auto|].
    destruct (loop_end _ _ _ _) as [l'|] eqn:B; [|cbn; auto]. cbn [fst snd touches rs_sys]. split; [|auto].
    apply (RInv_loop s L h l); auto; cbn [sl_loop sl_left].
    + intros e G. now apply (good_end false p fails S _ _ _ _ _ G B).
    + intros t0 b _ E. unfold loop_end in B. destruct (pl_phase (sl_loop l)); try discriminate; [destruct ok; try discriminate|]; injection B as <-; discriminate E.
  - destruct (rs_loop s h) as [l|] eqn:El; [|cbn; auto]. destruct (sl_left l) eqn:Ea; [cbn; auto|].
    cbn [fst snd touches rs_sys]. split; [|auto]. apply (RInv_loop s L h l); auto; [|cbn; discriminate].
    intros e. apply good_leave.
  - assert (D : (forall h cc' mx t, o <> OAcquire h cc' mx t) -> (forall h t, o <> ORenewSlot h t) ->
      (forall dt, o = OTick dt -> slots_on_time p (d_now (s_db (rs_sys s)) + dt) s = true) ->
      (forall t, op_clock o = Some t -> t <= d_now (s_db (rs_sys s)) + ahead) ->
      RInv (mkR (fst (step c (rs_sys s) o)) (rs_loop s)) (touch c cc (rs_sys s) o L) /\ timely_at c cc (rs_sys s) L o).
    { intros Na Nr T C. split; [|now apply timely_at_of]. replace (touch c cc (rs_sys s) o L) with L.
      - apply RInv_do; auto. intros h cc' mx t E. now destruct (Na _ _ _ _ E).
      - destruct o; try reflexivity; [now destruct (Na _ _ _ _ eq_refl)|now destruct (Nr _ _ eq_refl)]. }
    destruct o; cbn [r_clock] in K; try (destruct D as [D1 D2]; [discriminate|discriminate|discriminate|exact K|]; cbn [fst snd touches rs_sys]; split; [exact D1|right; eauto]).
    + destruct (slots_on_time _ _ _) eqn:T; [|cbn; auto]. destruct D as [D1 D2]; [discriminate|discriminate|congruence|exact K|].
      cbn [fst snd touches rs_sys]. split; [exact D1|right; eauto].
    + assert (TA : timely_at c cc (rs_sys s) L (OAcquire h c0 maxc t)).
      { apply timely_at_of; auto; [|discriminate]. cbn [op_clock]. intros t0 [= <-]. lia. }
      assert (E : snd (step c (rs_sys s) (OAcquire h c0 maxc t)) = OAcquired true \/ snd (step c (rs_sys s) (OAcquire h c0 maxc t)) <> OAcquired true).
      { destruct (snd (step c (rs_sys s) (OAcquire h c0 maxc t))) as [| | | | | | | |[]]; auto; right; discriminate. }
      cbn [fst snd touches rs_sys]. split; [|right; eauto]. destruct E as [E|E].
      * rewrite E. apply RInv_acquired; auto. lia.
      * replace (touch c cc (rs_sys s) (OAcquire h c0 maxc t) L) with L.
        -- replace (match snd (step c (rs_sys s) (OAcquire h c0 maxc t)) with OAcquired true => _ | _ => rs_loop s end) with (rs_loop s).
           ++ apply RInv_do; auto. discriminate.
           ++ destruct (snd (step c (rs_sys s) (OAcquire h c0 maxc t))) as [| | | | | | | |[]]; auto. now destruct E.
        -- unfold touch. destruct (snd (step c (rs_sys s) (OAcquire h c0 maxc t))) as [| | | | | | | |[]]; auto. now destruct E.
    + cbn. auto.
Qed.

Lemma timely_hist l : forall s L, RInv s L -> r_along c p (fun s o => r_clock lag ahead s o /\ r_fails cc fails s) s l ->
  timely_from c cc (rs_sys s) L (rhist c p s l) /\ rs_sys (rrun c p s l) = final c (rs_sys s) (rhist c p s l).
Proof.
  induction l as [|o l IH]; intros s L I A; [split; reflexivity|]. destruct A as [[A1 A2] A3].
  destruct (RInv_step s L o I A1 A2) as [I' [[E1 E2]|(o' & E1 & E2 & T)]]; cbn [rrun rhist]; rewrite E1 in *; cbn [touches app] in *.
  - destruct (IH _ _ I' A3) as [H1 H2]. rewrite E2 in *. auto.
  - destruct (IH _ _ I' A3) as [H1 H2]. rewrite E2 in *. cbn [timely_from]. rewrite final_cons. auto.
Qed.
End Renewals.
