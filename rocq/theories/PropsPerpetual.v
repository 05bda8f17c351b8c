(** C33, C34, C53: perpetual tasks. *)
From Verif Require Import Base ZSet Model GInv KView KSim Spec Check KInv KLine Hist Steps Steps2 PropsHist PropsSteps WaitProofs SpecResult ResultProofs Perpetual SpecPerpetual PerpetualProofs.

Lemma completing e c v0 h t0 m sp l1 : vreachable e c v0 -> claimed_perpetual e v0 h m sp ->
  let v0' := vstep e c v0 (VEnter h t0) in
  valong e c (fun _ o => not_completing h o) v0' l1 ->
  let v1 := vfinal e c v0' l1 in
  Mine h m (v_sys v1) /\ exists p, v_obj v1 h = Some (p, VBody) /\ Chose (choice_of e c h m v0' l1) t0 p.
Proof.
  intros R ((x & X & Xm & Xp) & E & N) v0' A v1.
  pose proof (reachable_GInv c _ (vreach_sys e c v0 R)) as G.
  assert (V : v0' = with_obj v0 h (Some (mkPobj (m_args m) (m_kwargs m) false None t0, VBody))).
  { unfold v0'. cbn [vstep]. rewrite X, N, Xp, Xm, E. reflexivity. }
  split. { apply Mine_vfinal. rewrite V. cbn [v_sys with_obj]. rewrite <- Xm. now apply Mine_get. }
  eapply decided_obj; [exact A|rewrite V; cbn; apply updh_eq|repeat split].
Qed.

Lemma mine_live_gen c h m s x : reachable c s -> get_exec (s_execs s) h = Some x -> x_msg x = m -> 1 <= m_gen m.
Proof.
  intros R X E. pose proof (reachable_UInv c (m_key m) s R) as U. destruct (get_exec_spec _ _ _ X) as [X1 _].
  assert (Hx : In x (k_execs (kabs (m_key m) s))) by (apply kexecs_In; split; congruence).
  pose proof (ui_exec _ _ U x Hx) as (_ & _ & H). congruence.
Qed.

Lemma ready_may v h : ready_to_complete v h -> exists x, get_exec (s_execs (v_sys v)) h = Some x /\ may_complete (x_phase x) = true.
Proof. intros (x & X & [P|P]); exists x; rewrite P; auto. Qed.

(** ** C33: a finished run and its successor *)

(** A run of a perpetual function is entered at [t0]; its body takes its decisions
    and ends without stopping the task; the docket then has no newer generation of
    the key; on_complete goes on, whatever else happens meanwhile, up to its call of
    replace().  Then:
    - that call replaces the key's schedule with one call of the same function at the
      time and with the arguments that were decided;
    - exactly one run of the key can then still start, namely that one (if the key's
      record never expired), also after the old run has been marked as finished;
    - whatever happens later, this run replaces nothing again.
    Missing from the full statement: replace() that someone else makes between the
    check and the call is lost (below). *)
Theorem C33_successor_partial e c v0 h t0 m sp l1 tc l2 now dur t : vreachable e c v0 -> claimed_perpetual e v0 h m sp ->
  let v0' := vstep e c v0 (VEnter h t0) in
  valong e c (fun _ o => not_completing h o) v0' l1 ->
  let v1 := vfinal e c v0' l1 in
  let ch := choice_of e c h m v0' l1 in
  ready_to_complete v1 h -> ch_stop ch = false ->
  (forall g, r_gen (rget (s_db (v_sys v1)) (m_key m)) = Some g -> g <= m_gen m) ->
  let v1' := vstep e c v1 (VComplete h tc) in
  valong e c (fun _ o => not_replacing h o) v1' l2 ->
  let v2 := vfinal e c v1' l2 in
  ready_to_complete v2 h ->
  let a := mkCall (m_key m) (next_run sp ch t0 now dur) (m_fn m) (ch_args ch) (ch_kwargs ch) in
  let v3 := vstep e c v2 (VReplace h now dur t) in
  v_sys v1' = v_sys v1 /\
  v_sys v3 = fst (step c (v_sys v2) (OReplace a t)) /\
  (reachable_keeping c (m_key m) (v_sys v2) ->
   exists m', first_attempt a m' /\ the_run (m_key m) (v_sys v3) (placed_at (v_sys v2) a t) m' /\
     forall st t' er re, the_run (m_key m) (v_sys (vstep e c v3 (VMark h st t' er re))) (placed_at (v_sys v2) a t) m') /\
  (forall l3 now' dur' t', let v4 := vfinal e c v3 l3 in vstep e c v4 (VReplace h now' dur' t') = v4).
Proof.
  intros R Cp v0' A v1 ch Rd St Ng v1' A2 v2 Rd2 a v3.
  destruct (completing e c v0 h t0 m sp l1 R Cp A) as (Mi & p & Op & (C1 & C2 & C3 & C4 & C5)). fold v0' v1 ch in Mi, Op, C1, C2, C3, C4.
  destruct Cp as (_ & E & _).
  assert (R1 : vreachable e c v1) by (apply vreach_final, vreach_step, R).
  destruct (ready_may v1 h Rd) as (x1 & X1 & P1). pose proof (Mine_same _ _ _ _ Mi X1) as M1.
  pose proof (mine_live_gen c h m _ x1 (vreach_sys e c v1 R1) X1 M1) as Gm.
  set (p' := cron_at sp p).
  assert (Cp' : po_cancelled p' = false) by (unfold p', cron_at; destruct (ps_cron sp); cbn; congruence).
  assert (Sf : is_superseded (s_db (v_sys v1)) (m_key m) (m_gen m) = false).
  { unfold is_superseded. destruct (m_gen m =? 0); [reflexivity|]. destruct (r_gen _) as [g|]; cbn [default]; [specialize (Ng g eq_refl)|]; lia. }
  assert (V1 : v1' = with_obj v1 h (Some (p', VReplacing))).
  { unfold v1'. cbn [vstep]. rewrite X1, Op, P1, M1, E. cbv zeta. fold p'. rewrite Cp', Sf. reflexivity. }
  assert (O2 : v_obj v2 h = Some (p', VReplacing)).
  { apply obj_kept; [rewrite V1; cbn; apply updh_eq|auto|intros _; exact A2]. }
  assert (Mi2 : Mine h m (v_sys v2)) by (apply Mine_vfinal; rewrite V1; exact Mi).
  destruct (ready_may v2 h Rd2) as (x2 & X2 & P2). pose proof (Mine_same _ _ _ _ Mi2 X2) as M2.
  assert (Wn : when_next sp p' now dur = next_run sp ch t0 now dur).
  { unfold when_next, next_run, p', cron_at. destruct (ps_cron sp); cbn; [now rewrite C5|]. rewrite C3. reflexivity. }
  assert (Ar : po_args p' = ch_args ch /\ po_kwargs p' = ch_kwargs ch) by (unfold p', cron_at; destruct (ps_cron sp); cbn; auto).
  assert (V3 : v3 = with_sys (with_obj v2 h (Some (p', VHandled))) (fst (step c (v_sys v2) (OReplace a t)))).
  { unfold v3. cbn [vstep]. rewrite X2, O2, P2, M2, E, Wn. destruct Ar as [-> ->]. reflexivity. }
  assert (O3 : v_obj v3 h = Some (p', VHandled)) by (rewrite V3; cbn; apply updh_eq).
  split; [rewrite V1; reflexivity|]. split; [rewrite V3; reflexivity|]. split.
  - intros Rk. destruct (replace_the_run c (m_key m) (v_sys v2) a t Rk eq_refl) as (m' & F & T). exists m'. split; [exact F|].
    assert (T3 : the_run (m_key m) (v_sys v3) (placed_at (v_sys v2) a t) m') by (rewrite V3; exact T).
    split; [exact T3|]. intros st t' er re. cbn [vstep]. rewrite O3. cbn [v_sys with_sys].
    eapply (mark_keeps_run c (m_key m) (v_sys v3) h x2); [| |congruence| |exact T3].
    + apply (reachable_GInv c), (vreach_sys e), vreach_step, vreach_final, vreach_step, R1.
    + rewrite V3. cbn [v_sys with_sys]. cbn [step]. destruct (do_schedule _ _ _ _). exact X2.
    + rewrite V3. cbn [v_sys with_sys]. rewrite M2. apply replace_superseded; auto. exists x2.
      destruct (get_exec_spec _ _ _ X2). auto.
  - intros l3 now' dur' t' v4. assert (O4 : v_obj v4 h = Some (p', VHandled)) by (apply obj_kept; auto; discriminate).
    cbn [vstep]. rewrite O4. match goal with |- match ?y with _ => _ end = _ => destruct y end; reflexivity.
Qed.
Print Assumptions C33_successor_partial.

(** A run whose key has a newer generation when on_complete looks places nothing,
    then or later. *)
Theorem C33_superseded_places_none e c v0 h t0 m sp l1 tc g : vreachable e c v0 -> claimed_perpetual e v0 h m sp ->
  let v0' := vstep e c v0 (VEnter h t0) in
  valong e c (fun _ o => not_completing h o) v0' l1 ->
  let v1 := vfinal e c v0' l1 in
  let ch := choice_of e c h m v0' l1 in
  ready_to_complete v1 h -> ch_stop ch = false ->
  r_gen (rget (s_db (v_sys v1)) (m_key m)) = Some g -> m_gen m < g ->
  let v1' := vstep e c v1 (VComplete h tc) in
  v_sys v1' = v_sys v1 /\
  forall l2 now dur t, let v2 := vfinal e c v1' l2 in vstep e c v2 (VReplace h now dur t) = v2.
Proof.
  intros R Cp v0' A v1 ch Rd St Hg Lt v1'.
  destruct (completing e c v0 h t0 m sp l1 R Cp A) as (Mi & p & Op & (C1 & C2 & C3 & C4 & C5)). fold v0' v1 ch in Mi, Op, C1, C2, C3, C4.
  destruct Cp as (_ & E & _).
  assert (R1 : vreachable e c v1) by (apply vreach_final, vreach_step, R).
  destruct (ready_may v1 h Rd) as (x1 & X1 & P1). pose proof (Mine_same _ _ _ _ Mi X1) as M1.
  pose proof (mine_live_gen c h m _ x1 (vreach_sys e c v1 R1) X1 M1) as Gm.
  set (p' := cron_at sp p).
  assert (Cp' : po_cancelled p' = false) by (unfold p', cron_at; destruct (ps_cron sp); cbn; congruence).
  assert (Sf : is_superseded (s_db (v_sys v1)) (m_key m) (m_gen m) = true).
  { unfold is_superseded. rewrite Hg. cbn [default]. destruct (Z.eqb_spec (m_gen m) 0); lia. }
  assert (V1 : v1' = with_obj v1 h (Some (p', VHandled))).
  { unfold v1'. cbn [vstep]. rewrite X1, Op, P1, M1, E. cbv zeta. fold p'. rewrite Cp', Sf. reflexivity. }
  split; [rewrite V1; reflexivity|]. intros l2 now dur t v2.
  assert (O2 : v_obj v2 h = Some (p', VHandled)) by (apply obj_kept; [rewrite V1; cbn; apply updh_eq|auto|discriminate]).
  cbn [vstep]. rewrite O2. match goal with |- match ?y with _ => _ end = _ => destruct y end; reflexivity.
Qed.
Print Assumptions C33_superseded_places_none.

(** A body that called perpetual.cancel(), in the only run of the key: once the run
    is marked as finished no message of the key is stored anywhere, and nothing of
    the key starts until somebody schedules it again.
    Missing from the full statement: the steps of on_complete happen in a row, and
    the run is the only one. *)
Theorem C33_stopped_partial e c v0 h t0 m sp l1 tc st t er re : vreachable e c v0 -> claimed_perpetual e v0 h m sp ->
  let v0' := vstep e c v0 (VEnter h t0) in
  valong e c (fun _ o => not_completing h o) v0' l1 ->
  let v1 := vfinal e c v0' l1 in
  let ch := choice_of e c h m v0' l1 in
  ready_to_complete v1 h -> ch_stop ch = true -> only_run (m_key m) h (v_sys v1) ->
  st = SCompleted \/ st = SFailed ->
  let v2 := vfinal e c v1 [VComplete h tc; VCancel2 h; VMark h st t er re] in
  (forall p m', m_key m' = m_key m -> ~ stored_at (v_sys v2) p m') /\
  (forall l o m' i, along c (fun _ o => no_schedule (m_key m) o) (v_sys v2) l -> starts c (final c (v_sys v2) l) o m' i -> m_key m' <> m_key m).
Proof.
  intros R Cp v0' A v1 ch Rd Sp Or Hst v2.
  destruct (completing e c v0 h t0 m sp l1 R Cp A) as (Mi & p & Op & (C1 & C2 & C3 & C4 & C5)). fold v0' v1 ch in Mi, Op, C1, C2, C3, C4.
  destruct Cp as (_ & E & _).
  assert (R1 : vreachable e c v1) by (apply vreach_final, vreach_step, R).
  destruct (ready_may v1 h Rd) as (x1 & X1 & P1). pose proof (Mine_same _ _ _ _ Mi X1) as M1.
  set (p' := cron_at sp p).
  assert (Cp' : po_cancelled p' = true) by (unfold p', cron_at; destruct (ps_cron sp); cbn; congruence).
  assert (Ov : Over (kabs (m_key m) (v_sys v2))).
  { unfold v2. cbn [vfinal]. set (w1 := vstep e c v1 (VComplete h tc)).
    assert (V1 : w1 = with_sys (with_obj v1 h (Some (p', VCancelling))) (fst (step c (v_sys v1) (OCancel (m_key m) tc)))).
    { unfold w1. cbn [vstep]. rewrite X1, Op, P1, M1, E. cbv zeta. fold p'. rewrite Cp'. reflexivity. }
    set (w2 := vstep e c w1 (VCancel2 h)).
    assert (V2 : w2 = with_sys (with_obj w1 h (Some (p', VHandled))) (fst (step c (v_sys w1) (OCancelFinish (m_key m))))).
    { unfold w2. cbn [vstep]. rewrite V1. cbn [v_sys v_obj with_sys with_obj]. rewrite updh_eq.
      replace (get_exec _ h) with (Some x1) by (symmetry; exact X1). rewrite M1. reflexivity. }
    cbn [vstep]. rewrite V2. cbn [v_sys v_obj with_sys with_obj]. rewrite updh_eq. cbn [v_sys with_sys]. rewrite V1. cbn [v_sys with_sys].
    apply (stop_over c (m_key m) (v_sys v1) h tc st t er re x1); auto.
    - now apply (vreach_sys e).
    - destruct Rd as (y & Y & Py). assert (y = x1) by congruence. subst y. destruct Py as [Py|Py]; rewrite Py; destruct Hst as [->| ->]; reflexivity. }
  split.
  - intros q m' K H. eapply Over_stored; eauto.
  - intros l o m' i Al S. eapply Over_silent; eauto. apply (vreach_sys e), vreach_final, R1.
Qed.
Print Assumptions C33_stopped_partial.

(** ** Examples *)

Fixpoint valongb (e : tasks) (c : cfg) (P : vsys -> vop -> bool) (v : vsys) (l : list vop) : bool :=
  match l with [] => true | o :: l => P v o && valongb e c P (vstep e c v o) l end.
Lemma valongb_sound e c (P : vsys -> vop -> Prop) Pb : (forall v o, Pb v o = true -> P v o) ->
  forall l v, valongb e c Pb v l = true -> valong e c P v l.
Proof. intros H. induction l as [|o l IH]; simpl; intros v E; [exact I|]. apply andb_prop in E as [E1 E2]. auto. Qed.
Definition not_completingb (h : Z) (o : vop) : bool := match o with VComplete h' _ => negb (h' =? h) | _ => true end.
Lemma not_completingb_sound h o : not_completingb h o = true -> not_completing h o.
Proof. intros H t ->. cbn in H. rewrite Z.eqb_refl in H. discriminate. Qed.
Definition not_replacingb (h : Z) (o : vop) : bool := match o with VReplace h' _ _ _ | VReplaceStruck h' => negb (h' =? h) | _ => true end.
Lemma not_replacingb_sound h o : not_replacingb h o = true -> not_replacing h o.
Proof. intros H. split; [intros now dur t ->|intros ->]; cbn in H; rewrite Z.eqb_refl in H; discriminate. Qed.

(** "k": every 100, automatic; "cron": at the multiples of 60, automatic. *)
Definition ex_tasks : tasks := fun fn =>
  if String.eqb fn "k" then Some (mkPspec 100 true None)
  else if String.eqb fn "cron" then Some (mkPspec 0 true (Some (fun t => (t / 60 + 1) * 60))) else None.
Definition ex_sp : pspec := mkPspec 100 true None.
Definition ex_m : msg := mkMsg "k" 0 "k" no_args no_kwargs 1 1.
Definition ex_claimed : list vop := [VOp (OAdd (seed_call "k" 0) 1); VOp (ORead "w1"); VOp (OClaim 0 2)].
Definition ex_body : list vop := [VOp (OBodyStart 0); VPerpetuate 0 "(1)" "{}"; VOp (OAdd (mkCall "other" 0 "k" "" "") 4); VOp (OBodyEnd 0)].

Definition vex (l : list vop) : vsys := vfinal ex_tasks ex_cfg init_vsys l.

(** The body takes 7, started at 3; the next run is parked for 10 + 100 - 7. *)
Example C33_case :
  let v0 := vex ex_claimed in
  let v0' := vstep ex_tasks ex_cfg v0 (VEnter 0 3) in
  let v1 := vfinal ex_tasks ex_cfg v0' ex_body in
  let ch := choice_of ex_tasks ex_cfg 0 ex_m v0' ex_body in
  let v2 := vstep ex_tasks ex_cfg v1 (VComplete 0 10) in
  let v3 := vstep ex_tasks ex_cfg v2 (VReplace 0 10 7 11) in
  vreachable ex_tasks ex_cfg v0 /\ claimed_perpetual ex_tasks v0 0 ex_m ex_sp /\
  valong ex_tasks ex_cfg (fun _ o => not_completing 0 o) v0' ex_body /\
  ready_to_complete v1 0 /\ ch = mkChoice "(1)" "{}" None false /\
  (forall g, r_gen (rget (s_db (v_sys v1)) "k") = Some g -> g <= m_gen ex_m) /\ ready_to_complete v2 0 /\
  ordinary "k" /\ reachable_keeping ex_cfg "k" (v_sys v2) /\
  d_parked (s_db (v_sys v3)) "k" = Some (mkMsg "k" 103 "k" "(1)" "{}" 1 2).
Proof.
  intros v0 v0' v1 ch v2 v3. split; [exists ex_claimed; reflexivity|]. split.
  { split; [eexists; split; [vm_compute; reflexivity|split; reflexivity]|]. split; reflexivity. }
  split; [apply (valongb_sound _ _ _ (fun _ o => not_completingb 0 o)); [intros; now apply not_completingb_sound|vm_compute; reflexivity]|].
  split; [eexists; split; [vm_compute; reflexivity|right; reflexivity]|]. split; [vm_compute; reflexivity|].
  split; [intros g H; vm_compute in H; injection H as <-; cbn; lia|].
  split; [eexists; split; [vm_compute; reflexivity|right; reflexivity]|].
  split; [exact ex_ordinary|]. split; [|vm_compute; reflexivity].
  exists [OAdd (seed_call "k" 0) 1; ORead "w1"; OClaim 0 2; OBodyStart 0; OAdd (mkCall "other" 0 "k" "" "") 4; OBodyEnd 0].
  split; [|vm_compute; reflexivity]. history (fun s o => keepsb ex_cfg "k" s o).
Qed.

(** The same when somebody replaced the key while the body ran: nothing is placed;
    and when the body stops the task: nothing is left. *)
Example C33_case_other :
  let v0' := vstep ex_tasks ex_cfg (vex ex_claimed) (VEnter 0 3) in
  let b := [VOp (OBodyStart 0); VOp (OReplace (mkCall "k" 500 "k" "(9)" "{}") 4); VOp (OBodyEnd 0)] in
  let v1 := vfinal ex_tasks ex_cfg v0' b in
  let b' := [VOp (OBodyStart 0); VStop 0; VOp (OBodyEnd 0)] in
  let w1 := vfinal ex_tasks ex_cfg v0' b' in
  let w2 := vfinal ex_tasks ex_cfg w1 [VComplete 0 10; VCancel2 0; VMark 0 SCompleted 11 None None] in
  r_gen (rget (s_db (v_sys v1)) "k") = Some 2 /\ ready_to_complete v1 0 /\
  v_sys (vfinal ex_tasks ex_cfg v1 [VComplete 0 10; VReplace 0 10 7 11]) = v_sys v1 /\
  ch_stop (choice_of ex_tasks ex_cfg 0 ex_m v0' b') = true /\ ready_to_complete w1 0 /\ only_run "k" 0 (v_sys w1) /\
  d_stream (s_db (v_sys w2)) = [] /\ r_known (rget (s_db (v_sys w2)) "k") = None.
Proof.
  intros v0' b v1 b' w1 w2. split; [vm_compute; reflexivity|].
  split; [eexists; split; [vm_compute; reflexivity|right; reflexivity]|]. split; [vm_compute; reflexivity|].
  split; [vm_compute; reflexivity|]. split; [eexists; split; [vm_compute; reflexivity|right; reflexivity]|].
  split; [|split; vm_compute; reflexivity].
  eexists. split; [vm_compute; reflexivity|]. split; [reflexivity|]. split; [right; reflexivity|]. split; [vm_compute; reflexivity|]. split.
  - intros y H _ N. apply (in_map x_id) in H. replace (map x_id _) with [0] in H by (vm_compute; reflexivity). destruct H as [H|[]]. elim N. symmetry. exact H.
  - intros [j| |cc j] m' H K; unfold stored_at, on_stream in H.
    + apply (in_map fst) in H. replace (map fst _) with [1] in H by (vm_compute; reflexivity). destruct H as [H|[]]. cbn [fst] in H. rewrite <- H. reflexivity.
    + rewrite K in H. replace (d_parked _ "k") with (@None msg) in H by (vm_compute; reflexivity). discriminate.
    + replace (d_wait _) with (@nil (string * (sid * msg))) in H by (vm_compute; reflexivity). contradiction.
Qed.

(** Shapes of concrete states. *)
Lemma the_run_parked s k m : m_key m = k -> d_parked (s_db s) k = Some m -> live s m -> zscore k (d_queue (s_db s)) = Some (m_when m) ->
  (forall y, In y (map (fun e => m_key (snd e)) (d_stream (s_db s))) -> y <> k) -> d_wait (s_db s) = [] -> the_run k s AtFuture m.
Proof.
  intros K P L Z S W. split; [exact K|]. split; [cbn; congruence|]. split; [exact L|].
  split; [intros _; split; [cbn; congruence|congruence]|].
  intros [j| |cc j] m' H E _; cbn in H.
  - elim (S (m_key m')); [|exact E]. exact (in_map (fun e => m_key (snd e)) _ _ H).
  - rewrite E, P in H. injection H as <-. auto.
  - rewrite W in H. contradiction.
Qed.
Lemma present_parked s k m a : d_parked (s_db s) k = Some m -> m_args m <> a -> d_wait (s_db s) = [] ->
  (forall y, In y (map (fun e => m_args (snd e)) (d_stream (s_db s))) -> y <> a) ->
  (forall y, In y (map (fun x => m_args (x_msg x)) (s_execs s)) -> y <> a) ->
  forall m', m_key m' = k -> present s m' -> m_args m' <> a.
Proof.
  intros P N W S X m' K [(i & H)|[H|[(cc & i & H)|(x & H & Em)]]].
  - apply S. exact (in_map (fun e => m_args (snd e)) _ _ H).
  - rewrite K, P in H. injection H as <-. exact N.
  - rewrite W in H. contradiction.
  - apply X. rewrite <- Em. exact (in_map (fun x => m_args (x_msg x)) _ _ H).
Qed.
Ltac few := let H := fresh in intros ? H;
  match type of H with In _ ?l => let l' := eval vm_compute in l in replace l with l' in H by (vm_compute; reflexivity) end;
  repeat (destruct H as [<-|H]; [discriminate|]); destruct H.

(** A replace() of the key that is accepted between on_complete's check and its own
    replace() is lost: its run is nowhere, though nobody cancelled it. *)
Theorem C33_replace_lost_refuted :
  let v1 := vfinal ex_tasks ex_cfg (vex ex_claimed) ([VEnter 0 3] ++ ex_body ++ [VComplete 0 10]) in
  let o := OReplace (mkCall "k" 500 "k" "(9)" "{}") 10 in
  let v2 := vfinal ex_tasks ex_cfg v1 [VOp o; VReplace 0 10 7 11; VMark 0 SCompleted 12 None None] in
  snd (step ex_cfg (v_sys v1) o) = ODisp DScheduled /\
  (forall m, m_key m = "k" -> present (v_sys v2) m -> m_args m <> "(9)") /\
  the_run "k" (v_sys v2) AtFuture (mkMsg "k" 103 "k" "(1)" "{}" 1 3).
Proof.
  intros v1 o v2. split; [vm_compute; reflexivity|].
  split.
  - apply (present_parked (v_sys v2) "k" (mkMsg "k" 103 "k" "(1)" "{}" 1 3)); [vm_compute; reflexivity|discriminate|vm_compute; reflexivity|few|few].
  - apply the_run_parked; try (vm_compute; reflexivity). few.
Qed.
Print Assumptions C33_replace_lost_refuted.

(** perpetual.cancel() in a run that was superseded removes the run that superseded
    it. *)
Theorem C33_stop_removes_replacement_refuted :
  let o := OReplace (mkCall "k" 500 "k" "(9)" "{}") 4 in
  let v := vfinal ex_tasks ex_cfg (vex ex_claimed) [VEnter 0 3; VOp (OBodyStart 0)] in
  let v1 := vfinal ex_tasks ex_cfg (vstep ex_tasks ex_cfg v (VOp o)) [VStop 0; VOp (OBodyEnd 0)] in
  let v2 := vfinal ex_tasks ex_cfg v1 [VComplete 0 10; VCancel2 0; VMark 0 SCompleted 12 None None] in
  snd (step ex_cfg (v_sys v) o) = ODisp DScheduled /\
  (exists x, get_exec (s_execs (v_sys v1)) 0 = Some x /\ superseded (s_db (v_sys v1)) "k" (m_gen (x_msg x)) = true) /\
  d_parked (s_db (v_sys v1)) "k" = Some (mkMsg "k" 500 "k" "(9)" "{}" 1 2) /\
  d_parked (s_db (v_sys v2)) "k" = None /\ zscore "k" (d_queue (s_db (v_sys v2))) = None /\
  (forall i m, on_stream (v_sys v2) i m -> m_key m <> "k").
Proof.
  intros o v v1 v2. split; [vm_compute; reflexivity|]. split; [eexists; split; vm_compute; reflexivity|].
  split; [vm_compute; reflexivity|]. split; [vm_compute; reflexivity|]. split; [vm_compute; reflexivity|].
  intros i m H. unfold on_stream in H. replace (d_stream _) with (@nil (sid * msg)) in H by (vm_compute; reflexivity). contradiction.
Qed.
Print Assumptions C33_stop_removes_replacement_refuted.

(** ** C34: re-seeding *)

Lemma taken_refuses c s a t : taken (a_key a) s -> reachable c s -> fst (step c s (OAdd a t)) = s.
Proof.
  intros T R. pose proof (proj2 (C02_refused_exactly c s a t R) T) as H.
  destruct (step c s (OAdd a t)) as [s' r] eqn:E. cbn [snd] in H. subst r. exact (C02_add_truth c s a t s' _ E).
Qed.

(** What one step of the re-seeding of any worker can do to the docket: nothing, or
    place one first run of an automatic function, under its own name and without
    arguments, when that key is neither known nor running. *)
Theorem C34_seed_step e c v o : vreachable e c v -> seeds o ->
  v_sys (vstep e c v o) = v_sys v \/
  exists w now t fn sp when m, o = VSeedAdd w now t /\ e fn = Some sp /\ ps_auto sp = true /\ ~ taken fn (v_sys v) /\
    when = match ps_cron sp with Some next => next (v_iter v w fn) | None => now end /\
    let a := seed_call fn when in
    first_attempt a m /\ live (v_sys (vstep e c v o)) m /\ record_shows (v_sys (vstep e c v o)) a (placed_state a t) /\
    (forall p m', stored_at (v_sys (vstep e c v o)) p m' <->
       (p = placed_at (v_sys v) a t /\ m' = m) \/
       (stored_at (v_sys v) p m' /\ ~ (p = AtFuture /\ p = placed_at (v_sys v) a t /\ m_key m' = fn))).
Proof.
  intros R S. destruct o as [| | | | | | | | | | | |w0 fn0|w0|w0 now t|w0]; try contradiction.
  - left. reflexivity.
  - left. cbn [vstep]. destruct (e fn0); [|reflexivity]. destruct (ps_auto p); [|reflexivity]. destruct (is_some _); reflexivity.
  - left. cbn [vstep]. destruct (v_seed v w0) as [[f []]|]; try reflexivity. destruct (r_state _) as [[]|]; reflexivity.
  - cbn [vstep]. destruct (v_seed v w0) as [[f []]|] eqn:E; try (left; reflexivity).
    destruct (SeedOk_reach e c v R w0 f _ E) as (sp & E1 & E2). rewrite E1.
    destruct (match ps_cron sp with Some _ => _ | None => _ end) as [wh it] eqn:Ew. cbn [v_sys].
    assert (Ew' : wh = match ps_cron sp with Some next => next (v_iter v w0 f) | None => now end) by (destruct (ps_cron sp); congruence).
    pose proof (vreach_sys e c v R) as Rs. change (mkCall f wh f no_args no_kwargs) with (seed_call f wh).
    destruct (step c (v_sys v) (OAdd (seed_call f wh) t)) as [s' r] eqn:Es. cbn [fst].
    assert (D : exists d, r = ODisp d).
    { cbn [step] in Es. destruct (do_schedule _ _ _ _) as [? d]. injection Es as _ <-. eauto. }
    destruct D as [d ->]. pose proof (C02_add_truth c (v_sys v) (seed_call f wh) t s' d Es) as T. destruct d; [|left; exact T..].
    right. destruct T as (m & T1 & T2 & T3 & T4 & _).
    exists w0, now, t, f, sp, wh, m. repeat (split; [solve [auto]|]). split.
    { intros Tk. apply (C02_refused_exactly c (v_sys v) (seed_call f wh) t Rs) in Tk. rewrite Es in Tk. discriminate Tk. }
    split; [exact Ew'|]. cbv zeta. repeat (split; [solve [auto]|]). exact T4.
  - left. cbn [vstep]. destruct (v_seed v w0) as [[f []]|]; reflexivity.
Qed.
Print Assumptions C34_seed_step.

(** A run of [k] was placed.  While nobody replaces, cancels or clears [k] and no run
    of it ends, is struck or is parked on a concurrency limit, any number of workers
    can re-seed at any time: the docket stays as it was, and the run is still there.
    Missing from the full statement: runs parked on a concurrency limit (false, below). *)
Theorem C34_no_second_run_partial e c k v o a l : vreachable e c v -> reachable_keeping c k (v_sys v) ->
  a_key a = k -> accepts c (v_sys v) o a -> not_waiting k (v_sys v) -> no_leftover k (v_sys v) o ->
  let v1 := vstep e c v (VOp o) in
  valong e c (fun v o => seeds o \/ v_sys (vstep e c v o) = v_sys v \/ exists o', o = VOp o' /\
     keeps c k (v_sys v) o' /\ only_adds k o' /\ no_stale_resched k (v_sys v) o' /\ ~ finishes k (v_sys v) o' /\ not_struck_nor_parked c k (v_sys v) o') v1 l ->
  let v2 := vfinal e c v1 l in
  (forall w now t, v_seed v2 w = Some (k, SeedGone) -> v_sys (vstep e c v2 (VSeedAdd w now t)) = v_sys v2) /\
  exists m, m_key m = k /\ carries a m /\ stored (v_sys v2) m /\ live (v_sys v2) m.
Proof.
  intros R Rk Ea Ac Nw Nl v1 A v2.
  destruct (quiet_history e c k l v1 A) as (l' & El & Q). fold v2 in El.
  assert (P : forall w t, let a' := seed_call k w in
    step c (final c (v_sys v1) l') (OAdd a' t) = (final c (v_sys v1) l', ODisp DAlreadyScheduled) /\
    exists m, m_key m = k /\ carries a m /\ stored (final c (v_sys v1) l') m /\ live (final c (v_sys v1) l') m).
  { intros w t a'. apply (pending_key_refuses_adds c k (v_sys v) o a l' a' t); auto. }
  rewrite <- El in P. split; [|apply (P 0 0)].
  intros w now t Sd. cbn [vstep]. rewrite Sd. destruct (e k) as [sp|]; [|reflexivity].
  destruct (match ps_cron sp with Some _ => _ | None => _ end) as [wh it]. cbn [v_sys].
  change (mkCall k wh k no_args no_kwargs) with (seed_call k wh). destruct (P wh t) as [-> _]. reflexivity.
Qed.
Print Assumptions C34_no_second_run_partial.

(** A worker re-seeds an automatic function whose key is neither known nor running at
    the three moments it looks; other things may happen in between.  Then its next
    run is stored and can start. *)
Theorem C34_puts_back e c v w fn sp l1 l2 now t : vreachable e c v -> e fn = Some sp -> ps_auto sp = true ->
  ~ taken fn (v_sys v) ->
  let v1 := vfinal e c (vstep e c v (VSeedKnown w fn)) l1 in
  valong e c (fun _ o => not_seeding w o) (vstep e c v (VSeedKnown w fn)) l1 -> ~ taken fn (v_sys v1) ->
  let v2 := vfinal e c (vstep e c v1 (VSeedState w)) l2 in
  valong e c (fun _ o => not_seeding w o) (vstep e c v1 (VSeedState w)) l2 -> ~ taken fn (v_sys v2) ->
  let a := seed_call fn (match ps_cron sp with Some next => next (v_iter v2 w fn) | None => now end) in
  let v3 := vstep e c v2 (VSeedAdd w now t) in
  exists m, first_attempt a m /\ live (v_sys v3) m /\ stored_at (v_sys v3) (placed_at (v_sys v2) a t) m /\
    record_shows (v_sys v3) a (placed_state a t).
Proof.
  intros R E Au N0 v1 A1 N1 v2 A2 N2 a v3.
  assert (Kn : forall s, ~ taken fn s -> is_some (r_known (rget (s_db s) fn)) = false /\ r_state (rget (s_db s) fn) <> Some SRunning).
  { intros s N. unfold taken in N. unfold rget. destruct (d_runs (s_db s) fn) as [r|]; cbn [default].
    - split; [destruct (r_known r) eqn:Er; [|reflexivity]|intros X]; elim N; exists r; split; auto. left. congruence.
    - cbn. split; [reflexivity|discriminate]. }
  assert (V0 : vstep e c v (VSeedKnown w fn) = with_seed v w (Some (fn, SeedNotKnown))).
  { cbn [vstep]. rewrite E, Au. destruct (Kn _ N0) as [-> _]. reflexivity. }
  assert (S1 : v_seed v1 w = Some (fn, SeedNotKnown)).
  { unfold v1. rewrite seed_final by exact A1. rewrite V0. cbn. apply updsS_eq. }
  assert (V1 : vstep e c v1 (VSeedState w) = with_seed v1 w (Some (fn, SeedGone))).
  { cbn [vstep]. rewrite S1. destruct (Kn _ N1) as [_ X]. destruct (r_state _) as [[]|]; try reflexivity. now elim X. }
  assert (S2 : v_seed v2 w = Some (fn, SeedGone)).
  { unfold v2. rewrite seed_final by exact A2. rewrite V1. cbn. apply updsS_eq. }
  assert (R2 : vreachable e c v2) by (apply vreach_final, vreach_step, vreach_final, vreach_step, R).
  assert (V3 : v_sys v3 = fst (step c (v_sys v2) (OAdd a t))).
  { unfold v3, a, seed_call. cbn [vstep]. rewrite S2, E. destruct (ps_cron sp); reflexivity. }
  destruct (step c (v_sys v2) (OAdd a t)) as [s' r] eqn:Es. cbn [fst] in V3.
  assert (D : exists d, r = ODisp d).
  { cbn [step] in Es. destruct (do_schedule _ _ _ _) as [? d]. injection Es as _ <-. eauto. }
  destruct D as [d ->]. pose proof (C02_add_truth c (v_sys v2) a t s' d Es) as T.
  assert (d = DScheduled).
  { destruct d; [reflexivity|exfalso..].
    - apply N2. apply (C02_refused_exactly c (v_sys v2) a t (vreach_sys e c v2 R2)). rewrite Es. reflexivity.
    - cbn [step] in Es. unfold do_schedule in Es. destruct (lua_schedule _ _ _ _ _ _ _) as [? []]; discriminate Es. }
  subst d. destruct T as (m & T1 & T2 & T3 & T4 & _). exists m. rewrite V3. repeat (split; [solve [auto]|]). split; [|exact T2]. apply T4. auto.
Qed.
Print Assumptions C34_puts_back.

(** Two workers re-seed "k" at the same time: one run is placed.  While that run is in
    progress they change nothing; after it was struck it is put back. *)
Example C34_case :
  let two := [VSeedKnown "w1" "k"; VSeedKnown "w2" "k"; VSeedState "w2"; VSeedState "w1"; VSeedAdd "w1" 5 5; VSeedAdd "w2" 6 6] in
  let v := vex two in
  let v1 := vfinal ex_tasks ex_cfg v [VOp (ORead "w1"); VOp (OClaim 0 7)] in
  let v2 := vfinal ex_tasks ex_cfg (vex [VOp (OAdd (seed_call "k" 0) 1); VOp (ORead "w1")]) [VOp (ODelKnown 0); VOp (OTerminal 0 SCancelled 8 None None)] in
  d_stream (s_db (v_sys v)) = [(1, mkMsg "k" 5 "k" no_args no_kwargs 1 1)] /\
  v_sys (vfinal ex_tasks ex_cfg v1 two) = v_sys v1 /\
  vreachable ex_tasks ex_cfg v2 /\ ~ taken "k" (v_sys v2) /\
  d_stream (s_db (v_sys v2)) = [] /\
  d_stream (s_db (v_sys (vfinal ex_tasks ex_cfg v2 two))) = [(2, mkMsg "k" 5 "k" no_args no_kwargs 1 2)].
Proof.
  intros two v v1 v2. split; [vm_compute; reflexivity|]. split; [vm_compute; reflexivity|].
  split; [eexists; symmetry; apply vfinal_app|]. split; [|split; vm_compute; reflexivity].
  assert (E : option_map (fun r => (r_known r, r_state r)) (d_runs (s_db (v_sys v2)) "k") = Some (None, Some SCancelled)) by (vm_compute; reflexivity).
  intros (r & R1 & R2). rewrite R1 in E. injection E as E1 E2. destruct R2; congruence.
Qed.

(** A run of "k" with arguments "(1)" that is parked on a concurrency limit does not
    count as scheduled: "k" is re-seeded although its run is pending, which gives it a
    second one; when the slot becomes free the parked run is dropped, so that the
    arguments the task had chosen are gone. *)
Definition ex_reseed : list vop :=
  [VOp (OAdd (mkCall "j" 0 "f" "" "") 1); VOp (ORead "w1"); VOp (OClaim 0 2); VOp (OAcquire 0 "c" 1 2);
   VOp (OAdd (mkCall "k" 0 "k" "(1)" "{}") 3); VOp (ORead "w2"); VOp (OClaim 1 4); VOp (OAcquire 1 "c" 1 4)].
Definition ex_reseed2 : list vop := [VSeedKnown "w2" "k"; VSeedState "w2"; VSeedAdd "w2" 5 5].
Definition ex_reseed3 : list vop :=
  [VOp (OBodyStart 0); VOp (OBodyEnd 0); VOp (OTerminal 0 SCompleted 6 None None); VOp (ORelease 0 6)].
Theorem C34_parked_is_reseeded_refuted :
  let v := vex ex_reseed in
  let v1 := vfinal ex_tasks ex_cfg v ex_reseed2 in
  let v2 := vfinal ex_tasks ex_cfg v1 ex_reseed3 in
  r_state (rget (s_db (v_sys v)) "k") = Some SScheduled /\
  d_wait (s_db (v_sys v)) = [("c", (3, mkMsg "k" 0 "k" "(1)" "{}" 1 2))] /\ d_stream (s_db (v_sys v)) = [(1, mkMsg "j" 0 "f" "" "" 1 1)] /\
  d_wait (s_db (v_sys v1)) = d_wait (s_db (v_sys v)) /\
  d_stream (s_db (v_sys v1)) = d_stream (s_db (v_sys v)) ++ [(4, mkMsg "k" 5 "k" no_args no_kwargs 1 3)] /\
  d_wait (s_db (v_sys v2)) = [] /\ d_stream (s_db (v_sys v2)) = [(4, mkMsg "k" 5 "k" no_args no_kwargs 1 3)] /\
  d_parked (s_db (v_sys v2)) "k" = None.
Proof. intros v v1 v2. repeat (split; [vm_compute; reflexivity|]). vm_compute. reflexivity. Qed.
Print Assumptions C34_parked_is_reseeded_refuted.

(** A clear() racing with the placement of "k" leaves a record that says "known"
    although no message is left: "k" is never put back, however often it is re-seeded. *)
Definition ex_lost : list vop := [VOp (OClearRead "c"); VOp (OClearKeys "c"); VOp (OAdd (seed_call "k" 100) 0); VOp (OClearApply "c")].
Definition only_k : tasks := fun fn => if String.eqb fn "k" then Some (mkPspec 100 true None) else None.
Theorem C34_never_put_back_refuted :
  let v := vfinal only_k ex_cfg init_vsys ex_lost in
  d_stream (s_db (v_sys v)) = [] /\ d_queue (s_db (v_sys v)) = [] /\ d_wait (s_db (v_sys v)) = [] /\ s_execs (v_sys v) = [] /\
  forall l, (forall o, In o l -> seeds o) -> v_sys (vfinal only_k ex_cfg v l) = v_sys v.
Proof.
  intros v. repeat (split; [vm_compute; reflexivity|]).
  assert (T : taken "k" (v_sys v)).
  { assert (E : option_map r_known (d_runs (s_db (v_sys v)) "k") = Some (Some 100)) by (vm_compute; reflexivity).
    destruct (d_runs (s_db (v_sys v)) "k") as [r|] eqn:Er; [|discriminate E]. exists r. split; [exact Er|]. left. injection E as E. congruence. }
  assert (R : vreachable only_k ex_cfg v) by (eexists; reflexivity).
  intros l. revert T R. generalize v. clear v. induction l as [|o l IH]; intros v T R S; [reflexivity|]. cbn [vfinal].
  assert (E : v_sys (vstep only_k ex_cfg v o) = v_sys v).
  { destruct (C34_seed_step only_k ex_cfg v o R (S o (or_introl eq_refl))) as [E|(w & now & t & fn & sp & wh & m & _ & E & _ & N & _)]; [exact E|].
    unfold only_k in E. destruct (String.eqb_spec fn "k"); [|discriminate E]. subst fn. contradiction. }
  rewrite IH; [exact E|rewrite E; exact T|now apply vreach_step|]. intros o' H. apply S. right. exact H.
Qed.
Print Assumptions C34_never_put_back_refuted.

(** ** C53: cron tasks *)

(** [matches]: the times of an expression.  The next run of a Cron task is placed at
    the first matching time after the finished run was entered, whatever the body
    asked for; so, unless the worker's clock was behind the time of the finished run,
    at a later matching time than that of the finished run.  It goes to the future
    queue under exactly that time, unless that time has come already.
    Missing from the full statement: such an overdue run, and clocks that are behind
    (false, below). *)
Theorem C53_next_run_matches_partial e c v0 h t0 m sp next (matches : Z -> Prop) l1 tc l2 now dur t :
  vreachable e c v0 -> claimed_perpetual e v0 h m sp -> ps_cron sp = Some next ->
  (forall u, u < next u /\ matches (next u) /\ forall y, u < y < next u -> ~ matches y) ->
  let v0' := vstep e c v0 (VEnter h t0) in
  valong e c (fun _ o => not_completing h o) v0' l1 ->
  let v1 := vfinal e c v0' l1 in
  let ch := choice_of e c h m v0' l1 in
  ready_to_complete v1 h -> ch_stop ch = false ->
  (forall g, r_gen (rget (s_db (v_sys v1)) (m_key m)) = Some g -> g <= m_gen m) ->
  let v1' := vstep e c v1 (VComplete h tc) in
  valong e c (fun _ o => not_replacing h o) v1' l2 ->
  let v2 := vfinal e c v1' l2 in
  ready_to_complete v2 h -> reachable_keeping c (m_key m) (v_sys v2) ->
  let v3 := vstep e c v2 (VReplace h now dur t) in
  exists m' p, the_run (m_key m) (v_sys v3) p m' /\
    t0 < m_when m' /\ matches (m_when m') /\ (forall y, t0 < y < m_when m' -> ~ matches y) /\
    (m_when m <= t0 -> m_when m < m_when m') /\
    (t < m_when m' -> p = AtFuture /\ zscore (m_key m) (d_queue (s_db (v_sys v3))) = Some (m_when m')).
Proof.
  intros R Cp Cr Nx v0' A v1 ch Rd St Ng v1' A2 v2 Rd2 Rk v3.
  destruct (C33_successor_partial e c v0 h t0 m sp l1 tc l2 now dur t R Cp A Rd St Ng A2 Rd2) as (_ & _ & S & _).
  destruct (S Rk) as (m' & F & T & _). clear S. eexists m', _. split; [exact T|].
  assert (W : m_when m' = next t0).
  { destruct F as (_ & F & _). rewrite F. cbn [a_when]. unfold next_run. rewrite Cr. reflexivity. }
  destruct (Nx t0) as (N1 & N2 & N3). rewrite W. repeat (split; [solve [auto; lia]|]). intros L. 
  assert (P : AtFuture = placed_at (v_sys v2) (mkCall (m_key m) (next_run sp ch t0 now dur) (m_fn m) (ch_args ch) (ch_kwargs ch)) t).
  { unfold placed_at. cbn [a_when]. unfold next_run. rewrite Cr. destruct (Z.leb_spec (next t0) t); [lia|reflexivity]. }
  split; [symmetry; exact P|]. destruct T as (K & _ & _ & T & _). fold ch in T. destruct (T (eq_sym P)) as [_ T2]. rewrite K, W in T2. exact T2.
Qed.
Print Assumptions C53_next_run_matches_partial.

(** Re-seeding a Cron task places it at a matching time too, namely at the one that
    follows the time its worker last gave out, or its start. *)
Theorem C53_seed_matches e c v w fn sp next (matches : Z -> Prop) now t : vreachable e c v ->
  e fn = Some sp -> ps_cron sp = Some next -> (forall u, u < next u /\ matches (next u)) ->
  v_seed v w = Some (fn, SeedGone) -> ~ taken fn (v_sys v) ->
  let v' := vstep e c v (VSeedAdd w now t) in
  exists m, m_key m = fn /\ live (v_sys v') m /\ stored_at (v_sys v') (placed_at (v_sys v) (seed_call fn (next (v_iter v w fn))) t) m /\
    matches (m_when m) /\ v_iter v w fn < m_when m /\ v_iter v' w fn = m_when m.
Proof.
  intros R E Cr Nx Sd N v'.
  set (a := seed_call fn (next (v_iter v w fn))).
  assert (V : v_sys v' = fst (step c (v_sys v) (OAdd a t)) /\ v_iter v' w fn = next (v_iter v w fn)).
  { unfold v', a, seed_call. cbn [vstep]. rewrite Sd, E, Cr. cbn [v_sys v_iter]. rewrite !updsS_eq. auto. }
  destruct V as [V1 V2]. destruct (step c (v_sys v) (OAdd a t)) as [s' r] eqn:Es. cbn [fst] in V1.
  assert (D : exists d, r = ODisp d).
  { cbn [step] in Es. destruct (do_schedule _ _ _ _) as [? d]. injection Es as _ <-. eauto. }
  destruct D as [d ->]. pose proof (C02_add_truth c (v_sys v) a t s' d Es) as T.
  assert (d = DScheduled).
  { destruct d; [reflexivity|exfalso..].
    - apply N. apply (C02_refused_exactly c (v_sys v) a t (vreach_sys e c v R)). rewrite Es. reflexivity.
    - cbn [step] in Es. unfold do_schedule in Es. destruct (lua_schedule _ _ _ _ _ _ _) as [? []]; discriminate Es. }
  subst d. destruct T as (m & (F1 & F2 & _) & _ & T3 & T4 & _). exists m. rewrite V1, V2.
  cbn [a a_key a_when seed_call] in F1, F2. rewrite F2. destruct (Nx (v_iter v w fn)) as [N1 N2].
  split; [exact F1|]. split; [exact T3|]. split; [apply T4; auto|]. auto.
Qed.
Print Assumptions C53_seed_matches.

(** The task "cron" at 60, 120, 180, …: its run of 60 takes from 60 to 130; the next
    run is the one of 120, which is due at once: its body starts at 132, not a
    matching time. *)
Definition ex_cron : list vop :=
  [VOp (OAdd (seed_call "cron" 60) 1); VOp (OScheduler 60); VOp (ORead "w1"); VOp (OClaim 0 60); VEnter 0 60; VOp (OBodyStart 0); VOp (OBodyEnd 0); VComplete 0 130].
Theorem C53_overdue_refuted :
  let v := vex ex_cron in
  let v1 := vfinal ex_tasks ex_cfg v [VReplace 0 130 70 130; VMark 0 SCompleted 131 None None; VOp (ORead "w1"); VOp (OClaim 1 132)] in
  starts ex_cfg (v_sys v1) (OBodyStart 1) (mkMsg "cron" 120 "cron" no_args no_kwargs 1 2) 2 /\ 132 mod 60 <> 0.
Proof. intros v v1. split; [vm_compute; reflexivity|discriminate]. Qed.
Print Assumptions C53_overdue_refuted.

(** A worker whose clock is behind the scheduler's by one: it enters the run of 60 at
    59, so the next matching time is 60 again: the same time is served twice. *)
Theorem C53_clock_behind_refuted :
  let v := vex [VOp (OAdd (seed_call "cron" 60) 1); VOp (OScheduler 60); VOp (ORead "w1"); VOp (OClaim 0 59); VEnter 0 59] in
  let v1 := vfinal ex_tasks ex_cfg v [VOp (OBodyStart 0); VOp (OBodyEnd 0); VComplete 0 61; VReplace 0 61 1 61; VMark 0 SCompleted 62 None None; VOp (ORead "w1"); VOp (OClaim 1 62)] in
  starts ex_cfg (v_sys v) (OBodyStart 0) (mkMsg "cron" 60 "cron" no_args no_kwargs 1 1) 1 /\
  starts ex_cfg (v_sys v1) (OBodyStart 1) (mkMsg "cron" 60 "cron" no_args no_kwargs 1 2) 2.
Proof. intros v v1. split; vm_compute; reflexivity. Qed.
Print Assumptions C53_clock_behind_refuted.

(** A worker started at 10; its task "cron" was struck later; at 1000 it is re-seeded:
    for 60, long past, so it runs at once. *)
Theorem C53_reseed_in_the_past_refuted :
  let v := vex [VImport "w1" 10; VSeedKnown "w1" "cron"; VSeedState "w1"] in
  let v1 := vstep ex_tasks ex_cfg v (VSeedAdd "w1" 1000 1000) in
  d_stream (s_db (v_sys v1)) = [(1, mkMsg "cron" 60 "cron" no_args no_kwargs 1 1)] /\ d_queue (s_db (v_sys v1)) = [].
Proof. intros v v1. split; vm_compute; reflexivity. Qed.
Print Assumptions C53_reseed_in_the_past_refuted.

(** The run of 60 in time. *)
Example C53_case :
  let v0 := vex [VOp (OAdd (seed_call "cron" 60) 1); VOp (OScheduler 60); VOp (ORead "w1"); VOp (OClaim 0 60)] in
  let sp := mkPspec 0 true (Some (fun t => (t / 60 + 1) * 60)) in
  let v1 := vfinal ex_tasks ex_cfg v0 [VEnter 0 61; VOp (OBodyStart 0); VAt 0 77; VOp (OBodyEnd 0)] in
  let v3 := vfinal ex_tasks ex_cfg v1 [VComplete 0 70; VReplace 0 70 9 71] in
  claimed_perpetual ex_tasks v0 0 (mkMsg "cron" 60 "cron" no_args no_kwargs 1 1) sp /\
  (forall u, u < (u / 60 + 1) * 60 /\ ((u / 60 + 1) * 60) mod 60 = 0 /\ forall y, u < y < (u / 60 + 1) * 60 -> y mod 60 <> 0) /\
  ready_to_complete v1 0 /\ d_parked (s_db (v_sys v3)) "cron" = Some (mkMsg "cron" 120 "cron" no_args no_kwargs 1 2).
Proof.
  intros v0 sp v1 v3. split; [|split; [|split]].
  - split; [eexists; split; [vm_compute; reflexivity|split; reflexivity]|]. split; reflexivity.
  - intros u. pose proof (Z.div_mod u 60). pose proof (Z.mod_pos_bound u 60). split; [lia|]. split; [apply Z.mod_mul; lia|].
    intros y Hy M. pose proof (Z.div_mod y 60). lia.
  - eexists. split; [vm_compute; reflexivity|right; reflexivity].
  - vm_compute. reflexivity.
Qed.
