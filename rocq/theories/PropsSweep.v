(** Property theorems: how far a worker's search for abandoned messages reaches. *)
From Verif Require Import Base ZSet Model GInv Spec SpecRecover KInv Sweep SpecSweep SweepProofs.

(** C67, the true part: a worker with [n] free slots finds an abandoned message with
    fewer than ten times [n] pending entries before it, if fewer than [n] of those
    are themselves claimed or dropped by the same search. *)
Theorem C67_found_partial c s w n p m before after : reachable c s ->
  d_pel (s_db s) = before ++ p :: after -> (length before < 10 * n)%nat -> (length (filter (answering c s) before) < n)%nat ->
  on_stream s (pe_id p) m -> c_redeliver c <= d_now (s_db s) - pe_time p ->
  exists h, handed (sweep c s w n) w h (pe_id p) m.
Proof. intros R. apply sweep_reaches. now apply (reachable_GInv c). Qed.
Print Assumptions C67_found_partial.

(** Several searches find it, however many abandoned ones come first, if each looks
    far enough. *)
Theorem C67_found_in_turn_partial c s l p m before after : reachable c s -> 0 < c_redeliver c ->
  d_pel (s_db s) = before ++ p :: after -> (forall w n, In (w, n) l -> (length before < 10 * n)%nat) ->
  (length (filter (answering c s) before) < length l)%nat ->
  on_stream s (pe_id p) m -> c_redeliver c <= d_now (s_db s) - pe_time p ->
  exists w h, In w (map fst l) /\ handed (sweeps c s l) w h (pe_id p) m.
Proof. intros R Rp E L1 L2 O T. eapply (sweeps_reach c m (pe_id p) l Rp s before p after); eauto. now apply (reachable_GInv c). Qed.
Print Assumptions C67_found_in_turn_partial.

(** The order the search follows is the order of the stream ids. *)
Theorem C67_pending_order_partial c s : reachable c s -> ForallOrdPairs Z.lt (map pe_id (d_pel (s_db s))).
Proof. apply pending_increasing. Qed.
Print Assumptions C67_pending_order_partial.

(** And the limit: ten times [n] live entries at the front hide everything behind them. *)
Theorem C67_hidden_partial c s w n : reachable c s ->
  (forall q, In q (firstn (10 * n) (d_pel (s_db s))) -> answering c s q = false) -> sweep c s w n = s.
Proof. intros R. apply sweep_blind. now apply (reachable_GInv c). Qed.
Print Assumptions C67_hidden_partial.

(** Refutation: worker "a" is busy with ten long tasks it renews; worker "b" crashed
    with the eleventh.  Then, however often workers with one free slot search, nobody
    ever gets the eleventh. *)
Definition sw_cfg : cfg := mkCfg 900 300.
Definition sw_keys : list string := ["k0"; "k1"; "k2"; "k3"; "k4"; "k5"; "k6"; "k7"; "k8"; "k9"]%string.
Definition sw_add (k : string) : op := OAdd (mkCall k 0 "f" "x" "") 0.
Definition sw_start : list op :=
  map sw_add sw_keys ++ [sw_add "z"] ++ repeat (ORead "a") 10 ++ [ORead "b"] ++
  flat_map (fun h => [OClaim h 1; OBodyStart h]) [0; 1; 2; 3; 4; 5; 6; 7; 8; 9] ++ [OCrash "b"; OTick 200; ORenew "a"; OTick 200].
Definition sw_msg : msg := mkMsg "z" 0 "f" "x" "" 1 1.


(** What the rounds keep. *)
Definition stuck (s : sys) : Prop :=
  GInv s /\ d_stream (s_db s) = d_stream (s_db (final sw_cfg init_sys sw_start)) /\ s_execs s = s_execs (final sw_cfg init_sys sw_start) /\
  r_gen (rget (s_db s) "z") = Some 1 /\
  (forall r, d_runs (s_db s) "z" = Some r -> r_expire r = None) /\
  exists ps p, d_pel (s_db s) = ps ++ [p] /\ map pe_id ps = [1; 2; 3; 4; 5; 6; 7; 8; 9; 10] /\ pe_id p = 11 /\
    400 <= d_now (s_db s) - pe_time p /\ (forall q, In q ps -> d_now (s_db s) - pe_time q = 200).

Lemma stuck_start : stuck (final sw_cfg init_sys sw_start).
Proof.
  split; [apply GInv_final, GInv_init|]. split; [reflexivity|]. split; [reflexivity|]. split; [vm_compute; reflexivity|].
  split; [intros r; vm_compute; intros [= <-]; reflexivity|].
  assert (E : exists ps p, d_pel (s_db (final sw_cfg init_sys sw_start)) = ps ++ [p] /\ ps = firstn 10 (d_pel (s_db (final sw_cfg init_sys sw_start))) /\ p = mkPent 11 "b" 0 1).
  { exists (firstn 10 (d_pel (s_db (final sw_cfg init_sys sw_start)))), (mkPent 11 "b" 0 1). split; [vm_compute; reflexivity|split; reflexivity]. }
  destruct E as (ps & p & E1 & E2 & E3). exists ps, p. split; [exact E1|]. rewrite E2, E3. split; [vm_compute; reflexivity|]. split; [reflexivity|].
  split; [vm_compute; discriminate|]. assert (A : forallb (fun q => d_now (s_db (final sw_cfg init_sys sw_start)) - pe_time q =? 200) (firstn 10 (d_pel (s_db (final sw_cfg init_sys sw_start)))) = true) by (vm_compute; reflexivity).
  intros q Hq. rewrite forallb_forall in A. apply Z.eqb_eq. exact (A q Hq).
Qed.

Lemma stuck_round s w : stuck s -> stuck (sweep sw_cfg (final sw_cfg s [ORenew "a"; OTick 200]) w 1).
Proof.
  intros (G & E1 & E2 & E3 & E4 & ps & p & P1 & P2 & P3 & P4 & P5).
  assert (Q : stuck (final sw_cfg s [ORenew "a"; OTick 200])).
  { split; [now apply GInv_final|]. rewrite final_cons. set (s1 := fst (step sw_cfg s (ORenew "a"))).
    assert (S1 : d_pel (s_db s1) = map (fun q => mkPent (pe_id q) "a" (d_now (s_db s)) (pe_count q + 1)) ps ++ [p]).
    { unfold s1. cbn [step fst s_db set_db]. rewrite E2. unfold renew. cbn [d_pel set_pel]. rewrite E1, P1.
      match goal with |- context [existsb _ ?l] => replace l with [1; 2; 3; 4; 5; 6; 7; 8; 9; 10] by (vm_compute; reflexivity) end.
      assert (St : forall i, In i [1; 2; 3; 4; 5; 6; 7; 8; 9; 10; 11] -> is_some (lookup_entry i (d_stream (s_db (final sw_cfg init_sys sw_start)))) = true).
      { intros i Hi. assert (A : forallb (fun i => is_some (lookup_entry i (d_stream (s_db (final sw_cfg init_sys sw_start))))) [1; 2; 3; 4; 5; 6; 7; 8; 9; 10; 11] = true) by (vm_compute; reflexivity).
        rewrite forallb_forall in A. exact (A i Hi). }
      generalize dependent (d_stream (s_db (final sw_cfg init_sys sw_start))). intros st _ St.
      rewrite filter_app, map_app. f_equal.
      - assert (In' : forall q, In q ps -> In (pe_id q) [1; 2; 3; 4; 5; 6; 7; 8; 9; 10]) by (intros q Hq; rewrite <- P2; now apply in_map).
        clear - In' St. induction ps as [|q ps IH]; [reflexivity|]. assert (Hq := In' q (or_introl eq_refl)).
        cbn [filter]. rewrite St by (cbn in Hq |- *; tauto). rewrite Bool.orb_true_r. cbn [map]. rewrite IH by (intros; apply In'; cbn; auto). f_equal.
        assert (X : existsb (Z.eqb (pe_id q)) [1; 2; 3; 4; 5; 6; 7; 8; 9; 10] = true) by (apply existsb_exists; exists (pe_id q); split; [exact Hq|apply Z.eqb_refl]). now rewrite X.
      - cbn [filter]. rewrite P3. cbn [existsb Z.eqb Pos.eqb orb negb map]. rewrite P3. reflexivity. }
    assert (S2 : d_stream (s_db s1) = d_stream (s_db s) /\ s_execs s1 = s_execs s /\ d_runs (s_db s1) = d_runs (s_db s) /\ d_now (s_db s1) = d_now (s_db s)) by (repeat split).
    destruct S2 as (S2 & S3 & S4 & S5). clearbody s1. rewrite final_cons. set (s2 := fst (step sw_cfg s1 (OTick 200))).
    change (final sw_cfg s2 []) with s2.
    assert (R : d_runs (s_db s2) "z" = d_runs (s_db s) "z").
    { unfold s2. cbn [step fst s_db set_db Z.leb]. cbn. rewrite S4. destruct (d_runs (s_db s) "z"%string) as [r|] eqn:Er; [|reflexivity]. rewrite (E4 r eq_refl). reflexivity. }
    assert (T1 : d_stream (s_db s2) = d_stream (s_db s1)) by reflexivity. assert (T2 : s_execs s2 = s_execs s1) by reflexivity. assert (T3 : d_pel (s_db s2) = d_pel (s_db s1)) by reflexivity.
    assert (N : d_now (s_db s2) = d_now (s_db s) + 200) by (unfold s2; cbn; rewrite S5; reflexivity). clearbody s2.
    split; [rewrite T1, S2; exact E1|]. split; [rewrite T2, S3; exact E2|]. split; [unfold rget; rewrite R; exact E3|].
    split; [intros r; rewrite R; apply E4|]. exists (map (fun q => mkPent (pe_id q) "a" (d_now (s_db s)) (pe_count q + 1)) ps), p.
    split; [rewrite T3; exact S1|]. split; [rewrite map_map; exact P2|]. split; [exact P3|]. rewrite N. split; [lia|].
    intros q Hq. apply in_map_iff in Hq as (q' & <- & _). cbn. lia. }
  rewrite sweep_blind; [exact Q|apply Q|]. clear - Q. destruct Q as (_ & E1 & _ & _ & _ & ps & p & P1 & P2 & P3 & P4 & P5).
  set (s' := final sw_cfg s [ORenew "a"; OTick 200]) in *.
  intros q Hq. assert (L : length ps = 10%nat) by (rewrite <- (map_length pe_id), P2; reflexivity).
  rewrite P1, firstn_app, L in Hq. replace (10 * 1 - 10)%nat with O in Hq by lia. rewrite firstn_O, app_nil_r, firstn_all2 in Hq by lia.
  unfold answering. rewrite (P5 q Hq), E1. cbn [c_redeliver sw_cfg]. replace (300 <=? 200) with false by reflexivity. rewrite Bool.orb_false_r. apply Bool.negb_false_iff.
  assert (Hi : In (pe_id q) [1; 2; 3; 4; 5; 6; 7; 8; 9; 10]) by (rewrite <- P2; now apply in_map).
  assert (A : forallb (fun i => existsb (fun e => fst e =? i) (d_stream (s_db (final sw_cfg init_sys sw_start)))) [1; 2; 3; 4; 5; 6; 7; 8; 9; 10] = true) by (vm_compute; reflexivity).
  rewrite forallb_forall in A. exact (A _ Hi).
Qed.

Lemma stuck_abandoned s : stuck s -> abandoned_entry sw_cfg s 11 sw_msg.
Proof.
  intros (G & E1 & E2 & E3 & E4 & ps & p & P1 & P2 & P3 & P4 & P5).
  unfold abandoned_entry, on_stream. rewrite E1, E2. split; [vm_compute; tauto|]. split.
  - unfold live, superseded. cbn [sw_msg m_key m_gen]. rewrite E3. reflexivity.
  - split; [|exists p; split; [rewrite P1; apply in_or_app; right; left; reflexivity|]; split; [exact P3|]; cbn; lia].
    intros x Hx. assert (A : forallb (fun x => negb (x_mid x =? 11)) (s_execs (final sw_cfg init_sys sw_start)) = true) by (vm_compute; reflexivity).
    rewrite forallb_forall in A. specialize (A x Hx). lia.
Qed.
Lemma fold_inv {A B} (P : A -> Prop) (f : A -> B -> A) : (forall s w, P s -> P (f s w)) -> forall ws s, P s -> P (fold_left f ws s).
Proof. intros H ws. induction ws as [|w ws IH]; intros s Hs; [exact Hs|]. cbn [fold_left]. auto. Qed.
Lemma stuck_rounds ws : forall s, stuck s -> stuck (fold_left (fun s w => sweep sw_cfg (final sw_cfg s [ORenew "a"; OTick 200]) w 1) ws s).
Proof. exact (fold_inv stuck _ stuck_round ws). Qed.

Theorem C67_abandoned_forever_refuted : exists c s0 m i, reachable c s0 /\
  forall ws, abandoned_entry c (fold_left (fun s w => sweep c (final c s [ORenew "a"; OTick 200]) w 1) ws s0) i m.
Proof.
  exists sw_cfg, (final sw_cfg init_sys sw_start), sw_msg, 11. split; [exists sw_start; reflexivity|].
  intros ws. exact (stuck_abandoned _ (stuck_rounds ws _ stuck_start)).
Qed.
Print Assumptions C67_abandoned_forever_refuted.

(** Examples: with two free slots the eleventh message is found at once. *)
Example C67_example_found : exists h, handed (sweep sw_cfg (final sw_cfg init_sys sw_start) "c" 2) "c" h 11 sw_msg.
Proof.
  apply (C67_found_partial sw_cfg _ "c" 2 (mkPent 11 "b" 0 1) sw_msg (firstn 10 (d_pel (s_db (final sw_cfg init_sys sw_start)))) []).
  - exists sw_start. reflexivity.
  - vm_compute. reflexivity.
  - vm_compute. repeat constructor.
  - vm_compute. repeat constructor.
  - vm_compute. tauto.
  - vm_compute. discriminate.
Qed.

(** Everybody has been silent for too long: eleven searches with two free slots. *)
Example C67_example_in_turn : exists w h, In w (repeat "c"%string 11) /\
  handed (sweeps sw_cfg (final sw_cfg init_sys (sw_start ++ [OTick 300])) (repeat ("c"%string, 2%nat) 11)) w h 11 sw_msg.
Proof.
  apply (C67_found_in_turn_partial sw_cfg _ (repeat ("c"%string, 2%nat) 11) (mkPent 11 "b" 0 1) sw_msg (firstn 10 (d_pel (s_db (final sw_cfg init_sys (sw_start ++ [OTick 300]))))) []).
  - exists (sw_start ++ [OTick 300]). reflexivity.
  - reflexivity.
  - vm_compute. reflexivity.
  - intros w n H. apply repeat_spec in H. injection H as -> ->. vm_compute. repeat constructor.
  - vm_compute. repeat constructor.
  - vm_compute. tauto.
  - vm_compute. discriminate.
Qed.
