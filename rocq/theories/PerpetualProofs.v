(** Proofs about perpetual tasks. *)
From Verif Require Import Base ZSet Model GInv KView KSim Spec KInv KLine Hist Steps Steps2 WaitProofs Progress ProgressProofs Perpetual SpecPerpetual.

Lemma vfinal_app e c l1 : forall v l2, vfinal e c v (l1 ++ l2) = vfinal e c (vfinal e c v l1) l2.
Proof. induction l1; intros; simpl; auto. Qed.

(** ** Steps of the docket inside *)

Lemma vstep_sys e c v o : v_sys (vstep e c v o) = v_sys v \/ exists o', v_sys (vstep e c v o) = fst (step c (v_sys v) o').
Proof.
  assert (B : forall h f, v_sys (in_body v h f) = v_sys v) by (intros; unfold in_body; destruct (body_obj v h); reflexivity).
  destruct o; cbn [vstep]; try (left; apply B); try (right; eexists; reflexivity);
    repeat match goal with |- context [match ?x with _ => _ end] => destruct x end; cbn [v_sys with_sys with_obj with_seed];
    try (left; reflexivity); right; eexists; reflexivity.
Qed.

Lemma vreach_sys e c v : vreachable e c v -> reachable c (v_sys v).
Proof.
  intros [l ->]. enough (H : forall v, reachable c (v_sys v) -> reachable c (v_sys (vfinal e c v l))) by (apply H; exists []; reflexivity).
  induction l as [|o l IH]; intros v R; [exact R|]. cbn [vfinal]. apply IH.
  destruct (vstep_sys e c v o) as [->|[o' ->]]; [exact R|]. destruct R as [l0 E]. exists (l0 ++ [o']).
  rewrite final_app, <- E. symmetry. apply final_cons.
Qed.

Lemma vreach_step e c v o : vreachable e c v -> vreachable e c (vstep e c v o).
Proof. intros [l ->]. exists (l ++ [o]). rewrite vfinal_app. reflexivity. Qed.
Lemma vreach_final e c l : forall v, vreachable e c v -> vreachable e c (vfinal e c v l).
Proof. induction l as [|o l IH]; intros v R; [exact R|]. cbn [vfinal]. apply IH. now apply vreach_step. Qed.

Lemma valong_impl e c (P Q : vsys -> vop -> Prop) : (forall v o, P v o -> Q v o) -> forall l v, valong e c P v l -> valong e c Q v l.
Proof. intros H. induction l as [|o l IH]; simpl; intros v A; [exact A|]. destruct A; auto. Qed.

(** ** The message of an execution does not change *)

Definition Mine (h : Z) (m : msg) (s : sys) : Prop := h < s_nextx s /\ forall x, In x (s_execs s) -> x_id x = h -> x_msg x = m.

Lemma Mine_step c h m s o : Mine h m s -> Mine h m (fst (step c s o)).
Proof.
  intros [A B]. split; [pose proof (nextx_le c s o); lia|]. intros x' X1 X2.
  destruct (exec_step c s o x' X1) as [(x & I1 & I2 & I3 & _)|[I1 I2]]; [|lia]. rewrite I3. apply B; [exact I1|congruence].
Qed.

Lemma Mine_vfinal e c h m l : forall v, Mine h m (v_sys v) -> Mine h m (v_sys (vfinal e c v l)).
Proof.
  induction l as [|o l IH]; intros v M; [exact M|]. cbn [vfinal]. apply IH.
  destruct (vstep_sys e c v o) as [->|[o' ->]]; [exact M|now apply Mine_step].
Qed.

Lemma Mine_get s h x : GInv s -> get_exec (s_execs s) h = Some x -> Mine h (x_msg x) s.
Proof.
  intros [_ GX] X. destruct (get_exec_spec _ _ _ X) as [X1 X2]. split; [apply (xi_next _ GX) in X1; lia|].
  intros y Y1 Y2. assert (y = x) by (eapply execs_inj; eauto; congruence). now subst.
Qed.

Lemma Mine_same h m s x : Mine h m s -> get_exec (s_execs s) h = Some x -> x_msg x = m.
Proof. intros [_ M] X. destruct (get_exec_spec _ _ _ X). auto. Qed.

(** ** The object of an execution *)

Lemma updh_eq {A} (f : Z -> A) h x : updh f h x h = x.
Proof. unfold updh. now rewrite Z.eqb_refl. Qed.
Lemma updh_neq {A} (f : Z -> A) h x j : j <> h -> updh f h x j = f j.
Proof. intros N. unfold updh. destruct (Z.eqb_spec j h); [contradiction|reflexivity]. Qed.

Definition vop_exec (o : vop) : option Z :=
  match o with
  | VEnter h _ | VPerpetuate h _ _ | VAfter h _ _ | VAt h _ | VStop h | VComplete h _ | VCancel2 h | VReplace h _ _ _ | VReplaceStruck h => Some h
  | _ => None
  end.

Lemma obj_other e c v o h : vop_exec o <> Some h -> v_obj (vstep e c v o) h = v_obj v h.
Proof.
  assert (B : forall h' f, h' <> h -> v_obj (in_body v h' f) h = v_obj v h).
  { intros h' f N. unfold in_body. destruct (body_obj v h'); [|reflexivity]. cbn. now apply updh_neq; auto. }
  intros N. destruct o; cbn [vstep vop_exec] in *; auto; try (apply B; congruence);
    repeat match goal with |- context [match ?x with _ => _ end] => destruct x end; cbn [v_obj with_sys with_obj with_seed]; try reflexivity; apply updh_neq; congruence.
Qed.

Definition Chose (ch : choice) (t0 : Z) (p : pobj) : Prop :=
  po_args p = ch_args ch /\ po_kwargs p = ch_kwargs ch /\ po_next p = ch_time ch /\ po_cancelled p = ch_stop ch /\ po_born p = t0.

Lemma body_obj_run v h p : v_obj v h = Some (p, VBody) -> body_obj v h = if running_body v h then Some p else None.
Proof. intros E. unfold body_obj, running_body. rewrite E. destruct (get_exec _ _) as [x|]; [|reflexivity]. destruct (x_phase x); reflexivity. Qed.

Lemma decided_obj e c h t0 l : forall v ch p, valong e c (fun _ o => not_completing h o) v l ->
  v_obj v h = Some (p, VBody) -> Chose ch t0 p ->
  exists p', v_obj (vfinal e c v l) h = Some (p', VBody) /\ Chose (decided e c h v l ch) t0 p'.
Proof.
  induction l as [|o l IH]; intros v ch p A E C; [exists p; auto|]. destruct A as [A1 A2]. cbn [vfinal decided].
  assert (Nx : forall ch', (exists p', v_obj (vstep e c v o) h = Some (p', VBody) /\ Chose ch' t0 p') ->
    exists p', v_obj (vfinal e c (vstep e c v o) l) h = Some (p', VBody) /\ Chose (decided e c h (vstep e c v o) l ch') t0 p').
  { intros ch' (p' & P1 & P2). eapply IH; eauto. }
  apply Nx. clear Nx IH A2 l.
  destruct (vop_exec o) as [j|] eqn:J.
  2: { exists p. rewrite obj_other by congruence. split; [exact E|]. destruct (running_body v h); [|exact C]. destruct o; try discriminate J; exact C. }
  destruct (Z.eq_dec j h) as [->|N].
  2: { exists p. rewrite obj_other by congruence. split; [exact E|]. destruct (running_body v h); [|exact C].
       destruct o; try exact C; cbn in J; injection J as ->; (destruct (Z.eqb_spec j h); [contradiction|exact C]). }
  destruct C as (C1 & C2 & C3 & C4 & C5).
  assert (B : forall f, exists p', v_obj (in_body v h f) h = Some (p', VBody) /\ p' = if running_body v h then f p else p).
  { intros f. unfold in_body. rewrite (body_obj_run v h p E). destruct (running_body v h); [|eauto]. cbn. rewrite updh_eq. eauto. }
  destruct o; cbn in J; try discriminate J; injection J as ->; cbn [vstep].
  - exists p. rewrite E. split; [|destruct (running_body v h); repeat split; auto].
    destruct (get_exec _ _); [|exact E]. exact E.
  - destruct (B (fun p => mkPobj a kw (po_cancelled p) (po_next p) (po_born p))) as (p' & P1 & P2). exists p'. split; [exact P1|].
    rewrite Z.eqb_refl. subst p'. destruct (running_body v h); repeat split; auto.
  - destruct (B (fun p => mkPobj (po_args p) (po_kwargs p) (po_cancelled p) (Some (t + delay)) (po_born p))) as (p' & P1 & P2). exists p'. split; [exact P1|].
    rewrite Z.eqb_refl. subst p'. destruct (running_body v h); repeat split; auto.
  - destruct (B (fun p => mkPobj (po_args p) (po_kwargs p) (po_cancelled p) (Some w) (po_born p))) as (p' & P1 & P2). exists p'. split; [exact P1|].
    rewrite Z.eqb_refl. subst p'. destruct (running_body v h); repeat split; auto.
  - destruct (B (fun p => mkPobj (po_args p) (po_kwargs p) true (po_next p) (po_born p))) as (p' & P1 & P2). exists p'. split; [exact P1|].
    rewrite Z.eqb_refl. subst p'. destruct (running_body v h); repeat split; auto.
  - exfalso. eapply A1. reflexivity.
  - exists p. rewrite E. split; [destruct (get_exec _ _); exact E|destruct (running_body v h); repeat split; auto].
  - exists p. rewrite E. split; [destruct (get_exec _ _); exact E|destruct (running_body v h); repeat split; auto].
  - exists p. rewrite E. split; [exact E|destruct (running_body v h); repeat split; auto].
Qed.

Lemma in_body_not v h f p pc : v_obj v h = Some (p, pc) -> pc <> VBody -> in_body v h f = v.
Proof.
  intros E N. unfold in_body, body_obj. rewrite E. destruct (get_exec _ _); [|reflexivity]. destruct pc; [contradiction|reflexivity..].
Qed.

(** Once on_complete has been called its object changes only by its own steps. *)
Lemma obj_kept e c h p pc l : forall v, v_obj v h = Some (p, pc) -> pc = VReplacing \/ pc = VHandled ->
  (pc = VReplacing -> valong e c (fun _ o => not_replacing h o) v l) -> v_obj (vfinal e c v l) h = Some (p, pc).
Proof.
  induction l as [|o l IH]; intros v E Q A; [exact E|]. cbn [vfinal].
  assert (A1 : pc = VReplacing -> not_replacing h o) by (intros X; apply A in X; apply X).
  apply IH; [|exact Q|intros X; apply A in X; apply X]. clear IH A.
  assert (N : pc <> VBody) by (destruct Q; subst; discriminate). assert (N2 : pc <> VCancelling) by (destruct Q; subst; discriminate).
  destruct (vop_exec o) as [j|] eqn:J; [|rewrite obj_other by congruence; exact E].
  destruct (Z.eq_dec j h) as [->|Nj]; [|rewrite obj_other by congruence; exact E].
  destruct o; cbn in J; try discriminate J; injection J as ->; cbn [vstep]; try (rewrite (in_body_not v h _ p pc E N); exact E);
    rewrite ?E; try (destruct (get_exec _ _); [|exact E]).
  - exact E.
  - destruct pc; try contradiction; exact E.
  - destruct pc; try contradiction; exact E.
  - destruct pc; try exact E. exfalso. destruct (A1 eq_refl) as [X _]. eapply X; reflexivity.
  - destruct pc; try exact E. exfalso. destruct (A1 eq_refl) as [_ X]. apply X; reflexivity.
Qed.

(** ** The successor *)

Lemma replace_superseded c k s a t m : reachable_keeping c k s -> a_key a = k -> 
  (exists x, In x (s_execs s) /\ x_msg x = m /\ m_key m = k) ->
  superseded (s_db (fst (step c s (OReplace a t)))) k (m_gen m) = true.
Proof.
  intros R E (x & X1 & X2 & X3).
  pose proof (reachable_GInv c s (reachable_keeping_reachable c k s R)) as G.
  pose proof (reachable_UInv c k s (reachable_keeping_reachable c k s R)) as U.
  pose proof (reachable_BInv c k s R) as B.
  assert (Hx : In x (k_execs (kabs k s))) by (apply kexecs_In; split; congruence).
  assert (H1 : m_gen m <= kgen (kabs k s)).
  { apply (bi_le _ B _ (LS (x_mid x))). right. exists x. split; [exact Hx|]. split; [reflexivity|congruence]. }
  pose proof (ui_exec _ _ U x Hx) as (_ & _ & H2). rewrite X2 in H2.
  destruct (kabs_schedule c k s a t true G E) as [K1 _].
  change (ksuper (kabs k (fst (step c s (OReplace a t)))) (m_gen m) = true). rewrite K1.
  assert (Kg : kgen (kapply c (kabs k s) (KSched true (a_when a <=? t) a)) = kgen (kabs k s) + 1).
  { rewrite (kgen_apply c k); [reflexivity|exact E|exact U|]. intros _. simpl. unfold ksched. cbn [negb andb]. apply kplace_some. }
  cbn [kapply] in Kg. unfold ksuper. unfold kgen in Kg at 1. pose proof (kgen_nonneg k _ U).
  destruct (r_gen (kr _)) as [g|]; cbn [default] in Kg; [|lia]. rewrite andb_true_iff. split; lia.
Qed.

Lemma replace_the_run c k s a t : reachable_keeping c k s -> a_key a = k ->
  exists m, first_attempt a m /\ the_run k (fst (step c s (OReplace a t))) (placed_at s a t) m.
Proof.
  intros R E.
  pose proof (reachable_GInv c s (reachable_keeping_reachable c k s R)) as G.
  pose proof (reachable_UInv c k s (reachable_keeping_reachable c k s R)) as U.
  pose proof (reachable_BInv c k s R) as B.
  destruct (replace_truth c s a t G) as (s' & Es & m & F & _ & L & St & _ & Zs & _). rewrite Es. cbn [fst].
  assert (Es' : s' = fst (step c s (OReplace a t))) by (rewrite Es; reflexivity).
  assert (Hk : m_key m = k) by (destruct F; congruence).
  destruct (BInv_step c k s (OReplace a t) G U (keeps_schedule c k s a t true) B) as [B' _].
  pose proof (GInv_step c s (OReplace a t) G) as G'. pose proof (UInv_step c k s (OReplace a t) G U) as U'.
  rewrite <- Es' in *. exists m. split; [exact F|]. split; [exact Hk|].
  assert (S0 : stored_at s' (placed_at s a t) m) by (apply St; auto).
  split; [exact S0|]. split; [exact L|]. split.
  - intros P. unfold placed_at in *. destruct (a_when a <=? t) eqn:W; [discriminate|]. split; [exact S0|]. rewrite Zs.
    replace (String.eqb (a_key a) (m_key m)) with true by (symmetry; apply String.eqb_eq; congruence). rewrite ?W. f_equal. symmetry. apply F.
  - intros p' m' H1 H2 H3. eapply same_spot; eauto.
    rewrite (live_gen k s' p' m' U' B' H2 H1 H3). apply (live_gen k s' _ m U' B' Hk S0 L).
Qed.

Lemma mark_keeps_run c k s h x st t e r p m : GInv s -> get_exec (s_execs s) h = Some x -> m_key (x_msg x) = k ->
  superseded (s_db s) k (m_gen (x_msg x)) = true -> the_run k s p m -> the_run k (fst (step c s (OTerminal h st t e r))) p m.
Proof.
  intros G X K S (R1 & R2 & R3 & R4 & R5).
  destruct (superseded_run_harmless c s h x (OTerminal h st t e r) G X) as (H1 & H2 & _ & H4 & H5); [congruence|left; eauto|].
  assert (Lv : forall m', live (fst (step c s (OTerminal h st t e r))) m' -> live s m').
  { intros m'. unfold live, superseded, rget. now rewrite H1. }
  split; [exact R1|]. split; [now apply H5|]. split; [|split].
  - unfold live, superseded, rget in *. now rewrite H1.
  - intros P. destruct (R4 P) as [Q1 Q2]. split; [|rewrite H2; exact Q2]. subst p. exact (H5 AtFuture m R2 R3).
  - intros p' m' S1 S2 S3. apply R5; auto. destruct H4 as [H4|H4]; [|apply H4 in S1; tauto]. cbv zeta in H4. rewrite H4 in S1. exact S1.
Qed.

(** ** A body that stopped its task *)

From Verif Require Import SpecResult ResultProofs.

Lemma cancel_finish_rest d k ttl : let d' := cancel_finish d k ttl in
  d_stream d' = d_stream d /\ d_parked d' = d_parked d /\ d_wait d' = d_wait d /\
  (r_state (rget d' k) = r_state (rget d k) \/ r_state (rget d' k) = None).
Proof.
  cbv zeta. unfold cancel_finish. destruct (0 <? ttl).
  - unfold expire_runs, hdel. cbn. repeat split; auto. unfold rget. cbn. destruct (d_runs d k) as [r|] eqn:E; cbn; rewrite ?upd_eq, ?E; cbn; auto.
  - unfold del_runs. cbn. repeat split; auto. right. unfold rget. cbn. rewrite upd_eq. reflexivity.
Qed.

Lemma terminal_rest d k gen st t ttl er re mid : let d' := fst (lua_terminal d k gen st t ttl er re mid) in
  d_stream d' = del_entry mid (d_stream d) /\ d_parked d' = d_parked d /\ d_wait d' = d_wait d /\
  (r_state (rget d' k) = r_state (rget d k) \/ r_state (rget d' k) = None \/ r_state (rget d' k) = Some st).
Proof.
  cbv zeta. unfold lua_terminal. destruct (superseded d k gen).
  - cbn [fst]. destruct (prog_mine _ _ _); cbn; repeat split; auto.
  - cbn [fst]. destruct (0 <? ttl); cbn; repeat split; auto; right; unfold rget; cbn; rewrite ?upd_eq; cbn; auto.
Qed.

Lemma stop_over c k s h t st t' er re x : reachable c s -> only_run k h s -> get_exec (s_execs s) h = Some x -> may_finish (x_phase x) st = true ->
  let s2 := fst (step c (fst (step c s (OCancel k t))) (OCancelFinish k)) in
  Over (kabs k (fst (step c s2 (OTerminal h st t' er re)))).
Proof.
  intros R (y & X & K & P & L & O1 & O2) X' M s2. assert (y = x) by congruence. subst y. clear X'.
  pose proof (reachable_GInv c s R) as G.
  destruct (cancel_rest (s_db s) k t) as (_ & _ & R3 & _ & _ & R6 & R7 & R8). cbv zeta in *.
  set (s1 := fst (step c s (OCancel k t))) in *.
  assert (W1 : d_wait (s_db s1) = d_wait (s_db s)) by apply R8.
  assert (St1 : r_state (rget (s_db s1) k) <> Some SScheduled).
  { unfold s1. cbn [step fst set_db s_db]. clear. unfold lua_cancel. cbv zeta. set (d0 := hdel _ _ _).
    clearbody d0.
    assert (X : r_state (rget (hset d0 k (rset_cancelled t)) k) <> Some SScheduled) by (unfold hset, rget at 1; cbn; rewrite upd_eq; cbn; discriminate).
    destruct (r_state (rget d0 k)) as [[]|] eqn:E; try exact X; congruence. }
  destruct (cancel_finish_rest (s_db s1) k (c_ttl c)) as (F1 & F2 & F3 & F4). cbv zeta in *.
  assert (E2 : s_db s2 = cancel_finish (s_db s1) k (c_ttl c)) by reflexivity.
  assert (X2 : get_exec (s_execs s2) h = Some x) by exact X.
  destruct (terminal_rest (s_db s2) (m_key (x_msg x)) (m_gen (x_msg x)) st t' (c_ttl c) er re (x_mid x)) as (T1 & T2 & T3 & T4). cbv zeta in *.
  set (s3 := fst (step c s2 (OTerminal h st t' er re))).
  assert (E3 : s_db s3 = fst (lua_terminal (s_db s2) (m_key (x_msg x)) (m_gen (x_msg x)) st t' (c_ttl c) er re (x_mid x)) /\
     s_execs s3 = upd_exec (s_execs s) h (with_phase PDone)).
  { unfold s3. cbn [step]. rewrite X2, M. destruct (lua_terminal _ _ _ _ _ _ _ _ _). split; reflexivity. }
  destruct E3 as [E3 E4]. rewrite <- E3 in *.
  assert (Nw : forall cc i m, In (cc, (i, m)) (d_wait (s_db s3)) -> m_key m <> k).
  { intros cc i m H E. rewrite T3, E2, F3, W1 in H. pose proof (O2 (AtLine cc i) m H E). discriminate. }
  split; [constructor|].
  - destruct (k_stream (kabs k s3)) as [|[j m0] l0] eqn:Es; [reflexivity|exfalso].
    assert (H : In (j, m0) (k_stream (kabs k s3))) by (rewrite Es; left; reflexivity). apply kstream_In in H as [H3 H4].
    unfold on_stream in H3. rewrite T1, E2, F1 in H3. apply del_entry_In in H3 as [H3 H5].
    unfold s1 in H3. cbn [step fst set_db s_db] in H3. rewrite R3 in H3.
    assert (H6 : In (j, m0) (d_stream (s_db s))) by (destruct (match r_sid _ with Some _ => _ | None => _ end); [now apply del_entry_In in H3|exact H3]).
    pose proof (O2 (AtStream j) m0 H6 H4) as H7. injection H7 as ->. now apply H5.
  - change (d_parked (s_db s3) k = None). rewrite T2, E2, F2. unfold s1. cbn [step fst set_db s_db]. rewrite R7, String.eqb_refl. reflexivity.
  - change (r_state (rget (s_db s3) k) <> Some SScheduled). rewrite <- K in *.
    destruct T4 as [T4|[T4|T4]]; rewrite T4; [|discriminate|].
    + rewrite E2. destruct F4 as [F4|F4]; rewrite F4; [exact St1|discriminate].
    + intros [= ->]. destruct (x_phase x); discriminate M.
  - intros y Y. apply kexecs_In in Y as [Y1 Y2]. rewrite E4 in Y1. unfold upd_exec in Y1. apply in_map_iff in Y1 as (z & Z1 & Z2).
    destruct (Z.eqb_spec (x_id z) h); subst y; [reflexivity|]. now apply O1.
  - destruct (k_wait (kabs k s3)) as [|[cc [i m]] l0] eqn:Es; [reflexivity|exfalso].
    assert (H : In (cc, (i, m)) (k_wait (kabs k s3))) by (rewrite Es; left; reflexivity). apply kwait_In in H as [H1 H2]. now apply Nw in H1.
Qed.

Lemma Over_silent c k s l o m i : reachable c s -> Over (kabs k s) -> along c (fun _ o => no_schedule k o) s l ->
  starts c (final c s l) o m i -> m_key m <> k.
Proof.
  intros R [Id _] A S E. pose proof (Idle_final c k l s (reachable_GInv c s R) (reachable_UInv c k s R) A Id) as If.
  apply starts_inv in S as (h & x & -> & Hx & Hp & Em & _). apply get_exec_spec in Hx as [Hin _].
  assert (x_phase x = PDone) by (apply (id_exec _ If), kexecs_In; split; [exact Hin|congruence]). congruence.
Qed.

Lemma Over_stored k s p m : Over (kabs k s) -> m_key m = k -> ~ stored_at s p m.
Proof.
  intros [Id W] E H. destruct p as [j| |cc j]; cbn in H.
  - assert (X : In (j, m) (k_stream (kabs k s))) by (apply kstream_In; auto). rewrite (id_stream _ Id) in X. exact X.
  - rewrite E in H. pose proof (id_parked _ Id) as X. change (d_parked (s_db s) k = None) in X. congruence.
  - assert (X : In (cc, (j, m)) (k_wait (kabs k s))) by (apply kwait_In; auto). rewrite W in X. exact X.
Qed.

(** ** Seeding *)

Definition quiet (c : cfg) (k : key) (s : sys) (o : op) : Prop :=
  keeps c k s o /\ only_adds k o /\ no_stale_resched k s o /\ ~ finishes k s o /\ not_struck_nor_parked c k s o.

Lemma quiet_add c k s a t : quiet c k s (OAdd a t).
Proof. split; [apply (keeps_schedule c k s a t false)|]. repeat split. intros []. Qed.

Lemma seed_base e c v o : seeds o -> v_sys (vstep e c v o) = v_sys v \/ exists a t, v_sys (vstep e c v o) = fst (step c (v_sys v) (OAdd a t)).
Proof.
  intros S. destruct o; try contradiction; cbn [vstep];
    repeat match goal with |- context [match ?x with _ => _ end] => destruct x end; cbn [v_sys with_sys with_obj with_seed];
    try (left; reflexivity); right; eexists _, _; reflexivity.
Qed.

Lemma quiet_history e c k l : forall v,
  valong e c (fun v o => seeds o \/ v_sys (vstep e c v o) = v_sys v \/ exists o', o = VOp o' /\ quiet c k (v_sys v) o') v l ->
  exists l', v_sys (vfinal e c v l) = final c (v_sys v) l' /\ along c (quiet c k) (v_sys v) l'.
Proof.
  induction l as [|o l IH]; intros v A; [exists []; split; [reflexivity|exact I]|]. destruct A as [A1 A2].
  destruct (IH _ A2) as (l' & E & Q). cbn [vfinal]. rewrite E. clear IH A2 E.
  assert (X : v_sys (vstep e c v o) = v_sys v \/ exists o', v_sys (vstep e c v o) = fst (step c (v_sys v) o') /\ quiet c k (v_sys v) o').
  { destruct A1 as [S|[S|(o' & -> & S)]]; [|auto|].
    - destruct (seed_base e c v o S) as [B|(a & t & B)]; [auto|]. right. exists (OAdd a t). split; [exact B|apply quiet_add].
    - right. exists o'. split; [reflexivity|exact S]. }
  destruct X as [X|(o' & X & Y)]; rewrite X in *; [exists l'; auto|]. exists (o' :: l'). rewrite final_cons. split; [reflexivity|]. split; auto.
Qed.

Lemma updsS_eq {A} (f : string -> A) w x : upds f w x w = x.
Proof. unfold upds. now rewrite String.eqb_refl. Qed.
Lemma updsS_neq {A} (f : string -> A) w x j : j <> w -> upds f w x j = f j.
Proof. intros N. unfold upds. destruct (String.eqb_spec j w); [contradiction|reflexivity]. Qed.

Definition SeedOk (e : tasks) (v : vsys) : Prop :=
  forall w fn pc, v_seed v w = Some (fn, pc) -> exists sp, e fn = Some sp /\ ps_auto sp = true.

Lemma seed_other e c v o w : not_seeding w o -> v_seed (vstep e c v o) w = v_seed v w.
Proof.
  assert (B : forall h' f, v_seed (in_body v h' f) w = v_seed v w).
  { intros h' f. unfold in_body. destruct (body_obj v h'); reflexivity. }
  intros N. destruct o; cbn [vstep not_seeding] in *; auto;
    repeat match goal with |- context [match ?x with _ => _ end] => destruct x end; cbn [v_seed with_sys with_obj with_seed]; try reflexivity; apply updsS_neq; congruence.
Qed.

Lemma seed_final e c w l : forall v, valong e c (fun _ o => not_seeding w o) v l -> v_seed (vfinal e c v l) w = v_seed v w.
Proof.
  induction l as [|o l IH]; intros v A; [reflexivity|]. destruct A as [A1 A2]. cbn [vfinal]. rewrite IH by exact A2. now apply seed_other.
Qed.

Lemma SeedOk_step e c v o : SeedOk e v -> SeedOk e (vstep e c v o).
Proof.
  intros S w fn pc H.
  assert (D : not_seeding w o \/ ~ not_seeding w o) by (destruct o; cbn; auto; match goal with |- ?a <> ?b \/ _ => destruct (String.eqb_spec a b); auto end).
  destruct D as [D|D]; [rewrite seed_other in H by exact D; eauto|].
  destruct o as [| | | | | | | | | | | |w0 fn0|w0|w0 now t|w0]; cbn in D; try tauto; (destruct (String.eqb_spec w0 w); [subst w0; clear D|tauto]); cbn [vstep] in H.
  - destruct (e fn0) as [sp|] eqn:E; [|eauto]. destruct (ps_auto sp) eqn:Au; [|eauto].
    destruct (is_some _); cbn [v_seed with_seed] in H; rewrite updsS_eq in H; [discriminate|]. injection H as <- _. eauto.
  - destruct (v_seed v w) as [[f []]|] eqn:E; [|eauto|congruence].
    destruct (r_state _) as [[]|]; cbn [v_seed with_seed] in H; rewrite updsS_eq in H; try discriminate H; injection H as <- _; eapply S; exact E.
  - destruct (v_seed v w) as [[f []]|] eqn:E; [eauto| |congruence].
    destruct (e f) as [sp|]; [|eauto].
    destruct (match ps_cron sp with Some _ => _ | None => _ end) as [wh it]. cbn [v_seed] in H. rewrite updsS_eq in H. discriminate.
  - destruct (v_seed v w) as [[f []]|] eqn:E; [eauto| |congruence].
    cbn [v_seed with_seed] in H. rewrite updsS_eq in H. discriminate.
Qed.

Lemma SeedOk_reach e c v : vreachable e c v -> SeedOk e v.
Proof.
  intros [l ->]. enough (H : forall v, SeedOk e v -> SeedOk e (vfinal e c v l)) by (apply H; intros w fn pc X; discriminate X).
  induction l as [|o l IH]; intros v S; [exact S|]. cbn [vfinal]. apply IH. now apply SeedOk_step.
Qed.
