(** From the per-key invariants to histories of the whole system. *)
From Verif Require Import Base ZSet Model GInv KView KSim Spec KInv KLine.

Lemma starts_inv c s o m i : starts c s o m i ->
  exists h x, o = OBodyStart h /\ get_exec (s_execs s) h = Some x /\ x_phase x = PClaimed /\ x_msg x = m /\ x_mid x = i.
Proof.
  unfold starts. intros H. destruct o; cbn [step] in H; unfold deliver in H; try discriminate;
    repeat match type of H with context [match ?x with _ => _ end] => destruct x eqn:?; cbn [snd] in H; try discriminate H end.
  injection H as <- <-. eauto 8.
Qed.

Lemma kexecs_In k s x : In x (k_execs (kabs k s)) <-> In x (s_execs s) /\ m_key (x_msg x) = k.
Proof. simpl. rewrite filter_In. unfold xhas_key. now rewrite String.eqb_eq. Qed.
Lemma kstream_In k s i m : In (i, m) (k_stream (kabs k s)) <-> on_stream s i m /\ m_key m = k.
Proof. unfold on_stream. simpl. rewrite filter_In. unfold has_key; simpl. now rewrite String.eqb_eq. Qed.
Lemma kwait_In k s cc i m : In (cc, (i, m)) (k_wait (kabs k s)) <-> In (cc, (i, m)) (d_wait (s_db s)) /\ m_key m = k.
Proof. simpl. rewrite filter_In. unfold whas_key, has_key; simpl. now rewrite String.eqb_eq. Qed.

Lemma get_exec_In s x : XInv s -> In x (s_execs s) -> get_exec (s_execs s) (x_id x) = Some x.
Proof.
  intros X Hx. destruct (get_exec (s_execs s) (x_id x)) as [y|] eqn:E.
  - apply get_exec_spec in E as [Hy E]. f_equal. eapply execs_inj; eauto.
  - unfold get_exec in E. apply (find_none _ _ E) in Hx. lia.
Qed.

Lemma present_held k s m : GInv s -> m_key m = k -> present s m -> held (kabs k s) m.
Proof.
  intros G E [[i H]|[H|[(cc & i & H)|(x & H & Ex)]]].
  - left. exists i. now apply kstream_In.
  - right; left. simpl. now rewrite <- E.
  - right; right; left. exists cc, i. now apply kwait_In.
  - right; right; right. exists x. split; [|exact Ex]. apply kexecs_In. split; [exact H|congruence].
Qed.

Lemma kept_final c k (P : ks -> Prop) (Q : sys -> op -> Prop) :
  (forall s o, GInv s -> UInv k (kabs k s) -> keeps c k s o -> Q s o -> P (kabs k s) -> P (kabs k (fst (step c s o)))) ->
  forall l s, GInv s -> UInv k (kabs k s) -> along c (fun s o => keeps c k s o /\ Q s o) s l ->
  P (kabs k s) -> P (kabs k (final c s l)).
Proof.
  intros Hs l. induction l as [|o l IH]; intros s G U H HP; [exact HP|]. destruct H as [[H1 H2] H3].
  rewrite final_cons. apply IH; auto; [now apply GInv_step|now apply UInv_step].
Qed.

Lemma along_impl c (P Q : sys -> op -> Prop) : (forall s o, P s o -> Q s o) -> forall l s, along c P s l -> along c Q s l.
Proof. intros H l. induction l as [|o l IH]; intros s; simpl; [auto|]. intros [H1 H2]; auto. Qed.

Lemma along_In c (P Q : sys -> op -> Prop) l s : along c P s l ->
  (forall s o, P s o -> In o l -> Q s o) -> along c Q s l.
Proof.
  revert s. induction l as [|o l IH]; intros s; simpl; [auto|]. intros [H1 H2] H. split; [apply H; auto|].
  apply IH; auto.
Qed.

(** The view after an accepted call. *)
Lemma kabs_schedule c k s a t repl : GInv s -> a_key a = k ->
  kabs k (fst (step c s (if repl : bool then OReplace a t else OAdd a t))) = ksched (kabs k s) repl (a_when a <=? t) a /\
  snd (step c s (if repl then OReplace a t else OAdd a t)) =
    ODisp (if negb repl && kexists (kabs k s) then DAlreadyScheduled else DScheduled).
Proof.
  intros [D X] E.
  pose proof (kd_schedule_same k (s_db s) (s_execs s) (a_when a <=? t) repl a D E) as H.
  pose proof (lua_exists_kexists k (s_db s) (s_execs s) D) as L.
  assert (S : step c s (if repl then OReplace a t else OAdd a t) =
              (let '(d, r) := do_schedule (s_db s) a repl t in (set_db s d, ODisp r))) by (destruct repl; reflexivity).
  rewrite S. unfold do_schedule. rewrite E.
  destruct (lua_schedule (s_db s) k (a_when a) (a_when a <=? t) repl None (call_msg a)) as [d r] eqn:Q.
  cbn [fst snd] in *. split; [exact H|]. unfold lua_schedule in Q. rewrite L in Q. unfold kabs.
  destruct (negb repl && kexists (kd k (s_db s) (s_execs s))); injection Q as <- <-; reflexivity.
Qed.

(** ** Replaced schedules *)

Definition was_claimed (k : key) (s : sys) (x : exec) : Prop :=
  In x (s_execs s) /\ m_key (x_msg x) = k /\ x_phase x = PClaimed.

Lemma Guard_init c k s a t repl : GInv s -> UInv k (kabs k s) -> BInv (kabs k s) -> a_key a = k ->
  snd (step c s (if repl : bool then OReplace a t else OAdd a t)) = ODisp DScheduled ->
  Guard (kgen (kabs k s) + 1) (was_claimed k s) (kabs k (fst (step c s (if repl then OReplace a t else OAdd a t)))).
Proof.
  intros G U B E S. destruct (kabs_schedule c k s a t repl G E) as [H1 H2]. rewrite S in H2. rewrite H1.
  assert (N : negb repl && kexists (kabs k s) = false) by (destruct (negb repl && kexists (kabs k s)); [discriminate|reflexivity]).
  assert (Hok : kok k (kabs k s) (KSched repl (a_when a <=? t) a)) by exact E.
  pose proof (kexecs_apply c k (kabs k s) _ Hok) as X. simpl in X.
  assert (K : k_runs (kabs k s) <> None -> k_runs (kapply c (kabs k s) (KSched repl (a_when a <=? t) a)) <> None).
  { intros Hr. simpl. unfold ksched. rewrite N. apply kplace_some. }
  pose proof (kgen_apply c k (kabs k s) _ Hok U K) as Y. cbn [newcopy kapply] in Y. rewrite N in Y. split.
  - rewrite Y. lia.
  - rewrite X. intros x Hx Hp. right. exists x. apply kexecs_In in Hx as [Hx1 Hx2]. unfold was_claimed. repeat split; auto.
Qed.

Lemma Guard_step c k s o G old : GInv s -> UInv k (kabs k s) -> keeps c k s o ->
  Guard G old (kabs k s) -> Guard G old (kabs k (fst (step c s o))).
Proof.
  intros Gi U K H. apply (kept_ind c k s o (Guard G old) Gi U K); [|exact H].
  intros; eapply Guard_apply; eauto.
Qed.

Lemma Guard_starts c k s o m i G old : Guard G old (kabs k s) -> starts c s o m i -> m_key m = k ->
  G <= m_gen m \/ exists y, old y /\ x_msg y = m /\ x_mid y = i.
Proof.
  intros [_ H] S E. apply starts_inv in S as (h & x & -> & Hx & Hp & <- & <-). apply get_exec_spec in Hx as [Hx _].
  destruct (H x) as [|(y & Hy & _ & E1 & E2)]; [now apply kexecs_In|auto|left; auto|right; eauto].
Qed.

Lemma keeps_schedule c k s a t (repl : bool) : keeps c k s (if repl then OReplace a t else OAdd a t).
Proof.
  intros H. assert (S : step c s (if repl then OReplace a t else OAdd a t) =
              (let '(d, r) := do_schedule (s_db s) a repl t in (set_db s d, ODisp r))) by (destruct repl; reflexivity).
  rewrite S. unfold do_schedule. destruct (lua_schedule _ _ _ _ _ _ _) as [d r] eqn:Q. cbn [fst set_db s_db].
  unfold lua_schedule in Q. destruct (negb repl && lua_exists (s_db s) (a_key a)); injection Q as <- _; [exact H|].
  assert (P : forall d w imm m, d_runs d k <> None -> d_runs (place d (a_key a) w imm false m) k <> None).
  { intros d0 w imm m Hd. unfold place, hincr_gen. cbv zeta. destruct imm; unfold xadd; simpl;
      unfold upd; destruct (String.eqb k (a_key a)); try discriminate; exact Hd. }
  change (d_runs (publish ?d _ _) k) with (d_runs d k). apply P.
  destruct repl; [|exact H]. unfold lua_replace_existing. destruct (match r_sid _ with Some _ => _ | None => _ end); exact H.
Qed.

Theorem replaced_copy_never_starts c k s a t l o m i :
  reachable_keeping c k s -> a_key a = k ->
  let s1 := fst (step c s (OReplace a t)) in
  along c (keeps c k) s1 l -> starts c (final c s1 l) o m i -> m_key m = k ->
  claimed_in s m i \/ ~ present s m.
Proof.
  intros R E s1 K S Em.
  pose proof (reachable_GInv c s (reachable_keeping_reachable c k s R)) as G.
  pose proof (reachable_UInv c k s (reachable_keeping_reachable c k s R)) as U.
  pose proof (reachable_BInv c k s R) as B.
  assert (G0 : Guard (kgen (kabs k s) + 1) (was_claimed k s) (kabs k s1)).
  { apply (Guard_init c k s a t true); auto. }
  assert (G1 : Guard (kgen (kabs k s) + 1) (was_claimed k s) (kabs k (final c s1 l))).
  { apply (kept_final c k (Guard (kgen (kabs k s) + 1) (was_claimed k s)) (fun _ _ => True)); auto.
    - intros; now apply Guard_step.
    - now apply GInv_step.
    - now apply UInv_step.
    - revert K. apply along_impl. auto. }
  destruct (Guard_starts _ _ _ _ _ _ _ _ G1 S Em) as [Hg|(y & (Y1 & Y2 & Y3) & Y4 & Y5)].
  - right. intros P. apply (present_held k) in P; auto. apply held_holds in P as [lc P].
    apply (bi_le _ B) in P. lia.
  - left. exists y. auto.
Qed.

(** ** The payload of what starts later *)

Lemma no_stale_label k s o v e (pay : msg -> Prop) : GInv s -> UInv k v -> label k o e -> kok k v e ->
  (single o = true -> v = kabs k s) -> no_stale_resched k s o ->
  (forall a t, (o = OAdd a t \/ o = OReplace a t) -> a_key a = k -> pay (call_msg a)) ->
  no_stale_event pay v e.
Proof.
  intros [D X] U L Hok Hs NS Hp. destruct e; simpl; auto.
  - simpl in L, Hok. destruct L as (t & -> & _). apply (Hp a t); [destruct repl; auto|exact Hok].
  - simpl in L. destruct L as (t & -> & _). rewrite (Hs eq_refl) in *. destruct Hok as [Hin _].
    apply kexecs_In in Hin as [Hi1 Hi2]. simpl in NS. change (ksuper (kabs k s) ?g) with (superseded (s_db s) k g).
    apply (NS x); [now apply get_exec_In|exact Hi2].
  - simpl in L. destruct L as (mx & t & ->). rewrite (Hs eq_refl) in *. destruct Hok as [Hin _].
    apply kexecs_In in Hin as [Hi1 Hi2]. simpl in NS. change (ksuper (kabs k s) ?g) with (superseded (s_db s) k g).
    apply (NS x); [now apply get_exec_In|exact Hi2].
Qed.

Lemma Pay_init c k s a t (repl : bool) : GInv s -> UInv k (kabs k s) -> BInv (kabs k s) -> a_key a = k -> not_waiting k s ->
  snd (step c s (if repl then OReplace a t else OAdd a t)) = ODisp DScheduled ->
  Pay (kgen (kabs k s) + 1) (carries a) (kabs k (fst (step c s (if repl then OReplace a t else OAdd a t)))).
Proof.
  intros G U B E W S. destruct (kabs_schedule c k s a t repl G E) as [H1 H2]. rewrite S in H2. rewrite H1.
  assert (N : negb repl && kexists (kabs k s) = false) by (destruct (negb repl && kexists (kabs k s)); [discriminate|reflexivity]).
  assert (W' : k_wait (kabs k s) = []).
  { destruct (k_wait (kabs k s)) as [|[cc [i m]] w] eqn:Q; [reflexivity|exfalso].
    assert (Hin : In (cc, (i, m)) (k_wait (kabs k s))) by (rewrite Q; simpl; auto).
    apply kwait_In in Hin as [H3 H4]. exact (W cc i m H3 H4). }
  clear H1 H2. assert (Hok : kok k (kabs k s) (KSched repl (a_when a <=? t) a)) by exact E.
  assert (K : k_runs (kabs k s) <> None -> k_runs (kapply c (kabs k s) (KSched repl (a_when a <=? t) a)) <> None).
  { intros Hr. simpl. unfold ksched. rewrite N. apply kplace_some. }
  pose proof (kgen_apply c k (kabs k s) _ Hok U K) as Y. cbn [newcopy kapply] in Y. rewrite N in Y.
  split; [rewrite Y; lia|split].
  - intros m Hm Hg. change (ksched (kabs k s) repl (a_when a <=? t) a) with (kapply c (kabs k s) (KSched repl (a_when a <=? t) a)) in Hm.
    apply (held_apply c k) in Hm; auto. destruct Hm as [H|(m0 & lc & O & _ & ->)].
    + apply held_holds in H as [lc H]. apply (bi_le _ B) in H. lia.
    + injection O as <-. repeat split.
  - intros cc i m Hm. change (ksched (kabs k s) repl (a_when a <=? t) a) with (kapply c (kabs k s) (KSched repl (a_when a <=? t) a)) in Hm.
    apply (wait_apply c k) in Hm; auto. rewrite W' in Hm. destruct Hm as [[]|(x & Hx & _)]. discriminate.
Qed.

Theorem later_starts_carry c k s a t l o m i :
  reachable_keeping c k s -> a_key a = k -> not_waiting k s ->
  let s1 := fst (step c s (OReplace a t)) in
  along c (fun s o => keeps c k s o /\ no_stale_resched k s o) s1 l ->
  starts c (final c s1 l) o m i -> m_key m = k ->
  claimed_in s m i \/ carries a m \/ exists a', called_in k l a' /\ carries a' m.
Proof.
  intros R E W s1 K S Em.
  pose proof (reachable_GInv c s (reachable_keeping_reachable c k s R)) as G.
  pose proof (reachable_UInv c k s (reachable_keeping_reachable c k s R)) as U.
  pose proof (reachable_BInv c k s R) as B.
  set (pay := fun m => carries a m \/ exists a', called_in k l a' /\ carries a' m).
  assert (PO : payload_only pay).
  { intros m1 m2 E1 E2 E3 [H|(a' & H1 & H2)]; [left; eapply payload_carries; eauto|right; exists a'; split; [auto|eapply payload_carries; eauto]]. }
  assert (D : snd (step c s (OReplace a t)) = ODisp DScheduled) by reflexivity.
  assert (G0 : Guard (kgen (kabs k s) + 1) (was_claimed k s) (kabs k s1)) by (apply (Guard_init c k s a t true); auto).
  assert (P0 : Pay (kgen (kabs k s) + 1) pay (kabs k s1)).
  { destruct (Pay_init c k s a t true) as (P1 & P2 & P3); auto. split; [exact P1|split; [|exact P3]]. intros; left; auto. }
  assert (K' : along c (fun s o => keeps c k s o /\ (no_stale_resched k s o /\ In o l)) s1 l).
  { revert K. intros K. eapply along_In; [exact K|]. simpl. tauto. }
  assert (GP : (fun v => Guard (kgen (kabs k s) + 1) (was_claimed k s) v /\ Pay (kgen (kabs k s) + 1) pay v) (kabs k (final c s1 l))).
  { apply (kept_final c k (fun v => Guard (kgen (kabs k s) + 1) (was_claimed k s) v /\ Pay (kgen (kabs k s) + 1) pay v)
      (fun s o => no_stale_resched k s o /\ In o l)); auto; [|now apply GInv_step|now apply UInv_step].
    intros s2 o2 G2 U2 K2 [N2 I2] [H1 H2]. split; [now apply Guard_step|].
    apply (kept_ind c k s2 o2 (Pay (kgen (kabs k s) + 1) pay) G2 U2 K2); [|exact H2].
    intros v e Hok L U3 U4 K4 Hsg HP. eapply Pay_apply; eauto. eapply no_stale_label; eauto.
    intros a' t' Ho' Ea. right. exists a'. split; [|repeat split]. split; [exact Ea|]. exists t'. destruct Ho' as [->| ->]; auto. }
  destruct GP as [G1 P1].
  destruct (Guard_starts _ _ _ _ _ _ _ _ G1 S Em) as [Hg|(y & (Y1 & Y2 & Y3) & Y4 & Y5)].
  - right. apply starts_inv in S as (h & x & -> & Hx & Hp & <- & <-). apply get_exec_spec in Hx as [Hx _].
    destruct P1 as (_ & P1 & _). apply P1; [|exact Hg]. right; right; right. exists x. split; [now apply kexecs_In|reflexivity].
  - left. exists y. auto.
Qed.

Theorem replacement_is_what_runs c k s a t l o m i :
  reachable_keeping c k s -> a_key a = k -> not_waiting k s ->
  let s1 := fst (step c s (OReplace a t)) in
  along c (fun s o => keeps c k s o /\ no_stale_resched k s o /\ no_schedule k o) s1 l ->
  starts c (final c s1 l) o m i -> m_key m = k ->
  claimed_in s m i \/ carries a m.
Proof.
  intros R E W s1 K S Em.
  destruct (later_starts_carry c k s a t l o m i) as [H|[H|(a' & [H1 (t' & H2)] & _)]]; auto.
  - revert K. apply along_impl. tauto.
  - exfalso. assert (X : forall s, along c (fun s o => keeps c k s o /\ no_stale_resched k s o /\ no_schedule k o) s l -> False).
    { clear - H1 H2. induction l as [|o l IH]; simpl in *; [tauto|]. intros s [(_ & _ & N) K].
      destruct H2 as [[->|H2]|[->|H2]]; simpl in N; eauto. }
    exact (X _ K).
Qed.


(** ** Accepted tasks are kept *)

Lemma calm_label k s o v e : GInv s -> label k o e -> kok k v e ->
  (single o = true -> v = kabs k s) -> only_adds k o -> no_stale_resched k s o -> ~ finishes k s o ->
  calm_event v e \/ exists imm a, e = KSched false imm a.
Proof.
  intros G L Hok Hs C N F. destruct e; simpl; auto; simpl in L.
  - destruct L as [w ->]; contradiction.
  - destruct L as [w ->]; contradiction.
  - destruct L as [w ->]; contradiction.
  - destruct L as (t & -> & _). destruct repl; [simpl in C; exfalso; exact (C Hok)|eauto].
  - subst o. simpl in C. congruence.
  - subst o. rewrite (Hs eq_refl) in *. destruct Hok as [Hin Hp]. apply kexecs_In in Hin as [Hi1 Hi2].
    left. change (ksuper (kabs k s) ?g) with (superseded (s_db s) k g).
    destruct (superseded (s_db s) k (m_gen (x_msg x))) eqn:S; [reflexivity|]. exfalso. apply F. simpl.
    exists x. repeat split; auto. apply get_exec_In; [apply G|exact Hi1].
  - destruct L as (t & -> & _). rewrite (Hs eq_refl) in *. destruct Hok as [Hin _]. apply kexecs_In in Hin as [Hi1 Hi2].
    left. apply (N x); [apply get_exec_In; [apply G|auto]|exact Hi2].
  - destruct L as (mx & t & ->). rewrite (Hs eq_refl) in *. destruct Hok as [Hin _]. apply kexecs_In in Hin as [Hi1 Hi2].
    left. apply (N x); [apply get_exec_In; [apply G|auto]|exact Hi2].
  - subst o. simpl in C. congruence.
Qed.

Definition Line (G : Z) (a : call) (v : ks) : Prop := BInv v /\ Pay G (carries a) v /\ Place v.

Lemma Line_apply c k v e G a : kok k v e -> UInv k v -> (k_runs v <> None -> k_runs (kapply c v e) <> None) ->
  calm_event v e -> Line G a v -> Line G a (kapply c v e).
Proof.
  intros Hok U K C (B & P & L). split; [|split].
  - eapply BInv_apply; eauto.
  - eapply Pay_apply; eauto; [apply payload_carries|]. destruct e; simpl in *; auto; contradiction.
  - eapply Place_apply; eauto.
Qed.

Lemma no_calls_only_adds k o : no_calls k o -> only_adds k o.
Proof. destruct o; simpl; auto. Qed.

Lemma Line_step c k s o G a : GInv s -> UInv k (kabs k s) -> keeps c k s o ->
  no_calls k o -> no_stale_resched k s o -> ~ finishes k s o -> Line G a (kabs k s) -> Line G a (kabs k (fst (step c s o))).
Proof.
  intros Gi U K C N F H. apply (kept_ind c k s o (Line G a) Gi U K); [|exact H].
  intros v e Hok L U1 U2 K1 Hs HP. eapply Line_apply; eauto.
  destruct (calm_label k s o v e) as [|(imm & a' & ->)]; auto; [now apply no_calls_only_adds|].
  simpl in L, Hok. destruct L as (t & -> & _). simpl in C. contradiction.
Qed.

Lemma acquire_kept c k s h cc mx t x : get_exec (s_execs s) h = Some x -> m_key (x_msg x) = k ->
  snd (step c s (OAcquire h cc mx t)) <> OAcquired false ->
  kabs k (fst (step c s (OAcquire h cc mx t))) = kphase (kabs k s) h (with_slot (Some (cc, mx))) \/
  kabs k (fst (step c s (OAcquire h cc mx t))) = kabs k s.
Proof.
  intros Hx Hk SP. cbn [step] in *. rewrite Hx in *.
  destruct (x_phase x); auto. destruct (x_slot x); auto.
  destruct (lua_acquire_or_park _ _ _ _ _ _ _ _ _ _) as [d b] eqn:Q. cbn [snd] in SP. destruct b; [|congruence]. left.
  cbn [fst]. unfold kabs at 1. unfold set_execs; cbn [s_db s_execs]. rewrite kd_upd_exec by reflexivity.
  assert (E : exists z, d = take_slot (s_db s) cc z (m_key (x_msg x)) t (slot_ttl c)).
  { unfold lua_acquire_or_park in Q.
    destruct (zscore _ _) as [st|].
    - destruct (_ && _); [injection Q as <-; eauto|discriminate].
    - destruct (_ <? _); [injection Q as <-; eauto|]. destruct (zrangebyscore _ _ _) as [|[? ?] ?]; [discriminate|injection Q as <-; eauto]. }
  destruct E as [z ->]. reflexivity.
Qed.

Lemma Line_taken_step c k s o G a : GInv s -> UInv k (kabs k s) -> keeps c k s o ->
  only_adds k o -> no_stale_resched k s o -> ~ finishes k s o -> not_struck_nor_parked c k s o ->
  Line G a (kabs k s) /\ Taken (kabs k s) ->
  Line G a (kabs k (fst (step c s o))) /\ Taken (kabs k (fst (step c s o))).
Proof.
  intros Gi U K C N F SP HT.
  assert (Gen : (forall x cc, label k o (KPark x cc) -> In x (k_execs (kabs k s)) -> single o = true -> False) ->
    Line G a (kabs k (fst (step c s o))) /\ Taken (kabs k (fst (step c s o)))).
  { intros NP. apply (kept_ind c k s o (fun v => Line G a v /\ Taken v) Gi U K); [|exact HT].
    intros v e Hok L U1 U2 K1 Hs [HP HQ].
    destruct (calm_label k s o v e Gi L Hok Hs C N F) as [Hc|(imm & a' & ->)].
    - split; [eapply Line_apply; eauto|]. destruct HP as (B & P & Pl). eapply Taken_apply; eauto.
      + intros x ->. simpl in L. subst o. rewrite (Hs eq_refl) in *. destruct Hok as [Hin _].
        apply kexecs_In in Hin as [Hi1 Hi2]. simpl in SP. apply (SP x); auto. apply get_exec_In; [apply Gi|exact Hi1].
      + intros x cc ->. assert (S : single o = true) by (simpl in L; destruct L as (? & ? & ->); reflexivity).
        rewrite (Hs S) in *. destruct Hok as [Hin _]. eauto.
    - simpl. unfold ksched. pose proof HQ as (HE & _). simpl. rewrite HE. auto. }
  destruct o; try (apply Gen; intros x cc' L Hin _; simpl in L; destruct L as (? & ? & L); discriminate L).
  destruct (get_exec (s_execs s) h) as [x|] eqn:Hx.
  - destruct (string_dec (m_key (x_msg x)) k) as [Hk|Hk].
    + specialize (SP x Hx Hk). destruct (acquire_kept c k s h c0 maxc t x Hx Hk SP) as [E|E]; rewrite E; [|exact HT].
      pose proof (get_exec_spec _ _ _ Hx) as [Hin Eh].
      assert (Hok : kok k (kabs k s) (KSlot x (Some (c0, maxc)))) by (simpl; apply kexecs_In; auto).
      rewrite <- Eh. change (kphase (kabs k s) (x_id x) (with_slot (Some (c0, maxc)))) with (kapply c (kabs k s) (KSlot x (Some (c0, maxc)))).
      destruct HT as [HP HQ]. split; [eapply Line_apply; eauto; exact I|]. destruct HP as (B & P & Pl).
      eapply Taken_apply; eauto; try exact I; discriminate.
    + apply Gen. intros y cc' L Hin _. simpl in L. destruct L as (mx & t' & [= -> _ _ _]). apply kexecs_In in Hin as [Hi1 Hi2].
      rewrite (get_exec_In s y) in Hx; [|apply Gi|exact Hi1]. congruence.
  - apply Gen. intros y cc' L Hin _. simpl in L. destruct L as (mx & t' & [= -> _ _ _]). apply kexecs_In in Hin as [Hi1 Hi2].
    rewrite (get_exec_In s y) in Hx; [|apply Gi|exact Hi1]. congruence.
Qed.

(** What a call that was accepted establishes. *)
Lemma accept_inv c k s o a : GInv s -> a_key a = k -> accepts c s o a ->
  exists repl t, o = (if repl : bool then OReplace a t else OAdd a t) /\ negb repl && kexists (kabs k s) = false /\
    kabs k (fst (step c s o)) = ksched (kabs k s) repl (a_when a <=? t) a.
Proof.
  intros G E [[t [-> | ->]] S].
  - exists false, t. destruct (kabs_schedule c k s a t false G E) as [H1 H2]. cbn [negb andb] in *. rewrite S in H2.
    split; [reflexivity|]. split; [|exact H1]. destruct (kexists (kabs k s)); [discriminate|reflexivity].
  - exists true, t. destruct (kabs_schedule c k s a t true G E) as [H1 H2]. auto.
Qed.

Lemma not_waiting_nil k s : not_waiting k s <-> k_wait (kabs k s) = [].
Proof.
  split.
  - intros W. destruct (k_wait (kabs k s)) as [|[cc [i m]] w] eqn:Q; [reflexivity|exfalso].
    assert (Hin : In (cc, (i, m)) (k_wait (kabs k s))) by (rewrite Q; simpl; auto).
    apply kwait_In in Hin as [H3 H4]. exact (W cc i m H3 H4).
  - intros E cc i m H1 H2. assert (Hin : In (cc, (i, m)) (k_wait (kabs k s))) by (apply kwait_In; auto). rewrite E in Hin. exact Hin.
Qed.

Lemma accept_BLine c k s o a : reachable c s -> BInv (kabs k s) -> a_key a = k -> accepts c s o a ->
  not_waiting k s -> no_leftover k s o ->
  Line (kgen (kabs k s) + 1) a (kabs k (fst (step c s o))) /\ Taken (kabs k (fst (step c s o))).
Proof.
  intros R B E A W NL.
  pose proof (reachable_GInv c s R) as G.
  pose proof (reachable_UInv c k s R) as U.
  destruct (accept_inv c k s o a G E A) as (repl & t & Eo & N & Ek).
  assert (K : keeps c k s o) by (rewrite Eo; apply keeps_schedule).
  destruct (BInv_step c k s o G U K B) as [B' _].
  apply not_waiting_nil in W.
  destruct (accept_line (kabs k s) repl (a_when a <=? t) a B W N) as (H1 & H2 & H3).
  { destruct repl; [auto|]. destruct (a_when a <=? t) eqn:Q; [|auto]. left. simpl. apply (NL a t Eo). lia. }
  rewrite Ek in *. split; [split; auto|exact H3].
Qed.

Lemma accept_Line c k s o a : reachable_keeping c k s -> a_key a = k -> accepts c s o a ->
  not_waiting k s -> no_leftover k s o ->
  Line (kgen (kabs k s) + 1) a (kabs k (fst (step c s o))) /\ Taken (kabs k (fst (step c s o))).
Proof. intros R. apply accept_BLine; [exact (reachable_keeping_reachable c k s R)|exact (reachable_BInv c k s R)]. Qed.

(** From the invariant to the stored copy. *)
Lemma Line_stored k s G a : UInv k (kabs k s) -> Line G a (kabs k s) ->
  exists m, m_key m = k /\ carries a m /\ stored s m /\ live s m.
Proof.
  intros U (B & (P1 & P2 & P3) & (g & R & Pl)).
  assert (Lv : forall m, m_key m = k -> m_gen m = g -> live s m).
  { intros m Em Eg. unfold live. rewrite Em. change (ksuper (kabs k s) (m_gen m) = false). unfold ksuper. rewrite R. lia. }
  assert (Gg : G <= g) by (unfold kgen in P1; rewrite R in P1; exact P1).
  destruct Pl as [(i & m & H1 & H2 & H3 & H4)|[(m & H1 & H2 & H3 & H4)|(cc & i & m & H1 & H2 & H3 & H4)]]; exists m.
  - pose proof (ui_stream _ _ U _ _ H1) as (Em & _). split; [exact Em|]. split; [apply P2; [left; eauto|lia]|].
    split; [|auto]. left. exists i. apply kstream_In in H1. tauto.
  - pose proof (ui_parked _ _ U _ H1) as (Em & _). split; [exact Em|]. split; [apply P2; [right; left; auto|lia]|].
    split; [|auto]. right; left. unfold in_future. rewrite Em. split; [exact H1|exact H3].
  - assert (Hin : In (cc, (i, m)) (k_wait (kabs k s))) by (rewrite H1; simpl; auto).
    pose proof (ui_wait _ _ U _ _ _ Hin) as (Em & _). split; [exact Em|]. split; [apply P2; [right; right; left; eauto|lia]|].
    split; [|auto]. right; right. exists cc, i. apply kwait_In in Hin. split; [tauto|]. rewrite Em. exact H3.
Qed.

Theorem accepted_not_lost c k s o a l :
  reachable_keeping c k s -> a_key a = k -> accepts c s o a -> not_waiting k s -> no_leftover k s o ->
  let s1 := fst (step c s o) in
  along c (fun s o => keeps c k s o /\ no_calls k o /\ no_stale_resched k s o /\ ~ finishes k s o) s1 l ->
  exists m, m_key m = k /\ carries a m /\ stored (final c s1 l) m /\ live (final c s1 l) m.
Proof.
  intros R E A W NL s1 K.
  pose proof (reachable_GInv c s (reachable_keeping_reachable c k s R)) as G.
  pose proof (reachable_UInv c k s (reachable_keeping_reachable c k s R)) as U.
  destruct (accept_Line c k s o a R E A W NL) as [L _].
  apply (Line_stored k _ (kgen (kabs k s) + 1) a).
  - apply UInv_final; [now apply GInv_step|now apply UInv_step].
  - apply (kept_final c k (Line (kgen (kabs k s) + 1) a) (fun s o => no_calls k o /\ no_stale_resched k s o /\ ~ finishes k s o)); auto.
    + intros s2 o2 G2 U2 K2 (C2 & N2 & F2) H2. now apply Line_step.
    + now apply GInv_step.
    + now apply UInv_step.
Qed.

Theorem pending_key_refuses_adds c k s o a l a' t' :
  reachable_keeping c k s -> a_key a = k -> accepts c s o a -> not_waiting k s -> no_leftover k s o ->
  let s1 := fst (step c s o) in
  along c (fun s o => keeps c k s o /\ only_adds k o /\ no_stale_resched k s o /\ ~ finishes k s o /\
                      not_struck_nor_parked c k s o) s1 l ->
  a_key a' = k ->
  step c (final c s1 l) (OAdd a' t') = (final c s1 l, ODisp DAlreadyScheduled) /\
  exists m, m_key m = k /\ carries a m /\ stored (final c s1 l) m /\ live (final c s1 l) m.
Proof.
  intros R E A W NL s1 K E'.
  pose proof (reachable_GInv c s (reachable_keeping_reachable c k s R)) as G.
  pose proof (reachable_UInv c k s (reachable_keeping_reachable c k s R)) as U.
  pose proof (accept_Line c k s o a R E A W NL) as L.
  assert (LT : Line (kgen (kabs k s) + 1) a (kabs k (final c s1 l)) /\ Taken (kabs k (final c s1 l))).
  { apply (kept_final c k (fun v => Line (kgen (kabs k s) + 1) a v /\ Taken v)
      (fun s o => only_adds k o /\ no_stale_resched k s o /\ ~ finishes k s o /\ not_struck_nor_parked c k s o)); auto.
    + intros s2 o2 G2 U2 K2 (C2 & N2 & F2 & SP2) H2. now apply Line_taken_step.
    + now apply GInv_step.
    + now apply UInv_step. }
  destruct LT as [H1 [H2 _]]. split.
  - set (s2 := final c s1 l) in *. assert (G2 : GInv s2) by (apply GInv_final, GInv_step; exact G).
    cbn [step]. unfold do_schedule, lua_schedule. rewrite E'.
    rewrite (lua_exists_kexists k (s_db s2) (s_execs s2) (proj1 G2)). fold (kabs k s2). rewrite H2. cbn [negb andb].
    destruct s2; reflexivity.
  - eapply Line_stored; [|exact H1]. apply UInv_final; [now apply GInv_step|now apply UInv_step].
Qed.
