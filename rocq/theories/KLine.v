(** The line of runs that descends from one accepted schedule of a key. *)
From Verif Require Import Base ZSet Model GInv KView KSim Spec KInv.

Definition held (v : ks) (m : msg) : Prop :=
  (exists i, In (i, m) (k_stream v)) \/ k_parked v = Some m \/ (exists cc i, In (cc, (i, m)) (k_wait v)) \/
  (exists x, In x (k_execs v) /\ x_msg x = m).

Lemma held_holds v m : held v m -> exists l, holds v (m_gen m) l.
Proof.
  intros [[i H]|[H|[(cc & i & H)|(x & H & E)]]].
  - exists (LS i); simpl; left; eauto.
  - exists LP; simpl; eauto.
  - exists (LW i); simpl; eauto.
  - exists (LS (x_mid x)); simpl; right; exists x. subst; auto.
Qed.

(** The message a new copy is made from. *)
Definition origin (e : kev) : option msg :=
  match e with
  | KSched _ _ a => Some (call_msg a)
  | KResched x when bump _ => Some (resched_msg (x_msg x) when bump)
  | KPark x _ => Some (x_msg x)
  | KWake _ _ m => Some m
  | _ => None
  end.

Lemma held_same v v' m : k_stream v' = k_stream v -> k_execs v' = k_execs v -> k_parked v' = k_parked v -> k_wait v' = k_wait v ->
  held v' m -> held v m.
Proof. intros E1 E2 E3 E4. unfold held. now rewrite E1, E2, E3, E4. Qed.

Lemma held_kdel v i m : held (kdel v i) m -> held v m.
Proof. intros [[j H]|H]; [left; exists j; now apply del_entry_In in H|right; exact H]. Qed.

Lemma held_kphase v h f m : (forall x, x_msg (f x) = x_msg x) -> held (kphase v h f) m -> held v m.
Proof.
  intros Hf [H|[H|[H|(x & Hx & E)]]]; [left; exact H|right; left; exact H|right; right; left; exact H|].
  right; right; right. apply upd_exec_In in Hx as (y & Hy & [->|[_ ->]]); [eauto|]. rewrite Hf in E. eauto.
Qed.

Lemma held_kdel_waiter v cc i m : held (kdel_waiter cc i v) m -> held v m.
Proof.
  intros [H|[H|[(c' & j & H)|H]]]; [left; exact H|right; left; exact H| |right; right; right; exact H].
  right; right; left. apply filter_In in H as [H _]. eauto.
Qed.

Lemma held_unpark v m : held (kset_score (kset_parked v None) None) m -> held v m.
Proof. intros [H|[H|H]]; [left; exact H|discriminate|right; right; exact H]. Qed.

Lemma held_kreplace v m : held (kreplace_existing v) m -> held v m.
Proof.
  unfold kreplace_existing. intros H. apply held_unpark in H. destruct (r_sid (kr v)); [now apply held_kdel in H|exact H].
Qed.

Lemma held_kadd v m m' : held (kadd v m) m' -> held v m' \/ m' = m.
Proof.
  intros [[i H]|H]; [|left; right; exact H]. simpl in H. rewrite in_app_iff in H; simpl in H.
  destruct H as [H|[[= _ <-]|[]]]; [left; left; eauto|auto].
Qed.

Lemma held_kplace v w imm clr m m' : held (kplace v w imm clr m) m' -> held v m' \/ m' = with_gen m (kgen v + 1).
Proof.
  unfold kplace; cbv zeta. fold (kgen v). destruct imm.
  - intros H. apply (held_same (kadd (khset v (rset_gen (kgen v + 1))) (with_gen m (kgen v + 1)))) in H; try reflexivity.
    apply held_kadd in H as [H|H]; [left; exact H|right; exact H].
  - intros H. assert (H' : held (kset_parked v (Some (with_gen m (kgen v + 1)))) m').
    { revert H. destruct clr; apply held_same; reflexivity. }
    destruct H' as [H'|[H'|H']]; [left; left; exact H'|right|left; right; right; exact H'].
    simpl in H'. congruence.
Qed.

Lemma held_apply c k v e m : kok k v e -> held (kapply c v e) m ->
  held v m \/ (exists m0 l, origin e = Some m0 /\ newcopy v e = Some l /\ m = with_gen m0 (kgen v + 1)).
Proof.
  intros Hok H. destruct e; cbn [kapply origin newcopy] in *; auto.
  - left. destruct H as [[i []]|H]; right; exact H.
  - left. destruct H as [H|[H|H]]; [left; exact H|discriminate|right; right; exact H].
  - unfold ksched in H. destruct (negb repl && kexists v); [auto|].
    apply held_kplace in H as [H|H].
    + left. destruct repl; [now apply held_kreplace|exact H].
    + right. do 2 eexists. repeat split. rewrite H. destruct repl; [|reflexivity]. unfold kgen. now rewrite kr_kreplace.
  - left. unfold kcancel in H; cbv zeta in H. apply held_kreplace.
    destruct (r_state _) as [[]|] in H; exact H.
  - left. unfold kmove in H. destruct (k_parked v) as [m0|] eqn:P; [|exact H].
    destruct H as [[i H]|[H|H]]; [|discriminate|right; right; exact H]. simpl in H. rewrite in_app_iff in H; simpl in H.
    destruct H as [H|[[= _ <-]|[]]]; [left; eauto|right; left; exact P].
  - left. destruct H as [H|[H|[H|(y & Hy & E)]]]; [left; exact H|right; left; exact H|right; right; left; exact H|].
    simpl in Hy. rewrite in_app_iff in Hy; simpl in Hy. destruct Hy as [Hy|[<-|[]]]; [right; right; right; eauto|].
    left. exists (x_mid x). rewrite <- E. apply Hok.
  - left. destruct H as [H|[H|[H|(y & Hy & E)]]]; [left; exact H|right; left; exact H|right; right; left; exact H|].
    apply filter_In in Hy as [Hy _]. right; right; right; eauto.
  - left. cbv zeta in H. apply held_kphase in H; [|reflexivity]. unfold kclaim in H. destruct (ksuper v _); [now apply held_kdel in H|exact H].
  - left. apply held_kphase in H; [exact H|reflexivity].
  - left. apply held_kphase in H; [exact H|reflexivity].
  - left. apply held_kphase in H; [exact H|reflexivity].
  - left. apply held_kphase in H; [|reflexivity]. unfold kterminal in H. destruct (ksuper v _).
    + apply held_kdel in H. destruct (kprog_mine v _); exact H.
    + apply held_kdel in H. unfold kexpire in H. destruct (0 <? c_ttl c); exact H.
  - apply held_kphase in H; [|reflexivity]. unfold kresched in H.
    apply (held_same (kplace (kdel v (x_mid x)) when imm true (resched_msg (x_msg x) when bump))) in H; try reflexivity.
    apply held_kplace in H as [H|H]; [left; now apply held_kdel in H|right; do 2 eexists; repeat split; exact H].
  - apply held_kphase in H; [|reflexivity]. unfold kpark in H; cbv zeta in H.
    destruct H as [H|[H|[(cc & i & H)|H]]].
    + left. apply (held_kdel v (x_mid x)). left; exact H.
    + left. right; left; exact H.
    + simpl in H. rewrite in_app_iff in H; simpl in H. destruct H as [H|[[= <- <- <-]|[]]]; [left; right; right; left; eauto|].
      right. do 2 eexists. repeat split.
    + left. right; right; right; exact H.
  - unfold kwake in H. destruct (r_state (kr v)) as [[]|]; try (left; now apply held_kdel_waiter in H).
    cbv zeta in H. apply (held_same (kdel_waiter c0 wid (kadd (khset v (rset_gen (kgen v + 1))) (with_gen m0 (kgen v + 1))))) in H; try reflexivity.
    apply held_kdel_waiter, held_kadd in H as [H|H]; [left; exact H|]. right. do 2 eexists. repeat split. exact H.
  - left. unfold kcleanup in H. apply (held_same (kdel_waiter c0 i v)) in H; try reflexivity. now apply held_kdel_waiter in H.
  - left. now apply held_unpark.
Qed.

(** New waiting-line entries. *)
Lemma wait_apply c k v e cc i m : kok k v e -> In (cc, (i, m)) (k_wait (kapply c v e)) ->
  In (cc, (i, m)) (k_wait v) \/ (exists x, e = KPark x cc /\ m = with_gen (x_msg x) (kgen v + 1)).
Proof.
  intros Hok H. destruct e; cbn [kapply] in *; auto.
  - unfold ksched in H. destruct (negb repl && kexists v); [auto|]. left. revert H. unfold kplace, kreplace_existing.
    destruct imm, repl, (r_sid (kr v)); simpl; auto.
  - left. revert H. unfold kcancel, kreplace_existing. cbv zeta. destruct (r_sid (kr v)), (r_state _) as [[]|]; simpl; auto.
  - left. revert H. unfold kmove. destruct (k_parked v); simpl; auto.
  - left. revert H. unfold kclaim. destruct (ksuper v _); simpl; auto.
  - left. revert H. unfold kterminal, kexpire. destruct (ksuper v (m_gen (x_msg x))), (kprog_mine v (m_gen (x_msg x))), (0 <? c_ttl c); simpl; auto.
  - left. revert H. unfold kresched, kplace. destruct imm; simpl; auto.
  - simpl in H. rewrite in_app_iff in H; simpl in H. destruct H as [H|[[= <- <- <-]|[]]]; [auto|right; eauto].
  - left. revert H. unfold kwake. destruct (r_state (kr v)) as [[]|]; simpl; intros H; now apply filter_In in H.
  - left. simpl in H. now apply filter_In in H.
Qed.

(** ** A replaced schedule is never claimed again *)

Definition Guard (G : Z) (old : exec -> Prop) (v : ks) : Prop :=
  G <= kgen v /\
  forall x, In x (k_execs v) -> x_phase x = PClaimed -> G <= m_gen (x_msg x) \/
     (exists y, old y /\ x_id y = x_id x /\ x_mid y = x_mid x /\ x_msg y = x_msg x).

Lemma upd_exec_claimed v h f x (Q : exec -> Prop) :
  (forall y, In y (k_execs v) -> x_phase y = PClaimed -> Q y) ->
  (forall y, In y (k_execs v) -> x_id y = h -> x_phase (f y) = PClaimed -> Q (f y)) ->
  In x (k_execs (kphase v h f)) -> x_phase x = PClaimed -> Q x.
Proof. intros H1 H2 Hx Hp. apply upd_exec_In in Hx as (y & Hy & [->|[E ->]]); auto. Qed.

Lemma ksuper_false v g : ksuper v g = false -> 1 <= g -> exists c, r_gen (kr v) = Some c /\ c <= g.
Proof. unfold ksuper. destruct (r_gen (kr v)) as [c|]; [intros; exists c; split; [reflexivity|lia]|lia]. Qed.

Lemma ksuper_true v g : ksuper v g = true -> forall c, r_gen (kr v) = Some c -> g < c.
Proof. unfold ksuper. intros H c E; rewrite E in H. lia. Qed.

Lemma kexecs_apply c k v e : kok k v e ->
  match e with
  | KDeliver x _ => k_execs (kapply c v e) = k_execs v ++ [x]
  | KCrash w => k_execs (kapply c v e) = filter (fun x => negb (String.eqb (x_worker x) w)) (k_execs v)
  | KClaim x _ => k_execs (kapply c v e) = upd_exec (k_execs v) (x_id x) (with_phase (if ksuper v (m_gen (x_msg x)) then PDone else PClaimed))
  | KPhase x p => k_execs (kapply c v e) = upd_exec (k_execs v) (x_id x) (with_phase p)
  | KSlot x o => k_execs (kapply c v e) = upd_exec (k_execs v) (x_id x) (with_slot o)
  | KStruck x => k_execs (kapply c v e) = upd_exec (k_execs v) (x_id x) (with_phase PStruck)
  | KFinish x _ _ _ _ _ | KResched x _ _ _ | KPark x _ =>
      k_execs (kapply c v e) = upd_exec (k_execs v) (x_id x) (with_phase PDone)
  | _ => k_execs (kapply c v e) = k_execs v
  end.
Proof.
  intros Hok. destruct e; cbn [kapply]; try reflexivity.
  - unfold ksched, kplace, kreplace_existing. destruct (negb repl && kexists v); [reflexivity|].
    destruct imm, repl, (r_sid (kr v)); reflexivity.
  - unfold kcancel, kreplace_existing. cbv zeta. destruct (r_sid (kr v)), (r_state _) as [[]|]; reflexivity.
  - unfold kmove. destruct (k_parked v); reflexivity.
  - cbv zeta. unfold kclaim. destruct (ksuper v _); reflexivity.
  - unfold kterminal, kexpire. destruct (ksuper v (m_gen (x_msg x))), (kprog_mine v (m_gen (x_msg x))), (0 <? c_ttl c); reflexivity.
  - unfold kresched, kplace. destruct imm; reflexivity.
  - unfold kwake. destruct (r_state (kr v)) as [[]|]; reflexivity.
Qed.

Lemma nodup_id_inj (l : list exec) x y : NoDup (map x_id l) -> In x l -> In y l -> x_id x = x_id y -> x = y.
Proof.
  induction l as [|a l IH]; simpl; [tauto|]. intros N. inversion N as [|? ? N1 N2]; subst.
  intros [->|Hx] [->|Hy] E; auto.
  - exfalso; apply N1. rewrite E. now apply in_map.
  - exfalso; apply N1. rewrite <- E. now apply in_map.
Qed.

(** What happens to the phase of an execution of the key in one event. *)
Lemma exec_apply c k v e x : kok k v e -> UInv k v -> In x (k_execs (kapply c v e)) ->
  (exists l, e = KDeliver x l) \/
  (exists y, In y (k_execs v) /\ x_id x = x_id y /\ x_mid x = x_mid y /\ x_msg x = x_msg y /\ x_redel x = x_redel y /\
     x_worker x = x_worker y /\
     (x_phase x = x_phase y \/
      (exists t, e = KClaim y t /\ x_phase y = PDelivered /\ x_phase x = if ksuper v (m_gen (x_msg y)) then PDone else PClaimed) \/
      (exists p, e = KPhase y p /\ x_phase x = p) \/
      (e = KStruck y /\ x_phase y = PDelivered /\ x_phase x = PStruck) \/
      (x_phase x = PDone /\ ((exists s t n er re, e = KFinish y s t n er re) \/ (exists w b i, e = KResched y w b i) \/ (exists cc, e = KPark y cc))))).
Proof.
  intros Hok U H. pose proof (kexecs_apply c k v e Hok) as K.
  assert (Same : In x (k_execs v) -> exists y, In y (k_execs v) /\ x_id x = x_id y /\ x_mid x = x_mid y /\ x_msg x = x_msg y /\ x_redel x = x_redel y /\ x_worker x = x_worker y /\
     x_phase x = x_phase y) by (intros Hx; exists x; auto 10).
  assert (Same' : In x (k_execs v) -> exists y, In y (k_execs v) /\ x_id x = x_id y /\ x_mid x = x_mid y /\ x_msg x = x_msg y /\ x_redel x = x_redel y /\ x_worker x = x_worker y /\
     (x_phase x = x_phase y \/
      (exists t, e = KClaim y t /\ x_phase y = PDelivered /\ x_phase x = if ksuper v (m_gen (x_msg y)) then PDone else PClaimed) \/
      (exists p, e = KPhase y p /\ x_phase x = p) \/
      (e = KStruck y /\ x_phase y = PDelivered /\ x_phase x = PStruck) \/
      (x_phase x = PDone /\ ((exists s t n er re, e = KFinish y s t n er re) \/ (exists w b i, e = KResched y w b i) \/ (exists cc, e = KPark y cc))))).
  { intros Hx. destruct (Same Hx) as (y & H1 & H2 & H3 & H4 & H5 & H6 & H7). exists y. auto 12. }
  destruct e; rewrite K in H; try (right; apply Same'; exact H).
  - rewrite in_app_iff in H; simpl in H. destruct H as [H|[->|[]]]; [right; auto|left; eauto].
  - apply filter_In in H as [H _]. right; auto.
  - right. destruct Hok as [Hin Hp]. apply upd_exec_In in H as (y & Hy & [->|[E ->]]); [apply Same'; auto|].
    assert (y = x0) by (eapply nodup_id_inj; eauto; apply (ui_nodup _ _ U)). subst y.
    exists x0. simpl. repeat split; auto. right; left. eauto.
  - right. destruct Hok as [Hin Hp]. apply upd_exec_In in H as (y & Hy & [->|[E ->]]); [apply Same'; auto|].
    assert (y = x0) by (eapply nodup_id_inj; eauto; apply (ui_nodup _ _ U)). subst y.
    exists x0. simpl. repeat split; auto. right; right; left. eauto.
  - right. apply upd_exec_In in H as (y & Hy & [->|[E ->]]); [apply Same'; auto|].
    exists y. simpl. repeat split; auto.
  - right. destruct Hok as [Hin Hp]. apply upd_exec_In in H as (y & Hy & [->|[E ->]]); [apply Same'; auto|].
    assert (y = x0) by (eapply nodup_id_inj; eauto; apply (ui_nodup _ _ U)). subst y.
    exists x0. simpl. repeat split; auto. do 3 right; left. auto.
  - right. destruct Hok as [Hin Hp]. apply upd_exec_In in H as (y & Hy & [->|[E ->]]); [apply Same'; auto|].
    assert (y = x0) by (eapply nodup_id_inj; eauto; apply (ui_nodup _ _ U)). subst y.
    exists x0. simpl. repeat split; auto. do 4 right. split; [reflexivity|]. left; eauto 8.
  - right. destruct Hok as [Hin Hp]. apply upd_exec_In in H as (y & Hy & [->|[E ->]]); [apply Same'; auto|].
    assert (y = x0) by (eapply nodup_id_inj; eauto; apply (ui_nodup _ _ U)). subst y.
    exists x0. simpl. repeat split; auto. do 4 right. split; [reflexivity|]. right; left; eauto 8.
  - right. destruct Hok as [Hin Hp]. apply upd_exec_In in H as (y & Hy & [->|[E ->]]); [apply Same'; auto|].
    assert (y = x0) by (eapply nodup_id_inj; eauto; apply (ui_nodup _ _ U)). subst y.
    exists x0. simpl. repeat split; auto. do 4 right. split; [reflexivity|]. right; right; eauto 8.
Qed.

Lemma Guard_apply c k v e G old : kok k v e -> UInv k v -> (k_runs v <> None -> k_runs (kapply c v e) <> None) ->
  Guard G old v -> Guard G old (kapply c v e).
Proof.
  intros Hok U K [G1 G2]. pose proof (kgen_apply c k v e Hok U K) as E. split.
  - rewrite E. destruct (newcopy v e); lia.
  - intros x Hx Hp. destruct (exec_apply c k v e x Hok U Hx) as [[l ->]|(y & Hy & E1 & E2 & E3 & _ & _ & D)].
    + destruct Hok as (_ & _ & Hd & _). congruence.
    + destruct D as [D|[(t & -> & Hd & D)|[(p & -> & D)|[(-> & Hd & D)|(D & _)]]]]; try congruence.
      * rewrite D in Hp. destruct (G2 y Hy Hp) as [|(z & Z1 & Z2 & Z3 & Z4)]; [left; congruence|right]. exists z. repeat split; congruence.
      * left. destruct (ksuper v (m_gen (x_msg y))) eqn:S; [congruence|]. apply (ui_exec _ _ U) in Hy as (_ & _ & Hg).
        destruct (ksuper_false _ _ S Hg) as (c0 & R & Hc). unfold kgen in G1. rewrite R in G1. simpl in G1. rewrite E3. lia.
      * destruct Hok as [_ [[_ [->| ->]]|[_ ->]]]; congruence.
Qed.

(** ** Payload of the runs that descend from a schedule *)

(** [pay] is a property of function and arguments only. *)
Definition payload_only (pay : msg -> Prop) : Prop :=
  forall m m', m_fn m = m_fn m' -> m_args m = m_args m' -> m_kwargs m = m_kwargs m' -> pay m -> pay m'.

Definition Pay (G : Z) (pay : msg -> Prop) (v : ks) : Prop :=
  G <= kgen v /\ (forall m, held v m -> G <= m_gen m -> pay m) /\
  (forall cc i m, In (cc, (i, m)) (k_wait v) -> G <= m_gen m).

Definition no_stale_event (pay : msg -> Prop) (v : ks) (e : kev) : Prop :=
  match e with
  | KSched _ _ a => pay (call_msg a)
  | KResched x _ _ _ | KPark x _ => ksuper v (m_gen (x_msg x)) = false
  | _ => True
  end.

Lemma payload_carries a : payload_only (carries a).
Proof. intros m m' E1 E2 E3 (H1 & H2 & H3). repeat split; congruence. Qed.

Lemma Pay_apply c k v e G pay : payload_only pay -> kok k v e -> UInv k v -> (k_runs v <> None -> k_runs (kapply c v e) <> None) ->
  no_stale_event pay v e -> Pay G pay v -> Pay G pay (kapply c v e).
Proof.
  intros PO Hok U K Hs (P1 & P2 & P3). pose proof (kgen_apply c k v e Hok U K) as E. split; [|split].
  - rewrite E. destruct (newcopy v e); lia.
  - assert (Hx : forall x, In x (k_execs v) -> ksuper v (m_gen (x_msg x)) = false -> pay (x_msg x)).
    { intros x Hin S. apply P2; [right; right; right; eauto|]. apply (ui_exec _ _ U) in Hin as (_ & _ & Hg).
      destruct (ksuper_false _ _ S Hg) as (c0 & R & Hc). unfold kgen in P1. rewrite R in P1. simpl in P1. lia. }
    intros m Hm Hg. destruct (held_apply c k v e m Hok Hm) as [H|(m0 & l & O & N & ->)]; [auto|].
    apply (PO m0); try reflexivity. destruct e; try discriminate O; simpl in O; injection O as <-.
    + exact Hs.
    + apply (PO (x_msg x)); try reflexivity. apply Hx; [apply Hok|exact Hs].
    + apply Hx; [apply Hok|exact Hs].
    + simpl in Hok. apply P2; [right; right; left; eauto|eauto].
  - intros cc i m Hm. destruct (wait_apply c k v e cc i m Hok Hm) as [H|(x & -> & ->)]; [eauto|]. simpl. lia.
Qed.

(** ** Where the line is *)

Definition place_at (g : Z) (v : ks) : Prop :=
  (exists i m, In (i, m) (k_stream v) /\ m_gen m = g /\ k_wait v = [] /\ k_parked v = None) \/
  (exists m, k_parked v = Some m /\ m_gen m = g /\ k_score v = Some (m_when m) /\ k_wait v = []) \/
  (exists cc i m, k_wait v = [(cc, (i, m))] /\ m_gen m = g /\ r_state (kr v) = Some SScheduled /\ k_parked v = None).

Definition Place (v : ks) : Prop := exists g, r_gen (kr v) = Some g /\ place_at g v.

Definition calm_event (v : ks) (e : kev) : Prop :=
  match e with
  | KSched _ _ _ | KCancel _ | KDropStream | KDropQueue | KDropParked | KCleanup _ _ => False
  | KResched x _ _ _ | KPark x _ => ksuper v (m_gen (x_msg x)) = false
  | KFinish x _ _ _ _ _ => ksuper v (m_gen (x_msg x)) = true
  | _ => True
  end.

Lemma place_same g v v' : k_stream v' = k_stream v -> k_parked v' = k_parked v -> k_score v' = k_score v -> k_wait v' = k_wait v ->
  r_state (kr v') = r_state (kr v) -> place_at g v -> place_at g v'.
Proof. intros E1 E2 E3 E4 E5. unfold place_at. now rewrite E1, E2, E3, E4, E5. Qed.

Lemma khdel_state v f : (forall r, r_state (f r) = r_state r) -> r_state (kr (khdel v f)) = r_state (kr v).
Proof. intros Hf. unfold kr; simpl. destruct (k_runs v); simpl; auto. Qed.

Lemma current_exec k v x g : UInv k v -> BInv v -> In x (k_execs v) -> ksuper v (m_gen (x_msg x)) = false ->
  r_gen (kr v) = Some g -> m_gen (x_msg x) = g.
Proof.
  intros U B Hin S R. pose proof (ui_exec _ _ U _ Hin) as (_ & _ & Hg).
  destruct (ksuper_false _ _ S Hg) as (c0 & R' & Hc). rewrite R in R'; injection R' as <-.
  assert (X : m_gen (x_msg x) <= kgen v) by (apply (bi_le _ B _ (LS (x_mid x))); simpl; right; eauto).
  unfold kgen in X. rewrite R in X; simpl in X. lia.
Qed.

Lemma place_kdel k v x g : UInv k v -> In x (k_execs v) -> m_gen (x_msg x) < g -> place_at g v -> place_at g (kdel v (x_mid x)).
Proof.
  intros U Hin L [(i & m & H1 & H2 & H3 & H4)|H]; [|right; exact H]. left. exists i, m. repeat split; auto.
  simpl. apply del_entry_In; split; [exact H1|]. simpl. intros ->.
  rewrite (ui_execm _ _ U x m Hin H1) in H2. lia.
Qed.

Lemma Place_apply c k v e : kok k v e -> UInv k v -> BInv v -> (k_runs v <> None -> k_runs (kapply c v e) <> None) ->
  calm_event v e -> Place v -> Place (kapply c v e).
Proof.
  intros Hok U B K Hc (g & R & P).
  pose proof (gen_apply c k v e Hok U K) as RG. pose proof (kgen_apply c k v e Hok U K) as E.
  assert (Kg : kgen v = g) by (unfold kgen; now rewrite R).
  destruct e; simpl in Hc; try contradiction; cbn [newcopy] in RG; cbn [kapply] in *.
  - (* KIdle *) exists g; split; [congruence|]. revert P; apply place_same; reflexivity.
  - (* KForget *) exfalso. destruct (k_runs v) eqn:Q; [apply K; [congruence|reflexivity]|]. unfold kr in R. rewrite Q in R. discriminate.
  - (* KSetExpire *) exists g; split; [congruence|]. revert P; apply place_same; try reflexivity. now apply khdel_state.
  - (* KDropScore *) exists g; split; [congruence|]. simpl in Hok.
    destruct P as [P|[(m & P & _)|P]]; [left; exact P|congruence|right; right; exact P].
  - (* KMove *) exists g; split; [congruence|]. unfold kmove.
    destruct P as [(i & m & H1 & H2 & H3 & H4)|[(m & H1 & H2 & H3 & H4)|(cc & i & m & H1 & H2 & H3 & H4)]].
    + rewrite H4. left; eauto 8.
    + rewrite H1. left. exists (k_next v), m. repeat split; auto. simpl. apply in_or_app; simpl; auto.
    + rewrite H4. right; right; eauto 10.
  - (* KDeliver *) exists g; split; [congruence|]. revert P; apply place_same; reflexivity.
  - (* KCrash *) exists g; split; [congruence|]. revert P; apply place_same; reflexivity.
  - (* KClaim *) exists g; split; [congruence|]. cbv zeta. destruct Hok as [Hin Hp].
    assert (X : place_at g (kclaim v (x_worker x) t (m_gen (x_msg x)) (x_mid x))).
    { unfold kclaim. destruct (ksuper v (m_gen (x_msg x))) eqn:S.
      - eapply place_kdel; eauto. eapply ksuper_true; eauto.
      - destruct P as [P|[P|(cc & i & m & H1 & H2 & H3 & H4)]]; [left; exact P|right; left; exact P|].
        pose proof (current_exec k v x g U B Hin S R) as Hg.
        assert (LS (x_mid x) = LW i); [|discriminate].
        apply (bi_inj _ B g); [simpl; right; eauto|]. simpl. exists cc, m. rewrite H1; simpl; auto. }
    revert X; apply place_same; reflexivity.
  - (* KPhase *) exists g; split; [congruence|]. revert P; apply place_same; reflexivity.
  - (* KSlot *) exists g; split; [congruence|]. revert P; apply place_same; reflexivity.
  - (* KStruck *) exists g; split; [congruence|]. revert P; apply place_same; try reflexivity. now apply khdel_state.
  - (* KFinish *) exists g; split; [congruence|]. destruct Hok as [Hin Hp]. unfold kterminal. rewrite Hc.
    assert (X : place_at g (kdel v (x_mid x))) by (eapply place_kdel; eauto; eapply ksuper_true; eauto).
    destruct (kprog_mine v (m_gen (x_msg x))); (revert X; apply place_same; reflexivity).
  - (* KResched *) destruct Hok as [Hin Hp]. pose proof (current_exec k v x g U B Hin Hc R) as Hg.
    exists (kgen v + 1). split; [exact RG|].
    assert (Hx : holds v g (LS (x_mid x))) by (simpl; right; eauto).
    destruct P as [(i & m & H1 & H2 & H3 & H4)|[(m & H1 & H2 & H3 & H4)|(cc & i & m & H1 & H2 & H3 & H4)]].
    + destruct imm.
      * left. exists (k_next v), (with_gen (resched_msg (x_msg x) when bump) (kgen v + 1)). simpl. repeat split; auto.
        apply in_or_app; simpl; auto.
      * right; left. exists (with_gen (resched_msg (x_msg x) when bump) (kgen v + 1)). simpl. repeat split; auto.
    + assert (LS (x_mid x) = LP); [|discriminate]. apply (bi_inj _ B g); [exact Hx|simpl; eauto].
    + assert (LS (x_mid x) = LW i); [|discriminate]. apply (bi_inj _ B g); [exact Hx|]. simpl. exists cc, m. rewrite H1; simpl; auto.
  - (* KPark *) destruct Hok as [Hin Hp]. pose proof (current_exec k v x g U B Hin Hc R) as Hg.
    exists (kgen v + 1). split; [exact RG|].
    assert (Hx : holds v g (LS (x_mid x))) by (simpl; right; eauto).
    destruct P as [(i & m & H1 & H2 & H3 & H4)|[(m & H1 & H2 & H3 & H4)|(cc & i & m & H1 & H2 & H3 & H4)]].
    + right; right. exists c0, (k_next v), (with_gen (x_msg x) (kgen v + 1)). simpl. rewrite H3. repeat split; auto.
    + assert (LS (x_mid x) = LP); [|discriminate]. apply (bi_inj _ B g); [exact Hx|simpl; eauto].
    + assert (LS (x_mid x) = LW i); [|discriminate]. apply (bi_inj _ B g); [exact Hx|]. simpl. exists cc, m. rewrite H1; simpl; auto.
  - (* KWake *) simpl in Hok.
    destruct P as [(i & m' & H1 & H2 & H3 & H4)|[(m' & H1 & H2 & H3 & H4)|(cc & i & m' & H1 & H2 & H3 & H4)]].
    + rewrite H3 in Hok; contradiction.
    + rewrite H4 in Hok; contradiction.
    + rewrite H1 in Hok. destruct Hok as [[= -> -> ->]|[]]. rewrite H3 in RG. exists (kgen v + 1). split; [exact RG|].
      left. unfold kwake. rewrite H3. exists (k_next v), (with_gen m (kgen v + 1)). simpl. repeat split; auto.
      * apply in_or_app; simpl; auto.
      * rewrite H1; simpl. now rewrite String.eqb_refl, Z.eqb_refl.
  - (* KUnpark *) exfalso. destruct (k_runs v) eqn:Q; [apply K; [congruence|reflexivity]|]. unfold kr in R. rewrite Q in R. discriminate.
Qed.

(** ** The key stays taken *)

Definition Taken (v : ks) : Prop :=
  kexists v = true /\ (k_parked v <> None -> r_known (kr v) <> None) /\ k_wait v = [].

Lemma kexists_spec v : kexists v = true <-> r_known (kr v) <> None \/ r_state (kr v) = Some SRunning.
Proof.
  unfold kexists. destruct (r_known (kr v)); simpl.
  - split; [left; discriminate|auto].
  - destruct (r_state (kr v)) as [[]|]; split; auto; try discriminate; intros [|]; congruence.
Qed.

Lemma kplace_known v w imm clr m : r_known (kr (kplace v w imm clr m)) = Some w.
Proof. unfold kplace; cbv zeta. destruct imm; [reflexivity|]. destruct clr; reflexivity. Qed.

Lemma Taken_apply c k v e : kok k v e -> UInv k v -> BInv v -> (k_runs v <> None -> k_runs (kapply c v e) <> None) ->
  calm_event v e -> (forall x, e <> KStruck x) -> (forall x cc, e <> KPark x cc) ->
  Place v -> Taken v -> Taken (kapply c v e).
Proof.
  intros Hok U B K Hc N1 N2 (g & R & P) (T1 & T2 & T3).
  assert (Same : forall v', kr v' = kr v -> k_parked v' = k_parked v -> k_wait v' = k_wait v -> Taken v').
  { intros v' E1 E2 E3. unfold Taken, kexists. rewrite E1, E2, E3. auto. }
  destruct e; simpl in Hc; try contradiction; cbn [kapply] in *; try (apply Same; reflexivity).
  - exfalso. destruct (k_runs v) eqn:Q; [apply K; [congruence|reflexivity]|]. unfold kr in R. rewrite Q in R. discriminate.
  - assert (r_known (kr (khdel v (rset_expire (Some t)))) = r_known (kr v) /\ r_state (kr (khdel v (rset_expire (Some t)))) = r_state (kr v)) as [E1 E2].
    { unfold kr; simpl; destruct (k_runs v); simpl; auto. }
    unfold Taken, kexists. rewrite E1, E2. auto.
  - unfold kmove. destruct (k_parked v) as [m|] eqn:Pk; [|split; [exact T1|split; [congruence|exact T3]]].
    assert (Hk : r_known (kr v) <> None) by (apply T2; congruence).
    split; [apply kexists_spec; left; exact Hk|split; [simpl; congruence|exact T3]].
  - cbv zeta. destruct Hok as [Hin Hp]. unfold kclaim. destruct (ksuper v (m_gen (x_msg x))) eqn:S; [apply Same; reflexivity|].
    split; [apply kexists_spec; right; reflexivity|split; [|exact T3]]. simpl. intros Hpk. exfalso.
    destruct (k_parked v) as [m|] eqn:Pk; [|congruence].
    destruct P as [(i & m' & H1 & H2 & H3 & H4)|[(m' & H1 & H2 & H3 & H4)|(cc & i & m' & H1 & H2 & H3 & H4)]]; try congruence.
    pose proof (current_exec k v x g U B Hin S R) as Hg.
    assert (LS (x_mid x) = LP); [|discriminate]. apply (bi_inj _ B g); [simpl; right; eauto|simpl; exists m'; split; [congruence|auto]].
  - exfalso; eapply N1; reflexivity.
  - unfold kterminal. rewrite Hc. apply Same; destruct (kprog_mine v (m_gen (x_msg x))); reflexivity.
  - split; [apply kexists_spec; left|split].
    + unfold kresched. intros E. assert (X : r_known (kr (kphase (khdel (kplace (kdel v (x_mid x)) when imm true (resched_msg (x_msg x) when bump)) rdel_worker) (x_id x) (with_phase PDone))) =
        r_known (kr (kplace (kdel v (x_mid x)) when imm true (resched_msg (x_msg x) when bump)))).
      { unfold kr; simpl. destruct (k_runs (kplace _ _ _ _ _)); reflexivity. }
      rewrite X, kplace_known in E. discriminate.
    + intros _. unfold kresched. intros E. assert (X : r_known (kr (kphase (khdel (kplace (kdel v (x_mid x)) when imm true (resched_msg (x_msg x) when bump)) rdel_worker) (x_id x) (with_phase PDone))) =
        r_known (kr (kplace (kdel v (x_mid x)) when imm true (resched_msg (x_msg x) when bump)))).
      { unfold kr; simpl. destruct (k_runs (kplace _ _ _ _ _)); reflexivity. }
      rewrite X, kplace_known in E. discriminate.
    + unfold kresched, kplace. destruct imm; exact T3.
  - exfalso; eapply N2; reflexivity.
  - simpl in Hok. rewrite T3 in Hok. contradiction.
  - exfalso. destruct (k_runs v) eqn:Q; [apply K; [congruence|reflexivity]|]. unfold kr in R. rewrite Q in R. discriminate.
Qed.

(** ** The accepting step *)

Lemma k_next_kreplace v : k_next (kreplace_existing v) = k_next v.
Proof. unfold kreplace_existing; destruct (r_sid (kr v)); reflexivity. Qed.

Lemma accept_line v repl imm a : BInv v -> k_wait v = [] ->
  negb repl && kexists v = false -> (k_parked v = None \/ repl = true \/ imm = false) ->
  let v' := ksched v repl imm a in
  Pay (kgen v + 1) (carries a) v' /\ Place v' /\ Taken v'.
Proof.
  intros B W X Pk. cbv zeta. unfold ksched. rewrite X.
  set (u := if repl then kreplace_existing v else v).
  assert (Ku : kgen u = kgen v) by (unfold u; destruct repl; [unfold kgen; now rewrite kr_kreplace|reflexivity]).
  assert (Wu : k_wait u = []) by (unfold u, kreplace_existing; destruct repl, (r_sid (kr v)); exact W).
  assert (Pu : imm = true -> k_parked u = None).
  { intros ->. unfold u. destruct repl; [reflexivity|]. destruct Pk as [|[|]]; congruence. }
  assert (Hu : forall m, held u m -> m_gen m <= kgen v).
  { intros m H. assert (H' : held v m) by (unfold u in H; destruct repl; [now apply held_kreplace|exact H]).
    destruct (held_holds _ _ H') as [l Hl]. exact (bi_le _ B _ _ Hl). }
  split; [|split].
  - split; [|split].
    + unfold kgen at 2. rewrite kplace_gen; simpl. lia.
    + intros m Hm Hg. apply held_kplace in Hm as [Hm| ->]; [apply Hu in Hm; lia|repeat split].
    + intros cc i m Hm. exfalso. revert Hm. unfold kplace. destruct imm; simpl; rewrite Wu; auto.
  - exists (kgen u + 1). split; [apply kplace_gen|]. destruct imm.
    + left. exists (k_next u), (with_gen (call_msg a) (kgen u + 1)). unfold kplace; simpl. repeat split; auto.
      apply in_or_app; simpl; auto.
    + right; left. exists (with_gen (call_msg a) (kgen u + 1)). unfold kplace; simpl. repeat split; auto.
  - split; [apply kexists_spec; left; rewrite kplace_known; discriminate|split].
    + intros _. rewrite kplace_known. discriminate.
    + unfold kplace; destruct imm; exact Wu.
Qed.
