(** Proofs about fair infinite histories. *)
From Verif Require Import Base ZSet Model GInv KView KSim Spec KInv KLine Hist Steps Steps2 Steps3 Count RecoverProofs SpecRecover SpecLive.

(** ** What stays while the run waits to be started *)

Definition spot_of (v : ks) (m : msg) (p : option sid) : Prop :=
  match p with
  | Some i => In (i, m) (k_stream v)
  | None => k_parked v = Some m /\ k_score v = Some (m_when m)
  end.

(** [m] is the current generation of its key, stored at [p], and at most claimed. *)
Record LInv (k : key) (m : msg) (p : option sid) (v : ks) : Prop := mkLInv {
  li_key : m_key m = k;
  li_spot : spot_of v m p;
  li_gen : r_gen (kr v) = Some (m_gen m);
  li_pos : 1 <= m_gen m;
  li_wait : k_wait v = [];
  li_exec : forall x, In x (k_execs v) -> x_msg x = m -> x_phase x = PDelivered \/ x_phase x = PClaimed;
  li_b : BInv v }.

Lemma LInv_holds k m p v : LInv k m p v -> holds v (m_gen m) (match p with Some i => LS i | None => LP end).
Proof. intros H. pose proof (li_spot _ _ _ _ H) as S. destruct p; cbn in *; [left; eauto|exists m; tauto]. Qed.

(** An execution whose generation is current is one of [m]. *)
Lemma current_is_m k m p v x : LInv k m p v -> UInv k v -> In x (k_execs v) -> ksuper v (m_gen (x_msg x)) = false ->
  x_msg x = m /\ p = Some (x_mid x).
Proof.
  intros H U Hx S. pose proof (li_gen _ _ _ _ H) as G. pose proof (li_b _ _ _ _ H) as [B1 B2]. pose proof (LInv_holds _ _ _ _ H) as Hm.
  destruct (ui_exec _ _ U x Hx) as (_ & _ & X1).
  assert (Hh : holds v (m_gen (x_msg x)) (LS (x_mid x))) by (right; eauto).
  pose proof (B1 _ _ Hh) as Le. unfold ksuper in S. rewrite G in S. unfold kgen in Le. rewrite G in Le. cbn in Le.
  assert (E : m_gen (x_msg x) = m_gen m) by lia. rewrite E in Hh. pose proof (B2 _ _ _ Hh Hm) as Q.
  destruct p as [i|]; [|discriminate]. injection Q as Q. split; [|now rewrite Q].
  pose proof (li_spot _ _ _ _ H) as Sp. cbn in Sp. symmetry. eapply (ui_execm _ _ U); [exact Hx|]. now rewrite Q.
Qed.
Lemma other_mid k m i v x : LInv k m (Some i) v -> UInv k v -> In x (k_execs v) -> x_msg x <> m -> x_mid x <> i.
Proof. intros H U Hx N E. apply N. symmetry. eapply (ui_execm _ _ U); [exact Hx|]. rewrite E. exact (li_spot _ _ _ _ H). Qed.

Lemma in_del_entry e i l : In e (del_entry i l) <-> In e l /\ fst e <> i.
Proof. unfold del_entry. rewrite filter_In, Bool.negb_true_iff, Z.eqb_neq. reflexivity. Qed.

Lemma in_upd_exec x l h f : In x (upd_exec l h f) -> (In x l /\ x_id x <> h) \/ exists y, In y l /\ x_id y = h /\ x = f y.
Proof.
  unfold upd_exec. rewrite in_map_iff. intros (y & E & Hy). destruct (Z.eqb_spec (x_id y) h) as [Eh|Eh]; subst; [right; eauto|left; auto].
Qed.

Lemma kexec_inj k v x y : UInv k v -> In x (k_execs v) -> In y (k_execs v) -> x_id x = x_id y -> x = y.
Proof.
  intros U. pose proof (ui_nodup _ _ U) as N. revert N. induction (k_execs v) as [|a l IH]; [contradiction|]. cbn. intros N. inversion N as [|? ? N1 N2]; subst.
  intros [->|Hx] [->|Hy] E; auto; exfalso; apply N1; [rewrite E|rewrite <- E]; now apply in_map.
Qed.

(** The step of the view that starts the body of [m]. *)
Definition is_start (m : msg) (e : kev) : Prop := exists x, e = KPhase x PBody /\ x_msg x = m.

Lemma LInv_apply c k m p v e :
  kok k v e -> UInv k v -> UInv k (kapply c v e) -> (k_runs v <> None -> k_runs (kapply c v e) <> None) -> LInv k m p v ->
  (match e with
   | KSetExpire _ | KDropStream | KDropQueue | KDropParked | KSched _ _ _ | KCancel _ | KCleanup _ _
   | KResched _ _ _ _ | KPark _ _ => False
   | KStruck x | KFinish x _ _ _ _ _ => ksuper v (m_gen (x_msg x)) = true
   | KPhase x PEnded => ksuper v (m_gen (x_msg x)) = true \/ x_phase x = PBody
   | _ => True
   end) -> ~ is_start m e ->
  exists p', LInv k m p' (kapply c v e) /\ (p <> None -> p' = p).
Proof.
  intros Hok U U' K H A NS. pose proof (BInv_apply c k v e Hok U K (li_b _ _ _ _ H)) as B'.
  pose proof (gen_apply c k v e Hok U K) as Gn. rewrite (li_gen _ _ _ _ H) in Gn. destruct H as [H1 H2 H3 H4 H5 H6 H7].
  assert (H : LInv k m p v) by (constructor; assumption).
  assert (Cur : forall x, In x (k_execs v) -> x_msg x = m -> ksuper v (m_gen (x_msg x)) = true -> False).
  { intros x _ -> S. unfold ksuper in S. rewrite H3 in S. lia. }
  assert (Mid : forall i x, p = Some i -> In x (k_execs v) -> ksuper v (m_gen (x_msg x)) = true -> i = x_mid x -> False).
  { intros i x -> Hx S E. eapply (other_mid k m i v x); eauto. }
  destruct e; cbn [kok newcopy] in *; try contradiction.
  - exists p. split; [|auto]. constructor; auto.
  - exists p. split; [|auto]. constructor; auto.
  - exists p. split; [|auto]. constructor; auto. destruct p; [exact H2|]. cbn in H2. destruct H2; congruence.
  - cbn [kapply] in *. unfold kmove in *. destruct (k_parked v) as [m'|] eqn:P; [|exists p; auto]. destruct p as [i|].
    + exists (Some i). split; [|auto]. constructor; auto. cbn. apply in_or_app. now left.
    + exists (Some (k_next v)). split; [|congruence]. cbn in H2. destruct H2 as [E _]. rewrite P in E. injection E as ->. constructor; auto. cbn. apply in_or_app. right. now left.
  - exists p. split; [|auto]. destruct Hok as (_ & _ & Ph & _). constructor; auto.
    cbn [kapply kset_last kset_execs k_execs]. intros y Hy. apply in_app_or in Hy as [Hy|[<-|[]]]; auto.
  - exists p. split; [|auto]. constructor; auto. cbn [kapply kset_execs k_execs]. intros y Hy. apply filter_In in Hy as [Hy _]. auto.
  - destruct Hok as [Hx Ph]. cbn [kapply] in *. exists p. split; [|auto].
    assert (Sp : spot_of (kphase (kclaim v (x_worker x) t (m_gen (x_msg x)) (x_mid x)) (x_id x) (with_phase (if ksuper v (m_gen (x_msg x)) then PDone else PClaimed))) m p).
    { unfold kclaim. destruct (ksuper v (m_gen (x_msg x))) eqn:S; [|destruct p; exact H2]. destruct p as [i|]; [|exact H2]. cbn. apply in_del_entry. split; [exact H2|]. cbn. intros E. eapply (Mid i); eauto. }
    constructor; auto.
    + unfold kclaim. destruct (ksuper v _); exact H5.
    + intros y Hy Ey. assert (Hy' : In y (upd_exec (k_execs v) (x_id x) (with_phase (if ksuper v (m_gen (x_msg x)) then PDone else PClaimed)))).
      { revert Hy. unfold kclaim. destruct (ksuper v _); auto. } apply in_upd_exec in Hy' as [[Hy' _]|(z & Hz & Ez & ->)]; [auto|].
      cbn in Ey. destruct (ksuper v (m_gen (x_msg x))) eqn:S; cbn; [|auto]. exfalso.
      assert (z = x) by (apply (kexec_inj k v); assumption).
      subst z. eauto.
  - destruct Hok as [Hx Ph]. cbn [kapply] in *. exists p. split; [|auto]. constructor; auto; try (destruct p; exact H2).
    intros y Hy Ey. apply in_upd_exec in Hy as [[Hy _]|(z & Hz & Ez & ->)]; [auto|]. exfalso. cbn in Ey.
    assert (z = x) by (apply (kexec_inj k v); assumption).
    subst z. destruct Ph as [[P1 [->| ->]]|[P1 ->]].
    + apply NS. exists x. auto.
    + destruct A as [A|A]; [eauto|congruence].
    + destruct (H6 x Hx Ey); congruence.
  - cbn [kapply] in *. exists p. split; [|auto]. constructor; auto; try (destruct p; exact H2).
    intros y Hy Ey. apply in_upd_exec in Hy as [[Hy _]|(z & Hz & Ez & ->)]; [auto|]. cbn in Ey |- *. auto.
  - destruct Hok as [Hx Ph]. cbn [kapply] in *. exists p. split; [|auto]. constructor; auto; try (destruct p; exact H2).
    intros y Hy Ey. apply in_upd_exec in Hy as [[Hy _]|(z & Hz & Ez & ->)]; [auto|]. exfalso. cbn in Ey.
    assert (z = x) by (apply (kexec_inj k v); assumption).
    subst z. eauto.
  - destruct Hok as [Hx Ph]. cbn [kapply] in *. exists p. split; [|auto]. unfold kterminal in *. rewrite A in *.
    constructor; auto.
    + destruct p as [i|]; [|destruct (kprog_mine v _); exact H2].
      assert (In (i, m) (del_entry (x_mid x) (k_stream v))) by (apply in_del_entry; split; [exact H2|]; cbn; intros E; eapply (Mid i); eauto).
      destruct (kprog_mine v _); assumption.
    + destruct (kprog_mine v _); exact H5.
    + intros y Hy Ey. assert (Hy' : In y (upd_exec (k_execs v) (x_id x) (with_phase PDone))) by (revert Hy; destruct (kprog_mine v _); auto).
      apply in_upd_exec in Hy' as [[Hy' _]|(z & Hz & Ez & ->)]; [auto|]. exfalso. cbn in Ey.
      assert (z = x) by (apply (kexec_inj k v); assumption).
      subst z. eauto.
  - rewrite H5 in Hok. contradiction.
  - exfalso. cbn [kapply kset_runs k_runs] in K. destruct (k_runs v) eqn:Q; [now apply K|]. unfold kr in H3. rewrite Q in H3. discriminate H3.
Qed.

(** ** One step *)

(** Executions keep identity and message, except for new ones. *)
Lemma execs_from c k v e x : kok k v e -> (forall y l, e <> KDeliver y l) -> In x (k_execs (kapply c v e)) ->
  exists y, In y (k_execs v) /\ x_id y = x_id x /\ x_msg y = x_msg x.
Proof.
  intros Hok N Hx. pose proof (kexecs_apply c k v e Hok) as E. destruct e; try rewrite E in Hx; eauto.
  all: try (apply in_upd_exec in Hx as [[Hx _]|(y & Hy & _ & ->)]; eauto; fail).
  - exfalso. eapply N; eauto.
  - apply filter_In in Hx as [Hx _]. eauto.
Qed.

Definition releases (o : op) : Prop := exists h t, o = ORelease h t.

Lemma LInv_step_ c k m p s o : GInv s -> UInv k (kabs k s) -> undisturbed c k s o ->
  LInv k m p (kabs k s) -> (forall i, ~ starts c s o m i) ->
  (forall h, o = OBodyEnd h -> exists x, get_exec (s_execs s) h = Some x /\ x_phase x = PBody) ->
  exists p', LInv k m p' (kabs k (fst (step c s o))) /\ (p <> None -> p' = p).
Proof.
  intros G U (K & C & D) H NS BE.
  assert (GX : forall x, In x (k_execs (kabs k s)) -> get_exec (s_execs s) (x_id x) = Some x /\ m_key (x_msg x) = k).
  { intros x Hx. apply kexecs_In in Hx as [Hx Hk]. split; [apply get_exec_In; [apply G|exact Hx]|exact Hk]. }
  set (P := fun v => ((exists p', LInv k m p' v /\ (p <> None -> p' = p)) /\
                      (releases o -> forall x, In x (k_execs v) -> exists y, In y (k_execs (kabs k s)) /\ x_id y = x_id x /\ x_msg y = x_msg x))
                     \/ ((exists h cc mx t x, o = OAcquire h cc mx t /\ get_exec (s_execs s) h = Some x /\ m_key (x_msg x) = k) /\ k_wait v <> [])).
  assert (Q : P (kabs k (fst (step c s o)))).
  2:{ destruct Q as [[Q _]|[(h & cc & mx & t & x & -> & Hx & Hk) W]]; [exact Q|]. exfalso. apply W.
      specialize (D h x Hx Hk eq_refl). destruct (acquire_kept c k s h cc mx t x Hx Hk D) as [E|E]; rewrite E; exact (li_wait _ _ _ _ H). }
  apply (kept_ind c k s o P G U K); [|left; split; [exists p; auto|eauto]].
  intros v e Hok L U1 U2 K1 Hs [[(p1 & H1 & E1) R1]|[(h & cc & mx & t & x & -> & _) W]].
  2:{ exfalso. apply W. rewrite (Hs eq_refl). exact (li_wait _ _ _ _ H). }
  assert (Sp : (exists x cc, e = KPark x cc) \/ forall x cc, e <> KPark x cc) by (destruct e; eauto; right; discriminate).
  destruct Sp as [(x & cc & ->)|NP].
  { right. cbn in L. destruct L as (mx & t & ->). rewrite (Hs eq_refl) in *. destruct Hok as [Hx _]. destruct (GX x Hx) as [X1 X2].
    split; [exists (x_id x), cc, mx, t, x; auto|]. cbn. intros W. apply app_eq_nil in W as [_ W]. discriminate. }
  left. split.
  - destruct (LInv_apply c k m p1 v e Hok U1 U2 K1 H1) as (p2 & H2 & E2).
    + destruct e; try exact Logic.I; cbn in L; cbn in Hok.
      * destruct o; try contradiction; cbn in C; auto.
      * destruct L as [w ->]; exact C.
      * destruct L as [w ->]; exact C.
      * destruct L as [w ->]; exact C.
      * destruct L as (t & -> & _). destruct repl; cbn in C; congruence.
      * subst o; cbn in C; congruence.
      * destruct p0; try exact Logic.I. destruct L as [[_ [=]]|[[-> _]|(t & -> & _)]].
        -- right. rewrite (Hs eq_refl) in *. destruct Hok as [Hx _]. destruct (GX x Hx) as [X1 _].
           destruct (BE _ eq_refl) as (y & Y1 & Y2). congruence.
        -- left. destruct Hok as [Hx _]. destruct (R1 (ex_intro _ _ (ex_intro _ _ eq_refl)) x Hx) as (y & Hy & Ey & My). destruct (GX y Hy) as [Y1 Y2].
           specialize (D (x_id y) y Y1 Y2 (eq_sym Ey)). rewrite <- My. change (ksuper (kabs k s) (m_gen (x_msg y)) = true) in D.
           unfold ksuper in D |- *. rewrite (li_gen _ _ _ _ H1). rewrite (li_gen _ _ _ _ H) in D. exact D.
      * subst o. rewrite (Hs eq_refl) in *. destruct Hok as [Hx _]. destruct (GX x Hx) as [X1 X2]. exact (D _ x X1 X2 eq_refl).
      * subst o. rewrite (Hs eq_refl) in *. destruct Hok as [Hx _]. destruct (GX x Hx) as [X1 X2]. exact (D _ x X1 X2 eq_refl).
      * destruct L as (t & -> & _). rewrite (Hs eq_refl) in *. destruct Hok as [Hx _]. destruct (GX x Hx) as [X1 X2]. exact (D _ x X1 X2 eq_refl).
      * eapply NP; eauto.
      * subst o; cbn in C; congruence.
    + intros (x & -> & Ex). cbn in L, Hok. destruct L as [[-> _]|[[_ [=]]|(t & _ & [=])]]. rewrite (Hs eq_refl) in *.
      destruct Hok as [Hx [[Ph _]|[_ [=]]]]. destruct (GX x Hx) as [X1 X2]. apply (NS (x_mid x)). unfold starts. cbn [step]. rewrite X1, Ph. cbn. now rewrite Ex.
    + exists p2. split; [exact H2|]. intros Np. rewrite <- (E1 Np). apply E2. rewrite (E1 Np). exact Np.
  - intros R x Hx. assert (ND : forall y l, e <> KDeliver y l).
    { intros y l ->. destruct R as (h & t & ->). cbn in L. destruct (x_redel y); discriminate L. }
    destruct (execs_from c k v e x Hok ND Hx) as (y & Hy & Iy & My). destruct (R1 R y Hy) as (z & Hz & Iz & Mz).
    exists z. repeat split; congruence.
Qed.

Lemma LInv_step c k m p s o : GInv s -> UInv k (kabs k s) -> undisturbed c k s o ->
  LInv k m p (kabs k s) -> (forall i, ~ starts c s o m i) ->
  exists p', LInv k m p' (kabs k (fst (step c s o))) /\ (p <> None -> p' = p).
Proof.
  intros G U D H NS.
  assert (E : (forall h, o = OBodyEnd h -> exists x, get_exec (s_execs s) h = Some x /\ x_phase x = PBody) \/ fst (step c s o) = s).
  { destruct o; try (left; intros h' E; discriminate E). cbn [step]. destruct (get_exec (s_execs s) h) as [x|] eqn:Hx; [|right; reflexivity].
    destruct (x_phase x) eqn:Ph; try (right; reflexivity). left. intros h' [= <-]. eauto. }
  destruct E as [E|E]; [now apply LInv_step_|]. rewrite E. exists p. auto.
Qed.

(** ** Steps seen by one execution *)

Definition msg_dec (m m' : msg) : {m = m'} + {m <> m'}.
Proof. decide equality; try apply string_dec; try apply Z.eq_dec. Defined.

Definition started (c : cfg) (s : sys) (o : op) (m : msg) : Prop := exists i, starts c s o m i.
Lemma started_dec c s o m : started c s o m \/ ~ started c s o m.
Proof.
  unfold started, starts. destruct (snd (step c s o)) eqn:E; try (right; intros [? H]; discriminate H).
  destruct (msg_dec m0 m) as [->|N]; [left; exists i; reflexivity|right; intros [? H]; congruence].
Qed.

(** How an execution that has not started its body moves on. *)
Inductive leaves (c : cfg) (s : sys) (x : exec) : op -> Prop :=
| lv_crash : leaves c s x (OCrash (x_worker x))
| lv_claim t : x_phase x = PDelivered -> leaves c s x (OClaim (x_id x) t)
| lv_struck : leaves c s x (ODelKnown (x_id x))
| lv_start : x_phase x = PClaimed -> leaves c s x (OBodyStart (x_id x))
| lv_terminal st t e r : leaves c s x (OTerminal (x_id x) st t e r)
| lv_resched w b t : leaves c s x (OResched (x_id x) w b t)
| lv_acquire cc mx t : x_phase x = PClaimed -> x_slot x = None -> leaves c s x (OAcquire (x_id x) cc mx t)
| lv_release t : leaves c s x (ORelease (x_id x) t).

Lemma upd_keeps x l h f : In x l -> x_id x <> h -> In x (upd_exec l h f).
Proof. intros Hx N. unfold upd_exec. apply in_map_iff. exists x. split; [|exact Hx]. destruct (Z.eqb_spec (x_id x) h); [contradiction|reflexivity]. Qed.
Lemma upd_has x l f : In x l -> In (f x) (upd_exec l (x_id x) f).
Proof. intros Hx. unfold upd_exec. apply in_map_iff. exists x. now rewrite Z.eqb_refl. Qed.

Lemma exec_step c s o x : GInv s -> In x (s_execs s) -> x_phase x = PDelivered \/ x_phase x = PClaimed ->
  In x (s_execs (fst (step c s o))) \/ leaves c s x o.
Proof.
  intros G Hx Ph. pose proof (get_exec_In s x (proj2 G) Hx) as Gx.
  assert (D : forall d w r, In x (s_execs (fst (deliver s (d, r) w true))) /\ In x (s_execs (fst (deliver s (d, r) w false)))).
  { intros d w [[i m]|]; cbn; split; auto; apply in_or_app; auto. }
  assert (U : forall h y f, get_exec (s_execs s) h = Some y -> In x (upd_exec (s_execs s) h f) \/ (h = x_id x /\ y = x)).
  { intros h y f Hy. destruct (Z.eq_dec h (x_id x)) as [E|E]; [right; subst h; split; [auto|congruence]|left; apply upd_keeps; auto]. }
  destruct o; cbn [step].
  - destruct (0 <=? dt); cbn; auto.
  - destruct (do_schedule _ _ _ _); cbn; auto.
  - destruct (do_schedule _ _ _ _); cbn; auto.
  - cbn; auto.
  - cbn; auto.
  - cbn; auto.
  - cbn; auto.
  - destruct (ready_clear s _); [|cbn; auto]. destruct (clear_apply _ _ _); cbn; auto.
  - destruct (lua_stream_due _ _) as [? [? ?]]; cbn; auto.
  - left. destruct (read_group _ _). apply D.
  - left. destruct (autoclaim _ _ _ _). apply D.
  - cbn; auto.
  - destruct (get_exec (s_execs s) h) as [y|] eqn:Hy; [|cbn; auto]. destruct (x_phase y) eqn:Py; try (cbn; auto; fail).
    destruct (lua_claim _ _ _ _ _ _) as [d r]. destruct r; cbn [fst set_execs s_execs];
      match goal with |- In _ (upd_exec _ _ ?f) \/ _ => destruct (U h y f Hy) as [?|[-> ->]]; [auto|right; constructor; assumption] end.
  - destruct (get_exec (s_execs s) h) as [y|] eqn:Hy; [|cbn; auto]. destruct (x_phase y) eqn:Py; try (cbn; auto; fail). cbn [fst set_execs s_execs].
    match goal with |- In _ (upd_exec _ _ ?f) \/ _ => destruct (U h y f Hy) as [?|[-> ->]]; [auto|right; constructor; assumption] end.
  - destruct (get_exec (s_execs s) h) as [y|] eqn:Hy; [|cbn; auto]. destruct (x_phase y) eqn:Py; try (cbn; auto; fail). cbn [fst set_execs s_execs].
    match goal with |- In _ (upd_exec _ _ ?f) \/ _ => destruct (U h y f Hy) as [?|[-> ->]]; [auto|destruct Ph; congruence] end.
  - destruct (get_exec (s_execs s) h) as [y|] eqn:Hy; [|cbn; auto]. destruct (x_phase y) eqn:Py; try (cbn; auto; fail). cbn [fst set_execs s_execs].
    match goal with |- In _ (upd_exec _ _ ?f) \/ _ => destruct (U h y f Hy) as [?|[-> ->]]; [auto|right; constructor; assumption] end.
  - destruct (get_exec (s_execs s) h) as [y|] eqn:Hy; [|cbn; auto]. destruct (may_finish _ _); [|cbn; auto]. destruct (lua_terminal _ _ _ _ _ _ _ _ _). cbn [fst set_execs s_execs].
    match goal with |- In _ (upd_exec _ _ ?f) \/ _ => destruct (U h y f Hy) as [?|[-> ->]]; [auto|right; constructor] end.
  - destruct (get_exec (s_execs s) h) as [y|] eqn:Hy; [|cbn; auto]. destruct (may_resched _); [|cbn; auto]. cbv zeta. destruct (lua_schedule _ _ _ _ _ _ _). cbn [fst set_execs s_execs].
    match goal with |- In _ (upd_exec _ _ ?f) \/ _ => destruct (U h y f Hy) as [?|[-> ->]]; [auto|right; constructor] end.
  - destruct (get_exec (s_execs s) h) as [y|] eqn:Hy; [|cbn; auto]. destruct (x_phase y) eqn:Py; try (cbn; auto; fail). destruct (x_slot y) eqn:Sy; try (cbn; auto; fail).
    destruct (lua_acquire_or_park _ _ _ _ _ _ _ _ _ _). cbn [fst set_execs s_execs].
    match goal with |- In _ (upd_exec _ _ ?f) \/ _ => destruct (U h y f Hy) as [?|[-> ->]]; [auto|right; constructor; assumption] end.
  - destruct (get_exec (s_execs s) h) as [y|] eqn:Hy; [|cbn; auto]. destruct (x_slot y) as [[cc mx]|]; [|cbn; auto].
    destruct (x_phase y) eqn:Py; try (cbn; auto; fail); cbn [fst set_execs s_execs];
    match goal with |- In _ (upd_exec _ _ ?f) \/ _ => destruct (U h y f Hy) as [?|[-> ->]]; [auto|right; constructor] end.
  - destruct (get_exec (s_execs s) h) as [y|] eqn:Hy; [|cbn; auto]. destruct (x_slot y) as [[cc mx]|]; cbn; auto.
  - cbn; auto.
  - cbn; auto.
  - cbn [fst s_execs]. destruct (String.eqb_spec (x_worker x) w) as [<-|N]; [right; constructor|left].
    apply filter_In. split; [exact Hx|]. apply Bool.negb_true_iff. now apply String.eqb_neq.
Qed.

Lemma pel_step_old c s o p : (forall w i, o <> ORead w /\ o <> OAutoclaim w i /\ o <> ORenew w) ->
  In p (d_pel (s_db (fst (step c s o)))) -> In p (d_pel (s_db s)).
Proof.
  intros NE.
  assert (K : forall d i, In p (d_pel (xack d i)) -> In p (d_pel d)) by (intros d i; cbn; rewrite filter_In; tauto).
  assert (W1 : forall cc d e, d_pel (wake_one cc d e) = d_pel d).
  { intros cc d [wid m]. unfold wake_one. destruct (r_state _) as [[]|]; reflexivity. }
  assert (W : forall d cc cap, d_pel (wake d cc cap) = d_pel d).
  { intros d cc cap. unfold wake. destruct (0 <? cap); [|reflexivity]. generalize (firstn (Z.to_nat cap) (waiters d cc)). intros l. revert d.
    induction l as [|e l IH]; intros d; simpl; [reflexivity|]. now rewrite IH, W1. }
  assert (P : forall d k w imm clr m, d_pel (place d k w imm clr m) = d_pel d).
  { intros. unfold place, hincr_gen. destruct imm; [reflexivity|]. destruct clr; reflexivity. }
  assert (R : forall d k, d_pel (lua_replace_existing d k) = d_pel d).
  { intros. unfold lua_replace_existing. destruct (match r_sid _ with Some _ => _ | None => _ end); reflexivity. }
  destruct o; cbn [step].
  - destruct (0 <=? dt) eqn:E; cbn; auto.
  - unfold do_schedule, lua_schedule. destruct (negb false && lua_exists _ _); cbn [fst set_db s_db publish set_pubs d_pel]; rewrite ?P; auto.
  - unfold do_schedule, lua_schedule. cbn [negb andb]. cbn [fst set_db s_db publish set_pubs d_pel]. rewrite ?P, ?R; auto.
  - cbn. destruct (cancel_rest (s_db s) k t) as (_ & _ & _ & _ & E & _). cbv zeta in E. rewrite E. auto.
  - cbn. unfold cancel_finish. destruct (0 <? c_ttl c); cbn; auto.
  - cbn; auto.
  - cbn; auto.
  - destruct (ready_clear s _) as [sn|]; [|cbn; auto]. cbn.
    assert (F1 : forall l d, d_pel (fold_left (clear_run (c_ttl c)) l d) = d_pel d).
    { induction l as [|k l IH]; intros d; simpl; [reflexivity|]. rewrite IH. unfold clear_run. destruct (0 <? c_ttl c); reflexivity. }
    assert (F2 : forall l d, d_pel (fold_left (clear_scheduled (c_ttl c)) l d) = d_pel d).
    { induction l as [|k l IH]; intros d; simpl; [reflexivity|]. rewrite IH. unfold clear_scheduled, clear_run. destruct (0 <? c_ttl c); reflexivity. }
    rewrite F1, F2. destruct (0 <? cs_count sn); cbn; auto.
  - assert (F : forall l d, d_pel (fold_left stream_one l d) = d_pel d).
    { induction l as [|k l IH]; intros d; simpl; [reflexivity|]. rewrite IH. unfold stream_one. destruct (d_parked d k); reflexivity. }
    unfold lua_stream_due. cbn. destruct (0 <? Z.of_nat _); cbn; rewrite F; auto.
  - exfalso. eapply (proj1 (NE w 0)); reflexivity.
  - exfalso. eapply (proj1 (proj2 (NE w i))); reflexivity.
  - exfalso. eapply (proj2 (proj2 (NE w 0))); reflexivity.
  - destruct (get_exec _ _) as [x|]; [|cbn; auto]. destruct (x_phase x); try (cbn; auto; fail). unfold lua_claim. destruct (superseded _ _ _); cbn [fst set_execs s_db xdel set_stream d_pel]; eauto.
  - destruct (get_exec _ _) as [x|]; [|cbn; auto]. destruct (x_phase x); cbn; auto.
  - destruct (get_exec _ _) as [x|]; [|cbn; auto]. destruct (x_phase x); cbn; auto.
  - destruct (get_exec _ _) as [x|]; [|cbn; auto]. destruct (x_phase x); cbn; auto.
  - destruct (get_exec _ _) as [x|]; [|cbn; auto]. destruct (may_finish _ _); [|cbn; auto]. unfold lua_terminal.
    destruct (superseded _ _ _); cbv zeta; cbn [fst].
    + destruct (prog_mine _ _ _); cbn [fst set_execs s_db]; intros H; cbn in H; rewrite filter_In in H; tauto.
    + destruct (0 <? c_ttl c); cbn [fst set_execs s_db]; intros H; cbn in H; rewrite filter_In in H; tauto.
  - destruct (get_exec _ _) as [x|]; [|cbn; auto]. destruct (may_resched _); [|cbn; auto]. cbn [lua_schedule fst]. unfold lua_reschedule. cbn [fst set_execs s_db publish set_pubs d_pel hdel set_runs]. rewrite P. cbn. rewrite filter_In. tauto.
  - destruct (get_exec _ _) as [x|]; [|cbn; auto]. destruct (x_phase x); try (cbn; auto; fail). destruct (x_slot x); try (cbn; auto; fail).
    unfold lua_acquire_or_park. destruct (zscore _ _); [destruct (x_redel x && _); cbn; try rewrite filter_In; tauto|].
    destruct (zcard _ <? maxc); [cbn; auto|]. destruct (zrangebyscore _ _ _) as [|[]]; cbn; try rewrite filter_In; tauto.
  - destruct (get_exec _ _) as [x|]; [|cbn; auto]. destruct (x_slot x) as [[cc mx]|]; [|cbn; auto].
    unfold lua_release. destruct (x_phase x); cbn [fst set_execs s_db]; rewrite ?W; auto;
      match goal with |- context [match ?w with [] => _ | _ => _ end] => destruct w end; cbn; auto.
  - destruct (get_exec _ _) as [x|]; [|cbn; auto]. destruct (x_slot x) as [[cc mx]|]; cbn; auto.
  - unfold lua_scavenge. cbn. destruct (waiters _ _); [auto|]. rewrite W. cbn. auto.
  - cbn. unfold cancel_cleanup. destruct (own_place _ _ _ _); [|auto]. cbn. auto.
  - cbn; auto.
Qed.

(** A pending entry gets a new delivery time only with an execution at work on it. *)
Lemma pel_step_exec c s o p : In p (d_pel (s_db (fst (step c s o)))) ->
  In p (d_pel (s_db s)) \/ exists x, In x (s_execs (fst (step c s o))) /\ x_mid x = pe_id p.
Proof.
  intros H.
  assert (E : (exists w, o = ORead w) \/ (exists w i, o = OAutoclaim w i) \/ (exists w, o = ORenew w) \/
              (forall w i, o <> ORead w /\ o <> OAutoclaim w i /\ o <> ORenew w)).
  { destruct o; eauto; right; right; right; repeat split; discriminate. }
  destruct E as [[w ->]|[(w & i & ->)|[[w ->]|E]]].
  - revert H. cbn [step]. unfold read_group. destruct (next_new (s_db s)) as [[i m]|]; cbn; auto. rewrite in_app_iff. intros [H|[<-|[]]]; auto.
    right. eexists. split; [apply in_or_app; right; left; reflexivity|reflexivity].
  - revert H. cbn [step]. unfold autoclaim. destruct (find _ _); [|cbn; auto]. destruct (claimable _ _ _); [|cbn; auto].
    destruct (lookup_entry _ _); cbn [deliver fst s_db s_execs set_pel d_pel xack]; [|rewrite filter_In; tauto].
    rewrite in_map_iff. intros (q & E & Q). destruct (Z.eqb_spec (pe_id q) i) as [Ei|]; subst p; auto.
    right. eexists. split; [apply in_or_app; right; left; reflexivity|reflexivity].
  - revert H. cbn [step fst s_db s_execs set_db]. unfold renew. cbn [d_pel set_pel]. rewrite in_map_iff. intros (q & E & Q). apply filter_In in Q as [Q _].
    destruct (existsb _ _) eqn:X; subst p; auto. right. cbn [pe_id]. apply existsb_exists in X as (i & X1 & X2).
    apply in_map_iff in X1 as (x & X1 & X3). apply filter_In in X3 as [X3 _]. exists x. split; [exact X3|]. apply Z.eqb_eq in X2. congruence.
  - left. eapply pel_step_old; eauto.
Qed.

(** ** Along a fair history *)

Lemma at_final c h n : exists l, at_ c init_sys h n = final c init_sys l.
Proof.
  induction n as [|n [l IH]]; [exists []; reflexivity|]. exists (l ++ [h n]). rewrite final_app, <- IH. cbn [at_]. rewrite final_cons. reflexivity.
Qed.
Lemma at_reachable c h n : reachable c (at_ c init_sys h n).
Proof. destruct (at_final c h n) as [l E]. exists l. exact E. Qed.

Lemma at_last_mono c h n n' : (n <= n')%nat -> d_last (s_db (at_ c init_sys h n)) <= d_last (s_db (at_ c init_sys h n')).
Proof.
  induction 1; [lia|]. cbn [at_]. pose proof (last_step c (at_ c init_sys h m) (h m) (reachable_GInv c _ (at_reachable c h m))). lia.
Qed.
Lemma at_now_mono c h n n' : (n <= n')%nat -> d_now (s_db (at_ c init_sys h n)) <= d_now (s_db (at_ c init_sys h n')).
Proof. induction 1; [lia|]. cbn [at_]. pose proof (now_step c (at_ c init_sys h m) (h m)). lia. Qed.

Section live.
Variables (c : cfg) (skew : Z) (h : nat -> op) (k : key) (m : msg) (n0 : nat) (Q : nat -> Prop).
Hypothesis F : fair c skew h.
Hypothesis Hw : 0 <= m_when m.
Let S n := at_ c init_sys h n.
Let goal := exists n, (n0 <= n)%nat /\ Q n.
Hypothesis Qdec : forall n, Q n \/ ~ Q n.
Hypothesis Qstart : forall n, started c (S n) (h n) m -> Q n.
Hypothesis D : forall n, (n0 <= n)%nat -> (forall j, (n0 <= j < n)%nat -> ~ Q j) -> ~ Q n -> undisturbed c k (S n) (h n).

Let SG n : GInv (S n) := reachable_GInv c _ (at_reachable c h n).
Let SU n : UInv k (kabs k (S n)) := reachable_UInv c k _ (at_reachable c h n).

(** Not started before the [n]-th step, and stored at [p]. *)
Definition St (n : nat) (p : option sid) : Prop :=
  (n0 <= n)%nat /\ (forall j, (n0 <= j < n)%nat -> ~ Q j) /\ LInv k m p (kabs k (S n)).

Lemma go1 n p : St n p -> goal \/ exists p', St (Datatypes.S n) p' /\ (p <> None -> p' = p).
Proof.
  intros (H1 & H2 & H3). destruct (Qdec n) as [Y|N]; [left; exists n; auto|right].
  destruct (LInv_step c k m p (S n) (h n) (SG n) (SU n) (D n H1 H2 N) H3) as (p' & L & E).
  { intros i Hi. apply N. apply Qstart. exists i. exact Hi. }
  exists p'. split; [|exact E]. split; [lia|]. split; [|exact L].
  intros j Hj. destruct (Nat.eq_dec j n) as [->|Nj]; [exact N|apply H2; lia].
Qed.
Lemma go n p n' : St n p -> (n <= n')%nat -> goal \/ exists p', St n' p' /\ (p <> None -> p' = p).
Proof.
  intros H. induction 1 as [|n' Le IH]; [right; eauto|]. destruct IH as [IH|(p1 & H1 & E1)]; [auto|].
  destruct (go1 n' p1 H1) as [?|(p2 & H2 & E2)]; [auto|right]. exists p2. split; [exact H2|]. intros N. rewrite <- (E1 N). apply E2. rewrite (E1 N). exact N.
Qed.
Lemma go_some n i n' : St n (Some i) -> (n <= n')%nat -> goal \/ St n' (Some i).
Proof. intros H L. destruct (go n (Some i) n' H L) as [?|(p & H1 & E)]; [auto|]. rewrite E in H1; [auto|discriminate]. Qed.

Lemma St_stream n i : St n (Some i) -> on_stream (S n) i m.
Proof. intros (_ & _ & L). pose proof (li_spot _ _ _ _ L) as P. cbn [spot_of] in P. apply kstream_In in P. tauto. Qed.
Lemma St_live n p : St n p -> superseded (s_db (S n)) k (m_gen m) = false.
Proof. intros (_ & _ & L). change (ksuper (kabs k (S n)) (m_gen m) = false). unfold ksuper. rewrite (li_gen _ _ _ _ L). lia. Qed.
Lemma St_key n p : St n p -> m_key m = k.
Proof. intros (_ & _ & L). exact (li_key _ _ _ _ L). Qed.

(** From the future queue to the stream. *)
Lemma to_stream n : St n None -> goal \/ exists n' i, St n' (Some i).
Proof.
  intros H. destruct (f_time _ _ _ F n (m_when m + skew)) as (j & Hj & Tj).
  destruct (f_sched _ _ _ F j) as (j' & t & Hj' & Ej & Tt).
  destruct (go n None j' H) as [?|(p & H1 & _)]; [lia|auto|]. destruct p as [i|]; [right; eauto|].
  destruct (go1 j' None H1) as [?|(p & H2 & _)]; [auto|]. destruct p as [i|]; [right; eauto|]. exfalso.
  pose proof (at_now_mono c h j j' Hj') as Mj.
  assert (Fu : forall n, St n None -> in_future (S n) m).
  { intros q Hq. pose proof (St_key _ _ Hq) as Ek. destruct Hq as (_ & _ & L). pose proof (li_spot _ _ _ _ L) as [P1 P2]. unfold in_future. rewrite Ek. auto. }
  destruct (scheduler_moves_due c (S j') t (at_reachable c h j')) as (ms & _ & _ & _ & _ & _ & X & _).
  pose proof (Fu _ H2) as Y. unfold S in Y. cbn [at_] in Y. rewrite Ej in Y. apply X in Y as [_ Y]. apply Y. split; [exact Hw|].
  fold (S j') in *. unfold S in Tj, Mj, Tt. lia.
Qed.

(** From the stream to a worker. *)
Lemma to_delivered b : forall n i, St n (Some i) -> i - d_last (s_db (S n)) <= Z.of_nat b ->
  goal \/ exists n', St n' (Some i) /\ i <= d_last (s_db (S n')).
Proof.
  induction b as [|b IH]; intros n i H B; [right; exists n; split; [exact H|lia]|].
  destruct (f_read _ _ _ F n) as (j & w & Hj & Ej). destruct (go_some n i j H Hj) as [?|H1]; [auto|].
  destruct (Z_le_gt_dec i (d_last (s_db (S j)))) as [Le|Gt]; [right; eauto|].
  destruct (go1 j (Some i) H1) as [?|(p & H2 & E)]; [auto|]. rewrite (E ltac:(discriminate)) in H2.
  apply (IH _ _ H2). pose proof (at_last_mono c h n j Hj) as M1. fold (S n) (S j) in M1.
  enough (d_last (s_db (S j)) < d_last (s_db (S (Datatypes.S j)))) by lia.
  unfold S at 2. cbn [at_]. fold (S j). rewrite Ej. cbn [step]. unfold read_group. destruct (next_new (s_db (S j))) as [[i' m']|] eqn:N.
  - apply next_new_spec in N as [_ N]. cbn. exact N.
  - exfalso. unfold next_new in N. pose proof (find_none _ _ N _ (St_stream _ _ H1)) as X. cbn in X. lia.
Qed.

(** With a worker, once no worker crashes any more. *)
Definition rank (x : exec) : nat := match x_phase x, x_slot x with PDelivered, _ => 3 | _, None => 2 | _, Some _ => 1 end.

Section calm.
Variable nc : nat.
Hypothesis NC : forall j w, (nc <= j)%nat -> h j <> OCrash w.

Lemma at_exec n i x : St n (Some i) -> In x (s_execs (S n)) -> x_mid x = i -> x_msg x = m /\ (x_phase x = PDelivered \/ x_phase x = PClaimed).
Proof.
  intros H Hx E. pose proof (St_stream _ _ H) as O. unfold on_stream in O. rewrite <- E in O. pose proof (xi_msg _ (proj2 (SG n)) x m Hx O) as M.
  split; [auto|]. destruct H as (_ & _ & L). apply (li_exec _ _ _ _ L); [|auto]. apply kexecs_In. split; [exact Hx|]. rewrite <- M. exact (li_key _ _ _ _ L).
Qed.

Lemma with_worker r : forall n i x, (nc <= n)%nat -> St n (Some i) -> In x (s_execs (S n)) -> x_mid x = i -> (rank x <= r)%nat -> goal.
Proof.
  induction r as [|r IH]; intros n i x Hn H Hx Ex Hr.
  { exfalso. unfold rank in Hr. destruct (x_phase x), (x_slot x); lia. }
  destruct (at_exec n i x H Hx Ex) as [Mx Px].
  destruct (f_worker _ _ _ F n x Px) as (j & Hj & Nj). fold (S j) in Nj.
  assert (Y : goal \/ (St j (Some i) /\ In x (s_execs (S j))) \/ exists q, (n <= q)%nat /\ St q (Some i) /\ In x (s_execs (S q)) /\ leaves c (S q) x (h q)).
  { clear Nj. induction Hj as [|j Hj IHj]; [auto|]. destruct IHj as [?|[[H1 H2]|?]]; auto.
    destruct (go1 j (Some i) H1) as [?|(p & H3 & E)]; [auto|]. rewrite (E ltac:(discriminate)) in H3.
    destruct (exec_step c (S j) (h j) x (SG j) H2 Px) as [H4|H4]; [right; left; split; [exact H3|exact H4]|]. right; right. exists j. auto. }
  destruct Y as [?|[[_ Y]|(q & Hq & Hs & Hi & L)]]; [auto|contradiction|].
  pose proof (get_exec_In (S q) x (proj2 (SG q)) Hi) as Gx.
  assert (Kx : m_key (x_msg x) = k) by (rewrite Mx; eapply St_key; eauto).
  destruct (go1 q (Some i) Hs) as [?|(p & H3 & E)]; [auto|]. rewrite (E ltac:(discriminate)) in H3.
  pose proof (St_live _ _ Hs) as Lv. rewrite <- Mx in Lv.
  destruct Hs as (B1 & B2 & B3). destruct (Qdec q) as [Yq|Nq]; [exists q; auto|]. destruct (D q B1 B2 Nq) as (_ & _ & Dq). specialize (Dq (x_id x) x Gx Kx).
  assert (Next : forall y, In y (s_execs (fst (step c (S q) (h q)))) -> x_mid y = i -> (rank y < rank x)%nat -> goal).
  { intros y Hy Ey Ry. apply (IH (Datatypes.S q) i y); auto; [lia|lia]. }
  inversion L as [Eo|t Ph Eo|Eo|Ph Eo|st t e re Eo|w b t Eo|cc mx t Ph Sl Eo|t Eo]; rewrite <- Eo in Dq.
  - exfalso. apply (NC q (x_worker x)); [lia|auto].
  - apply (Next (with_phase PClaimed x)); [|exact Ex|unfold rank; cbn; rewrite Ph; destruct (x_slot x); lia].
    rewrite <- Eo. cbn [step]. rewrite Gx, Ph. unfold lua_claim. rewrite Kx, Lv. cbn [fst set_execs s_execs]. now apply upd_has.
  - rewrite (Dq eq_refl) in Lv. discriminate.
  - exists q. split; [exact B1|]. apply Qstart. exists (x_mid x). unfold starts. rewrite <- Eo. cbn [step]. rewrite Gx, Ph. cbn. now rewrite Mx.
  - rewrite (Dq eq_refl) in Lv. discriminate.
  - contradiction.
  - specialize (Dq eq_refl). apply (Next (with_slot (Some (cc, mx)) x)); [|exact Ex|unfold rank; cbn; rewrite Ph, Sl; lia].
    revert Dq. rewrite <- Eo. cbn [step]. rewrite Gx, Ph, Sl. destruct (lua_acquire_or_park _ _ _ _ _ _ _ _ _ _) as [d b]. cbn [snd fst set_execs s_execs].
    destruct b; [|congruence]. intros _. now apply upd_has.
  - rewrite (Dq eq_refl) in Lv. discriminate.
Qed.

Lemma exec_for_dec (l : list exec) i : (exists x, In x l /\ x_mid x = i) \/ forall x, In x l -> x_mid x <> i.
Proof.
  induction l as [|y l [[x [H E]]|IH]]; [right; intros ? []|left; exists x; cbn; auto|].
  destruct (Z.eq_dec (x_mid y) i) as [E|E]; [left; exists y; cbn; auto|right]. intros x [<-|H]; auto.
Qed.

(** With nobody: until it is redelivered. *)
Lemma abandoned n i : (nc <= n)%nat -> St n (Some i) -> i <= d_last (s_db (S n)) -> goal.
Proof.
  intros Hn H Ld.
  destruct (f_time _ _ _ F n (d_now (s_db (S n)) + c_redeliver c)) as (j & Hj & Tj).
  destruct (f_redeliver _ _ _ F j i) as (q & Hq & Rq). fold (S q) in Rq. fold (S j) in Tj.
  assert (Back : forall q, (n <= q)%nat -> goal \/ forall p, In p (d_pel (s_db (S q))) -> pe_id p = i -> In p (d_pel (s_db (S n)))).
  { clear q Hq Rq. induction 1 as [|q Hq IH]; [auto|]. destruct IH as [?|IH]; [auto|].
    destruct (exec_for_dec (s_execs (S (Datatypes.S q))) i) as [(x & Hx & Ex)|N].
    - destruct (go_some n i (Datatypes.S q) H) as [?|H1]; [lia|auto|]. left. apply (with_worker 3 (Datatypes.S q) i x); auto; unfold rank; destruct (x_phase x), (x_slot x); lia.
    - right. intros p Hp Ep. destruct (pel_step_exec c (S q) (h q) p Hp) as [O|(x & Hx & Ex)]; [auto|]. exfalso. apply (N x Hx). congruence. }
  destruct (Back q ltac:(lia)) as [?|B]; [auto|]. destruct (go_some n i q H) as [?|Hs]; [lia|auto|].
  pose proof (St_stream _ _ Hs) as O.
  assert (In i (map pe_id (d_pel (s_db (S q))))) as P.
  { apply (di_deliv _ (proj1 (SG q)) i m O). pose proof (at_last_mono c h n q ltac:(lia)). fold (S n) (S q) in *. lia. }
  destruct Rq as [Rq|(w & Eq)]; [contradiction|].
  destruct (find (fun p => pe_id p =? i) (d_pel (s_db (S q)))) as [p|] eqn:Fp.
  2:{ apply in_map_iff in P as (p & Ep & P). pose proof (find_none _ _ Fp _ P) as X. cbn in X. lia. }
  pose proof (find_some _ _ Fp) as [Fp1 Fp2]. apply Z.eqb_eq in Fp2. pose proof (B p Fp1 Fp2) as Pn. pose proof (past c _ p (at_reachable c h n) Pn) as Pt. fold (S n) in Pt.
  pose proof (at_now_mono c h j q Hq) as Mq. fold (S j) (S q) in Mq.
  destruct (go1 q (Some i) Hs) as [?|(p' & H3 & E)]; [auto|]. rewrite (E ltac:(discriminate)) in H3.
  apply (with_worker 3 (Datatypes.S q) i (mkExec (s_nextx (S q)) w i m true PDelivered None)); auto; [lia|].
  unfold S at 2. cbn [at_]. fold (S q). rewrite Eq. cbn [step]. unfold autoclaim. rewrite Fp. rewrite claimable_idle by lia.
  destruct (lookup_entry i (d_stream (s_db (S q)))) as [m'|] eqn:L; [|exfalso; eapply lookup_entry_None; eauto].
  apply lookup_entry_In in L. pose proof (ids_sorted_inj _ _ _ (di_sorted _ (proj1 (SG q))) L O eq_refl) as Em. injection Em as ->.
  cbn [deliver fst s_execs]. apply in_or_app. right. now left.
Qed.
End calm.

Theorem St_starts n p : St n p -> goal.
Proof.
  intros H. destruct (f_crash _ _ _ F) as (nc & NC).
  assert (H1 : goal \/ exists n i, St n (Some i)) by (destruct p as [i|]; [right; eauto|apply (to_stream n H)]).
  destruct H1 as [?|(n1 & i & H1)]; [auto|].
  destruct (to_delivered (Z.to_nat (i - d_last (s_db (S n1)))) n1 i H1) as [?|(n2 & H2 & L2)]; [lia|auto|].
  destruct (go_some n2 i (Nat.max n2 nc) H2) as [?|H3]; [lia|auto|].
  apply (abandoned nc NC (Nat.max n2 nc) i); [lia|exact H3|].
  pose proof (at_last_mono c h n2 (Nat.max n2 nc) ltac:(lia)). fold (S n2) (S (Nat.max n2 nc)) in *. lia.
Qed.
End live.

(** ** From an accepted call, and from a stored message *)

Lemma accept_LInv c k s o a : reachable c s -> BInv (kabs k s) -> a_key a = k -> accepts c s o a -> not_waiting k s ->
  exists m p, first_attempt a m /\ LInv k m p (kabs k (fst (step c s o))).
Proof.
  intros R B E A W.
  pose proof (reachable_GInv c s R) as G.
  pose proof (reachable_UInv c k s R) as U.
  destruct (accept_inv c k s o a G E A) as (repl & t & Eo & N & Ek).
  assert (K : keeps c k s o) by (rewrite Eo; apply keeps_schedule).
  destruct (BInv_step c k s o G U K B) as [B' _].
  apply not_waiting_nil in W. rewrite Ek in *. unfold ksched in *. rewrite N in *.
  set (u := if repl then kreplace_existing (kabs k s) else kabs k s) in *.
  assert (Ku : kgen u = kgen (kabs k s)) by (unfold u; destruct repl; [unfold kgen; now rewrite kr_kreplace|reflexivity]).
  assert (Wu : k_wait u = []) by (unfold u, kreplace_existing; destruct repl, (r_sid (kr (kabs k s))); exact W).
  assert (Xu : k_execs u = k_execs (kabs k s)) by (unfold u, kreplace_existing; destruct repl, (r_sid (kr (kabs k s))); reflexivity).
  pose proof (kgen_nonneg k _ U) as Nn.
  exists (with_gen (call_msg a) (kgen u + 1)), (if a_when a <=? t then Some (k_next u) else None).
  split; [repeat split; auto|]. constructor.
  - exact E.
  - unfold kplace. destruct (a_when a <=? t); cbn; [apply in_or_app; right; now left|split; reflexivity].
  - rewrite kplace_gen. reflexivity.
  - cbn. lia.
  - unfold kplace. destruct (a_when a <=? t); exact Wu.
  - intros x Hx Ex. exfalso. assert (Hx' : In x (k_execs (kabs k s))).
    { rewrite <- Xu. revert Hx. unfold kplace. destruct (a_when a <=? t); auto. }
    assert (Hh : holds (kabs k s) (m_gen (x_msg x)) (LS (x_mid x))) by (right; eauto).
    pose proof (bi_le _ B _ _ Hh) as Le. rewrite Ex in Le. cbn in Le. lia.
  - exact B'.
Qed.

Definition first_attemptb (a : call) (m : msg) : bool :=
  String.eqb (m_key m) (a_key a) && (m_when m =? a_when a) && String.eqb (m_fn m) (a_fn a) && String.eqb (m_args m) (a_args a) &&
  String.eqb (m_kwargs m) (a_kwargs a) && (m_attempt m =? 1).
Lemma first_attemptb_spec a m : first_attemptb a m = true <-> first_attempt a m.
Proof.
  unfold first_attemptb, first_attempt, carries. rewrite !andb_true_iff, !String.eqb_eq, !Z.eqb_eq. tauto.
Qed.
Lemma call_starts_dec c h a n : call_starts c h a n \/ ~ call_starts c h a n.
Proof.
  unfold call_starts, starts. destruct (snd (step c (at_ c init_sys h n) (h n))) eqn:E; try (right; intros (? & ? & _ & H); discriminate H).
  destruct (first_attemptb a m) eqn:Fa; [left; exists m, i; split; [now apply first_attemptb_spec|reflexivity]|].
  right. intros (m' & i' & H1 & H2). injection H2 as -> _. apply first_attemptb_spec in H1. congruence.
Qed.

Lemma at_keeping c k h n : (forall j, (j < n)%nat -> keeps c k (at_ c init_sys h j) (h j)) -> reachable_keeping c k (at_ c init_sys h n).
Proof.
  induction n as [|n IH]; intros H; [exists []; split; [exact Logic.I|reflexivity]|].
  destruct IH as (l & L1 & L2); [intros; apply H; lia|]. exists (l ++ [h n]). split.
  - rewrite along_app. split; [exact L1|]. rewrite <- L2. split; [apply H; lia|exact Logic.I].
  - rewrite final_app, <- L2, final_cons. reflexivity.
Qed.

Theorem call_comes c skew h n a k :
  fair c skew h -> a_key a = k -> 0 <= a_when a ->
  (forall j, (j < n)%nat -> keeps c k (at_ c init_sys h j) (h j)) ->
  accepts c (at_ c init_sys h n) (h n) a -> not_waiting k (at_ c init_sys h n) ->
  (forall j, (n < j)%nat -> (forall q, (n < q < j)%nat -> ~ call_starts c h a q) -> undisturbed c k (at_ c init_sys h j) (h j)) ->
  exists j, (n < j)%nat /\ call_starts c h a j.
Proof.
  intros F E Hw K A W D. pose proof (at_keeping c k h n K) as R. destruct (accept_LInv c k _ _ a (at_reachable c h n) (reachable_BInv c k _ R) E A W) as (m & p & Fa & L).
  assert (Wm : 0 <= m_when m) by (destruct Fa as (_ & -> & _); exact Hw).
  destruct (St_starts c skew h k m (Datatypes.S n) (call_starts c h a) F Wm (call_starts_dec c h a)) with (n := Datatypes.S n) (p := p) as (j & Hj & Cj).
  - intros j [i Hi]. exists m, i. split; assumption.
  - intros j Hj Hn _. apply D; [lia|]. intros q Hq. apply Hn. lia.
  - split; [lia|]. split; [intros; lia|exact L].
  - exists j. split; [lia|exact Cj].
Qed.

Theorem message_comes c skew h n m k :
  fair c skew h -> m_key m = k -> 0 <= m_when m ->
  (forall j, (j < n)%nat -> keeps c k (at_ c init_sys h j) (h j)) ->
  ((exists i, on_stream (at_ c init_sys h n) i m) \/ in_future (at_ c init_sys h n) m) -> live (at_ c init_sys h n) m ->
  not_waiting k (at_ c init_sys h n) ->
  (forall x, In x (s_execs (at_ c init_sys h n)) -> x_msg x = m -> x_phase x = PDelivered \/ x_phase x = PClaimed) ->
  (forall j, (n <= j)%nat -> (forall q, (n <= q < j)%nat -> ~ started c (at_ c init_sys h q) (h q) m) -> undisturbed c k (at_ c init_sys h j) (h j)) ->
  exists j i, (n <= j)%nat /\ starts c (at_ c init_sys h j) (h j) m i.
Proof.
  intros F E Hw K Sp Lv W X D.
  pose proof (at_keeping c k h n K) as R. pose proof (reachable_BInv c k _ R) as B. pose proof (reachable_UInv c k _ (at_reachable c h n)) as U.
  apply not_waiting_nil in W.
  assert (L : exists p, spot_of (kabs k (at_ c init_sys h n)) m p /\ 1 <= m_gen m).
  { destruct Sp as [[i Sp]|[Sp1 Sp2]].
    - assert (Hi : In (i, m) (k_stream (kabs k (at_ c init_sys h n)))) by (apply kstream_In; auto). exists (Some i). split; [exact Hi|apply (ui_stream _ _ U _ _ Hi)].
    - rewrite E in *. exists None. split; [split; assumption|apply (ui_parked _ _ U m Sp1)]. }
  destruct L as (p & Spo & Pos).
  destruct (St_starts c skew h k m n (fun j => started c (at_ c init_sys h j) (h j) m) F Hw) with (n := n) (p := p) as (j & Hj & [i Cj]); eauto.
  - intros j. apply started_dec.
  - split; [lia|]. split; [intros; lia|]. constructor; auto.
    + assert (Hh : holds (kabs k (at_ c init_sys h n)) (m_gen m) (match p with Some i => LS i | None => LP end)).
      { destruct p; cbn in *; [left; eauto|exists m; tauto]. }
      pose proof (bi_le _ B _ _ Hh) as Le. unfold live in Lv. rewrite E in Lv. change (ksuper (kabs k (at_ c init_sys h n)) (m_gen m) = false) in Lv.
      unfold ksuper in Lv. unfold kgen in Le. destruct (r_gen (kr (kabs k (at_ c init_sys h n)))) as [g|]; cbn in *; [f_equal; lia|lia].
    + intros x Hx. apply kexecs_In in Hx as [Hx _]. auto.
Qed.
