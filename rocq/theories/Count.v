(** Counting the runs of a key: starts against accepted calls, redeliveries and
    reschedules (C09), and one running body per key (C10). *)
From Verif Require Import Base ZSet Model GInv KView KSim Spec KInv KLine Hist Steps Steps2 Steps3.

Definition b2z (b : bool) : Z := if b then 1 else 0.
Definition cnt {A} (f : A -> bool) (l : list A) : Z := Z.of_nat (length (filter f l)).

Lemma cnt_nil {A} (f : A -> bool) : cnt f [] = 0. Proof. reflexivity. Qed.
Lemma cnt_cons {A} (f : A -> bool) a l : cnt f (a :: l) = b2z (f a) + cnt f l.
Proof. unfold cnt, b2z. cbn [filter]. destruct (f a); cbn [length]; lia. Qed.
Lemma cnt_app {A} (f : A -> bool) l l' : cnt f (l ++ l') = cnt f l + cnt f l'.
Proof. unfold cnt. rewrite filter_app', app_length. lia. Qed.
Lemma cnt_nonneg {A} (f : A -> bool) l : 0 <= cnt f l.
Proof. unfold cnt. lia. Qed.
Lemma cnt_filter {A} (f g : A -> bool) l : cnt f (filter g l) <= cnt f l.
Proof. induction l as [|a l IH]; cbn [filter]; [apply Z.le_refl|]. destruct (g a); rewrite ?cnt_cons; destruct (f a); unfold b2z; lia. Qed.
Lemma cnt_le {A} (f g : A -> bool) l : (forall a, In a l -> f a = true -> g a = true) -> cnt f l <= cnt g l.
Proof.
  induction l as [|a l IH]; intros H; [apply Z.le_refl|]. rewrite !cnt_cons.
  assert (cnt f l <= cnt g l) by (apply IH; intros; apply H; simpl; auto).
  pose proof (H a (or_introl eq_refl)) as Ha. destruct (f a), (g a); unfold b2z; lia.
Qed.
Lemma cnt_lt {A} (f g : A -> bool) l a : (forall a, In a l -> f a = true -> g a = true) -> In a l -> f a = false -> g a = true -> cnt f l + 1 <= cnt g l.
Proof.
  induction l as [|b l IH]; intros H Hin Hf Hg; [contradiction|]. rewrite !cnt_cons.
  destruct Hin as [->|Hin].
  - assert (cnt f l <= cnt g l) by (apply cnt_le; intros; apply H; simpl; auto). rewrite Hf, Hg. unfold b2z; lia.
  - assert (cnt f l + 1 <= cnt g l) by (apply IH; auto; intros; apply H; simpl; auto).
    pose proof (H b (or_introl eq_refl)) as Hb. destruct (f b), (g b); unfold b2z; lia.
Qed.
Lemma cnt_filter_lt {A} (f g : A -> bool) l a : In a l -> g a = false -> cnt f (filter g l) + b2z (f a) <= cnt f l.
Proof.
  intros Hin Hg. destruct (f a) eqn:Hf; [|pose proof (cnt_filter f g l); unfold b2z; lia].
  induction l as [|b l IH]; [contradiction|]. destruct Hin as [->|Hin].
  - simpl. rewrite Hg, cnt_cons, Hf. pose proof (cnt_filter f g l). unfold b2z; lia.
  - simpl. specialize (IH Hin). destruct (g b); rewrite ?cnt_cons; destruct (f b); unfold b2z in *; lia.
Qed.
Lemma cnt_two {A} (f : A -> bool) l a b : NoDup l -> In a l -> In b l -> f a = true -> f b = true -> cnt f l <= 1 -> a = b.
Proof.
  intros N Ha Hb Fa Fb H. unfold cnt in H.
  assert (Ia : In a (filter f l)) by (apply filter_In; auto). assert (Ib : In b (filter f l)) by (apply filter_In; auto).
  destruct (filter f l) as [|x [|y t]]; simpl in *; [contradiction| |lia].
  destruct Ia as [->|[]], Ib as [->|[]]. reflexivity.
Qed.
Lemma cnt_upd (f : exec -> bool) l x g : NoDup (map x_id l) -> In x l ->
  cnt f (upd_exec l (x_id x) g) = cnt f l - b2z (f x) + b2z (f (g x)).
Proof.
  induction l as [|y l IH]; intros N Hin; [contradiction|]. inversion N as [|? ? N1 N2]; subst. unfold upd_exec in *. simpl. rewrite !cnt_cons.
  destruct Hin as [->|Hin].
  - rewrite Z.eqb_refl. fold (upd_exec l (x_id x) g). rewrite (upd_exec_absent l (x_id x) g); [lia|].
    intros z Hz E. apply N1. rewrite <- E. now apply in_map.
  - assert (x_id y <> x_id x) by (intros E; apply N1; rewrite E; now apply in_map).
    destruct (Z.eqb_spec (x_id y) (x_id x)); [contradiction|]. rewrite (IH N2 Hin). lia.
Qed.

Section tokens.
Variable p : msg -> bool.
Hypothesis p_gen : forall m g, p (with_gen m g) = p m.
Variable q : phase -> msg -> bool.

Definition nS (v : ks) : Z := cnt (fun e => (k_last v <? fst e) && p (snd e)) (k_stream v).
Definition nP (v : ks) : Z := match k_parked v with Some m => b2z (p m) | None => 0 end.
Definition nW (v : ks) : Z := cnt (fun e => p (snd (snd e))) (k_wait v).
Definition nE (v : ks) : Z := cnt (fun x => q (x_phase x) (x_msg x)) (k_execs v).
Definition tok (v : ks) : Z := nS v + nP v + nW v + nE v.

Lemma b2z_range b : 0 <= b2z b <= 1. Proof. destruct b; unfold b2z; lia. Qed.
Lemma nP_range v : 0 <= nP v <= 1. Proof. unfold nP. destruct (k_parked v); [apply b2z_range|lia]. Qed.

Lemma nS_kdel v i : nS (kdel v i) <= nS v.
Proof. unfold nS, kdel; simpl. apply cnt_filter. Qed.
Lemma nS_kadd v m : nS (kadd v m) <= nS v + b2z (p m).
Proof.
  unfold nS, kadd. cbn [k_stream k_last kset_next kset_stream]. rewrite cnt_app, cnt_cons, cnt_nil. cbn [fst snd].
  destruct (k_last v <? k_next v), (p m); unfold b2z; simpl; lia.
Qed.
Lemma kplace_sp v w imm clr m : nS (kplace v w imm clr m) + nP (kplace v w imm clr m) <= nS v + nP v + b2z (p m).
Proof.
  unfold kplace. cbv zeta. destruct imm.
  - set (v1 := khset v (rset_gen (default 0 (r_gen (kr v)) + 1))). set (m1 := with_gen m _).
    change (nS (khset (kadd v1 m1) (rset_queued w (k_next v1) m1))) with (nS (kadd v1 m1)).
    change (nP (khset (kadd v1 m1) (rset_queued w (k_next v1) m1))) with (nP v).
    pose proof (nS_kadd v1 m1) as H. change (nS v1) with (nS v) in H. subst m1. rewrite p_gen in H. lia.
  - assert (E : forall g v', k_stream v' = k_stream v -> k_last v' = k_last v -> k_parked v' = Some (with_gen m g) -> nS v' + nP v' <= nS v + nP v + b2z (p m)).
    { intros g v' E1 E2 E3. unfold nP at 1. rewrite E3, p_gen. unfold nS at 1. rewrite E1, E2. fold (nS v). pose proof (nP_range v). lia. }
    destruct clr; eapply E; reflexivity.
Qed.
Lemma kplace_we v w imm clr m : k_wait (kplace v w imm clr m) = k_wait v /\ k_execs (kplace v w imm clr m) = k_execs v.
Proof. unfold kplace. cbv zeta. destruct imm; [split; reflexivity|]. destruct clr; split; reflexivity. Qed.
Lemma kreplace_tok v : nS (kreplace_existing v) <= nS v /\ nP (kreplace_existing v) = 0.
Proof.
  unfold kreplace_existing. split; [|reflexivity]. destruct (r_sid (kr v)) as [i|]; [apply nS_kdel|apply Z.le_refl].
Qed.

Definition gain (v : ks) (e : kev) : Z :=
  match e with
  | KSched repl _ a => if negb repl && kexists v then 0 else b2z (p (call_msg a))
  | KDeliver x _ => if x_redel x then b2z (q PDelivered (x_msg x)) else 0
  | KResched x w b _ => b2z (p (resched_msg (x_msg x) w b)) - b2z (q (x_phase x) (x_msg x))
  | KPhase x ph => b2z (q ph (x_msg x)) - b2z (q (x_phase x) (x_msg x))
  | KClaim x _ => b2z (q (if ksuper v (m_gen (x_msg x)) then PDone else PClaimed) (x_msg x)) - b2z (q PDelivered (x_msg x))
  | KStruck x => b2z (q PStruck (x_msg x)) - b2z (q PDelivered (x_msg x))
  | KFinish x _ _ _ _ _ => - b2z (q (x_phase x) (x_msg x))
  | KPark x _ => b2z (p (x_msg x)) - b2z (q (x_phase x) (x_msg x))
  | _ => 0
  end.

Lemma nE_phase v x ph : NoDup (map x_id (k_execs v)) -> In x (k_execs v) -> forall v1, k_execs v1 = k_execs v ->
  nE (kphase v1 (x_id x) (with_phase ph)) = nE v - b2z (q (x_phase x) (x_msg x)) + b2z (q ph (x_msg x)).
Proof. intros N H v1 E. unfold nE, kphase. cbn [k_execs kset_execs]. rewrite E. now rewrite (cnt_upd _ _ x (with_phase ph) N H). Qed.

Hypothesis q_done : forall m, q PDone m = false.
Hypothesis q_del : forall m, q PDelivered m = p m.

Lemma tok_apply c k v e : kok k v e -> UInv k v -> tok (kapply c v e) <= tok v + gain v e.
Proof.
  intros Hok U. pose proof (ui_nodup _ _ U) as N. unfold tok.
  assert (T : forall v1 v2, k_stream v2 = k_stream v1 -> k_last v2 = k_last v1 -> k_parked v2 = k_parked v1 -> k_wait v2 = k_wait v1 -> k_execs v2 = k_execs v1 -> tok v2 = tok v1).
  { intros v1 v2 E1 E2 E3 E4 E5. unfold tok, nS, nP, nW, nE. now rewrite E1, E2, E3, E4, E5. }
  assert (same : forall v2, k_stream v2 = k_stream v -> k_last v2 = k_last v -> k_parked v2 = k_parked v -> k_wait v2 = k_wait v -> k_execs v2 = k_execs v -> tok v2 <= tok v)
    by (intros; rewrite (T v v2); auto; lia).
  destruct e; cbn [kapply gain]; rewrite ?Z.add_0_r.
  - unfold nS, nP, nW, nE. cbn. simpl in Hok.
    assert (cnt (fun e => (l <? fst e) && p (snd e)) (k_stream v) <= cnt (fun e => (k_last v <? fst e) && p (snd e)) (k_stream v)); [|lia].
    apply cnt_le. intros a _ Ha. unfold sid in *. destruct (p (snd a)); lia.
  - apply same; reflexivity.
  - apply same; reflexivity.
  - change (nS (kset_stream v [])) with 0. pose proof (cnt_nonneg (fun e => (k_last v <? fst e) && p (snd e)) (k_stream v)) as X. fold (nS v) in X.
    change (nP (kset_stream v [])) with (nP v). change (nW (kset_stream v [])) with (nW v). change (nE (kset_stream v [])) with (nE v). lia.
  - apply same; reflexivity.
  - change (nP (kset_parked v None)) with 0. pose proof (nP_range v). change (nS (kset_parked v None)) with (nS v).
    change (nW (kset_parked v None)) with (nW v). change (nE (kset_parked v None)) with (nE v). lia.
  - apply same; reflexivity.
  - unfold ksched. destruct (negb repl && kexists v); [lia|].
    set (v1 := if repl then kreplace_existing v else v). pose proof (kplace_sp v1 (a_when a) imm false (call_msg a)) as K1.
    destruct (kplace_we v1 (a_when a) imm false (call_msg a)) as [K2 K3].
    assert (A : nS v1 <= nS v /\ nP v1 <= nP v /\ k_wait v1 = k_wait v /\ k_execs v1 = k_execs v).
    { unfold v1. destruct repl; [|repeat split; lia]. destruct (kreplace_tok v) as [R1 R2]. pose proof (nP_range v).
      repeat split; try lia; unfold kreplace_existing; destruct (r_sid (kr v)); reflexivity. }
    destruct A as (A1 & A2 & A3 & A4). unfold nW, nE. rewrite K2, K3, A3, A4. fold (nW v) (nE v). lia.
  - destruct (kreplace_tok v) as [R1 R2]. pose proof (nP_range v).
    assert (tok (kcancel v t) = tok (kreplace_existing v)) as E.
    { unfold kcancel. cbv zeta. destruct (r_state _) as [[]|]; apply T; reflexivity. }
    unfold tok in E. rewrite E. assert (nW (kreplace_existing v) = nW v /\ nE (kreplace_existing v) = nE v) as [-> ->].
    { unfold kreplace_existing, nW, nE. destruct (r_sid (kr v)); split; reflexivity. } lia.
  - unfold kmove. destruct (k_parked v) as [m|] eqn:E; [|lia]. pose proof (nS_kadd v m) as X.
    set (v2 := khset _ _). change (nS v2) with (nS (kadd v m)). change (nP v2) with 0. change (nW v2) with (nW v). change (nE v2) with (nE v).
    unfold nP. rewrite E. lia.
  - destruct Hok as (H1 & H2 & H3 & H4 & H5 & H6 & H7 & H8 & H9).
    set (v2 := kset_last _ _). change (nP v2) with (nP v). change (nW v2) with (nW v).
    assert (E : nE v2 = nE v + b2z (p (x_msg x))).
    { unfold nE. cbn. rewrite cnt_app, cnt_cons, cnt_nil, H3, q_del. cbn. lia. }
    rewrite E. destruct (x_redel x).
    + assert (nS v2 <= nS v); [|rewrite q_del; cbn [andb]; lia]. unfold nS. cbn. apply cnt_le. intros a _ Ha. unfold sid in *. destruct (p (snd a)); lia.
    + specialize (H8 eq_refl). assert (nS v2 + b2z (p (x_msg x)) <= nS v); [|lia]. unfold nS. cbn. destruct (p (x_msg x)) eqn:Ep; unfold b2z.
      * apply (cnt_lt _ _ _ (x_mid x, x_msg x)); auto; cbn [fst snd]; rewrite ?Ep; unfold sid in *; [intros a _ Ha; destruct (p (snd a)); lia|lia|lia].
      * rewrite Z.add_0_r. apply cnt_le. intros a _ Ha. unfold sid in *. destruct (p (snd a)); lia.
  - set (v2 := kset_execs _ _). change (nS v2) with (nS v). change (nP v2) with (nP v). change (nW v2) with (nW v).
    assert (nE v2 <= nE v); [|lia]. unfold nE. cbn. apply cnt_filter.
  - destruct Hok as [H1 H2]. cbv zeta. set (v1 := kclaim _ _ _ _ _).
    assert (A : nS v1 <= nS v /\ nP v1 = nP v /\ nW v1 = nW v /\ k_execs v1 = k_execs v).
    { unfold v1, kclaim. destruct (ksuper v _); [repeat split; apply nS_kdel|]. split; [apply Z.le_refl|repeat split]. }
    destruct A as (A1 & A2 & A3 & A4). rewrite (nE_phase v x _ N H1 v1 A4), H2, q_del. cbn [andb].
    set (v2 := kphase _ _ _). change (nS v2) with (nS v1). change (nP v2) with (nP v1). change (nW v2) with (nW v1). lia.
  - destruct Hok as [H1 H2]. rewrite (nE_phase v x _ N H1 v eq_refl).
    set (v2 := kphase _ _ _). change (nS v2) with (nS v). change (nP v2) with (nP v). change (nW v2) with (nW v). lia.
  - set (v2 := kphase _ _ _). change (nS v2) with (nS v). change (nP v2) with (nP v). change (nW v2) with (nW v).
    assert (nE v2 = nE v); [|lia]. unfold nE. cbn. simpl in Hok. rewrite (cnt_upd _ _ x (with_slot o) N Hok). cbn. lia.
  - destruct Hok as [H1 H2]. rewrite (nE_phase v x _ N H1 (khdel v rdel_known) eq_refl), H2, q_del. cbn [andb].
    set (v2 := kphase _ _ _). change (nS v2) with (nS v). change (nP v2) with (nP v). change (nW v2) with (nW v). lia.
  - destruct Hok as [H1 H2]. set (v1 := kterminal _ _ _ _ _ _ _ _ _).
    assert (A : nS v1 <= nS v /\ nP v1 = nP v /\ nW v1 = nW v /\ k_execs v1 = k_execs v).
    { unfold v1, kterminal. destruct (ksuper v _).
      - destruct (kprog_mine v _); (split; [apply (nS_kdel v)|repeat split]).
      - unfold kexpire. destruct (0 <? c_ttl c); (split; [apply (nS_kdel v)|repeat split]). }
    destruct A as (A1 & A2 & A3 & A4). rewrite (nE_phase v x _ N H1 v1 A4), q_done. cbn [andb].
    set (v2 := kphase _ _ _). change (nS v2) with (nS v1). change (nP v2) with (nP v1). change (nW v2) with (nW v1). change (b2z false) with 0; lia.
  - destruct Hok as [H1 H2]. set (v1 := kresched _ _ _ _ _).
    assert (A : nS v1 + nP v1 <= nS v + nP v + b2z (p (resched_msg (x_msg x) when bump)) /\ nW v1 = nW v /\ k_execs v1 = k_execs v).
    { unfold v1, kresched. pose proof (kplace_sp (kdel v (x_mid x)) when imm true (resched_msg (x_msg x) when bump)) as K1.
      destruct (kplace_we (kdel v (x_mid x)) when imm true (resched_msg (x_msg x) when bump)) as [K2 K3].
      set (v3 := kplace _ _ _ _ _) in *. change (nS (khdel v3 rdel_worker)) with (nS v3). change (nP (khdel v3 rdel_worker)) with (nP v3).
      pose proof (nS_kdel v (x_mid x)).
      change (nP (kdel v (x_mid x))) with (nP v) in K1. split; [lia|]. split; [unfold nW; cbn; now rewrite K2|exact K3]. }
    destruct A as (A1 & A3 & A4). rewrite (nE_phase v x _ N H1 v1 A4), q_done. cbn [andb].
    set (v2 := kphase _ _ _). change (nS v2) with (nS v1). change (nP v2) with (nP v1). change (nW v2) with (nW v1). change (b2z false) with 0; lia.
  - destruct Hok as [H1 H2]. set (v1 := kpark _ _ _ _).
    assert (A : nS v1 <= nS v /\ nP v1 = nP v /\ nW v1 = nW v + b2z (p (x_msg x)) /\ k_execs v1 = k_execs v).
    { unfold v1, kpark. cbv zeta. split; [apply (nS_kdel v)|]. split; [reflexivity|]. split; [|reflexivity].
      unfold nW. cbn. rewrite cnt_app, cnt_cons, cnt_nil. cbn. rewrite p_gen. lia. }
    destruct A as (A1 & A2 & A3 & A4). rewrite (nE_phase v x _ N H1 v1 A4), q_done. cbn [andb].
    set (v2 := kphase _ _ _). change (nS v2) with (nS v1). change (nP v2) with (nP v1). change (nW v2) with (nW v1). change (b2z false) with 0; lia.
  - simpl in Hok.
    assert (Wd : forall v1, k_wait v1 = k_wait v -> nW (kdel_waiter c0 wid v1) + b2z (p m) <= nW v).
    { intros v1 E. unfold nW, kdel_waiter. cbn. rewrite E. change (p m) with ((fun e : string * (sid * msg) => p (snd (snd e))) (c0, (wid, m))).
      apply cnt_filter_lt; [exact Hok|]. cbn. rewrite String.eqb_refl, Z.eqb_refl. reflexivity. }
    unfold kwake. destruct (r_state (kr v)) as [[]|]; try
      (specialize (Wd v eq_refl); pose proof (b2z_range (p m)); set (v2 := kdel_waiter _ _ _) in *; change (nS v2) with (nS v); change (nP v2) with (nP v); change (nE v2) with (nE v); lia).
    cbv zeta. set (v1 := khset v _). set (m1 := with_gen m _). pose proof (nS_kadd v1 m1) as X. change (nS v1) with (nS v) in X.
    unfold m1 in X at 2. rewrite p_gen in X. specialize (Wd (kadd v1 m1) eq_refl). set (v3 := kdel_waiter _ _ _) in *.
    set (v2 := khset v3 _). change (nS v2) with (nS (kadd v1 m1)). change (nP v2) with (nP v). change (nW v2) with (nW v3). change (nE v2) with (nE v). lia.
  - set (v2 := kcleanup _ _ _). change (nS v2) with (nS v). change (nP v2) with (nP v). change (nE v2) with (nE v).
    assert (nW v2 <= nW v); [|lia]. unfold nW. cbn. apply cnt_filter.
  - set (v2 := kset_runs _ _). change (nS v2) with (nS v). change (nP v2) with 0. change (nE v2) with (nE v). change (nW v2) with (nW v).
    pose proof (nP_range v). lia.
Qed.

Lemma tok_init k : tok (kabs k init_sys) = 0. Proof. reflexivity. Qed.
Lemma tok_nonneg v : 0 <= tok v.
Proof. unfold tok. pose proof (nP_range v). unfold nS, nW, nE. repeat match goal with |- context [cnt ?f ?l] => pose proof (cnt_nonneg f l); generalize dependent (cnt f l); intros end. lia. Qed.
End tokens.

(** ** C09 *)

Definition waiting_phase (ph : phase) : bool := match ph with PDelivered | PClaimed => true | _ => false end.
Definition waits (p : msg -> bool) (ph : phase) (m : msg) : bool := waiting_phase ph && p m.

Section starts.
Variables (p : msg -> bool) (k : key).
Hypothesis Hp : of_payload p.
Hypothesis Hk : forall m, p m = true -> m_key m = k.
Lemma p_gen' m g : p (with_gen m g) = p m. Proof. apply Hp; reflexivity. Qed.
Notation T v := (tok p (waits p) v).

Lemma step_tok c s o G : GInv s -> UInv k (kabs k s) -> single o = true -> 0 <= G ->
  (forall e, kok k (kabs k s) e -> label k o e -> kabs k (fst (step c s o)) = kapply c (kabs k s) e -> gain p (waits p) (kabs k s) e <= G) ->
  T (kabs k (fst (step c s o))) <= T (kabs k s) + G.
Proof.
  intros HG U S G0 H. destruct (sim_step c k s o HG) as (es & P & L & Hs). destruct (Hs S) as [->|[e ->]].
  - apply kpath_nil_inv in P. rewrite P. lia.
  - apply kpath_one_inv in P as [Hok E]. inversion L; subst. specialize (H e Hok H2 E). rewrite E.
    pose proof (tok_apply p p_gen' (waits p) (fun _ => eq_refl) (fun _ => eq_refl) c k _ e Hok U). lia.
Qed.

Lemma gain_idle v e : kok k v e -> match e with KSched _ _ _ | KDeliver _ _ | KResched _ _ _ _ => False | _ => True end ->
  gain p (waits p) v e <= 0.
Proof.
  intros Hok H. destruct e; try contradiction; cbn [gain]; try lia.
  - destruct (ksuper v _); cbn [waits waiting_phase andb]; pose proof (b2z_range (p (x_msg x))); change (b2z false) with 0; lia.
  - destruct Hok as [_ [[E [->| ->]]|[E ->]]]; rewrite E; cbn [waits waiting_phase andb]; pose proof (b2z_range (p (x_msg x))); change (b2z false) with 0; lia.
  - cbn [waits waiting_phase andb]; pose proof (b2z_range (p (x_msg x))); change (b2z false) with 0; lia.
  - pose proof (b2z_range (waits p (x_phase x) (x_msg x))); lia.
  - destruct Hok as [_ E]. rewrite E. cbn [waits waiting_phase andb]. lia.
Qed.

Lemma n_nonneg s o r : 0 <= n_accepted p s o r /\ 0 <= n_redelivered p s o r /\ 0 <= n_retried p s o r.
Proof.
  split; [|split].
  - destruct o; simpl; try lia; destruct r as [| |[]| | | | | |]; simpl; try lia; destruct (p _); lia.
  - destruct o; simpl; try lia; destruct r; simpl; try lia; destruct (p _); lia.
  - destruct o; simpl; try lia. destruct (get_exec _ _); [|lia]. destruct (may_resched _ && p _); lia.
Qed.

Lemma start_step c s o : GInv s -> UInv k (kabs k s) ->
  let r := snd (step c s o) in
  T (kabs k (fst (step c s o))) + n_starts p s o r <= T (kabs k s) + n_accepted p s o r + n_redelivered p s o r + n_retried p s o r.
Proof.
  intros HG U r. destruct (n_nonneg s o r) as (N1 & N2 & N3).
  assert (Q : (forall e, label k o e -> match e with KSched _ _ _ | KDeliver _ _ | KResched _ _ _ _ => False | _ => True end) ->
              n_starts p s o r = 0 -> T (kabs k (fst (step c s o))) + n_starts p s o r <= T (kabs k s) + n_accepted p s o r + n_redelivered p s o r + n_retried p s o r).
  { intros H E. assert (T (kabs k (fst (step c s o))) <= T (kabs k s)); [|lia].
    apply (step_ind c k s o (fun v => T v <= T (kabs k s))); auto; [|lia].
    intros v e Hok L U1 _ _ HT. pose proof (tok_apply p p_gen' (waits p) (fun _ => eq_refl) (fun _ => eq_refl) c k _ e Hok U1). pose proof (gain_idle v e Hok (H e L)). lia. }
  destruct o.
  all: try (lazymatch goal with |- context [OBodyStart] => fail | _ => idtac end; apply Q; [intros e L; destruct e; cbn [label] in L; try exact I; try (destruct L as (? & L & _)); try (destruct repl in L); try (destruct (x_redel x) in L); discriminate L|]).
  all: try (subst r; reflexivity).
  - subst r. cbn [step]. destruct (0 <=? dt); reflexivity.
  - (* add *)
    assert (E0 : n_starts p s (OAdd a t) r = 0) by (subst r; cbn [step]; destruct (do_schedule _ _ _ _); reflexivity).
    rewrite E0. assert (T (kabs k (fst (step c s (OAdd a t)))) <= T (kabs k s) + n_accepted p s (OAdd a t) r); [|lia].
    apply step_tok; auto. intros e Hok L _.
    destruct e; cbn [label] in L; try (pose proof (gain_idle _ _ Hok I); lia); try (destruct L as (? & L & _)); try (destruct (x_redel x) in L); try discriminate L.
    destruct repl; [discriminate L|]. injection L as -> ->. cbn [gain]. cbn [kok] in Hok. subst r. cbn [step]. unfold do_schedule, lua_schedule.
    rewrite Hok.
    rewrite (lua_exists_kexists k (s_db s) (s_execs s)) by apply HG. fold (kabs k s).
    destruct (negb false && kexists (kabs k s)); cbn [snd n_accepted]; unfold b2z; lia.
  - (* replace *)
    assert (E0 : n_starts p s (OReplace a t) r = 0) by (subst r; cbn [step]; destruct (do_schedule _ _ _ _); reflexivity).
    rewrite E0. assert (T (kabs k (fst (step c s (OReplace a t)))) <= T (kabs k s) + n_accepted p s (OReplace a t) r); [|lia].
    apply step_tok; auto. intros e Hok L _.
    destruct e; cbn [label] in L; try (pose proof (gain_idle _ _ Hok I); lia); try (destruct L as (? & L & _)); try (destruct (x_redel x) in L); try discriminate L.
    destruct repl; [|discriminate L]. injection L as -> ->. cbn [gain negb andb]. subst r. cbn. unfold b2z; lia.
  - (* clear *) subst r. cbn [step]. destruct (ready_clear s _); [|reflexivity]. destruct (clear_apply _ _ _); reflexivity.
  - (* read *)
    assert (E0 : n_starts p s (ORead w) r = 0) by (subst r; cbn [step]; unfold deliver; destruct (read_group _ _) as [? [[? ?]|]]; reflexivity).
    rewrite E0. assert (T (kabs k (fst (step c s (ORead w)))) <= T (kabs k s) + 0); [|lia]. apply step_tok; auto; try lia. intros e Hok L _.
    destruct e; cbn [label] in L; try (apply (gain_idle _ _ Hok I)); try (destruct L as (? & L & _)); try (destruct repl in L); try discriminate L.
    destruct (x_redel x) eqn:E; [discriminate L|]. cbn [gain]. rewrite E. lia.
  - (* autoclaim *)
    assert (E0 : n_starts p s (OAutoclaim w i) r = 0) by (subst r; cbn [step]; unfold deliver; destruct (autoclaim _ _ _ _) as [? [[? ?]|]]; reflexivity).
    rewrite E0. assert (T (kabs k (fst (step c s (OAutoclaim w i)))) <= T (kabs k s) + n_redelivered p s (OAutoclaim w i) r); [|lia].
    apply step_tok; auto. intros e Hok L E.
    destruct e; cbn [label] in L; try (pose proof (gain_idle _ _ Hok I); lia); try (destruct L as (? & L & _)); try (destruct repl in L); try discriminate L.
    cbn [gain waits waiting_phase andb]. destruct (x_redel x) eqn:Er; [|discriminate L]. apply (f_equal k_execs) in E. cbn in E.
    subst r. revert E. cbn [step]. unfold deliver. destruct (autoclaim _ _ _ _) as [d [[j m]|]]; cbn [fst snd s_execs kabs kd k_execs]; intros E.
    + rewrite filter_app' in E. apply app_inv_head in E. cbn [filter] in E. destruct (xhas_key k _); [|discriminate E]. injection E as <-. cbn. unfold b2z. lia.
    + exfalso. apply (f_equal (@length exec)) in E. rewrite app_length in E. cbn in E. lia.
  - subst r. cbn [step]. destruct (get_exec _ _) as [x|]; [|reflexivity]. destruct (x_phase x); try reflexivity. unfold lua_claim. destruct (superseded _ _ _); reflexivity.
  - (* body start *)
    subst r. cbn [step n_accepted n_redelivered n_retried]. destruct (get_exec _ _) as [x|] eqn:Eg; [|cbn; lia]. destruct (x_phase x) eqn:Ep; try (cbn; lia).
    cbn [fst snd n_starts]. destruct (get_exec_spec _ _ _ Eg) as [Hin Eh]. destruct (p (x_msg x)) eqn:Epx.
    + pose proof (Hk _ Epx) as Ek. unfold kabs, set_execs. cbn [s_db s_execs]. rewrite kd_upd_exec by reflexivity. subst h.
      assert (Hx : In x (k_execs (kabs k s))) by (apply kexecs_In; auto).
      pose proof (tok_apply p p_gen' (waits p) (fun _ => eq_refl) (fun _ => eq_refl) c k (kabs k s) (KPhase x PBody)) as A. cbn [kok kapply gain] in A; unfold waits in A at 3 4.
      specialize (A (conj Hx (or_introl (conj Ep (or_introl eq_refl)))) U). rewrite Ep, Epx in A. cbn [waits waiting_phase andb] in A.
      change (kabs k s) with (kd k (s_db s) (s_execs s)) in A. unfold b2z in A. lia.
    + assert (T (kabs k (set_execs s (s_db s) (upd_exec (s_execs s) h (with_phase PBody)))) <= T (kabs k s)); [|lia].
      destruct (string_dec (m_key (x_msg x)) k) as [Ek|Ek].
      * unfold kabs, set_execs. cbn [s_db s_execs]. rewrite kd_upd_exec by reflexivity. subst h.
        assert (Hx : In x (k_execs (kabs k s))) by (apply kexecs_In; auto).
        pose proof (tok_apply p p_gen' (waits p) (fun _ => eq_refl) (fun _ => eq_refl) c k (kabs k s) (KPhase x PBody)) as A. cbn [kok kapply gain] in A; unfold waits in A at 3 4.
        specialize (A (conj Hx (or_introl (conj Ep (or_introl eq_refl)))) U). rewrite Ep, Epx in A. cbn [waits waiting_phase andb] in A.
        change (kabs k s) with (kd k (s_db s) (s_execs s)) in A. unfold b2z in A. lia.
      * unfold kabs, set_execs. cbn [s_db s_execs]. rewrite (kd_upd_exec_other k s (s_db s) h x); [apply Z.le_refl|apply HG|exact Eg|exact Ek|reflexivity].
  - subst r. cbn [step]. destruct (get_exec _ _) as [x|]; [|reflexivity]. destruct (x_phase x); reflexivity.
  - subst r. cbn [step]. destruct (get_exec _ _) as [x|]; [|reflexivity]. destruct (x_phase x); reflexivity.
  - subst r. cbn [step]. destruct (get_exec _ _) as [x|]; [|reflexivity]. destruct (may_finish _ _); [|reflexivity]. destruct (lua_terminal _ _ _ _ _ _ _ _ _); reflexivity.
  - (* resched *)
    assert (E0 : n_starts p s (OResched h when bump t) r = 0).
    { subst r. cbn [step]. destruct (get_exec _ _) as [x|]; [|reflexivity]. destruct (may_resched _); reflexivity. }
    rewrite E0. assert (T (kabs k (fst (step c s (OResched h when bump t)))) <= T (kabs k s) + n_retried p s (OResched h when bump t) r); [|lia].
    apply step_tok; auto. intros e Hok L _.
    destruct e; cbn [label] in L; try (pose proof (gain_idle _ _ Hok I); lia); try (destruct L as (? & L & _)); try (destruct repl in L); try (destruct (x_redel x) in L); try discriminate L.
    all: injection L as -> -> -> ->; cbn [gain]; destruct Hok as [H1 H2]; apply kexecs_In in H1 as [H1 _]; cbn [n_retried].
    all: rewrite (get_exec_In s x (proj2 HG) H1), H2; cbn [andb]; pose proof (b2z_range (waits p (x_phase x) (x_msg x))); match goal with |- context [p (resched_msg ?m ?w ?b)] => rewrite (Hp (resched_msg m w b) m) by reflexivity end; unfold b2z at 1; lia.
  - subst r. cbn [step]. destruct (get_exec _ _) as [x|]; [|reflexivity]. destruct (x_phase x), (x_slot x); try reflexivity. destruct (lua_acquire_or_park _ _ _ _ _ _ _ _ _ _); reflexivity.
  - subst r. cbn [step]. destruct (get_exec _ _) as [x|]; [|reflexivity]. destruct (x_slot x) as [[]|], (x_phase x); reflexivity.
  - subst r. cbn [step]. destruct (get_exec _ _) as [x|]; [|reflexivity]. destruct (x_slot x) as [[]|]; reflexivity.
Qed.

Lemma starts_total c l : forall s, GInv s -> UInv k (kabs k s) ->
  T (kabs k (final c s l)) + total c (n_starts p) s l <=
  T (kabs k s) + total c (n_accepted p) s l + total c (n_redelivered p) s l + total c (n_retried p) s l.
Proof.
  induction l as [|o l IH]; intros s G U; [cbn; lia|]. rewrite final_cons. cbn [total].
  specialize (IH (fst (step c s o)) (GInv_step c s o G) (UInv_step c k s o G U)). pose proof (start_step c s o G U) as H. cbv zeta in H. lia.
Qed.
End starts.

Theorem starts_bounded c k p l : of_payload p -> (forall m, p m = true -> m_key m = k) ->
  total c (n_starts p) init_sys l <=
  total c (n_accepted p) init_sys l + total c (n_redelivered p) init_sys l + total c (n_retried p) init_sys l.
Proof.
  intros Hp Hk. pose proof (starts_total p k Hp Hk c l init_sys GInv_init (UInv_init k)) as H. rewrite tok_init in H.
  pose proof (tok_nonneg p (waits p) (kabs k (final c init_sys l))). lia.
Qed.

(** Each entry is read once; it is started at most once per delivery. *)
Lemma klast_apply c k v e : kok k v e -> k_last v <= k_last (kapply c v e).
Proof.
  intros Hok. destruct e; cbn [kapply]; try (apply Z.le_refl).
  - cbn. cbn in Hok. lia.
  - unfold ksched, kplace, kreplace_existing. destruct (negb repl && kexists v); [lia|]. destruct imm, repl, (r_sid (kr v)); apply Z.le_refl.
  - unfold kcancel, kreplace_existing. cbv zeta. destruct (r_sid (kr v)), (r_state _) as [[]|]; apply Z.le_refl.
  - unfold kmove. destruct (k_parked v); apply Z.le_refl.
  - cbn in Hok |- *. lia.
  - cbv zeta. unfold kclaim. destruct (ksuper v _); apply Z.le_refl.
  - unfold kterminal, kexpire. destruct (ksuper v (m_gen (x_msg x))), (kprog_mine v (m_gen (x_msg x))), (0 <? c_ttl c); apply Z.le_refl.
  - unfold kresched, kplace. destruct imm; apply Z.le_refl.
  - unfold kwake. destruct (r_state (kr v)) as [[]|]; apply Z.le_refl.
Qed.
Lemma last_step c s o : GInv s -> d_last (s_db s) <= d_last (s_db (fst (step c s o))).
Proof.
  intros G. destruct (sim_step c EmptyString s o G) as (es & P & _ & _).
  change (k_last (kabs EmptyString s) <= k_last (kabs EmptyString (fst (step c s o)))).
  induction P as [|v e es v' Hok P IH]; [lia|]. pose proof (klast_apply c _ v e Hok). lia.
Qed.

Section entry.
Variable i : sid.
Let f (x : exec) : bool := (x_mid x =? i) && waiting_phase (x_phase x).
Definition etok (s : sys) : Z := cnt f (s_execs s) + b2z (d_last (s_db s) <? i).

Lemma f_upd l h g : (forall x, In x l -> x_id x = h -> f (g x) = true -> f x = true) -> cnt f (upd_exec l h g) <= cnt f l.
Proof.
  unfold upd_exec. induction l as [|y l IH]; intros H; [apply Z.le_refl|]. cbn [map]. rewrite !cnt_cons.
  assert (cnt f (map (fun x => if x_id x =? h then g x else x) l) <= cnt f l) by (apply IH; intros; apply H; simpl; auto).
  destruct (Z.eqb_spec (x_id y) h) as [E|E]; [|lia].
  pose proof (H y (or_introl eq_refl) E). destruct (f (g y)), (f y); unfold b2z; lia.
Qed.

Lemma f_unwind y : f (with_slot None (unwind y)) = true -> f y = true.
Proof.
  unfold f, unwind. destruct (x_phase y) eqn:Ey; cbn [with_slot with_phase x_mid x_phase waiting_phase]; rewrite ?Ey; cbn [waiting_phase]; rewrite ?andb_false_r; auto. discriminate.
Qed.

Lemma entry_step c s o : GInv s ->
  etok (fst (step c s o)) + n_started i s o (snd (step c s o)) <= etok s + n_redelivered_entry i s o (snd (step c s o)).
Proof.
  intros G. pose proof (last_step c s o G) as HL.
  assert (Q : n_started i s o (snd (step c s o)) = 0 -> 0 <= n_redelivered_entry i s o (snd (step c s o)) ->
              cnt f (s_execs (fst (step c s o))) <= cnt f (s_execs s) ->
              etok (fst (step c s o)) + n_started i s o (snd (step c s o)) <= etok s + n_redelivered_entry i s o (snd (step c s o))).
  { intros E E' H. unfold etok. rewrite E. destruct (d_last (s_db (fst (step c s o))) <? i) eqn:E1, (d_last (s_db s) <? i) eqn:E2; unfold b2z; unfold sid in *; lia. }
  destruct o; try (apply Q; [reflexivity|reflexivity || (cbn; lia)|apply Z.le_refl]).
  - apply Q; cbn [step]; destruct (0 <=? dt); try reflexivity; cbn; lia.
  - apply Q; cbn [step]; unfold do_schedule, lua_schedule; destruct (negb false && _); try reflexivity; cbn; lia.
  - apply Q; cbn [step]; destruct (ready_clear s _); try reflexivity; cbn; lia.
  - (* read *) cbn [step]. unfold deliver, read_group. destruct (next_new (s_db s)) as [[j m]|] eqn:E; [|cbn; unfold etok; cbn; lia].
    apply next_new_spec in E as [E1 E2]. cbn [fst snd n_started n_redelivered_entry]. unfold etok. cbn [s_execs s_db]. rewrite cnt_app, cnt_cons, cnt_nil.
    cbn [d_last set_pel set_last]. unfold f at 2. cbn [x_mid x_phase waiting_phase]. rewrite andb_true_r. unfold b2z.
    destruct (Z.eqb_spec j i), (Z.ltb_spec j i), (Z.ltb_spec (d_last (s_db s)) i); unfold sid in *; lia.
  - (* autoclaim *) cbn [step]. unfold deliver, autoclaim. destruct (find _ _) as [pe|]; [|cbn; unfold etok; cbn; lia].
    destruct (claimable _ _ _); [|cbn; unfold etok; cbn; lia]. destruct (lookup_entry i0 (d_stream (s_db s))) as [m|]; [|cbn; unfold etok; cbn; lia].
    cbn [fst snd n_started n_redelivered_entry]. unfold etok. cbn [s_execs s_db]. rewrite cnt_app, cnt_cons, cnt_nil. cbn [d_last set_pel].
    unfold f at 2. cbn [x_mid x_phase waiting_phase]. rewrite andb_true_r. unfold b2z. destruct (i0 =? i); lia.
  - (* claim *) cbn [step]. destruct (get_exec (s_execs s) h) as [x|] eqn:Ex; [|unfold etok; cbn; lia]. destruct (x_phase x) eqn:Ep; try (unfold etok; cbn; lia).
    destruct (lua_claim _ _ _ _ _ _) as [d r] eqn:El.
    assert (Ed : d_last d = d_last (s_db s)) by (unfold lua_claim in El; destruct (superseded _ _ _); injection El as <- <-; reflexivity).
    assert (C : forall ph, cnt f (upd_exec (s_execs s) h (with_phase ph)) <= cnt f (s_execs s)).
    { intros ph. apply f_upd. intros y Hy Ey Fy. destruct (get_exec_spec _ _ _ Ex) as [Hx Ehx].
      assert (y = x) by (eapply execs_inj; [apply G| | |]; eauto; congruence). subst y. unfold f in *. cbn in Fy. rewrite Ep. cbn.
      apply andb_prop in Fy as [-> _]. reflexivity. }
    destruct r; unfold etok; cbn [fst snd set_execs s_execs s_db n_started n_redelivered_entry]; rewrite Ed; pose proof (C PDone); pose proof (C PClaimed); lia.
  - (* body start *) cbn [step]. destruct (get_exec (s_execs s) h) as [x|] eqn:Ex; [|unfold etok; cbn; lia]. destruct (x_phase x) eqn:Ep; try (unfold etok; cbn; lia).
    destruct (get_exec_spec _ _ _ Ex) as [Hx Ehx]. unfold etok. cbn [fst snd set_execs s_execs s_db n_started n_redelivered_entry].
    rewrite <- Ehx. rewrite (cnt_upd f (s_execs s) x (with_phase PBody)); [|apply G|exact Hx]. unfold f at 2 3. rewrite Ep. cbn. rewrite andb_true_r, andb_false_r.
    unfold b2z. destruct (x_mid x =? i); lia.
  - (* body end *) cbn [step]. destruct (get_exec (s_execs s) h) as [x|] eqn:Ex; [|unfold etok; cbn; lia]. destruct (x_phase x) eqn:Ep; try (unfold etok; cbn; lia).
    unfold etok. cbn [fst snd set_execs s_execs s_db n_started n_redelivered_entry].
    assert (cnt f (upd_exec (s_execs s) h (with_phase PEnded)) <= cnt f (s_execs s)); [|lia]. apply f_upd. intros y _ _ Fy. unfold f in Fy. cbn in Fy. rewrite andb_false_r in Fy. discriminate Fy.
  - cbn [step]. destruct (get_exec (s_execs s) h) as [x|] eqn:Ex; [|unfold etok; cbn; lia]. destruct (x_phase x) eqn:Ep; try (unfold etok; cbn; lia).
    unfold etok. cbn [fst snd set_execs s_execs s_db n_started n_redelivered_entry delete_known d_last del_legacy set_legacy hdel set_runs].
    assert (cnt f (upd_exec (s_execs s) h (with_phase PStruck)) <= cnt f (s_execs s)); [|lia]. apply f_upd. intros y _ _ Fy. unfold f in Fy. cbn in Fy. rewrite andb_false_r in Fy. discriminate Fy.
  - (* terminal *) apply Q; cbn [step]; (destruct (get_exec (s_execs s) h) as [x|]; [|cbn; lia]); (destruct (may_finish _ _); [|cbn; lia]); destruct (lua_terminal _ _ _ _ _ _ _ _ _); cbn [fst snd set_execs s_execs n_started n_redelivered_entry]; try lia.
    apply f_upd. intros y _ _ Fy. unfold f in Fy. cbn in Fy. rewrite andb_false_r in Fy. discriminate Fy.
  - (* resched *) apply Q; cbn [step]; (destruct (get_exec (s_execs s) h) as [x|]; [|cbn; lia]); (destruct (may_resched _); [|cbn; lia]); cbn [fst snd set_execs s_execs n_started n_redelivered_entry lua_schedule]; try lia.
    apply f_upd. intros y _ _ Fy. unfold f in Fy. cbn in Fy. rewrite andb_false_r in Fy. discriminate Fy.
  - (* acquire *) apply Q; cbn [step]; (destruct (get_exec (s_execs s) h) as [x|]; [|cbn; lia]); destruct (x_phase x), (x_slot x); try (cbn; lia);
      destruct (lua_acquire_or_park _ _ _ _ _ _ _ _ _ _) as [d []]; cbn [fst snd set_execs s_execs n_started n_redelivered_entry]; try lia.
    + apply f_upd. intros y _ _ Fy. exact Fy.
    + apply f_upd. intros y _ _ Fy. unfold f in Fy. cbn in Fy. rewrite andb_false_r in Fy. discriminate Fy.
  - (* release *) apply Q; cbn [step]; (destruct (get_exec (s_execs s) h) as [x|]; [|cbn; lia]); destruct (x_slot x) as [[]|], (x_phase x); try (cbn; lia);
      cbn [fst snd set_execs s_execs n_started n_redelivered_entry]; try lia.
    all: apply f_upd; intros y _ _ Fy; now apply f_unwind.
  - apply Q; cbn [step]; (destruct (get_exec (s_execs s) h) as [x|]; [|cbn; lia]); destruct (x_slot x) as [[]|]; cbn; lia.
  - apply Q; cbn [step]; try reflexivity; cbn; try lia. apply cnt_filter.
Qed.

Lemma entry_total c l : forall s, GInv s ->
  etok (final c s l) + total c (n_started i) s l <= etok s + total c (n_redelivered_entry i) s l.
Proof.
  induction l as [|o l IH]; intros s G; [cbn; lia|]. rewrite final_cons. cbn [total].
  specialize (IH (fst (step c s o)) (GInv_step c s o G)). pose proof (entry_step c s o G). lia.
Qed.

Theorem once_per_delivery c l : total c (n_started i) init_sys l <= 1 + total c (n_redelivered_entry i) init_sys l.
Proof.
  pose proof (entry_total c l init_sys GInv_init) as H. unfold etok in H. pose proof (cnt_nonneg f (s_execs (final c init_sys l))).
  pose proof (b2z_range (d_last (s_db (final c init_sys l)) <? i)). pose proof (b2z_range (d_last (s_db init_sys) <? i)).
  change (cnt f (s_execs init_sys)) with 0 in H. lia.
Qed.
End entry.

(** ** C10: one running body per key *)

Definition live_phase (ph : phase) : bool := match ph with PStruck | PDone => false | _ => true end.
Definition fresh_phase (ph : phase) : bool := match ph with PDelivered => true | _ => false end.
Definition active_phase (ph : phase) : bool := match ph with PClaimed | PBody | PEnded => true | _ => false end.
Definition any (m : msg) : bool := true.
Lemma any_gen m g : any (with_gen m g) = any m. Proof. reflexivity. Qed.
Definition at_ (q : phase -> bool) (ph : phase) (m : msg) : bool := q ph.

Lemma live_split v : tok any (at_ live_phase) v = tok any (at_ fresh_phase) v + nE (at_ active_phase) v.
Proof.
  unfold tok, nE. assert (H : forall l, cnt (fun x => at_ live_phase (x_phase x) (x_msg x)) l =
    cnt (fun x => at_ fresh_phase (x_phase x) (x_msg x)) l + cnt (fun x => at_ active_phase (x_phase x) (x_msg x)) l).
  { induction l as [|x l IH]; [reflexivity|]. rewrite !cnt_cons, IH. destruct (x_phase x); unfold any, b2z; cbn [at_ live_phase fresh_phase active_phase andb]; lia. }
  rewrite H. lia.
Qed.
Lemma active_nonneg v : 0 <= nE (at_ active_phase) v. Proof. apply cnt_nonneg. Qed.

Record One (v : ks) : Prop := mkOne {
  on_wait : k_wait v = [];
  on_one : tok any (at_ live_phase) v <= 1;
  on_known : 1 <= tok any (at_ fresh_phase) v -> r_known (kr v) <> None;
  on_run : 1 <= nE (at_ active_phase) v -> kexists v = true;
  on_struck : forall x, In x (k_execs v) -> x_phase x = PStruck -> 1 <= tok any (at_ live_phase) v -> ksuper v (m_gen (x_msg x)) = true }.

Definition calm (e : kev) : Prop :=
  match e with
  | KDropStream | KDropQueue | KDropParked | KCancel _ | KPark _ _ | KCleanup _ _ => False
  | KSched repl _ _ => repl = false
  | KDeliver x _ => x_redel x = false
  | _ => True
  end.

Lemma cnt_pos {A} (f : A -> bool) l x : In x l -> f x = true -> 1 <= cnt f l.
Proof.
  induction l as [|y l IH]; intros H F; [contradiction|]. rewrite cnt_cons. pose proof (cnt_nonneg f l). destruct H as [->|H]; [rewrite F; unfold b2z; lia|].
  specialize (IH H F). destruct (f y); unfold b2z; lia.
Qed.

Lemma One_apply c k v e : kok k v e -> UInv k v -> BInv v -> (k_runs v <> None -> k_runs (kapply c v e) <> None) -> calm e -> One v -> One (kapply c v e).
Proof.
  intros Hok U B K C [O1 O2 O3 O4 O5].
  pose proof (tok_apply any any_gen (at_ live_phase) (fun _ => eq_refl) (fun _ => eq_refl) c k v e Hok U) as TL.
  pose proof (tok_apply any any_gen (at_ fresh_phase) (fun _ => eq_refl) (fun _ => eq_refl) c k v e Hok U) as TF.
  pose proof (live_split v) as SP. pose proof (live_split (kapply c v e)) as SP'.
  pose proof (active_nonneg v) as NA. pose proof (active_nonneg (kapply c v e)) as NA'.
  pose proof (tok_nonneg any (at_ fresh_phase) v) as NF. pose proof (tok_nonneg any (at_ fresh_phase) (kapply c v e)) as NF'.
  assert (W : k_wait (kapply c v e) = []).
  { destruct (k_wait (kapply c v e)) as [|[cc [i m]] l] eqn:E; [reflexivity|exfalso].
    assert (H : In (cc, (i, m)) (k_wait (kapply c v e))) by (rewrite E; left; reflexivity).
    apply (wait_apply c k v e cc i m Hok) in H as [H|(x & -> & _)]; [rewrite O1 in H; contradiction|exact C]. }
  (* what a run that is not counted needs *)
  assert (St : (forall g, ksuper v g = true -> ksuper (kapply c v e) g = true) ->
               (forall x, e <> KStruck x) -> tok any (at_ live_phase) (kapply c v e) <= tok any (at_ live_phase) v ->
               forall x, In x (k_execs (kapply c v e)) -> x_phase x = PStruck -> 1 <= tok any (at_ live_phase) (kapply c v e) -> ksuper (kapply c v e) (m_gen (x_msg x)) = true).
  { intros Hs Hn Hle x Hx Px H1. destruct (exec_apply c k v e x Hok U Hx) as [(l & ->)|(y & Y1 & _ & _ & -> & _ & _ & D)].
    - destruct Hok as (_ & _ & Ph & _). congruence.
    - destruct D as [D|[(t & -> & _ & D)|[(ph & -> & D)|[(-> & _)|(D & _)]]]]; [|destruct (ksuper v _) in D; congruence| |now destruct (Hn y)|congruence].
      + apply Hs, O5; [exact Y1|congruence|lia].
      + destruct Hok as [_ [[_ [-> | ->]]|[_ ->]]]; congruence. }
  assert (Z0 : tok any (at_ live_phase) (kapply c v e) <= 0 -> One (kapply c v e)).
  { intros Z. constructor; [exact W|lia|lia|lia|intros; lia]. }
  assert (Easy : (forall g, ksuper v g = true -> ksuper (kapply c v e) g = true) -> (forall x, e <> KStruck x) ->
                 tok any (at_ live_phase) (kapply c v e) <= tok any (at_ live_phase) v -> tok any (at_ fresh_phase) (kapply c v e) <= tok any (at_ fresh_phase) v ->
                 nE (at_ active_phase) (kapply c v e) <= nE (at_ active_phase) v ->
                 r_known (kr (kapply c v e)) = r_known (kr v) -> kexists (kapply c v e) = kexists v -> One (kapply c v e)).
  { intros H1 H2 H3 H4 H5 H6 H7. constructor; [exact W|lia|rewrite H6; intros; apply O3; lia|rewrite H7; intros; apply O4; lia|now apply St]. }
  assert (Same : forall v2, k_execs v2 = k_execs v -> nE (at_ active_phase) v2 <= nE (at_ active_phase) v) by (intros v2 E; unfold nE; rewrite E; lia).
  destruct e; cbn [calm] in C; try contradiction; cbn [gain] in TL, TF; cbn [kapply] in *.
  - apply Easy; auto; try lia; try reflexivity; try discriminate.
  - (* forget *) destruct (k_runs v) as [r0|] eqn:E; [exfalso; apply K; [discriminate|reflexivity]|].
    assert (Ev : kset_runs v None = v) by (clear - E; destruct v; cbn in E |- *; now rewrite E). rewrite Ev in *. constructor; auto.
  - assert (Ek : r_known (kr (khdel v (rset_expire (Some t)))) = r_known (kr v)) by (unfold kr, khdel; cbn; destruct (k_runs v); reflexivity).
    apply Easy; auto; try lia; try discriminate.
    + intros g. unfold ksuper. rewrite (khdel_gen v) by reflexivity. auto.
    + unfold kexists. rewrite Ek, khdel_state by reflexivity. reflexivity.
  - apply Easy; auto; try lia; try reflexivity; try discriminate.
  - (* sched *) subst repl. unfold ksched in *. cbn [negb andb] in *. destruct (kexists v) eqn:Ex; [constructor; auto|].
    assert (D0 : tok any (at_ fresh_phase) v <= 0).
    { destruct (Z_le_gt_dec 1 (tok any (at_ fresh_phase) v)) as [D|D]; [|lia]. apply O3 in D. exfalso.
      assert (kexists v = true) by (apply kexists_spec; auto). congruence. }
    assert (A0 : nE (at_ active_phase) v <= 0).
    { destruct (Z_le_gt_dec 1 (nE (at_ active_phase) v)) as [D|D]; [|lia]. apply O4 in D. congruence. }
    assert (any (call_msg a) = true) as Ea by reflexivity. rewrite Ea in *. cbn [b2z] in *.
    pose proof (kplace_known v (a_when a) imm false (call_msg a)) as Kn.
    constructor; [exact W|lia|intros _; rewrite Kn; discriminate|intros _; apply kexists_spec; left; rewrite Kn; discriminate|].
    intros x Hx Px _. destruct (kplace_we v (a_when a) imm false (call_msg a)) as [_ Xe]. rewrite Xe in Hx.
    unfold ksuper. rewrite kplace_gen. destruct (ui_exec _ _ U x Hx) as (_ & _ & G1).
    assert (m_gen (x_msg x) <= kgen v). { apply (bi_le _ B _ (LS (x_mid x))). right. exists x. auto. } lia.
  - (* move *) unfold kmove in *. destruct (k_parked v) as [m|] eqn:Ep; [|constructor; auto].
    assert (F1 : 1 <= tok any (at_ fresh_phase) v).
    { unfold tok. unfold nP. rewrite Ep. change (b2z (any m)) with 1. pose proof (cnt_nonneg (fun e => (k_last v <? fst e) && any (snd e)) (k_stream v)).
      pose proof (cnt_nonneg (fun e : string * (sid * msg) => any (snd (snd e))) (k_wait v)). pose proof (cnt_nonneg (fun x => at_ fresh_phase (x_phase x) (x_msg x)) (k_execs v)).
      unfold nS, nW, nE. lia. }
    set (v2 := khset _ _) in *. pose proof (Same v2 eq_refl) as SA. constructor; [exact W|lia|intros _; apply (O3 F1)|intros; lia|apply St; [intros g Hg; exact Hg|discriminate|lia]].
  - (* deliver *) rewrite C in *. apply Easy; auto; try lia; try reflexivity; try discriminate.
    unfold nE. cbn. rewrite cnt_app, cnt_cons, cnt_nil. destruct Hok as (_ & _ & Ph & _). rewrite Ph. cbn. lia.
  - apply Easy; auto; try lia; try reflexivity; try discriminate. unfold nE. cbn. apply cnt_filter.
  - (* claim *) destruct Hok as [H1 H2]. cbv zeta in *.
    assert (F1 : 1 <= tok any (at_ fresh_phase) v).
    { unfold tok. assert (1 <= nE (at_ fresh_phase) v). { unfold nE. apply (cnt_pos _ _ x H1). now rewrite H2. }
      pose proof (nP_range any v). pose proof (cnt_nonneg (fun e => (k_last v <? fst e) && any (snd e)) (k_stream v)).
      pose proof (cnt_nonneg (fun e : string * (sid * msg) => any (snd (snd e))) (k_wait v)). unfold nS, nW. lia. }
    unfold kclaim in *. destruct (ksuper v (m_gen (x_msg x))) eqn:S.
    + apply Z0. cbn in TL. lia.
    + cbn in TF. set (v2 := kphase _ _ _) in *. constructor; [exact W|cbn in TL; lia|intros; lia| |].
      * intros _. apply kexists_spec. right. reflexivity.
      * apply St; [intros g Hg; exact Hg|discriminate|cbn in TL; lia].
  - (* phase *) destruct Hok as [H1 H2]. assert (P : active_phase (x_phase x) = true /\ active_phase p = true) by (destruct H2 as [[-> [-> | ->]]|[-> ->]]; auto).
    destruct P as [P1 P2]. assert (L : live_phase (x_phase x) = true /\ live_phase p = true /\ fresh_phase (x_phase x) = false /\ fresh_phase p = false)
      by (destruct (x_phase x), p; try discriminate; auto). destruct L as (L1 & L2 & L3 & L4). change (at_ live_phase (x_phase x) (x_msg x)) with (live_phase (x_phase x)) in TL; change (at_ live_phase p (x_msg x)) with (live_phase p) in TL.
    change (at_ fresh_phase (x_phase x) (x_msg x)) with (fresh_phase (x_phase x)) in TF; change (at_ fresh_phase p (x_msg x)) with (fresh_phase p) in TF. rewrite L1, L2 in TL. rewrite L3, L4 in TF. cbn in TL, TF.
    apply Easy; auto; try lia; try reflexivity; try discriminate. rewrite (nE_phase (at_ active_phase) v x p (ui_nodup _ _ U) H1 v eq_refl). unfold at_ at 2 3. rewrite P1, P2. lia.
  - apply Easy; auto; try lia; try reflexivity; try discriminate. unfold nE. cbn. rewrite (cnt_upd _ _ x (with_slot o) (ui_nodup _ _ U) Hok). cbn. lia.
  - (* struck *) destruct Hok as [H1 H2]. apply Z0. cbn in TL. lia.
  - (* finish *) destruct Hok as [H1 H2]. destruct (x_phase x) eqn:Ep; try discriminate H2; cbn in TL, TF; try (apply Z0; lia).
    destruct (Z_le_gt_dec 1 (tok any (at_ live_phase) v)) as [L1|L1]; [|apply Z0; lia].
    pose proof (O5 x H1 Ep L1) as S. unfold kterminal in *. rewrite S in *. set (v2 := kphase _ _ _) in *.
    assert (R : k_runs v2 = k_runs v) by (unfold v2; destruct (kprog_mine v _); reflexivity).
    apply Easy; auto; try lia; try discriminate.
    + intros g. unfold ksuper, kr. rewrite R. auto.
    + unfold v2. rewrite (nE_phase (at_ active_phase) v x PDone (ui_nodup _ _ U) H1), Ep; [cbn; lia|]. destruct (kprog_mine v _); reflexivity.
    + unfold kr. now rewrite R.
    + unfold kexists, kr. now rewrite R.
  - (* resched *) destruct Hok as [H1 H2]. assert (P : active_phase (x_phase x) = true /\ live_phase (x_phase x) = true /\ fresh_phase (x_phase x) = false)
      by (destruct (x_phase x); try discriminate; auto). destruct P as (P1 & P2 & P3). change (at_ live_phase (x_phase x) (x_msg x)) with (live_phase (x_phase x)) in TL. rewrite P2 in TL. cbn in TL.
    assert (Kn : r_known (kr (kresched v (x_mid x) when imm (resched_msg (x_msg x) when bump))) = Some when).
    { unfold kresched. set (v3 := kplace _ _ _ _ _). pose proof (kplace_known (kdel v (x_mid x)) when imm true (resched_msg (x_msg x) when bump)) as X. fold v3 in X.
      unfold kr, khdel in *. cbn. destruct (k_runs v3); cbn in *; [exact X|discriminate X]. }
    set (v2 := kphase _ _ _) in *. change (r_known (kr v2) = Some when) in Kn.
    constructor; [exact W|lia|intros _; rewrite Kn; discriminate|intros _; apply kexists_spec; left; rewrite Kn; discriminate|].
    intros y Hy Py _. assert (In y (k_execs v) /\ x_phase y = PStruck) as [Hy' _].
    { assert (Xe : k_execs v2 = upd_exec (k_execs v) (x_id x) (with_phase PDone)) by (exact (kexecs_apply c k v (KResched x when bump imm) (conj H1 H2))).
      rewrite Xe in Hy. apply upd_exec_In in Hy as (z & Hz & [->|[_ ->]]); [auto|discriminate Py]. }
    assert (G2 : r_gen (kr v2) = Some (kgen v + 1)).
    { change (r_gen (kr v2)) with (r_gen (kr (kresched v (x_mid x) when imm (resched_msg (x_msg x) when bump)))).
      unfold kresched. rewrite khdel_gen by reflexivity. rewrite kplace_gen. reflexivity. }
    unfold ksuper. rewrite G2. destruct (ui_exec _ _ U y Hy') as (_ & _ & G1).
    assert (m_gen (x_msg y) <= kgen v). { apply (bi_le _ B _ (LS (x_mid y))). right. exists y. auto. } lia.
  - (* wake *) cbn [kok] in Hok. rewrite O1 in Hok. contradiction.
  - (* unpark *) destruct (k_runs v) as [r0|] eqn:E; [exfalso; apply K; [discriminate|reflexivity]|].
    apply Easy; auto; try lia; try discriminate.
    + intros g. unfold ksuper, kr. cbn. rewrite E. auto.
    + unfold kr. cbn. now rewrite E.
    + unfold kexists, kr. cbn. now rewrite E.
Qed.

Lemma One_init k : One (kabs k init_sys).
Proof. constructor; try reflexivity; cbn; try lia; try tauto. Qed.

Lemma acquire_true_wait d cc mx k t rd st ttl mid m d' : lua_acquire_or_park d cc mx k t rd st ttl mid m = (d', true) -> d_wait d' = d_wait d.
Proof.
  unfold lua_acquire_or_park. destruct (zscore _ _).
  - destruct (rd && _); intros H; [|discriminate H]. injection H as <-. reflexivity.
  - destruct (zcard _ <? mx); [intros H; injection H as <-; reflexivity|]. destruct (zrangebyscore _ _ _) as [|[? ?] ?]; intros H; [discriminate H|]. injection H as <-. reflexivity.
Qed.

Lemma One_step c k s o : GInv s -> UInv k (kabs k s) -> BInv (kabs k s) ->
  keeps c k s o -> only_adds k o -> ~ redelivers c k s o -> ~ parks c k s o -> One (kabs k s) -> One (kabs k (fst (step c s o))).
Proof.
  intros G U B Kp Oa Nr Np O.
  destruct (single o) eqn:S.
  - destruct (sim_step c k s o G) as (es & P & L & Hs). destruct (Hs S) as [->|[e ->]].
    { apply kpath_nil_inv in P. now rewrite P. }
    apply kpath_one_inv in P as [Hok E]. inversion L as [|? ? L1 _]; subst. rewrite E. apply (One_apply c k); auto.
    { intros H. rewrite <- E. apply Kp. exact H. }
    destruct e; cbn [calm label] in *; auto.
    + destruct L1 as [w ->]; discriminate S.
    + destruct L1 as [w ->]; discriminate S.
    + destruct L1 as [w ->]; discriminate S.
    + destruct L1 as (t & -> & _). destruct repl; [|reflexivity]. cbn in Oa, Hok. congruence.
    + subst o. cbn in Oa. congruence.
    + destruct (x_redel x) eqn:Er; [exfalso|reflexivity]. apply Nr. subst o. apply (f_equal k_execs) in E. cbn in E.
      exists (x_worker x), (x_mid x). revert E. cbn [step]. unfold deliver.
      destruct (autoclaim c (s_db s) (x_worker x) (x_mid x)) as [d [[j m]|]] eqn:Ea; cbn [fst snd s_execs kabs kd k_execs]; intros E.
      * assert (Ej : j = x_mid x).
        { unfold autoclaim in Ea. destruct (find _ _); [|discriminate Ea]. destruct (claimable _ _ _); [|discriminate Ea]. destruct (lookup_entry _ _); [|discriminate Ea]. injection Ea as _ <- _. reflexivity. }
        exists (s_nextx s), m. rewrite Ej. split; [reflexivity|]. split; [reflexivity|].
        rewrite filter_app' in E. apply app_inv_head in E. cbn [filter] in E. destruct (xhas_key k _) eqn:Hk; [|discriminate E].
        unfold xhas_key in Hk. apply String.eqb_eq in Hk. exact Hk.
      * exfalso. apply (f_equal (@length exec)) in E. rewrite app_length in E. cbn in E. lia.
    + exfalso. destruct L1 as (mx & t & ->). apply Np. destruct Hok as [H1 H2]. apply kexecs_In in H1 as [H1 Hk].
      pose proof (get_exec_In s x (proj2 G) H1) as Eg. exists (x_id x), c0, mx, t, x. split; [reflexivity|]. split; [exact Eg|]. split; [exact Hk|].
      apply (f_equal k_wait) in E. revert E. cbn [step]. rewrite Eg, H2. destruct (x_slot x).
      * cbn. intros E. exfalso. apply (f_equal (@length _)) in E. rewrite app_length in E. cbn in E. lia.
      * destruct (lua_acquire_or_park _ _ _ _ _ _ _ _ _ _) as [d []] eqn:Ea; [|reflexivity]. apply acquire_true_wait in Ea.
        cbn. rewrite Ea. intros E. exfalso. apply (f_equal (@length _)) in E. rewrite app_length in E. cbn in E. lia.
    + subst o. cbn in Oa. congruence.
  - apply (kept_ind c k s o (fun v => BInv v /\ One v) G U Kp); [|split; auto].
    intros v e Hok L U1 _ K1 _ [B1 O1]. split; [eapply BInv_apply; eauto|]. apply (One_apply c k); auto.
    destruct e; cbn [calm label] in *; auto; try (subst o; cbn in Oa; contradiction); try (destruct L as [w Lw]; subst o; cbn in Oa; contradiction).
    + destruct L as (t & -> & _). destruct repl; discriminate S.
    + destruct (x_redel x); [subst o; discriminate S|reflexivity].
    + destruct L as (mx & t & ->). discriminate S.
Qed.

Lemma One_final c k l : forall s, GInv s -> UInv k (kabs k s) -> BInv (kabs k s) -> One (kabs k s) ->
  along c (fun s o => keeps c k s o /\ only_adds k o /\ ~ redelivers c k s o /\ ~ parks c k s o) s l ->
  One (kabs k (final c s l)).
Proof.
  induction l as [|o l IH]; intros s G U B O A; [exact O|]. destruct A as [(A1 & A2 & A3 & A4) A]. rewrite final_cons.
  apply IH; auto; [now apply GInv_step|now apply UInv_step|now apply BInv_step|now apply One_step].
Qed.

Theorem one_at_a_time c k l h1 h2 :
  along c (fun s o => keeps c k s o /\ only_adds k o /\ ~ redelivers c k s o /\ ~ parks c k s o) init_sys l ->
  body_running (final c init_sys l) k h1 -> body_running (final c init_sys l) k h2 -> h1 = h2.
Proof.
  intros A (x1 & E1 & K1 & P1) (x2 & E2 & K2 & P2).
  pose proof (One_final c k l init_sys GInv_init (UInv_init k) (BInv_init k) (One_init k) A) as [_ O2 _ _ _].
  set (s := final c init_sys l) in *. assert (R : reachable c s) by (exists l; reflexivity).
  destruct (get_exec_spec _ _ _ E1) as [I1 <-]. destruct (get_exec_spec _ _ _ E2) as [I2 <-]. f_equal.
  pose proof (reachable_UInv c k s R) as U.
  apply (cnt_two (fun x => at_ live_phase (x_phase x) (x_msg x)) (k_execs (kabs k s))).
  - apply (NoDup_map_inv x_id). apply (ui_nodup _ _ U).
  - apply kexecs_In; auto.
  - apply kexecs_In; auto.
  - unfold at_. now rewrite P1.
  - unfold at_. now rewrite P2.
  - unfold tok in O2. pose proof (nP_range any (kabs k s)). pose proof (cnt_nonneg (fun e => (k_last (kabs k s) <? fst e) && any (snd e)) (k_stream (kabs k s))).
    pose proof (cnt_nonneg (fun e : string * (sid * msg) => any (snd (snd e))) (k_wait (kabs k s))). unfold nS, nW, nE in O2. lia.
Qed.
