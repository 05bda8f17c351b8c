(** C107: the safeguards of waiting tasks. *)
From Verif Require Import Base ZSet Model GInv KView KSim Spec Check KInv Hist SpecConc WaitProofs SpecLive LiveProofs PropsHist PropsLive PropsStranded
  Text Guard SpecGuard GuardProofs.

(** The worker that parked [k] adds the safeguard, and its add is accepted while [k] waits in line
    [cc].  As long as nothing happens to [k] and its safeguard, however the worker and everybody else
    go on: the safeguard is stored under its name, with the line and the limit, and a worker that
    takes it will run it; [k] still waits; and the worker that added the safeguard does not cancel it.
    The safeguard name is one that was never dropped before, or one of which nothing is left.
    Missing from the full statement: other workers that parked [k] before (false, below), and the
    docket being cleared (false, below). *)
Theorem C107_guarded_partial c k q g0 p t cc i m L :
  gkeeping c k g0 -> gkeeping c (safeguard_key k) g0 \/ nothing_of (safeguard_key k) (g_sys g0) ->
  not_waiting (safeguard_key k) (g_sys g0) -> 0 < c_redeliver c ->
  In (cc, (i, m)) (d_wait (s_db (g_sys g0))) -> m_key m = k -> live (g_sys g0) m ->
  r_state (rget (s_db (g_sys g0)) k) = Some SScheduled -> d_parked (s_db (g_sys g0)) k = None ->
  get_parker (g_parkers g0) q = Some p -> q_key p = k -> q_pc p = GAdd ->
  let g1 := fst (gstep c g0 (GGo q t)) in
  snd (gstep c g0 (GGo q t)) = ODisp DScheduled ->
  galong c (left_alone c k q (g_sys g1)) g1 L ->
  let g := gfinal c g1 L in
  (exists m', m_key m' = ("__safeguard__:" ++ k)%string /\ m_fn m' = "_safeguard_wake"%string /\ m_args m' = q_cc p /\ m_kwargs m' = dec (q_max p) /\
     stored (g_sys g) m' /\ live (g_sys g) m') /\
  In (cc, (i, m)) (d_wait (s_db (g_sys g))) /\
  (forall p', get_parker (g_parkers g) q = Some p' -> q_pc p' = GRead).
Proof.
  intros H1 H2 H3 H4 H5 H6 H7 H8 H9 H10 H11 H12 g1 H13 H14 g.
  destruct (safeguard_kept c k q g0 p t cc i m L H1 H2 H3 H4 H5 H6 H7 H8 H9 H10 H11 H12 H13 H14) as ((m' & K1 & (K2 & K3 & K4) & K5) & X).
  split; [|exact X]. exists m'. repeat (split; [assumption|]). exact K5.
Qed.
Print Assumptions C107_guarded_partial.

(** In a fair history, an accepted safeguard starts unless its task leaves its line before. *)
Theorem C107_safeguard_starts c skew h n k cc maxc t :
  let a := mkCall ("__safeguard__:" ++ k)%string (t + c_redeliver c) "_safeguard_wake" cc (dec maxc) in
  fair c skew h -> 0 <= t + c_redeliver c ->
  (forall j, (j < n)%nat -> keeps c (safeguard_key k) (at_ c init_sys h j) (h j)) \/ nothing_of (safeguard_key k) (at_ c init_sys h n) ->
  accepts c (at_ c init_sys h n) (h n) a -> not_waiting (safeguard_key k) (at_ c init_sys h n) ->
  (forall j, (n < j)%nat -> (forall q, (n < q < j)%nat -> ~ call_starts c h a q /\ ~ leaves_line c k (at_ c init_sys h q) (h q)) ->
     keeps_waiting c k (at_ c init_sys h j) (h j) -> undisturbed c (safeguard_key k) (at_ c init_sys h j) (h j)) ->
  exists j, (n < j)%nat /\ (call_starts c h a j \/ leaves_line c k (at_ c init_sys h j) (h j)).
Proof. exact (safeguard_starts c skew h n k cc maxc t). Qed.
Print Assumptions C107_safeguard_starts.

(** The scavenging pass of a safeguard that runs when no slot of the line was renewed for the
    redelivery timeout empties the slots and serves as many of the oldest waiters as the limit
    allows; each of these has left the line. *)
Theorem C107_safeguard_serves c s cc maxc t i m : reachable c s ->
  (forall st x, In (st, x) (d_slots (s_db s) cc) -> 0 <= st <= t - c_redeliver c) ->
  In (i, m) (firstn (Z.to_nat maxc) (line cc s)) -> no_reserved_names (map snd (firstn (Z.to_nat maxc) (line cc s))) ->
  let s' := fst (step c s (OScavenge cc maxc t)) in
  served_line cc (Z.to_nat maxc) s s' /\ d_slots (s_db s') cc = [] /\ ~ In (i, m) (line cc s').
Proof. exact (safeguard_serves c s cc maxc t i m). Qed.
Print Assumptions C107_safeguard_serves.

(** No safeguard is left behind: when the task was served before the worker looks at its record, the
    worker takes the safeguard off the future queue again, whatever others do in between. *)
Theorem C107_leftover_cancelled c g0 q p t1 t2 t3 L1 L2 : get_parker (g_parkers g0) q = Some p -> q_pc p = GAdd ->
  Forall (others_step q (q_worker p)) (L1 ++ L2) ->
  let g1 := gfinal c g0 (GGo q t1 :: L1) in
  r_state (rget (s_db (g_sys g1)) (q_key p)) <> Some SScheduled ->
  let g3 := gfinal c g1 (GGo q t2 :: L2 ++ [GGo q t3]) in
  d_parked (s_db (g_sys g3)) ("__safeguard__:" ++ q_key p)%string = None /\ forall st, ~ In (st, "__safeguard__:" ++ q_key p)%string (d_queue (s_db (g_sys g3))).
Proof. exact (leftover_cancelled c g0 q p t1 t2 t3 L1 L2). Qed.
Print Assumptions C107_leftover_cancelled.

(** ** Checking histories of the joint machine by computation *)

Fixpoint galongb (c : cfg) (P : gsys -> gop -> bool) (g : gsys) (l : list gop) : bool :=
  match l with [] => true | o :: l => P g o && galongb c P (fst (gstep c g o)) l end.
Lemma galongb_sound c (P : gsys -> gop -> Prop) Pb : (forall g o, Pb g o = true -> P g o) ->
  forall l g, galongb c Pb g l = true -> galong c P g l.
Proof. intros H. induction l as [|o l IH]; cbn; intros g E; [exact I|]. apply andb_prop in E as [E1 E2]. auto. Qed.
Fixpoint gouts (c : cfg) (g : gsys) (l : list gop) : list out :=
  match l with [] => [] | o :: l => snd (gstep c g o) :: gouts c (fst (gstep c g o)) l end.
Definition none_refused (l : list out) : bool := forallb (fun r => match r with ORefused => false | _ => true end) l.

Definition gkeepsb (c : cfg) (k : key) (g : gsys) (o : gop) : bool :=
  match operation c g o with Some o' => keepsb c k (g_sys g) o' | None => true end.
Lemma gkeepsb_sound c k l : galongb c (gkeepsb c k) init_gsys l = true -> gkeeping c k (gfinal c init_gsys l).
Proof.
  intros H. exists l. split; [|reflexivity]. revert H. apply galongb_sound. intros g o E o' Eo. unfold gkeepsb in E. rewrite Eo in E. now apply keepsb_sound.
Qed.
Definition left_aloneb (c : cfg) (k : key) (e : option Z) (g : gsys) (o : gop) : bool :=
  match operation c g o with
  | None => true
  | Some o' => let s := g_sys g in
      keepsb c k s o' &&
      forallb (fun x => negb (String.eqb (m_key (snd (snd x))) k) || if in_dec entry_dec x (d_wait (s_db (fst (step c s o')))) then true else false) (d_wait (s_db s)) &&
      match e with Some e => d_now (s_db (fst (step c s o'))) <? e | None => true end &&
      nofinishb (safeguard_key k) s o' && no_staleb k s o' && no_staleb (safeguard_key k) s o' && no_callsb k o' && no_callsb (safeguard_key k) o'
  end.
Lemma left_aloneb_sound c k q s1 g o : left_aloneb c k (r_expire (rget (s_db s1) (safeguard_key k))) g o = true -> left_alone c k q s1 g o.
Proof.
  unfold left_aloneb, left_alone. intros H o' Eo. rewrite Eo in H. cbv zeta in *. rewrite !andb_true_iff in H.
  destruct H as [[[[[[[H1 H2] H3] H4] H5] H6] H7] H8].
  split; [now apply keepsb_sound|]. split.
  { intros cc i m Hin Hk. rewrite forallb_forall in H2. apply H2 in Hin. cbn [snd] in Hin. rewrite Hk, String.eqb_refl in Hin. cbn [negb orb] in Hin.
    destruct (in_dec entry_dec (cc, (i, m)) _); [assumption|discriminate]. }
  split; [intros e Ee; rewrite Ee in H3; lia|]. split; [now apply nofinishb_sound|]. split; [now apply no_staleb_sound|].
  split; [now apply no_staleb_sound|]. intros _. split; now apply no_callsb_sound.
Qed.

Lemma gfinal_mid c g l1 o l2 : gfinal c g (l1 ++ [o] ++ l2) = gfinal c (fst (gstep c (gfinal c g l1) o)) l2.
Proof. rewrite gfinal_app. reflexivity. Qed.

(** ** Examples *)

Definition gd_add (k f : string) : gop := GOp (OAdd (mkCall k 0 f "" "") 0).
(** "a" holds the only slot of "c" and "b" has just been parked by "w2". *)
Definition gd_start : list gop :=
  [gd_add "a" "f"; gd_add "b" "g"; GOp (ORead "w1"); GOp (OClaim 0 1); GOp (OAcquire 0 "c" 1 1); GOp (OBodyStart 0);
   GOp (ORead "w2"); GOp (OClaim 1 2); GOp (OAcquire 1 "c" 1 2)].
(** After the safeguard was added, "w2" reads the record; "a" goes on, then "w1" dies; the safeguard
    becomes due and goes to "w3", which dies; "w4" takes it over and claims it. *)
Definition gd_after : list gop :=
  [GGo 0 4; GOp (OTick 200000000); GOp (ORenewSlot 0 200000000); GOp (OCrash "w1"); GOp (OTick 100000010); GOp (OScheduler 300000010);
   GOp (ORead "w3"); GOp (OCrash "w3"); GOp (OTick 300000001); GOp (OAutoclaim "w4" 4); GOp (OClaim 3 600000012)].
Example C107_guarded_example :
  none_refused (gouts ex_cfg init_gsys (gd_start ++ [GGo 0 3] ++ gd_after)) = true /\
  let g := gfinal ex_cfg init_gsys (gd_start ++ [GGo 0 3] ++ gd_after) in
  g_parkers g = [] /\ exists m', m_key m' = "__safeguard__:b"%string /\ m_fn m' = "_safeguard_wake"%string /\ m_args m' = "c"%string /\ m_kwargs m' = "1"%string /\
     stored (g_sys g) m' /\ live (g_sys g) m'.
Proof.
  split; [vm_compute; reflexivity|]. intros g. split; [vm_compute; reflexivity|].
  unfold g. clear g. rewrite gfinal_mid. set (g0 := gfinal ex_cfg init_gsys gd_start).
  destruct (C107_guarded_partial ex_cfg "b" 0 g0 (mkParker 0 "w2" "b" "c" 1 GAdd) 3 "c" 3 (mkMsg "b" 0 "g" "" "" 1 2) gd_after) as [H _].
  - apply gkeepsb_sound. vm_compute. reflexivity.
  - left. apply gkeepsb_sound. vm_compute. reflexivity.
  - assert (E : map (fun e => m_key (snd (snd e))) (d_wait (s_db (g_sys g0))) = ["b"%string]) by (vm_compute; reflexivity).
    intros cc i m H Ek. apply (in_map (fun e => m_key (snd (snd e)))) in H. rewrite E in H. destruct H as [H|[]]. cbn in H. rewrite <- H in Ek. discriminate Ek.
  - reflexivity.
  - vm_compute. auto.
  - reflexivity.
  - vm_compute. reflexivity.
  - vm_compute. reflexivity.
  - vm_compute. reflexivity.
  - vm_compute. reflexivity.
  - reflexivity.
  - reflexivity.
  - vm_compute. reflexivity.
  - refine (galongb_sound _ _ _ (left_aloneb_sound _ _ _ _) _ _ _). vm_compute. reflexivity.
  - exact H.
Qed.

(** Here "a" releases before "w2" adds the safeguard; while "w2" is busy, "b" is taken and started. *)
Example C107_leftover_example : let g0 := gfinal ex_cfg init_gsys (gd_start ++ [GOp (OBodyEnd 0); GOp (OTerminal 0 SCompleted 3 None None); GOp (ORelease 0 3)]) in
  let g1 := gfinal ex_cfg g0 [GGo 0 4; GOp (ORead "w3"); GOp (OClaim 2 5); GOp (OAcquire 2 "c" 1 5)] in
  let g3 := gfinal ex_cfg g1 (GGo 0 6 :: [GOp (OBodyStart 2)] ++ [GGo 0 7]) in
  map snd (d_queue (s_db (g_sys g1))) = ["__safeguard__:b"%string] /\ r_state (rget (s_db (g_sys g1)) "b") = Some SRunning /\
  d_parked (s_db (g_sys g3)) "__safeguard__:b" = None /\ forall st, ~ In (st, "__safeguard__:b"%string) (d_queue (s_db (g_sys g3))).
Proof.
  intros g0 g1 g3. split; [vm_compute; reflexivity|]. assert (E : r_state (rget (s_db (g_sys g1)) "b") = Some SRunning) by (vm_compute; reflexivity). split; [exact E|].
  apply (C107_leftover_cancelled ex_cfg g0 0 (mkParker 0 "w2" "b" "c" 1 GAdd) 4 6 7
    [GOp (ORead "w3"); GOp (OClaim 2 5); GOp (OAcquire 2 "c" 1 5)] [GOp (OBodyStart 2)]).
  - vm_compute. reflexivity.
  - reflexivity.
  - repeat constructor.
  - cbn [q_key]. fold g1. rewrite E. discriminate.
Qed.

(** ** The full statement is false *)

(** [k] alone waits in line [cc] with no safeguard and no holder, and it stays so whatever workers do
    by themselves. *)
Definition lost_waiter (c : cfg) (k : key) (cc : string) (g : gsys) : Prop :=
  unguarded k cc g /\ holders cc (g_sys g) = [] /\
  forall l, Forall by_itself l ->
    map (fun e => m_key (snd e)) (line cc (final c (g_sys g) l)) = [k] /\ forall m i, ~ In (OStarted m i) (outs c (g_sys g) l).

Definition quietb (s : sys) : bool :=
  match d_stream (s_db s), d_queue (s_db s) with [], [] => true | _, _ => false end &&
  forallb (fun x => match x_phase x, x_slot x with PDone, None => true | _, _ => false end) (s_execs s).
Lemma quietb_sound s : quietb s = true -> quiet s.
Proof.
  unfold quietb, quiet. destruct (d_stream (s_db s)); [|discriminate]. destruct (d_queue (s_db s)); [|discriminate]. cbn [andb]. intros F.
  split; [reflexivity|]. split; [reflexivity|]. intros x H. rewrite forallb_forall in F. apply F in H. destruct (x_phase x), (x_slot x); try discriminate H. now split.
Qed.
Definition lostb (c : cfg) (k : key) (cc : string) (g : gsys) : bool :=
  let s := g_sys g in
  match d_wait (s_db s) with
  | [(cc', (i, m))] => String.eqb cc' cc && String.eqb (m_key m) k && negb (superseded (s_db s) k (m_gen m))
  | _ => false
  end &&
  match r_state (rget (s_db s) k) with Some SScheduled => true | _ => false end &&
  match d_parked (s_db s) (safeguard_key k) with None => true | _ => false end &&
  forallb (fun x => negb (String.eqb (m_key (x_msg x)) (safeguard_key k))) (s_execs s) &&
  match g_parkers g with [] => true | _ => false end && quietb s.
Lemma filter_none {A} (f : A -> bool) l : (forall x, In x l -> f x = false) -> filter f l = [].
Proof. induction l as [|x l IH]; cbn; intros H; [reflexivity|]. rewrite (H x) by auto. apply IH. auto. Qed.
Lemma lostb_sound c k cc g : lostb c k cc g = true -> lost_waiter c k cc g.
Proof.
  unfold lostb. intros H. apply andb_prop in H as [H Q]. apply quietb_sound in Q. apply andb_prop in H as [H Hp].
  apply andb_prop in H as [H Hx]. apply andb_prop in H as [H Hk]. apply andb_prop in H as [Hw Hs].
  destruct (d_wait (s_db (g_sys g))) as [|[cc' [i m]] [|]] eqn:W; try discriminate Hw. rewrite !andb_true_iff, !String.eqb_eq, negb_true_iff in Hw.
  destruct Hw as [[-> Ek] Hw]. pose proof Q as (Qs & Qq & Qx).
  assert (L : map (fun e => m_key (snd e)) (line cc (g_sys g)) = [k]) by (unfold line; rewrite W; cbn; rewrite String.eqb_refl; cbn; now rewrite Ek).
  split; [|split].
  - split; [|split; [|split]].
    + exists i, m. rewrite W. split; [now left|]. split; [exact Ek|]. unfold live. now rewrite Ek.
    + destruct (r_state (rget (s_db (g_sys g)) k)) as [[]|]; try discriminate Hs. reflexivity.
    + intros m' [[j P]|[P|[(cc2 & j & P)|(x & P & <-)]]] E.
      * unfold on_stream in P. rewrite Qs in P. destruct P.
      * rewrite E in P. rewrite P in Hk. discriminate Hk.
      * rewrite W in P. destruct P as [[= <- <- <-]|[]]. rewrite Ek in E. symmetry in E. now apply safeguard_neq in E.
      * rewrite forallb_forall in Hx. apply Hx in P. rewrite E, String.eqb_refl in P. discriminate P.
    + destruct (g_parkers g); [intros p []|discriminate Hp].
  - apply filter_none. intros x Hin. unfold holds. destruct (Qx x Hin) as [_ ->]. reflexivity.
  - exact (quiet_line c (g_sys g) cc [k] Q L).
Qed.

(** "w2" parks "b"; a release serves "b" at once; "w2" adds the safeguard and reads that "b" is queued;
    "b" is taken again and parked again, and this time the add of the safeguard is refused since it is
    there; then "w2" comes to cancel it.  When the holder dies and is found struck, nothing serves "b". *)
Definition gd_late : list gop :=
  [gd_add "a" "f"; gd_add "b" "g"; gd_add "d" "f"; GOp (ORead "w1"); GOp (OClaim 0 1); GOp (OAcquire 0 "c" 1 1); GOp (OBodyStart 0);
   GOp (ORead "w2"); GOp (OClaim 1 2); GOp (OAcquire 1 "c" 1 2);
   GOp (OBodyEnd 0); GOp (OTerminal 0 SCompleted 3 None None); GOp (ORelease 0 3);
   GOp (ORead "w3"); GOp (OClaim 2 4); GOp (OAcquire 2 "c" 1 4); GOp (OBodyStart 2);
   GGo 0 5; GGo 0 5;
   GOp (ORead "w2"); GOp (OClaim 3 6); GOp (OAcquire 3 "c" 1 6); GGo 1 7; GGo 1 7; GGo 0 8; GGo 0 8;
   GOp (OCrash "w3"); GOp (OTick 300000001); GOp (OAutoclaim "w2" 3); GOp (ODelKnown 4); GOp (OTerminal 4 SCancelled 300000002 None None)].
Theorem C107_late_cancel_refuted : lost_waiter ex_cfg "b" "c" (gfinal ex_cfg init_gsys gd_late).
Proof. apply lostb_sound. vm_compute. reflexivity. Qed.
Print Assumptions C107_late_cancel_refuted.

(** The worker dies between parking "b" and adding the safeguard. *)
Definition gd_dies : list gop := gd_start ++
  [GOp (OCrash "w2"); GOp (OCrash "w1"); GOp (OTick 300000001); GOp (OAutoclaim "w3" 1); GOp (ODelKnown 2); GOp (OTerminal 2 SCancelled 300000002 None None)].
Theorem C107_parker_dies_refuted : lost_waiter ex_cfg "b" "c" (gfinal ex_cfg init_gsys gd_dies).
Proof. apply lostb_sound. vm_compute. reflexivity. Qed.
Print Assumptions C107_parker_dies_refuted.

(** Clearing the docket removes the safeguard, and leaves the line. *)
Definition gd_clear : list gop := gd_start ++ [GGo 0 3; GGo 0 3; GOp (OClearRead "c"); GOp (OClearKeys "c"); GOp (OClearApply "c"); GOp (OCrash "w1")].
Theorem C107_cleared_refuted : lost_waiter ex_cfg "b" "c" (gfinal ex_cfg init_gsys gd_clear).
Proof. apply lostb_sound. vm_compute. reflexivity. Qed.
Print Assumptions C107_cleared_refuted.

(** With execution_ttl 0: a running safeguard serves "b", which deletes the safeguard's own record; "b" is
    parked again and a new safeguard is accepted under a new record, which starts counting at one
    again; the end of the old run deletes it; so the new safeguard is dropped when a worker takes it. *)
Definition gd_cfg0 : cfg := mkCfg 0 300000000.
Definition gd_ttl : list gop := gd_start ++
  [GGo 0 3; GGo 0 3; GOp (OCrash "w1"); GOp (OTick 300000010); GOp (OScheduler 300000010); GOp (ORead "w2"); GOp (OClaim 2 300000011); GOp (OBodyStart 2);
   GOp (OScavenge "c" 1 300000011); GOp (OAutoclaim "w3" 1); GOp (OClaim 3 300000012); GOp (OAcquire 3 "c" 1 300000012); GOp (OBodyStart 3);
   GOp (ORead "w2"); GOp (OClaim 4 300000013); GOp (OAcquire 4 "c" 1 300000013); GGo 1 300000014; GGo 1 300000014;
   GOp (OBodyEnd 2); GOp (OTerminal 2 SCompleted 300000015 None None);
   GOp (OTick 150000000); GOp (ORenew "w3");  GOp (OTick 150000010); GOp (ORenew "w3"); GOp (OScheduler 600000020); GOp (ORead "w2"); GOp (OClaim 5 600000020);
   GOp (OCrash "w3"); GOp (OTick 300000001); GOp (OAutoclaim "w2" 1); GOp (ODelKnown 6); GOp (OTerminal 6 SCancelled 900000025 None None); GOp (OCrash "w2")].
Theorem C107_own_end_refuted : lost_waiter gd_cfg0 "b" "c" (gfinal gd_cfg0 init_gsys gd_ttl).
Proof. apply lostb_sound. vm_compute. reflexivity. Qed.
Print Assumptions C107_own_end_refuted.

(** The histories are what they say: every operation went through; in the first, the second add was
    refused; in the last, the second safeguard was accepted and dropped when claimed. *)
Example C107_refuted_histories :
  none_refused (gouts ex_cfg init_gsys gd_late) = true /\ nth 22 (gouts ex_cfg init_gsys gd_late) ORefused = ODisp DAlreadyScheduled /\
  none_refused (gouts ex_cfg init_gsys gd_dies) = true /\ none_refused (gouts ex_cfg init_gsys gd_clear) = true /\
  none_refused (gouts gd_cfg0 init_gsys gd_ttl) = true /\ nth 25 (gouts gd_cfg0 init_gsys gd_ttl) ORefused = ODisp DScheduled /\
  nth 35 (gouts gd_cfg0 init_gsys gd_ttl) ORefused = OClaimed false.
Proof. vm_compute. repeat split. Qed.

(** ** A fair history in which a safeguard starts and serves its task *)

(** A finite history after which nothing is left to do, continued with ticks, scheduler passes and reads. *)
Definition then_idle (l : list op) (n : nat) : op :=
  match nth_error l n with
  | Some o => o
  | None => match Nat.modulo n 3 with O => OTick 1 | 1%nat => OScheduler (1000 + Z.of_nat n) | _ => ORead "w9" end
  end.
Definition idle (s : sys) : Prop :=
  d_stream (s_db s) = [] /\ d_queue (s_db s) = [] /\ d_pel (s_db s) = [] /\ (forall x, In x (s_execs s) -> x_phase x = PDone).

Section idle.
Variables (c : cfg) (l : list op).
Let h := then_idle l.
Let N := length l.
Hypothesis I0 : idle (at_ c init_sys h N).
Hypothesis T0 : d_now (s_db (at_ c init_sys h N)) <= 1000.

Lemma idle_ops n : (N <= n)%nat -> h n = match Nat.modulo n 3 with O => OTick 1 | 1%nat => OScheduler (1000 + Z.of_nat n) | _ => ORead "w9" end.
Proof. intros H. unfold h, then_idle. destruct (nth_error l n) eqn:E; [|reflexivity]. exfalso. assert (X : nth_error l n <> None) by congruence. apply nth_error_Some in X. unfold N in H. lia. Qed.
Lemma idle_step s n : idle s -> (N <= n)%nat -> let s' := fst (step c s (h n)) in
  idle s' /\ d_now (s_db s') = d_now (s_db s) + (if Nat.eqb (Nat.modulo n 3) 0 then 1 else 0).
Proof.
  intros (Q1 & Q2 & Q3 & Q4) Hn. rewrite (idle_ops n Hn). destruct (Nat.modulo n 3) as [|[|?]]; cbn [step Nat.eqb].
  - cbn [Z.leb Z.compare fst]. unfold idle. cbn. auto.
  - unfold lua_stream_due. rewrite Q2. cbn [zrangebyscore filter map fold_left length Z.of_nat]. unfold idle. cbn. split; [auto|lia].
  - unfold read_group, next_new. rewrite Q1. cbn [find deliver fst]. unfold idle. cbn. split; [auto|lia].
Qed.
Lemma idle_at n : (N <= n)%nat -> idle (at_ c init_sys h n) /\ d_now (s_db (at_ c init_sys h n)) <= 1000 + Z.of_nat n.
Proof.
  induction 1 as [|n Hn [I1 I2]]; [split; [exact I0|lia]|]. cbn [at_]. destruct (idle_step _ n I1 Hn) as [S1 S2]. split; [exact S1|].
  rewrite S2. destruct (Nat.eqb _ _); lia.
Qed.
Lemma idle_grows b : d_now (s_db (at_ c init_sys h N)) + Z.of_nat b <= d_now (s_db (at_ c init_sys h (N + 3 * b))).
Proof.
  induction b as [|b IH]; [rewrite Nat.mul_0_r, Nat.add_0_r; lia|]. replace (N + 3 * S b)%nat with (S (S (S (N + 3 * b)))) by lia. cbn [at_].
  set (n := (N + 3 * b)%nat) in *. assert (Hn : (N <= n)%nat) by (unfold n; lia). destruct (idle_at n Hn) as [I1 _].
  destruct (idle_step _ n I1 Hn) as [S1 E1]. destruct (idle_step _ (S n) S1 ltac:(lia)) as [S2 E2]. destruct (idle_step _ (S (S n)) S2 ltac:(lia)) as [S3 E3].
  cbn [at_] in *. rewrite E3, E2, E1.
  assert (M : Nat.modulo n 3 = 0%nat \/ Nat.modulo (S n) 3 = 0%nat \/ Nat.modulo (S (S n)) 3 = 0%nat).
  { pose proof (Nat.mod_upper_bound n 3 ltac:(lia)) as U. pose proof (Nat.div_mod n 3 ltac:(lia)) as D. destruct (Nat.modulo n 3) as [|[|[|?]]]; [auto| | |lia].
    - right; right. replace (S (S n)) with (0 + (n / 3 + 1) * 3)%nat by lia. now rewrite Nat.mod_add by lia.
    - right; left. replace (S n) with (0 + (n / 3 + 1) * 3)%nat by lia. now rewrite Nat.mod_add by lia. }
  destruct M as [M|[M|M]]; rewrite M; cbn [Nat.eqb]; repeat match goal with |- context [if ?b then _ else _] => destruct b end; lia.
Qed.
Lemma idle_fair : fair c 0 h.
Proof.
  assert (Sp : forall n r, (r < 3)%nat -> exists j, (n <= j)%nat /\ (N <= j)%nat /\ Nat.modulo j 3 = r).
  { intros n r Hr. exists (r + (N + n) * 3)%nat. split; [lia|]. split; [lia|]. rewrite Nat.mod_add by lia. now apply Nat.mod_small. }
  pose proof (at_now_mono c h 0 N ltac:(lia)) as Z0. cbn in Z0.
  constructor.
  - intros n T. exists (N + 3 * (n + Z.to_nat T))%nat. split; [lia|]. pose proof (idle_grows (n + Z.to_nat T)). lia.
  - intros n. destruct (Sp n 1%nat ltac:(lia)) as (j & H1 & H2 & H3). exists j, (1000 + Z.of_nat j). split; [exact H1|]. rewrite idle_ops, H3 by exact H2.
    split; [reflexivity|]. pose proof (idle_at j H2). lia.
  - intros n. destruct (Sp n 2%nat ltac:(lia)) as (j & H1 & H2 & H3). exists j, "w9"%string. split; [exact H1|]. now rewrite idle_ops, H3 by exact H2.
  - intros n i. exists (N + n)%nat. split; [lia|]. left. destruct (idle_at (N + n) ltac:(lia)) as [(_ & _ & -> & _) _]. intros [].
  - intros n x Hx. exists (N + n)%nat. split; [lia|]. intros Hin. destruct (idle_at (N + n) ltac:(lia)) as [(_ & _ & _ & Q) _]. pose proof (Q x Hin) as E. destruct Hx; congruence.
  - exists N. intros j w Hj E. rewrite idle_ops in E by exact Hj. destruct (Nat.modulo j 3) as [|[|?]]; discriminate E.
Qed.
End idle.

(** "a" holds the slot and its worker dies; the safeguard of "b" finds the slot stale and wakes "b"; then "b"
    and the abandoned "a" complete. *)
Definition gd_fcfg : cfg := mkCfg 900 10.
Definition gd_call : call := mkCall "__safeguard__:b" 13 "_safeguard_wake" "c" "1".
Definition gd_fhist : list op :=
  [OAdd (mkCall "a" 0 "f" "" "") 0; OAdd (mkCall "b" 0 "g" "" "") 0; ORead "w1"; OClaim 0 1; OAcquire 0 "c" 1 1; OBodyStart 0;
   ORead "w2"; OClaim 1 2; OAcquire 1 "c" 1 2; OAdd gd_call 3; OCrash "w1"; OTick 20; OScheduler 20; ORead "w2"; OClaim 2 20; OBodyStart 2;
   OScavenge "c" 1 20; OBodyEnd 2; OTerminal 2 SCompleted 21 None None;
   ORead "w2"; OClaim 3 22; OAcquire 3 "c" 1 22; OBodyStart 3; OBodyEnd 3; OTerminal 3 SCompleted 23 None None; ORelease 3 23;
   OAutoclaim "w2" 1; OClaim 4 24; OAcquire 4 "c" 1 24; OBodyStart 4; OBodyEnd 4; OTerminal 4 SCompleted 25 None None; ORelease 4 25].

Lemma gd_idle : idle (at_ gd_fcfg init_sys (then_idle gd_fhist) (length gd_fhist)).
Proof.
  repeat split; try (vm_compute; reflexivity).
  assert (F : forallb (fun x => match x_phase x with PDone => true | _ => false end) (s_execs (at_ gd_fcfg init_sys (then_idle gd_fhist) (length gd_fhist))) = true)
    by (vm_compute; reflexivity).
  intros x H. rewrite forallb_forall in F. apply F in H. destruct (x_phase x); try discriminate H. reflexivity.
Qed.
Lemma gd_fair : fair gd_fcfg 0 (then_idle gd_fhist).
Proof. apply idle_fair; [exact gd_idle|]. apply Z.leb_le. vm_compute. reflexivity. Qed.

Example C107_safeguard_starts_example : fair gd_fcfg 0 (then_idle gd_fhist) /\
  exists j, (9 < j)%nat /\ (call_starts gd_fcfg (then_idle gd_fhist) gd_call j \/
                            leaves_line gd_fcfg "b" (at_ gd_fcfg init_sys (then_idle gd_fhist) j) (then_idle gd_fhist j)).
Proof.
  split; [exact gd_fair|]. apply (C107_safeguard_starts gd_fcfg 0 (then_idle gd_fhist) 9 "b" "c" 1 3).
  - exact gd_fair.
  - apply Z.leb_le. reflexivity.
  - left. intros j Hj. apply keepsb_sound. do 9 (destruct j as [|j]; [vm_compute; reflexivity|]). lia.
  - split; [exists 3; left; reflexivity|vm_compute; reflexivity].
  - assert (E : map (fun e => m_key (snd (snd e))) (d_wait (s_db (at_ gd_fcfg init_sys (then_idle gd_fhist) 9))) = ["b"%string]) by (vm_compute; reflexivity).
    intros cc i m H Ek. apply (in_map (fun e => m_key (snd (snd e)))) in H. rewrite E in H. destruct H as [H|[]]. cbn in H. rewrite <- H in Ek. discriminate Ek.
  - intros j Hj Nj _. destruct (le_lt_dec 16 j) as [Le|Lt].
    + exfalso. destruct (Nj 15%nat) as [X _]; [lia|]. apply X. exists (mkMsg "__safeguard__:b" 13 "_safeguard_wake" "c" "1" 1 1), 4.
      split; [repeat split|]. vm_compute. reflexivity.
    + apply undisturbedb_sound. do 16 (destruct j as [|j]; [try lia; vm_compute; reflexivity|]). lia.
Qed.

(** In the same history: when the safeguard runs, the slot is stale, and "b" is served. *)
Example C107_safeguard_serves_example : let s := final gd_fcfg init_sys (firstn 16 gd_fhist) in
  let s' := fst (step gd_fcfg s (OScavenge "c" 1 20)) in
  map (fun e => m_key (snd e)) (line "c" s) = ["b"%string] /\ d_slots (s_db s) "c" = [(1, "a"%string)] /\
  served_line "c" 1 s s' /\ d_slots (s_db s') "c" = [] /\ map (fun e => m_key (snd e)) (d_stream (s_db s')) = ["a"; "__safeguard__:b"; "b"]%string.
Proof.
  intros s s'. assert (E : d_slots (s_db s) "c" = [(1, "a"%string)]) by (vm_compute; reflexivity).
  assert (L : line "c" s = [(3, mkMsg "b" 0 "g" "" "" 1 2)]) by (vm_compute; reflexivity).
  split; [rewrite L; reflexivity|]. split; [exact E|].
  destruct (C107_safeguard_serves gd_fcfg s "c" 1 20 3 (mkMsg "b" 0 "g" "" "" 1 2)) as (A & B & _).
  - exists (firstn 16 gd_fhist). reflexivity.
  - intros st x H. rewrite E in H. destruct H as [[= <- <-]|[]]. cbn. lia.
  - rewrite L. now left.
  - rewrite L. intros m m' [<-|[]] [<-|[]]. discriminate.
  - split; [exact A|]. split; [exact B|]. vm_compute. reflexivity.
Qed.
