(** C104: run_until_finished. *)
From Verif Require Import Base Model WorkerLoop UntilFinished Spec SpecLoop LoopProofs PropsLoop.
From Verif Require PropsHist PropsStranded.

Lemma jrun_split c n l : forall j, jrun c n j l = (final c (fst j) (docket_ops l), lrun n false (snd j) (loop_evs l)).
Proof.
  induction l as [|e l IH]; intros [s w]; [reflexivity|]. cbn [jrun]. rewrite IH. destruct e; cbn [jstep fst snd docket_ops loop_evs lrun]; [|reflexivity].
  f_equal. unfold final. cbn [run]. destruct (step c s o) as [s1 r1]. cbn [fst]. destruct (run c s1 (docket_ops l)) as [s2 r2]. reflexivity.
Qed.
Lemma loop_evs_split l : forall l1 e l2, loop_evs l = l1 ++ e :: l2 -> exists L1 L2, l = L1 ++ JLoop e :: L2 /\ loop_evs L1 = l1 /\ loop_evs L2 = l2.
Proof.
  induction l as [|x l IH]; intros l1 e l2 H; cbn in H; [destruct l1; discriminate|]. destruct x as [o|e'].
  - destruct (IH _ _ _ H) as (L1 & L2 & -> & A & B). exists (JDocket o :: L1), L2. auto.
  - destruct l1 as [|y l1]; cbn in H; injection H as -> H; [exists [], l; auto|]. destruct (IH _ _ _ H) as (L1 & L2 & -> & A & B). exists (JLoop y :: L1), L2. cbn. rewrite A. auto.
Qed.
Lemma truthful_app c n l1 l2 : forall j, truthful c n j (l1 ++ l2) -> truthful c n (jrun c n j l1) l2.
Proof. induction l1 as [|e l1 IH]; intros j H; [exact H|]. destruct H as [_ H]. now apply IH. Qed.
Lemma docket_ops_app l1 l2 : docket_ops (l1 ++ l2) = docket_ops l1 ++ docket_ops l2.
Proof. induction l1 as [|[] l1 IH]; cbn; congruence. Qed.
Lemma loop_evs_app l1 l2 : loop_evs (l1 ++ l2) = loop_evs l1 ++ loop_evs l2.
Proof. induction l1 as [|[] l1 IH]; cbn; congruence. Qed.

(** From an accepted call on, nobody disturbs its key (as in C05) until a current run of it finishes. *)
Fixpoint undisturbed_until_finish (c : cfg) (k : key) (s : sys) (l : list op) : Prop :=
  match l with
  | [] => True
  | o :: l => finishes k s o \/ ((keeps c k s o /\ no_calls k o /\ no_stale_resched k s o) /\ undisturbed_until_finish c k (fst (step c s o)) l)
  end.
(** A current run of the key finishes somewhere in the history. *)
Definition finishes_within (c : cfg) (k : key) (s : sys) (l : list op) : Prop :=
  exists l1 o l2, l = l1 ++ o :: l2 /\ finishes k (final c s l1) o.
Lemma finishes_dec k s o : finishes k s o \/ ~ finishes k s o.
Proof.
  destruct o as [ | | | | | | | | | | | | | | | |h st t er re| | | | | | |]; cbn; try (right; tauto). destruct (get_exec (s_execs s) h) as [x|]; [|right; intros (y & H & _); discriminate].
  destruct (String.string_dec (m_key (x_msg x)) k) as [K|K]; [|right; intros (y & [= <-] & H & _); auto].
  destruct (may_finish (x_phase x) st) eqn:M; [|right; intros (y & [= <-] & _ & H & _); congruence].
  destruct (superseded (s_db s) k (m_gen (x_msg x))) eqn:U; [right; intros (y & [= <-] & _ & _ & H); congruence|].
  left. exists x. auto.
Qed.
Lemma undisturbed_cases c k l : forall s, undisturbed_until_finish c k s l ->
  finishes_within c k s l \/ along c (fun s o => keeps c k s o /\ no_calls k o /\ no_stale_resched k s o /\ ~ finishes k s o) s l.
Proof.
  induction l as [|o l IH]; intros s H; [right; exact I|]. cbn in H. destruct (finishes_dec k s o) as [F|F]; [left; exists [], o, l; split; [reflexivity|exact F]|].
  destruct H as [H|[(H1 & H2 & H3) H]]; [contradiction|]. destruct (IH _ H) as [(l1 & o' & l2 & -> & G)|G].
  - left. exists (o :: l1), o', l2. split; [reflexivity|]. unfold final in *. cbn [run]. destruct (step c s o) as [s1 r1]. cbn [fst] in *. destruct (run c s1 l1) as [s2 r2]. exact G.
  - right. cbn. auto.
Qed.

(** C104.  When run_until_finished ends by itself, every call that was accepted before its last look at the docket has been
    finished by some worker, or waits in a line for a concurrency slot.  Missing from the full statement: the waiting
    lines, superseded runs that reschedule themselves, and records that expire (as in C05). *)
Theorem C104_finished_partial c n L :
  let j := jrun c n jinit L in
  truthful c n jinit L -> l_pc (snd j) = PTop -> l_stop (snd j) = false -> snd (lstep n false (snd j) LGo) = WLeave ->
  in_flight (snd j) = [] /\
  exists L1 L2, L = L1 ++ JLoop (LChecked 0 0) :: L2 /\
    forall l0 o lb a k, docket_ops L1 = l0 ++ o :: lb ->
      let s := final c init_sys l0 in
      let s1 := fst (step c s o) in
      along c (keeps c k) init_sys l0 -> a_key a = k -> accepts c s o a -> not_waiting k s -> no_leftover k s o ->
      undisturbed_until_finish c k s1 lb ->
      finishes_within c k s1 lb \/
      exists cc i m, m_key m = k /\ carries a m /\ In (cc, (i, m)) (d_wait (s_db (final c s1 lb))).
Proof.
  intros j T P S G. unfold j in *. rewrite jrun_split in *. cbn [fst snd jinit] in *.
  destruct (C56_until_finished n false (loop_evs L) P S G) as (_ & F & l1 & a & b & l2 & E & PC & A & B & _). split; [exact F|].
  destruct (loop_evs_split _ _ _ _ E) as (L1 & L2 & -> & E1 & E2).
  assert (T1 := truthful_app c n L1 _ _ T). cbn [truthful] in T1. destruct T1 as [[TA TB] _]. rewrite jrun_split in TA, TB. cbn [fst jinit] in TA, TB.
  assert (A0 : a = 0) by (unfold stream_len in TA; lia). assert (B0 : b = 0) by (unfold queue_len in TB; lia). subst a b. rewrite A0, B0.
  exists L1, L2. split; [reflexivity|]. intros l0 o lb cl k D K Ka Ac W Nl U.
  set (s := final c init_sys l0) in *. set (s1 := fst (step c s o)) in *.
  destruct (undisturbed_cases c k lb s1 U) as [H|H]; [left; exact H|]. right.
  destruct (PropsHist.C05_accepted_not_lost_partial c k s o cl lb (ex_intro _ l0 (conj K eq_refl)) Ka Ac W Nl H) as (m & Mk & Mc & St & _).
  change (fst (step c s o)) with s1 in St.
  assert (FE : final c init_sys (docket_ops L1) = final c s1 lb).
  { rewrite D. unfold s1, s, final. clear. generalize init_sys. induction l0 as [|x l0 IH]; intros s0; cbn [app run fst].
    - destruct (step c s0 o) as [sa ra]. cbn [fst]. now destruct (run c sa lb).
    - destruct (step c s0 x) as [sa ra]. specialize (IH sa). destruct (run c sa (l0 ++ o :: lb)) as [sb rb], (run c sa l0) as [sc rc]. cbn [fst] in *. exact IH. }
  unfold stream_len, queue_len in A0, B0. rewrite FE in A0, B0.
  destruct St as [[i Hs]|[[_ Hq]|(cc & i & Hl & _)]].
  - exfalso. unfold on_stream in Hs. destruct (d_stream (s_db (final c s1 lb))); [cbn in Hs; tauto|discriminate A0].
  - exfalso. destruct (d_queue (s_db (final c s1 lb))); [discriminate Hq|discriminate B0].
  - exists cc, i, m. auto.
Qed.
Print Assumptions C104_finished_partial.

(** And it does end: the loop leaves after a look exactly if it saw nothing.  Others' unfinished deliveries are on the stream, so it waits for
    them as well. *)
Theorem C104_leaves_iff_empty c n L :
  let j := jrun c n jinit L in
  l_pc (snd j) = PCheck -> l_stop (snd j) = false ->
  let j' := jrun c n j [JLoop (LChecked (stream_len (fst j)) (queue_len (fst j)))] in
  snd (lstep n false (snd j') LGo) = (if (stream_len (fst j) =? 0) && (queue_len (fst j) =? 0) then WLeave else WOk).
Proof.
  intros j P S j'. unfold j' in *. rewrite !jrun_split. cbn [docket_ops loop_evs]. cbn [snd lrun].
  assert (H : Idle false (snd j)) by (unfold j; rewrite jrun_split; cbn [snd jinit]; apply (idle_history n false)).
  destruct H as [C _]. destruct (C P) as [_ A]. cbn [lstep]. rewrite P. cbn [fst go l_pc lstep l_work l_active l_stop]. unfold go. cbn [l_pc l_work l_active l_stop orb]. rewrite A, S.
  unfold stream_len, queue_len. destruct (d_stream (s_db (fst j))), (d_queue (s_db (fst j))); reflexivity.
Qed.
Print Assumptions C104_leaves_iff_empty.

(** Worker w1 runs a task that was scheduled for later; then it is finished, and the loop ends. *)
Definition ex_call2 : call := mkCall "k" 50 "f" "" "".
Definition ex_joint : list jev :=
  [JDocket (OAdd ex_call2 0); JLoop LGo; JLoop LGo; JLoop LGo; JLoop (LReply []); JLoop LGo; JLoop (LReply []); JLoop LGo; JLoop LGo; JLoop (LChecked 0 1);
   JLoop LGo; JLoop LGo; JLoop LGo; JLoop (LReply []); JLoop LGo; JDocket (OScheduler 60); JDocket (ORead "w1"); JLoop (LReply [MTask "k"]); JLoop LGo; JLoop LGo;
   JDocket (OClaim 0 61); JLoop (LEnter 0); JDocket (OBodyStart 0); JDocket (OBodyEnd 0); JDocket (OTerminal 0 SCompleted 62 None None); JLoop (LFinish 0 false);
   JLoop LGo; JLoop LGo; JLoop LGo; JLoop LGo; JLoop LGo; JLoop (LReply []); JLoop LGo; JLoop (LReply []); JLoop LGo; JLoop LGo; JLoop (LChecked 0 0)].
Example C104_example :
  let j := jrun PropsHist.ex_cfg 2 jinit ex_joint in
  truthful PropsHist.ex_cfg 2 jinit ex_joint /\ l_pc (snd j) = PTop /\ l_stop (snd j) = false /\ snd (lstep 2 false (snd j) LGo) = WLeave /\
  accepts PropsHist.ex_cfg init_sys (OAdd ex_call2 0) ex_call2 /\
  undisturbed_until_finish PropsHist.ex_cfg "k" (fst (step PropsHist.ex_cfg init_sys (OAdd ex_call2 0))) (tl (docket_ops ex_joint)) /\
  r_state (rget (s_db (fst j)) "k") = Some SCompleted.
Proof.
  intros j. split; [vm_compute; repeat split|]. split; [reflexivity|]. split; [reflexivity|]. split; [reflexivity|]. split; [split; [exists 0; left; reflexivity|reflexivity]|].
  split; [|vm_compute; reflexivity]. cbn [docket_ops ex_joint tl undisturbed_until_finish].
  do 5 (right; split; [split; [intros _; vm_compute; discriminate|split; exact I]|]). left. eexists. split; [vm_compute; reflexivity|]. repeat split.
Qed.

(** The full statement fails: a task that waits in a line nobody will serve any more (C24) is on neither; the run ends and leaves it behind. *)
Definition ex_polls : list jev := map JLoop [LGo; LGo; LGo; LReply []; LGo; LReply []; LGo; LGo; LChecked 0 0].
Theorem C104_waiting_refuted :
  let L := map JDocket PropsStranded.ex_stranded ++ ex_polls in
  let j := jrun PropsHist.ex_cfg 2 jinit L in
  truthful PropsHist.ex_cfg 2 jinit L /\ l_pc (snd j) = PTop /\ l_stop (snd j) = false /\ snd (lstep 2 false (snd j) LGo) = WLeave /\
  accepts PropsHist.ex_cfg (final PropsHist.ex_cfg init_sys (firstn 1 PropsStranded.ex_stranded)) (OAdd (mkCall "b" 0 "g" "" "") 0) (mkCall "b" 0 "g" "" "") /\
  r_state (rget (s_db (fst j)) "b") = Some SScheduled /\
  ~ finishes_within PropsHist.ex_cfg "b" init_sys PropsStranded.ex_stranded.
Proof.
  intros L j. split; [vm_compute; repeat split|]. split; [vm_compute; reflexivity|]. split; [vm_compute; reflexivity|]. split; [vm_compute; reflexivity|].
  split; [split; [exists 0; left; reflexivity|vm_compute; reflexivity]|]. split; [vm_compute; reflexivity|].
  intros (l1 & o & l2 & E & F). destruct o; try contradiction F. destruct F as (x & G & K & _).
  assert (H : l1 = firstn (length l1) PropsStranded.ex_stranded) by (rewrite E, firstn_app, Nat.sub_diag, firstn_all, app_nil_r; reflexivity).
  assert (O : nth_error PropsStranded.ex_stranded (length l1) = Some (OTerminal h s t err res)) by (rewrite E, nth_error_app2 by lia; now rewrite Nat.sub_diag).
  rewrite H in G. assert (B : (length l1 < length PropsStranded.ex_stranded)%nat) by (rewrite E, app_length; cbn; lia).
  revert G O B. generalize (length l1). intros n G O B. clear - G O B K.
  repeat match goal with n : nat |- _ => destruct n as [|n]; try discriminate O end.
  all: vm_compute in O; injection O as <- <- <- <- <-; vm_compute in G; injection G as <-; discriminate K.
Qed.
Print Assumptions C104_waiting_refuted.
