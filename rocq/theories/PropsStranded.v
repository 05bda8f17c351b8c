(** C24, continued: a waiting task can be stranded. *)
From Verif Require Import Base ZSet Model GInv KView KSim Spec Check KInv Hist SpecConc WaitProofs PropsHist.

(** What workers and the clock do by themselves.  [OScavenge] is not among them: a safeguard task
    does it (_concurrency.py:816-867), and in a quiet docket there is none. *)
Definition by_itself (o : op) : Prop :=
  match o with
  | OAdd _ _ | OReplace _ _ | OCancel _ _ | OCancelFinish _ | OClearRead _ | OClearKeys _ | OClearApply _ | OScavenge _ _ _ | OCancelCleanup _ _ _ => False
  | _ => True
  end.
(** No message anywhere but in the waiting lines, and nothing under way. *)
Definition quiet (s : sys) : Prop :=
  d_stream (s_db s) = [] /\ d_queue (s_db s) = [] /\
  forall x, In x (s_execs s) -> x_phase x = PDone /\ x_slot x = None.

Lemma quiet_db s d : quiet s -> d_stream d = [] -> d_queue d = [] -> quiet (set_db s d).
Proof. intros (Qs & Qq & Qx) A B. repeat split; try assumption; now apply Qx. Qed.

Lemma quiet_step c s o : quiet s -> by_itself o ->
  quiet (fst (step c s o)) /\ d_wait (s_db (fst (step c s o))) = d_wait (s_db s) /\
  forall m i, snd (step c s o) <> OStarted m i.
Proof.
  intros Q B. pose proof Q as (Qs & Qq & Qx).
  assert (X : forall h x, get_exec (s_execs s) h = Some x -> x_phase x = PDone /\ x_slot x = None).
  { intros h x H. apply Qx. now apply get_exec_spec in H. }
  destruct o; try (destruct B; fail); cbn [step];
    try (destruct (get_exec (s_execs s) h) as [x|] eqn:G; [destruct (X _ _ G) as [P L]; rewrite ?P, ?L; cbn [may_finish may_resched]|];
         cbn [fst snd]; (split; [exact Q|split; [reflexivity|discriminate]])).
  - (* tick *) destruct (0 <=? dt); [|split; [exact Q|split; [reflexivity|discriminate]]].
    split; [apply quiet_db; [exact Q|exact Qs|exact Qq]|split; [reflexivity|discriminate]].
  - (* scheduler *) unfold lua_stream_due. rewrite Qq. cbn [zrangebyscore filter map fold_left length]. cbv zeta.
    split; [apply quiet_db; [exact Q|exact Qs|exact Qq]|split; [reflexivity|discriminate]].
  - (* read *) unfold read_group, next_new. rewrite Qs. cbn [find deliver fst snd].
    split; [|split; [reflexivity|discriminate]]. exact Q.
  - (* autoclaim *) unfold autoclaim.
    destruct (find _ _) as [p|]; [|split; [exact Q|split; [reflexivity|discriminate]]].
    destruct (claimable _ _ _); [|split; [exact Q|split; [reflexivity|discriminate]]].
    rewrite Qs. cbn [lookup_entry find option_map deliver fst snd s_db]. split; [|split; [reflexivity|discriminate]].
    repeat split; try assumption; now apply Qx.
  - (* renew *) cbn [fst snd]. split; [apply quiet_db; [exact Q|exact Qs|exact Qq]|split; [reflexivity|discriminate]].
  - (* crash *) cbn [fst snd s_db]. split; [|split; [reflexivity|discriminate]].
    split; [exact Qs|]. split; [exact Qq|]. intros x H. cbn [s_execs] in H. apply filter_In in H. now apply Qx.
Qed.

Lemma quiet_run c l : forall s, quiet s -> Forall by_itself l ->
  d_wait (s_db (final c s l)) = d_wait (s_db s) /\ forall m i, ~ In (OStarted m i) (outs c s l).
Proof.
  induction l as [|o l IH]; intros s Q B; [split; [reflexivity|intros m i []]|].
  inversion B; subst. destruct (quiet_step c s o Q) as (Q' & W & N); [assumption|].
  destruct (IH _ Q') as [A C]; [assumption|]. rewrite final_cons.
  rewrite A, W. split; [reflexivity|]. intros m i. unfold outs. cbn [run]. intros H.
  destruct (step c s o) as [s1 r1]. cbn [fst snd] in *. unfold outs in C. destruct (run c s1 l) as [s2 rs]. cbn [snd] in *.
  destruct H as [H|H]; [now apply (N m i)|now apply (C m i)].
Qed.

(** "a" holds the only slot, "b" waits.  When the safeguard of "b" runs, "a" is alive, so there is
    nothing to scavenge; nothing replaces the safeguard.  Then the worker of "a" dies, and the worker
    that takes its message over finds "a" struck and finishes it without touching the limit. *)
Definition ex_stranded : list op :=
  [OAdd (mkCall "a" 0 "f" "" "") 0; OAdd (mkCall "b" 0 "g" "" "") 0;
   ORead "w1"; OClaim 0 1; OAcquire 0 "c" 1 1; OBodyStart 0;
   ORead "w2"; OClaim 1 2; OAcquire 1 "c" 1 2;
   OAdd (mkCall "__safeguard__:b" 300000002 "_safeguard_wake" "c" "1") 2;
   OTick 75000000; ORenewSlot 0 75000000; ORenew "w1"; OTick 75000000; ORenewSlot 0 150000000; ORenew "w1";
   OTick 75000000; ORenewSlot 0 225000000; ORenew "w1"; OTick 75000002; ORenewSlot 0 300000002; ORenew "w1";
   OScheduler 300000002; ORead "w2"; OClaim 2 300000003; OBodyStart 2; OScavenge "c" 1 300000003;
   OBodyEnd 2; OTerminal 2 SCompleted 300000003 None None;
   OCrash "w1"; OTick 300000000; OAutoclaim "w2" 1; ODelKnown 3; OTerminal 3 SCancelled 600000002 None None].
Lemma stranded_quiet : quiet (final ex_cfg init_sys ex_stranded).
Proof.
  split; [vm_compute; reflexivity|]. split; [vm_compute; reflexivity|].
  assert (F : forallb (fun x => match x_phase x, x_slot x with PDone, None => true | _, _ => false end) (s_execs (final ex_cfg init_sys ex_stranded)) = true)
    by (vm_compute; reflexivity).
  revert F. generalize (s_execs (final ex_cfg init_sys ex_stranded)). intros xs F x H.
  rewrite forallb_forall in F. apply F in H. destruct (x_phase x), (x_slot x); try discriminate H. now split.
Qed.
Lemma quiet_line c s cc ks : quiet s -> map (fun e => m_key (snd e)) (line cc s) = ks -> forall l, Forall by_itself l ->
  map (fun e => m_key (snd e)) (line cc (final c s l)) = ks /\ forall m i, ~ In (OStarted m i) (outs c s l).
Proof.
  intros Q L l B. destruct (quiet_run c l s Q B) as [W N]. split; [|exact N]. unfold line. rewrite W. exact L.
Qed.
Lemma stranded_line : map (fun e => m_key (snd e)) (line "c" (final ex_cfg init_sys ex_stranded)) = ["b"%string].
Proof. vm_compute. reflexivity. Qed.
Lemma stranded_scheduled : scheduled (final ex_cfg init_sys ex_stranded) "b" = true.
Proof. vm_compute. reflexivity. Qed.
Lemma stranded_free : holders "c" (final ex_cfg init_sys ex_stranded) = [].
Proof. vm_compute. reflexivity. Qed.
Theorem C24_stranded_refuted :
  let s := final ex_cfg init_sys ex_stranded in
  map (fun e => m_key (snd e)) (line "c" s) = ["b"%string] /\ scheduled s "b" = true /\ holders "c" s = [] /\
  forall l, Forall by_itself l ->
    map (fun e => m_key (snd e)) (line "c" (final ex_cfg s l)) = ["b"%string] /\
    forall m i, ~ In (OStarted m i) (outs ex_cfg s l).
Proof.
  exact (conj stranded_line (conj stranded_scheduled (conj stranded_free (quiet_line ex_cfg _ "c" _ stranded_quiet stranded_line)))).
Qed.
Print Assumptions C24_stranded_refuted.

(** The history is what it says: every operation went through, the safeguard ran, "a" was found on
    its redelivery. *)
Example C24_stranded_history :
  forallb (fun r => match r with ORefused => false | _ => true end) (outs ex_cfg init_sys ex_stranded) = true /\
  In (OStarted (mkMsg "__safeguard__:b" 300000002 "_safeguard_wake" "c" "1" 1 1) 4) (outs ex_cfg init_sys ex_stranded).
Proof. split; [vm_compute; reflexivity|]. vm_compute. tauto. Qed.
