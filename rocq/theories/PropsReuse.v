(** Using a key again (C22). *)
From Verif Require Import Base ZSet Model GInv KView KSim Spec Check KInv KLine Hist PropsHist.

(** The clock stays before the time at which the record that [k] has in [s1]
    expires, if it expires at all. *)
Definition before_expiry (c : cfg) (k : key) (s1 s : sys) (o : op) : Prop :=
  forall e, r_expire (rget (s_db s1) k) = Some e -> d_now (s_db (fst (step c s o))) < e.

Lemma expire_apply c k v e r : kok k v e -> k_runs v = Some r ->
  match e with KForget | KUnpark | KSetExpire _ => False | KFinish x _ _ _ _ _ => ksuper v (m_gen (x_msg x)) = true | _ => True end ->
  exists r', k_runs (kapply c v e) = Some r' /\ r_expire r' = r_expire r.
Proof.
  intros Hok E H. destruct v as [nx la st pk sc rn pg wt xs]. cbn [k_runs] in E. subst rn.
  assert (P : forall v w imm clr m, k_runs v = Some r -> exists r', k_runs (kplace v w imm clr m) = Some r' /\ r_expire r' = r_expire r).
  { intros v w imm clr m Ev. unfold kplace, khset, khdel, kadd, kr. destruct imm, clr; cbn; rewrite ?Ev; cbn; eexists; split; reflexivity. }
  destruct e; cbn [kapply]; try contradiction; try (eexists; split; reflexivity).
  - unfold ksched. destruct (negb repl && kexists _); [exists r; split; reflexivity|]. apply P.
    destruct repl; [|reflexivity]. unfold kreplace_existing, kr. cbn. now destruct (r_sid r).
  - unfold kcancel, kreplace_existing, kr, khdel, khset. cbn. destruct (r_sid r); cbn;
      destruct (r_state r) as [[]|]; cbn; eexists; split; reflexivity.
  - unfold kmove. cbn. destruct pk; cbn; eexists; split; reflexivity.
  - unfold kclaim, kphase. destruct (ksuper _ _); cbn; eexists; split; reflexivity.
  - unfold kphase, kterminal. rewrite H. destruct (kprog_mine _ _); cbn; eexists; split; reflexivity.
  - unfold kphase, kresched. cbn [kset_execs k_runs khdel kset_runs].
    destruct (P (kdel (mkKs nx la st pk sc (Some r) pg wt xs) (x_mid x)) when imm true (resched_msg (x_msg x) when bump) eq_refl) as (r' & E1 & E2).
    exists (rdel_worker r'). split; [|exact E2]. cbn. now rewrite E1.
  - unfold kwake, kr. cbn. destruct (r_state r) as [[]|]; cbn; eexists; split; reflexivity.
Qed.

Lemma expire_step c k s o r : (match o with ORelease _ _ | OScavenge _ _ _ => ordinary k | _ => True end) -> GInv s -> UInv k (kabs k s) -> no_calls k o -> ~ finishes k s o ->
  d_runs (s_db s) k = Some r -> (forall e, r_expire r = Some e -> d_now (s_db (fst (step c s o))) < e) ->
  exists r', d_runs (s_db (fst (step c s o))) k = Some r' /\ r_expire r' = r_expire r.
Proof.
  intros Ho G U N F E B.
  assert (Main : (forall dt, o <> OTick dt) -> exists r', k_runs (kabs k (fst (step c s o))) = Some r' /\ r_expire r' = r_expire r).
  { intros T. apply (step_ind c k s o (fun v => exists r', k_runs v = Some r' /\ r_expire r' = r_expire r)); auto; [|exists r; auto].
    intros v e Hok L _ _ Sg (r0 & E0 & X0). rewrite <- X0. apply (expire_apply c k v e r0 Hok E0).
    destruct e; try exact I; cbn in L.
    - destruct o; try contradiction; try (now apply (T dt)); cbn in N; contradiction.
    - destruct o; try contradiction; cbn in N; contradiction.
    - subst o. specialize (Sg eq_refl). subst v. destruct (ksuper (kabs k s) (m_gen (x_msg x))) eqn:Su; [reflexivity|]. exfalso. apply F.
      destruct Hok as [Hx Hm]. apply kexecs_In in Hx as [Hx Hk]. exists x. split; [apply get_exec_In; [apply G|exact Hx]|]. auto.
    - destruct o; try contradiction; destruct L as [k' L]; now apply (Ho k'). }
  destruct o; try (apply Main; congruence).
  cbn [step] in *. destruct (0 <=? dt); [|exists r; auto]. cbn in B |- *. rewrite E.
  destruct (expired (d_now (s_db s) + dt) (r_expire r)) eqn:X; [|exists r; auto].
  unfold expired in X. destruct (r_expire r) as [e|]; [|discriminate]. specialize (B e eq_refl). lia.
Qed.

Lemma along_expiry c k s1 (Q : sys -> op -> Prop) : ordinary k ->
  (forall s o, Q s o -> no_calls k o /\ ~ finishes k s o) ->
  forall l s r, GInv s -> UInv k (kabs k s) -> d_runs (s_db s) k = Some r -> r_expire r = r_expire (rget (s_db s1) k) ->
  along c (fun s o => before_expiry c k s1 s o /\ Q s o) s l ->
  along c (fun s o => keeps c k s o /\ Q s o) s l.
Proof.
  intros Ho HQ l. induction l as [|o l IH]; intros s r G U E X A; [exact I|]. destruct A as [[A1 A2] A3].
  destruct (HQ s o A2) as [N F].
  destruct (expire_step c k s o r) as (r' & E' & X'); auto.
  { now destruct o. }
  { intros e He. apply A1. congruence. }
  split; [split; [|exact A2]|].
  - intros _. rewrite E'. discriminate.
  - apply (IH _ r'); auto; [now apply GInv_step|now apply UInv_step|congruence].
Qed.

(** ** C22: reusing a key does not endanger the new run *)

(** A call for [k] that is accepted, whatever ran under [k] before: until somebody
    calls the docket about [k] or the run finishes, a live message with the
    call's function and arguments is stored, as for a fresh key (C05), provided
    the clock stays before the expiry that the earlier run left on [k]'s record.
    A record without expiry (a fresh key) needs no such provision: records
    expire only through an earlier run, cancel() or clear().
    Missing from the full statement: schedules later than that expiry (refuted
    below). *)
Theorem C22_safe_until_expiry_partial c k s o a l :
  ordinary k -> reachable_keeping c k s -> a_key a = k -> accepts c s o a -> not_waiting k s -> no_leftover k s o ->
  let s1 := fst (step c s o) in
  along c (fun s o => before_expiry c k s1 s o /\ no_calls k o /\ no_stale_resched k s o /\ ~ finishes k s o) s1 l ->
  exists m, m_key m = k /\ carries a m /\ stored (final c s1 l) m /\ live (final c s1 l) m.
Proof.
  intros Ho R E A W NL s1 K. apply (accepted_not_lost c k s o a l); auto. fold s1.
  pose proof (reachable_GInv c s (reachable_keeping_reachable c k s R)) as G.
  pose proof (reachable_UInv c k s (reachable_keeping_reachable c k s R)) as U.
  assert (Hr : exists r, d_runs (s_db s1) k = Some r).
  { destruct A as [[t A] D]. assert (Ar : exists repl : bool, o = if repl then OReplace a t else OAdd a t) by (destruct A; [exists false|exists true]; auto).
    destruct Ar as [repl Ar]. subst o. destruct (kabs_schedule c k s a t repl G E) as [H1 H2]. rewrite D in H2.
    assert (N : negb repl && kexists (kabs k s) = false) by (destruct (negb repl && kexists (kabs k s)); [discriminate|reflexivity]).
    change (d_runs (s_db s1) k) with (k_runs (kabs k s1)). unfold s1. rewrite H1. unfold ksched. rewrite N.
    destruct (k_runs (kplace _ _ _ _ _)) eqn:X; [eauto|]. exfalso. revert X. apply kplace_some. }
  destruct Hr as [r Hr].
  apply (along_expiry c k s1 (fun s o => no_calls k o /\ no_stale_resched k s o /\ ~ finishes k s o) Ho) with (r := r); auto.
  - tauto.
  - now apply GInv_step.
  - now apply UInv_step.
  - unfold rget. now rewrite Hr.
Qed.
Print Assumptions C22_safe_until_expiry_partial.

(** A record that never had an expiry, or none at all, leaves none after the call:
    then the provision on the clock is void. *)
Theorem C22_fresh_key_has_no_expiry_partial c s o a :
  accepts c s o a -> r_expire (rget (s_db s) (a_key a)) = None -> r_expire (rget (s_db (fst (step c s o))) (a_key a)) = None.
Proof.
  intros [[t H] _] X. assert (P : forall repl, r_expire (rget (fst (do_schedule (s_db s) a repl t)) (a_key a)) = None).
  { intros repl. unfold do_schedule, lua_schedule. destruct (negb repl && lua_exists (s_db s) (a_key a)); [exact X|].
    set (d1 := if repl then _ else _).
    assert (E1 : d_runs d1 = d_runs (s_db s)) by (unfold d1, lua_replace_existing; destruct repl; [destruct (match r_sid _ with Some _ => _ | None => _ end)|]; reflexivity).
    clearbody d1. cbn [fst]. unfold place, hincr_gen. cbv zeta.
    destruct (a_when a <=? t); unfold xadd, publish; cbn; unfold rget; cbn; unfold upd; rewrite !String.eqb_refl; cbn; unfold rget; cbn;
      unfold upd; rewrite ?String.eqb_refl; cbn; unfold rget; rewrite E1; exact X. }
  destruct H as [->| ->]; cbn [step];
    match goal with |- context [do_schedule _ _ ?b _] => specialize (P b); destruct (do_schedule (s_db s) a b t) end; exact P.
Qed.
Print Assumptions C22_fresh_key_has_no_expiry_partial.

(** A run of "k" completes at 2 s (execution_ttl 900 s).  A second run is then added
    for 600 s, moved, delivered and started before the record of the first one
    expires. *)
Definition ex_used : list op :=
  [OAdd (ex_call 0 "f" "one") 0; ORead "w1"; OClaim 0 1; OBodyStart 0; OTick 2000000; OBodyEnd 0; OTerminal 0 SCompleted 2000000 None None].
Definition ex_in_time : list op := [OTick 598000000; OScheduler 600000000; ORead "w1"; OClaim 1 600000000; OBodyStart 1].
Definition ex_again (w : Z) : op := OAdd (ex_call w "f" "two") 2000000.
Definition before_expiryb (c : cfg) (e : Z) (s : sys) (o : op) : bool := d_now (s_db (fst (step c s o))) <? e.

Example C22_case :
  let s := final ex_cfg init_sys ex_used in
  reachable_keeping ex_cfg "k" s /\ accepts ex_cfg s (ex_again 600000000) (ex_call 600000000 "f" "two") /\ not_waiting "k" s /\
  no_leftover "k" s (ex_again 600000000) /\
  let s1 := fst (step ex_cfg s (ex_again 600000000)) in
  r_expire (rget (s_db s1) "k") = Some 902000000 /\
  along ex_cfg (fun s o => before_expiry ex_cfg "k" s1 s o /\ no_calls "k" o /\ no_stale_resched "k" s o /\ ~ finishes "k" s o) s1 ex_in_time /\
  outs ex_cfg s1 ex_in_time = [ODone; OMoved 1 1; ODelivered 1 2 (mkMsg "k" 600000000 "f" "two" "" 1 2); OClaimed true; OStarted (mkMsg "k" 600000000 "f" "two" "" 1 2) 2].
Proof.
  intros s. split; [exists ex_used; split; [history (keepsb ex_cfg "k")|reflexivity]|].
  split; [split; [eexists; left; reflexivity|vm_compute; reflexivity]|].
  split; [intros cc i m H; vm_compute in H; contradiction|].
  split; [intros a t _ _; vm_compute; reflexivity|].
  intros s1. assert (X : r_expire (rget (s_db s1) "k") = Some 902000000) by (vm_compute; reflexivity).
  split; [exact X|]. split; [|vm_compute; reflexivity].
  apply (alongb_sound _ _ (fun s o => before_expiryb ex_cfg 902000000 s o && no_callsb "k" o && no_staleb "k" s o && nofinishb "k" s o)); [|vm_compute; reflexivity].
  intros s0 o0 H. apply andb_prop in H as [H H4]. apply andb_prop in H as [H H3]. apply andb_prop in H as [H1 H2].
  split; [|split; [now apply no_callsb_sound|split; [now apply no_staleb_sound|now apply nofinishb_sound]]].
  intros e He. rewrite X in He. injection He as <-. unfold before_expiryb in H1. lia.
Qed.

(** The full statement is false: EXPIRE set when the first run finished is not
    taken back when the key is scheduled again.  The same call for a time after
    that expiry is accepted, but the record (and with it the generation) is gone
    when the task becomes due: the worker's claim says SUPERSEDED, the message is
    deleted, and nothing of the task is left, though nobody cancelled it and it never
    started.  Under a fresh key the same history starts the task. *)
Definition ex_late : list op := [OTick 998000000; OScheduler 1000000000; ORead "w1"; OClaim 1 1000000000; OBodyStart 1].
Theorem C22_expired_record_refuted :
  let s := final ex_cfg init_sys ex_used in
  let s1 := fst (step ex_cfg s (ex_again 1000000000)) in
  accepts ex_cfg s (ex_again 1000000000) (ex_call 1000000000 "f" "two") /\
  along ex_cfg (fun s o => no_calls "k" o /\ no_stale_resched "k" s o /\ ~ finishes "k" s o) s1 ex_late /\
  outs ex_cfg s1 ex_late = [ODone; OMoved 1 1; ODelivered 1 2 (mkMsg "k" 1000000000 "f" "two" "" 1 2); OClaimed false; ORefused] /\
  (forall m, m_key m = "k"%string -> ~ stored (final ex_cfg s1 ex_late) m).
Proof.
  intros s s1. split; [split; [eexists; left; reflexivity|vm_compute; reflexivity]|].
  split; [history (fun s o => no_callsb "k" o && no_staleb "k" s o && nofinishb "k" s o)|]. split; [vm_compute; reflexivity|].
  set (s' := final ex_cfg s1 ex_late). assert (A : d_stream (s_db s') = [] /\ d_wait (s_db s') = [] /\ d_parked (s_db s') "k" = None) by (repeat split; vm_compute; reflexivity).
  destruct A as (A1 & A2 & A3). intros m E [(i & H)|[[H _]|(cc & i & H & _)]].
  - unfold on_stream in H. rewrite A1 in H. exact H.
  - rewrite E, A3 in H. discriminate H.
  - rewrite A2 in H. exact H.
Qed.
Print Assumptions C22_expired_record_refuted.
(** The fresh key, same times. *)
Example C22_fresh_starts :
  let s := final ex_cfg init_sys [OTick 2000000; ex_again 1000000000] in
  nth 4 (outs ex_cfg s [OTick 998000000; OScheduler 1000000000; ORead "w1"; OClaim 0 1000000000; OBodyStart 0]) ODone =
  OStarted (mkMsg "k" 1000000000 "f" "two" "" 1 1) 1.
Proof. vm_compute. reflexivity. Qed.

(** The same after cancel() of the earlier schedule. *)
Theorem C22_expired_after_cancel_refuted :
  let s := final ex_cfg init_sys [OTick 2000000; OAdd (ex_call 50000000 "f" "one") 0; OCancel "k" 2000000; OCancelFinish "k"] in
  let s1 := fst (step ex_cfg s (ex_again 1000000000)) in
  accepts ex_cfg s (ex_again 1000000000) (ex_call 1000000000 "f" "two") /\
  outs ex_cfg s1 [OTick 998000000; OScheduler 1000000000; ORead "w1"; OClaim 0 1000000000; OBodyStart 0] =
    [ODone; OMoved 1 1; ODelivered 0 1 (mkMsg "k" 1000000000 "f" "two" "" 1 2); OClaimed false; ORefused].
Proof. intros s s1. split; [split; [eexists; left; reflexivity|vm_compute; reflexivity]|vm_compute; reflexivity]. Qed.
Print Assumptions C22_expired_after_cancel_refuted.
