(** C108: the clean-up after a cancellation. *)
From Verif Require Import Base ZSet Model GInv KView KInv Spec Check Hist PropsHist Cleanup SpecCleanup CleanupProofs.

(** Whatever the others have done since a subscriber read the place of [k]: what it removes from the
    line was put there for [k], no other place changes, nothing is taken off the stream, the future
    queue or the slots, and of the record of [k] only the place goes. *)
Theorem C108_own_place c g w u k cc i t : xreachable c g -> x_subs g w = Some u -> u_pc u = XHave k cc i ->
  let s := x_sys g in let s' := x_sys (fst (xstep c g (XGo w t))) in
  (forall m, In (cc, (i, m)) (d_wait (s_db s)) -> m_key m = k) /\
  (forall c' i' m, In (c', (i', m)) (d_wait (s_db s')) <-> In (c', (i', m)) (d_wait (s_db s)) /\ ~ (c' = cc /\ i' = i)) /\
  d_stream (s_db s') = d_stream (s_db s) /\ d_pel (s_db s') = d_pel (s_db s) /\ d_queue (s_db s') = d_queue (s_db s) /\ d_parked (s_db s') = d_parked (s_db s) /\
  d_slots (s_db s') = d_slots (s_db s) /\ d_prog (s_db s') k = None /\
  r_wstream (rget (s_db s') k) = None /\ r_wid (rget (s_db s') k) = None /\ r_state (rget (s_db s') k) = r_state (rget (s_db s) k) /\
  r_gen (rget (s_db s') k) = r_gen (rget (s_db s) k).
Proof. exact (script_exact c g w u k cc i t). Qed.
Print Assumptions C108_own_place.

(** A subscriber that is busy with [k] touches nothing of any other key, except the safeguard of [k]. *)
Theorem C108_others_untouched c g w t k k' : xreachable c g -> busy_with g w k -> k' <> k -> k' <> ("__safeguard__:" ++ k)%string ->
  same_for k' (x_sys g) (x_sys (fst (xstep c g (XGo w t)))).
Proof. exact (sub_frame c g w t k k'). Qed.
Print Assumptions C108_others_untouched.

(** A cancelled task has left its line when a worker that was subscribed has gone through the message,
    whatever the other workers do, in any order.
    Missing from the full statement: records that are dropped at once (execution_ttl 0: false, below), and a
    subscriber that still has an old place of the key in hand (false, below). *)
Theorem C108_cleaned_partial c k cc i w g L : xreachable c g -> k <> ""%string -> cancelled_waiter k cc i (x_sys g) ->
  (forall w' u c' i', x_subs g w' = Some u -> u_pc u = XHave k c' i' -> c' = cc /\ i' = i) ->
  x_subs g w <> None -> xalong c (undisturbed_cleanup c k w) g L -> In (XPublish k) L ->
  let g' := xfinal c g L in
  exists u, x_subs g' w = Some u /\ (~ In k (u_inbox u) -> ~ busy_with g' w k -> not_waiting k (x_sys g')).
Proof. exact (cleaned c k cc i w g L). Qed.
Print Assumptions C108_cleaned_partial.

(** A task that is added when no subscriber has a cancellation of its key before it is not lost,
    whatever the subscribers do about other keys.
    Missing from the full statement: earlier cancellations of the key that are still on their way
    (false, below). *)
Theorem C108_not_lost_partial c k g a t L : xkeeping c k g -> ordinary k -> unheard k g -> a_key a = k ->
  snd (step c (x_sys g) (OAdd a t)) = ODisp DScheduled -> not_waiting k (x_sys g) -> no_leftover k (x_sys g) (OAdd a t) ->
  let g1 := fst (xstep c g (XOp (OAdd a t))) in
  xalong c (left_in_peace c k) g1 L ->
  exists m, m_key m = k /\ carries a m /\ stored (x_sys (xfinal c g1 L)) m /\ live (x_sys (xfinal c g1 L)) m.
Proof. exact (not_lost_unheard c k g a t L). Qed.
Print Assumptions C108_not_lost_partial.

(** After the place, the safeguard goes: the subscriber's next call takes it off the future queue. *)
Theorem C108_safeguard_dropped c g w u k cc i t1 t2 L : x_subs g w = Some u -> u_pc u = XHave k cc i -> Forall (not_of w) L ->
  let s := x_sys (xfinal c g (XGo w t1 :: L ++ [XGo w t2])) in
  d_parked (s_db s) ("__safeguard__:" ++ k)%string = None /\ forall st, ~ In (st, "__safeguard__:" ++ k)%string (d_queue (s_db s)).
Proof. exact (safeguard_dropped c g w u k cc i t1 t2 L). Qed.
Print Assumptions C108_safeguard_dropped.

(** ** What goes wrong *)

(** "a" holds the only slot of "c"; "b" waits; "b" is cancelled: both workers are told. *)
Definition cl_start : list xop :=
  [XSubscribe "w1"; XSubscribe "w2"; XOp (OAdd (mkCall "a" 0 "f" "" "") 0); XOp (OAdd (mkCall "b" 0 "g" "old" "") 0);
   XOp (ORead "w1"); XOp (OClaim 0 1); XOp (OAcquire 0 "c" 1 1); XOp (OBodyStart 0);
   XOp (ORead "w2"); XOp (OClaim 1 2); XOp (OAcquire 1 "c" 1 2)].
Definition cl_cancel : list xop := [XOp (OCancel "b" 3); XOp (OCancelFinish "b"); XPublish "b"].
Definition cl_pass (w : string) (t : Z) : list xop := [XGo w t; XGo w t; XGo w t; XGo w t; XGo w t].
(** The key is used again, and the new task has to wait as well. *)
Definition cl_again : list xop := [XOp (OAdd (mkCall "b" 0 "g" "new" "") 4); XOp (ORead "w2"); XOp (OClaim 2 5)].
Definition cl_waits : list xop := cl_again ++ [XOp (OAcquire 2 "c" 1 5)].

(** Both workers hear of the cancellation; "w2" cleans up; the key is added again and waits; then "w1"
    comes to the message, finds the place of the new task and removes it.  The new task, accepted and
    shown as scheduled, is nowhere, and never starts unless the key is added once more. *)
Definition cl_lost : list xop := cl_start ++ cl_cancel ++ cl_pass "w2" 3 ++ cl_waits ++ [XGo "w1" 6; XGo "w1" 6].
Theorem C108_readded_lost_refuted : let s := x_sys (xfinal ex_cfg init_xsys cl_lost) in
  In (ODisp DScheduled) (skipn 19 (xouts ex_cfg init_xsys cl_lost)) /\ r_state (rget (s_db s) "b") = Some SScheduled /\ r_args (rget (s_db s) "b") = Some "new"%string /\
  (forall m, stored s m -> m_key m <> "b"%string) /\
  forall l o m i, along ex_cfg (fun _ o => no_schedule "b" o) s l -> starts ex_cfg (final ex_cfg s l) o m i -> m_key m <> "b"%string.
Proof.
  intros s.
  assert (R : reachable ex_cfg s) by (apply xreachable_sys; exists cl_lost; reflexivity).
  assert (E1 : (map (fun e => m_key (snd e)) (d_stream (s_db s)), d_parked (s_db s) "b"%string, d_wait (s_db s)) = (["a"%string], None, [])) by (vm_compute; reflexivity).
  assert (E4 : map (fun x => (m_key (x_msg x), match x_phase x with PDone => true | _ => false end)) (s_execs s) = [("a", false); ("b", true); ("b", true)]%string)
    by (vm_compute; reflexivity).
  assert (E5 : (r_state (rget (s_db s) "b"), r_args (rget (s_db s) "b")) = (Some SScheduled, Some "new"%string)) by (vm_compute; reflexivity).
  split; [vm_compute; tauto|]. clearbody s. injection E1 as E1 E2 E3. injection E5 as E5 E6. split; [exact E5|]. split; [exact E6|]. split.
  - intros m [(i & H)|[[H _]|(cc & i & H & _)]] E.
    + apply (in_map (fun e => m_key (snd e))) in H. rewrite E1 in H. destruct H as [H|[]]. cbn in H. congruence.
    + rewrite E, E2 in H. discriminate.
    + rewrite E3 in H. exact H.
  - intros l o m i A. apply gone_never_starts; auto. constructor.
    + destruct (k_stream (kabs "b" s)) as [|[j m0] l0] eqn:E; [reflexivity|exfalso].
      assert (H : In (j, m0) (k_stream (kabs "b" s))) by (rewrite E; now left). apply kstream_In in H as [H Hk].
      apply (in_map (fun e => m_key (snd e))) in H. rewrite E1 in H. destruct H as [H|[]]. cbn in H. congruence.
    + exact E2.
    + cbn. rewrite E3. reflexivity.
    + intros x Hx. apply kexecs_In in Hx as [Hx Hk].
      apply (in_map (fun x => (m_key (x_msg x), match x_phase x with PDone => true | _ => false end))) in Hx. rewrite E4, Hk in Hx.
      destruct (x_phase x); [| | | | |reflexivity]; destruct Hx as [Hx|[Hx|[Hx|[]]]]; discriminate Hx.
Qed.
Print Assumptions C108_readded_lost_refuted.

(** "w1" has read the place of the cancelled task; the key is added again, gets a slot and runs; then "w1"
    removes the progress of the run. *)
Definition cl_prog : list xop := cl_start ++ cl_cancel ++ [XGo "w1" 3] ++
  [XOp (OBodyEnd 0); XOp (OTerminal 0 SCompleted 4 None None); XOp (ORelease 0 4)] ++ cl_again ++ [XOp (OAcquire 2 "c" 1 5); XOp (OBodyStart 2)].
Theorem C108_progress_lost_refuted : let g := xfinal ex_cfg init_xsys cl_prog in
  d_prog (s_db (x_sys g)) "b"%string <> None /\
  let s := x_sys (fst (xstep ex_cfg g (XGo "w1" 6))) in
  d_prog (s_db s) "b"%string = None /\ r_state (rget (s_db s) "b") = Some SRunning /\
  exists x, get_exec (s_execs s) 2 = Some x /\ x_phase x = PBody /\ m_args (x_msg x) = "new"%string /\ live s (x_msg x).
Proof.
  split; [vm_compute; discriminate|]. split; [vm_compute; reflexivity|]. split; [vm_compute; reflexivity|].
  eexists. split; [vm_compute; reflexivity|]. repeat split; vm_compute; reflexivity.
Qed.
Print Assumptions C108_progress_lost_refuted.

(** "w1" has read the place of the cancelled task; the key is added again and waits at a new place; then "w1"
    removes the new place from the record.  When the new task is cancelled, no worker finds its place: it
    stays in the line although every worker has gone through the message. *)
Definition cl_forgotten : list xop := cl_start ++ cl_cancel ++ [XGo "w1" 3] ++ cl_waits ++ cl_pass "w1" 6 ++ cl_pass "w2" 6 ++ cl_pass "w2" 6 ++
  [XOp (OCancel "b" 7); XOp (OCancelFinish "b"); XPublish "b"] ++ cl_pass "w1" 8 ++ cl_pass "w2" 8.
Theorem C108_forgotten_refuted : let g := xfinal ex_cfg init_xsys cl_forgotten in
  x_subs g "w1"%string = Some (mkSub [] XIdle) /\ x_subs g "w2"%string = Some (mkSub [] XIdle) /\ r_state (rget (s_db (x_sys g)) "b") = Some SCancelled /\
  map (fun e => (fst e, m_args (snd (snd e)))) (filter (fun e => String.eqb (m_key (snd (snd e))) "b") (d_wait (s_db (x_sys g)))) = [("c", "new")]%string.
Proof. intros g. repeat match goal with |- _ /\ _ => split end; vm_compute; reflexivity. Qed.
Print Assumptions C108_forgotten_refuted.

(** With execution_ttl 0 the record is deleted before the signal: no worker finds the place, and the
    cancelled task stays in the line. *)
Definition cl_cfg0 : cfg := mkCfg 0 300000000.
Theorem C108_no_record_refuted : let g := xfinal cl_cfg0 init_xsys (cl_start ++ cl_cancel ++ cl_pass "w1" 3 ++ cl_pass "w2" 3) in
  x_subs g "w1"%string = Some (mkSub [] XIdle) /\ x_subs g "w2"%string = Some (mkSub [] XIdle) /\
  map (fun e => (fst e, m_key (snd (snd e)))) (d_wait (s_db (x_sys g))) = [("c", "b")]%string.
Proof. intros g. repeat match goal with |- _ /\ _ => split end; vm_compute; reflexivity. Qed.
Print Assumptions C108_no_record_refuted.

(** ** Examples *)

(** The hypotheses of [C108_own_place] and [C108_safeguard_dropped]: "w1" with an old place of "b" in hand, while
    the new "b" waits at another and "e" behind it. *)
Definition cl_hand : list xop := cl_start ++ cl_cancel ++ [XGo "w1" 3] ++ cl_waits ++
  [XOp (OAdd (mkCall "e" 0 "g" "" "") 5); XOp (ORead "w2"); XOp (OClaim 3 6); XOp (OAcquire 3 "c" 1 6); XOp (OAdd (mkCall "__safeguard__:b" 99 "_safeguard_wake" "c" "1") 6)].
Example C108_own_place_case : let g := xfinal ex_cfg init_xsys cl_hand in
  xreachable ex_cfg g /\ option_map u_pc (x_subs g "w1"%string) = Some (XHave "b" "c" 3) /\
  map (fun e => (fst (snd e), m_key (snd (snd e)))) (d_wait (s_db (x_sys g))) = [(3, "b"); (5, "b"); (7, "e")]%string /\
  map (fun e => (fst (snd e), m_key (snd (snd e)))) (d_wait (s_db (x_sys (fst (xstep ex_cfg g (XGo "w1" 7)))))) = [(5, "b"); (7, "e")]%string /\
  map snd (d_queue (s_db (x_sys g))) = ["__safeguard__:b"%string] /\
  map snd (d_queue (s_db (x_sys (xfinal ex_cfg g [XGo "w1" 7; XOp (OTick 1); XGo "w1" 8])))) = [].
Proof. intros g. split; [exists cl_hand; reflexivity|]. repeat match goal with |- _ /\ _ => split end; vm_compute; reflexivity. Qed.

(** [C108_others_untouched] there: "e" keeps its place and its record. *)
Example C108_others_case : let g := xfinal ex_cfg init_xsys cl_hand in same_for "e" (x_sys g) (x_sys (fst (xstep ex_cfg g (XGo "w1" 7)))).
Proof.
  intros g. apply (C108_others_untouched ex_cfg g "w1" 7 "b" "e"); try discriminate; [exists cl_hand; reflexivity|].
  assert (E : exists u, x_subs g "w1"%string = Some u /\ u_pc u = XHave "b" "c" 3) by (eexists; split; vm_compute; reflexivity).
  destruct E as (u & E1 & E2). exists u. split; [exact E1|]. now rewrite E2.
Qed.

(** Only who has subscribed is a subscriber. *)
Lemma subs_names c l : forall g w, x_subs (xfinal c g l) w <> None -> x_subs g w <> None \/ In (XSubscribe w) l.
Proof.
  induction l as [|o l IH]; intros g w H; cbn in *; [auto|]. apply IH in H as [H|H]; [|auto].
  destruct (x_subs (fst (xstep c g o)) w) as [u|] eqn:E; [|contradiction]. clear H.
  destruct (x_subs g w) as [u0|] eqn:E0; [left; discriminate|]. right. left.
  destruct o as [o|k|w'|w' t|w']; cbn [xstep] in E.
  - exfalso. assert (X : x_subs (fst (xstep c g (XOp o))) w = None); [|cbn [xstep] in X; congruence].
    cbn [xstep]. destruct o; try exact E0; try (match goal with |- context [step c (x_sys g) ?o] => destruct (step c (x_sys g) o) end; exact E0).
    destruct (step c (x_sys g) (OCrash w0)). cbn. destruct (string_dec w w0) as [->|]; [apply upd_eq|rewrite upd_neq by auto; exact E0].
  - exfalso. cbn in E. unfold tell_all, tell in E. rewrite E0 in E. discriminate.
  - destruct (x_subs g w') eqn:E1; [cbn in E; congruence|]. cbn in E. destruct (string_dec w w') as [->|]; [reflexivity|]. rewrite upd_neq in E by auto. congruence.
  - exfalso. destruct (x_subs g w') as [u1|] eqn:E1; [|cbn in E; congruence].
    assert (Nw : w <> w') by congruence.
    destruct (match sub_call u1 t with Some o => step c (x_sys g) o | None => (x_sys g, ODone) end) as [s r]. cbn in E.
    destruct (u_pc u1); unfold tell_all, tell in E; rewrite upd_neq in E by auto; rewrite E0 in E; discriminate.
  - exfalso. cbn in E. destruct (string_dec w w') as [->|]; [rewrite upd_eq in E; discriminate|]. rewrite upd_neq in E by auto. congruence.
Qed.

(** Checking histories of the joint machine by computation. *)
Fixpoint xalongb (c : cfg) (P : xsys -> xop -> bool) (g : xsys) (l : list xop) : bool :=
  match l with [] => true | o :: l => P g o && xalongb c P (fst (xstep c g o)) l end.
Lemma xalongb_sound c (P : xsys -> xop -> Prop) Pb : (forall g o, Pb g o = true -> P g o) ->
  forall l g, xalongb c Pb g l = true -> xalong c P g l.
Proof. intros H. induction l as [|o l IH]; cbn; intros g E; [exact I|]. apply andb_prop in E as [E1 E2]. auto. Qed.

Definition undisturbedb (c : cfg) (k : key) (w : string) (g : xsys) (o : xop) : bool :=
  match o with XEnd w' | XOp (OCrash w') => negb (String.eqb w' w) | _ => true end &&
  match performed g o with Some o' => match o' with OAdd a _ | OReplace a _ => negb (String.eqb (a_key a) k) | _ => true end && keepsb c k (x_sys g) o' | None => true end.
Lemma undisturbedb_sound c k w g o : undisturbedb c k w g o = true -> undisturbed_cleanup c k w g o.
Proof.
  unfold undisturbedb. intros H. apply andb_prop in H as [H1 H2]. split; [|split].
  - intros ->. rewrite String.eqb_refl in H1. discriminate.
  - intros ->. rewrite String.eqb_refl in H1. discriminate.
  - intros o' E. rewrite E in H2. apply andb_prop in H2 as [H2 H3]. split; [|now apply keepsb_sound].
    destruct o'; try exact I; cbn; intros Q; rewrite Q, String.eqb_refl in H2; discriminate.
Qed.

(** "b" waits and is cancelled; "w1" is slow; "w2" cleans up first, then dies; "a" ends; at last "w1" comes to
    the message. *)
Definition cl_rest : list xop := [XOp (OCancelFinish "b"); XPublish "x"; XPublish "b"; XGo "w1" 4; XGo "w2" 4; XGo "w2" 4; XGo "w2" 4; XOp (OBodyEnd 0); XGo "w1" 4;
   XOp (OCrash "w2"); XOp (OTerminal 0 SCompleted 5 None None); XOp (ORelease 0 5); XGo "w1" 6; XGo "w1" 6].
Definition cl_gone : xsys := xfinal ex_cfg init_xsys (cl_start ++ [XOp (OCancel "b" 3)]).
Lemma cl_gone_waiter : cancelled_waiter "b" "c" 3 (x_sys cl_gone).
Proof.
  assert (E : (map (fun e => m_key (snd e)) (d_stream (s_db (x_sys cl_gone))), d_parked (s_db (x_sys cl_gone)) "b"%string, map (fun e => (fst e, fst (snd e))) (d_wait (s_db (x_sys cl_gone)))) = (["a"%string], None, [("c"%string, 3)]))
    by (vm_compute; reflexivity).
  assert (E4 : map (fun x => (m_key (x_msg x), match x_phase x with PDone => true | _ => false end)) (s_execs (x_sys cl_gone)) = [("a", false); ("b", true)]%string)
    by (vm_compute; reflexivity).
  assert (E5 : (r_state (rget (s_db (x_sys cl_gone)) "b"), r_wstream (rget (s_db (x_sys cl_gone)) "b"), r_wid (rget (s_db (x_sys cl_gone)) "b")) = (Some SCancelled, Some "c"%string, Some 3))
    by (vm_compute; reflexivity).
  revert E E4 E5. generalize (x_sys cl_gone). intros s E E4 E5. injection E as E1 E2 E3. injection E5 as E5 E6 E7.
  repeat (split; [assumption|]). split.
  - intros p m Hp Hk. destruct p as [i| |cc i]; cbn in Hp.
    + apply (in_map (fun e => m_key (snd e))) in Hp. rewrite E1 in Hp. destruct Hp as [Hp|[]]. cbn in Hp. congruence.
    + rewrite Hk, E2 in Hp. discriminate.
    + apply (in_map (fun e => (fst e, fst (snd e)))) in Hp. rewrite E3 in Hp. destruct Hp as [Hp|[]]. cbn in Hp. congruence.
  - intros x Hx Hk. apply (in_map (fun x => (m_key (x_msg x), match x_phase x with PDone => true | _ => false end))) in Hx. rewrite E4, Hk in Hx.
    destruct (x_phase x); [| | | | |reflexivity]; destruct Hx as [Hx|[Hx|[]]]; discriminate Hx.
Qed.
Lemma cl_gone_subs w u : x_subs cl_gone w = Some u -> u = mkSub [] XIdle.
Proof.
  intros Hu. assert (Hn : x_subs cl_gone w <> None) by (rewrite Hu; discriminate). apply subs_names in Hn as [Hn|Hn]; [now destruct Hn|].
  assert (E1 : x_subs cl_gone "w1"%string = Some (mkSub [] XIdle)) by (vm_compute; reflexivity).
  assert (E2 : x_subs cl_gone "w2"%string = Some (mkSub [] XIdle)) by (vm_compute; reflexivity).
  revert Hu E1 E2. generalize cl_gone. intros g Hu E1 E2.
  repeat (destruct Hn as [Hn|Hn]; [try discriminate Hn; injection Hn as <-; congruence|]). contradiction.
Qed.
Example C108_cleaned_case : ~ not_waiting "b" (x_sys cl_gone) /\ not_waiting "b" (x_sys (xfinal ex_cfg cl_gone cl_rest)).
Proof.
  split.
  - intros H. apply (H "c"%string 3 (mkMsg "b" 0 "g" "old" "" 1 2)); [vm_compute; auto|reflexivity].
  - destruct (C108_cleaned_partial ex_cfg "b" "c" 3 "w1" cl_gone cl_rest) as (u & Hu & H).
    + exists (cl_start ++ [XOp (OCancel "b" 3)]). reflexivity.
    + discriminate.
    + exact cl_gone_waiter.
    + intros w' u c' i' Hu Hp. apply cl_gone_subs in Hu. subst u. discriminate.
    + assert (E : x_subs cl_gone "w1"%string = Some (mkSub [] XIdle)) by (vm_compute; reflexivity). rewrite E. discriminate.
    + refine (xalongb_sound _ _ _ (undisturbedb_sound _ _ _) _ _ _). vm_compute. reflexivity.
    + unfold cl_rest. cbn. auto.
    + assert (E : x_subs (xfinal ex_cfg cl_gone cl_rest) "w1"%string = Some (mkSub [] XIdle)) by (vm_compute; reflexivity).
      revert Hu H E. generalize (xfinal ex_cfg cl_gone cl_rest). intros g' Hu H E. rewrite E in Hu. injection Hu as <-. apply H; [intros []|].
      intros (u & Hu & B). rewrite E in Hu. injection Hu as <-. exact B.
Qed.

(** "b" is added while both subscribers still have the cancellation of "x" before them. *)
Definition peaceb (c : cfg) (k : key) (g : xsys) (o : xop) : bool :=
  match o with XPublish k' => negb (String.eqb k' k) | XOp o' => no_callsb k o' | _ => true end &&
  match performed g o with Some o' => keepsb c k (x_sys g) o' && no_staleb k (x_sys g) o' && nofinishb k (x_sys g) o' | None => true end.
Lemma peaceb_sound c k g o : peaceb c k g o = true -> left_in_peace c k g o.
Proof.
  unfold peaceb. intros H. apply andb_prop in H as [H1 H2]. split; [|split].
  - intros ->. rewrite String.eqb_refl in H1. discriminate.
  - intros o' ->. now apply no_callsb_sound.
  - intros o' E. rewrite E in H2. rewrite !andb_true_iff in H2. destruct H2 as [[H2 H3] H4].
    split; [now apply keepsb_sound|]. split; [now apply no_staleb_sound|now apply nofinishb_sound].
Qed.
Definition cl_before : list xop :=
  [XSubscribe "w1"; XSubscribe "w2"; XOp (OAdd (mkCall "a" 0 "f" "" "") 0); XOp (OAdd (mkCall "x" 0 "g" "old" "") 0);
   XOp (ORead "w1"); XOp (OClaim 0 1); XOp (OAcquire 0 "c" 1 1); XOp (OBodyStart 0);
   XOp (ORead "w2"); XOp (OClaim 1 2); XOp (OAcquire 1 "c" 1 2); XOp (OCancel "x" 3); XOp (OCancelFinish "x"); XPublish "x"; XGo "w1" 3].
Definition cl_peace : list xop := [XOp (ORead "w2"); XOp (OClaim 2 5); XOp (OAcquire 2 "c" 1 5)] ++ cl_pass "w1" 6 ++ cl_pass "w2" 6 ++ [XOp (OCrash "w2")] ++ cl_pass "w1" 7.
Example C108_not_lost_case : let g := xfinal ex_cfg init_xsys cl_before in let a := mkCall "b" 0 "g" "new" "" in
  let g' := xfinal ex_cfg (fst (xstep ex_cfg g (XOp (OAdd a 4)))) cl_peace in
  map (fun e => m_key (snd (snd e))) (d_wait (s_db (x_sys g'))) = ["b"%string] /\ exists m, m_key m = "b"%string /\ carries a m /\ stored (x_sys g') m /\ live (x_sys g') m.
Proof.
  intros g a g'. split; [vm_compute; reflexivity|]. apply (C108_not_lost_partial ex_cfg "b" g a 4 cl_peace).
  - exists cl_before. split; [|reflexivity]. refine (xalongb_sound _ _ (fun g o => match performed g o with Some o' => keepsb ex_cfg "b" (x_sys g) o' | None => true end) _ _ _ _); [|vm_compute; reflexivity].
    intros g0 o E o' Eo. rewrite Eo in E. now apply keepsb_sound.
  - intros k' E. discriminate E.
  - assert (E1 : x_subs g "w1"%string = Some (mkSub [] (XHave "x" "c" 3))) by (vm_compute; reflexivity).
    assert (E2 : x_subs g "w2"%string = Some (mkSub ["x"%string] XIdle)) by (vm_compute; reflexivity).
    intros w u Hu. assert (E : u = mkSub [] (XHave "x" "c" 3) \/ u = mkSub ["x"%string] XIdle).
    { assert (Hn : x_subs g w <> None) by (rewrite Hu; discriminate). apply subs_names in Hn as [Hn|Hn]; [now destruct Hn|].
      clearbody g. repeat (destruct Hn as [Hn|Hn]; [try discriminate Hn; injection Hn as <-; rewrite ?E1, ?E2 in Hu; injection Hu as <-; auto|]). contradiction. }
    clear E1 E2. clearbody g. destruct E as [->|E]; [split; [intros []|]|subst u; split; [intros [E|[]]; discriminate|]];
      intros (u & E & B); rewrite Hu in E; injection E as <-; [discriminate B|exact B].
  - reflexivity.
  - vm_compute. reflexivity.
  - assert (E3 : map (fun e => m_key (snd (snd e))) (d_wait (s_db (x_sys g))) = ["x"%string]) by (vm_compute; reflexivity).
    clearbody g. intros cc i m Hi Hk. apply (in_map (fun e => m_key (snd (snd e)))) in Hi. rewrite E3 in Hi. destruct Hi as [Hi|[]]. cbn in Hi. congruence.
  - intros a' t' _ _. vm_compute. reflexivity.
  - refine (xalongb_sound _ _ _ (peaceb_sound _ _) _ _ _). vm_compute. reflexivity.
Qed.
