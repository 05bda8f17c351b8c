(** C99: cancel_task; C100: how a run past its deadline ends. *)
From Verif Require Import Base CancelTask.

Section Any.
Variable B : Type.
Variable next : B -> resume -> action B.
Notation world := (world B).
Notation crun := (crun B next).
Notation cstep := (cstep B next).

(** How the inner task ended, if it is over. *)
Definition over (w : world) (r : iend) : Prop := w_in B w = IDone B r.
Definition is_outer (e : cev) : bool := match e with ECancelOuter _ => true | _ => false end.

Lemma cancel_inner_out w m : w_out B (fst (cancel_inner B w m)) = w_out B w /\ w_omust B (fst (cancel_inner B w m)) = w_omust B w /\
  (snd (cancel_inner B w m) = false <-> exists r, over w r) /\ (forall r, over (fst (cancel_inner B w m)) r <-> over w r).
Proof.
  unfold cancel_inner, over. destruct (w_in B w) as [b|b [] [r|]|r] eqn:E; cbn; rewrite ?E; repeat split; try discriminate; try tauto;
    try (intros [r0 H0]; discriminate H0); try (intros; discriminate); eauto.
Qed.
Lemma begin_out new reason w : w_out B w = None ->
  (w_out B (begin B new reason w) = None /\ (forall r, ~ over (begin B new reason w) r) /\ w_omust B (begin B new reason w) = None /\ forall r, ~ over w r) \/
  (exists r, over w r /\ over (begin B new reason w) r /\ w_out B (begin B new reason w) = Some (finish new reason r None)).
Proof.
  intros N. unfold begin. destruct (cancel_inner_out w (Some reason)) as (A & M & _ & D). revert A M D. destruct (cancel_inner B w (Some reason)) as [w1 b1]. cbn [fst].
  intros A M D. cbv zeta. unfold over in D. destruct (w_in B w1) as [b|b p f|r] eqn:E.
  3: { right. exists r. cbn. split; [apply D; reflexivity|]. split; reflexivity. }
  all: left; assert (No : forall r, ~ over w r) by (intros r H; apply D in H; discriminate);
    destruct (w_omust B w1) as [m|] eqn:F; [|repeat split; try congruence; intros r H; unfold over in H; congruence];
    destruct (cancel_inner_out w1 m) as (A2 & M2 & _ & D2); cbn; repeat split; try congruence; try exact No;
    intros r H; apply D2 in H; unfold over in H; congruence.
Qed.

(** The invariant of a waiting cancel_task and of one that is over. *)
Definition Ended (new : bool) (reason : string) (l : list cev) (w : world) : Prop :=
  match w_out B w with
  | None => forall m, w_omust B w = Some m -> (exists r, over w r) /\ In (ECancelOuter m) l
  | Some o => exists r must, over w r /\ o = finish new reason r must /\ forall m, must = Some m -> In (ECancelOuter m) l
  end.
Lemma over_kept w r w' : over w r -> w_in B w' = w_in B w -> over w' r. Proof. unfold over. congruence. Qed.
Lemma step_inner_out w : w_out B (step_inner B next w) = w_out B w /\ w_omust B (step_inner B next w) = w_omust B w /\ forall r, over w r -> over (step_inner B next w) r.
Proof. unfold step_inner, over. destruct (w_in B w) as [b|b p [r|]|r] eqn:E; cbn; try (repeat split; congruence). destruct (w_imust B w); repeat split; try discriminate. Qed.
Lemma Ended_step new reason l w e : Ended new reason l w -> Ended new reason (l ++ [e]) (cstep new reason w e).
Proof.
  assert (Sub : forall m, In (ECancelOuter m) l -> In (ECancelOuter m) (l ++ [e])) by (intros; apply in_or_app; auto).
  intros H. unfold cstep. unfold Ended in H. destruct (w_out B w) as [o|] eqn:E.
  { unfold Ended. rewrite E. destruct H as (r & must & A & O & C). exists r, must. repeat split; auto. }
  destruct e as [r| | |m|m].
  - unfold Ended. destruct (w_in B w) as [b|b p [f|]|d] eqn:I; rewrite ?E; cbn; try rewrite E; intros m Hm; destruct (H m Hm) as [[r0 R] C]; unfold over in *; try congruence; split; eauto.
  - destruct (step_inner_out w) as (A & M & K). unfold Ended. rewrite A, E, M. intros m Hm. destruct (H m Hm) as [[r0 R] C]. split; eauto.
  - unfold Ended. destruct (w_in B w) as [b|b p f|d] eqn:I; rewrite ?E; cbn; try (intros m Hm; destruct (H m Hm) as [[r0 R] C]; unfold over in *; congruence).
    exists d, (w_omust B w). split; [reflexivity|]. split; [reflexivity|]. intros m Hm. apply Sub. now apply H.
  - destruct (cancel_inner_out w m) as (A & M & F & K). destruct (cancel_inner B w m) as [w' []]; cbn [fst snd] in *.
    + unfold Ended. rewrite A, E, M. intros m0 Hm. destruct (H m0 Hm) as [[r0 R] C]. split; [exists r0; now apply K|auto].
    + unfold Ended. cbn. rewrite A, E. intros m0 [= <-]. destruct (proj1 F eq_refl) as [r0 R]. split; [exists r0; apply K in R; exact R|]. apply in_or_app. cbn. auto.
  - destruct (cancel_inner_out w m) as (A & M & F & K). unfold Ended. rewrite A, E, M. intros m0 Hm. destruct (H m0 Hm) as [[r0 R] C]. split; [exists r0; now apply K|auto].
Qed.
Lemma Ended_run new reason w l : w_out B w = None -> Ended new reason l (crun new reason w l).
Proof.
  intros N. unfold CancelTask.crun. enough (H : forall l2 l1 v, Ended new reason l1 v -> Ended new reason (l1 ++ l2) (fold_left (cstep new reason) l2 v)).
  { apply (H l []). destruct (begin_out new reason w N) as [(A & D & M & _)|(r & _ & R & O)]; unfold Ended; [rewrite A, M; discriminate|rewrite O]. exists r, None. repeat split; auto. discriminate. }
  induction l2 as [|e l2 IH]; intros l1 v H; [now rewrite app_nil_r|]. cbn. replace (l1 ++ e :: l2) with ((l1 ++ [e]) ++ l2) by (rewrite <- app_assoc; reflexivity). apply IH. now apply Ended_step.
Qed.

(** ** C99: cancel_task suppresses its own cancellation and nothing else *)

(** It is over only when the task is. *)
Theorem C99_waits new reason w l o : w_out B w = None -> w_out B (crun new reason w l) = Some o -> exists r, over (crun new reason w l) r.
Proof. intros N E. pose proof (Ended_run new reason w l N) as H. unfold Ended in H. rewrite E in H. destruct H as (r & _ & R & _). eauto. Qed.

(** What the task is given next is this cancellation: one that has not started never does, one that waits for a
    plain future, or was about to go on with something that is not a cancellation already, is resumed with it. *)
Theorem C99_stops new reason w : w_out B w = None -> w_omust B w = None -> w_imust B w = None ->
  let w' := crun new reason w [EInner] in
  match w_in B w with
  | INew _ _ => over w' (DCancelled (Some reason))
  | IWait _ b true None | IWait _ b _ (Some RVal) | IWait _ b _ (Some (RExc _)) =>
      match next b (RCancel (Some reason)) with
      | ARet _ => over w' DRet | ARaise _ e => over w' (DRaise e) | ACancelled _ m => over w' (DCancelled m) | AAwait _ b' p => w_in B w' = IWait B b' p None
      end
  | _ => True
  end.
Proof.
  destruct w as [i im om o]. cbn [w_out w_omust w_imust w_in]. intros -> -> ->. destruct i as [b|b [] [[|m|e]|]|r]; cbn; auto; try reflexivity;
    destruct (next b (RCancel (Some reason))); reflexivity.
Qed.

(** Nobody cancels the caller: it returns if the task returned or ended cancelled for the
    reason given; any other end of the task reaches the caller - on Python 3.10, which does not
    tell the reasons apart, no cancellation does. *)
Theorem C99_outcome_partial new reason w l o : w_out B w = None -> existsb is_outer l = false -> w_out B (crun new reason w l) = Some o ->
  exists r, over (crun new reason w l) r /\
    o = match r with DRet => OReturn | DRaise e => ORaise e
        | DCancelled m => if negb new then OReturn else match m with Some x => if String.eqb x reason then OReturn else OCancelled m | None => OCancelled m end end.
Proof.
  intros N X E. pose proof (Ended_run new reason w l N) as H. unfold Ended in H. rewrite E in H. destruct H as (r & must & R & O & C). exists r. split; [exact R|].
  assert (must = None) as ->.
  { destruct must as [m|]; [|reflexivity]. exfalso. specialize (C m eq_refl). assert (Y : existsb is_outer l = true) by (apply existsb_exists; exists (ECancelOuter m); auto). congruence. }
  rewrite O. destruct r as [|e|m]; try reflexivity. cbn. unfold caught, is_ours. destruct m as [x|]; destruct new; cbn; try reflexivity; destruct (String.eqb x reason); reflexivity.
Qed.

(** The caller sees a CancelledError only on 3.11 or later, never the one cancel_task caused, and
    only if the task ended with it or somebody cancelled the caller with it. *)
Theorem C99_cancelled_only new reason w l m : w_out B w = None -> w_out B (crun new reason w l) = Some (OCancelled m) ->
  new = true /\ m <> Some reason /\ (over (crun new reason w l) (DCancelled m) \/ In (ECancelOuter m) l).
Proof.
  intros N E. pose proof (Ended_run new reason w l N) as H. unfold Ended in H. rewrite E in H. destruct H as (r & must & R & O & C).
  assert (K : forall x, OCancelled m = caught new reason x -> new = true /\ m <> Some reason /\ m = x).
  { intros x. unfold caught, is_ours. destruct x as [x|]; [destruct (String.eqb_spec x reason)|]; destruct new; cbn; try discriminate; intros [= ->]; repeat split; congruence. }
  destruct r as [|e|x]; cbn in O; [destruct must as [y|]; [|discriminate]..|].
  1,2: destruct (K y O) as (K1 & K2 & ->); auto.
  destruct (K x O) as (K1 & K2 & ->). auto.
Qed.

(** A cancel of the caller is heard when the task is already over (unless it ended cancelled),
    and when the task, cleaning up, waits for a plain future and then ends with the cancellation it is given. *)
Theorem C99_heard_partial reason w m : w_out B w = None -> m <> Some reason ->
  (over w DRet \/ (exists e, over w (DRaise e))) \/ (exists b, w_in B w = IWait B b true None /\ w_imust B w = None /\ w_omust B w = None /\ next b (RCancel m) = ACancelled B m) ->
  w_out B (fold_left (cstep true reason) [ECancelOuter m; EInner; EOuter] w) = Some (OCancelled m).
Proof.
  intros N Hm H. assert (K : is_ours m reason = false) by (destruct m as [x|]; [|reflexivity]; cbn; apply String.eqb_neq; congruence).
  destruct w as [i im om o]. cbn in N. subst o. destruct H as [[H|[e H]]|(b & H & H2 & H3 & H4)]; unfold over in H; cbn in *; subst.
  1,2: cbn; unfold caught; rewrite K; reflexivity.
  cbn. rewrite H4. cbn. unfold caught. rewrite K. reflexivity.
Qed.

(** A task that waits for a plain future and ends with the cancellation it is given: whoever
    else cancels the caller meanwhile, and however often, cancel_task returns as if nobody had. *)
Lemma transparent_run new reason w l b : w_out B w = None -> w_in B w = IWait B b true None -> w_imust B w = None ->
  next b (RCancel (Some reason)) = ACancelled B (Some reason) ->
  w_out B (crun new reason w l) = None \/ w_out B (crun new reason w l) = Some OReturn.
Proof.
  intros N I M T. unfold CancelTask.crun.
  assert (H : forall l v, (w_out B v = None /\ (w_in B v = IWait B b true (Some (RCancel (Some reason))) \/ over v (DCancelled (Some reason)))) \/ w_out B v = Some OReturn ->
     w_out B (fold_left (cstep new reason) l v) = None \/ w_out B (fold_left (cstep new reason) l v) = Some OReturn).
  { clear - T. induction l as [|e l IH]; intros v H; [destruct H as [[H _]|H]; auto|]. cbn. apply IH. clear IH. unfold CancelTask.cstep. destruct H as [[O H]|O]; rewrite O; [|auto].
    destruct H as [H|H]; unfold over in *; destruct e; unfold cancel_inner, step_inner; rewrite ?H; cbn; auto.
    - left. split; [exact O|]. right. unfold resumed. destruct (w_imust B v); rewrite T; reflexivity.
    - right. unfold caught, is_ours. rewrite String.eqb_refl. reflexivity. }
  apply H. left. unfold begin, cancel_inner. rewrite I. cbn. destruct (w_omust B w); cbn; auto.
Qed.

(** ** C100: past its deadline a run ends as timed out, and a cancelled one as cancelled *)

(** Past the deadline and not cancelled: it ends as timed out if the task returned or ended
    with the cancellation; otherwise as the task ended. *)
Theorem C100_timed_out_partial new reason w l t : w_out B w = None -> existsb is_outer l = false -> timeout_run next new reason true w l = Some t ->
  exists r, over (crun new reason w l) r /\
    match r with
    | DRet => t = TTimeout
    | DRaise e => t = TError e
    | DCancelled m => t = TTimeout /\ (new = false \/ m = Some reason) \/ t = TCancelled /\ new = true /\ m <> Some reason
    end.
Proof.
  intros N X E. unfold timeout_run in E. destruct (w_out B (crun new reason w l)) as [o|] eqn:O; [|discriminate]. injection E as <-.
  destruct (C99_outcome_partial new reason w l o N X O) as (r & R & ->). exists r. split; [exact R|]. destruct r as [|e|m]; try reflexivity.
  destruct new; cbn; [|auto]. destruct m as [x|]; [destruct (String.eqb_spec x reason) as [Ex|Nx]; cbn; [left; split; [reflexivity|right; congruence]|]|cbn]; right; repeat split; congruence.
Qed.

(** Cancelled before the deadline: it ends as cancelled, whatever else happens, unless the task ends with an error of its own. *)
Theorem C100_cancelled_partial new reason w l t : w_out B w = None -> timeout_run next new reason false w l = Some t ->
  t = TCancelled \/ exists e, t = TError e /\ over (crun new reason w l) (DRaise e).
Proof.
  intros N E. unfold timeout_run in E. destruct (w_out B (crun new reason w l)) as [o|] eqn:O; [|discriminate]. injection E as <-.
  pose proof (Ended_run new reason w l N) as H. unfold Ended in H. rewrite O in H. destruct H as (r & must & R & F & _). destruct o as [|e|m]; cbn; auto.
  right. exists e. split; [reflexivity|]. destruct r as [|e'|m]; cbn in F; [destruct must..|]; try discriminate; try (unfold caught in F; destruct (is_ours _ _), new; discriminate).
  injection F as ->. exact R.
Qed.
End Any.
Print Assumptions C99_waits.
Print Assumptions C99_stops.
Print Assumptions C99_outcome_partial.
Print Assumptions C99_cancelled_only.
Print Assumptions C99_heard_partial.
Print Assumptions C100_timed_out_partial.
Print Assumptions C100_cancelled_partial.

(** Coroutines used below: they wait for a plain future and, cancelled, [Pass] it on, [Fail] with an error of their own, raise their [Own]
    CancelledError, [Swallow] it and return, or [Clean] up waiting for something first. *)
Inductive co := Pass | Fail | Own | Swallow | Clean | Cleaning.
Definition co_next (b : co) (r : resume) : action co :=
  match r, b with
  | RExc e, _ => ARaise co e
  | RVal, _ => ARet co
  | RCancel m, Fail => ARaise co "ValueError"
  | RCancel m, Own => ACancelled co None
  | RCancel m, Swallow => ARet co
  | RCancel m, Clean => AAwait co Cleaning true
  | RCancel m, (Pass | Cleaning) => ACancelled co m
  end.
Definition waiting_in (b : co) : world co := mkW co (IWait co b true None) None None None.
Definition outcome_of (new : bool) (b : co) (l : list cev) : option oend := w_out co (crun co co_next new "docket:cleanup" (waiting_in b) l).

Example C99_case :
  outcome_of true Pass [EInner; EOuter] = Some OReturn /\
  outcome_of true Fail [EInner; EOuter] = Some (ORaise "ValueError") /\
  outcome_of true Own [EInner; EOuter] = Some (OCancelled None) /\ outcome_of false Own [EInner; EOuter] = Some OReturn /\
  outcome_of true Clean [EInner; EOuter; EFut RVal; EInner; EOuter] = Some OReturn /\
  outcome_of true Clean [EInner; ECancelOuter None; EInner; EOuter] = Some (OCancelled None) /\
  outcome_of true Swallow [EInner; ECancelOuter None; EOuter] = Some (OCancelled None).
Proof. repeat split. Qed.
(** The hypotheses of [C99_heard_partial], in the middle of a cleanup. *)
Example C99_heard_case : let w := crun co co_next true "docket:cleanup" (waiting_in Clean) [EInner] in
  w_out co w = None /\ w_in co w = IWait co Cleaning true None /\ w_imust co w = None /\ w_omust co w = None /\ co_next Cleaning (RCancel (Some "stop")) = ACancelled co (Some "stop").
Proof. repeat split. Qed.

(** A cancel of the caller can be lost: the task waits for a plain future and passes the
    cancellation on; the caller is cancelled after cancel_task has cancelled the task - at whatever moment, any number of
    times - and cancel_task returns as if nothing had happened. *)
Theorem C99_cancel_lost_refuted : forall new l, outcome_of new Pass l = None \/ outcome_of new Pass l = Some OReturn.
Proof. intros new l. unfold outcome_of. apply (transparent_run co co_next new "docket:cleanup" (waiting_in Pass) l Pass); reflexivity. Qed.
Print Assumptions C99_cancel_lost_refuted.
Example C99_lost_cases : outcome_of true Pass [ECancelOuter (Some "shutdown"); EInner; EOuter] = Some OReturn /\ outcome_of true Pass [EInner; ECancelOuter None; EOuter] = Some OReturn.
Proof. split; reflexivity. Qed.
(** On Python 3.10 the caller never hears of its cancellation. *)
Theorem C99_old_python_refuted : outcome_of false Clean [EInner; ECancelOuter (Some "shutdown"); EInner; EOuter] = Some OReturn.
Proof. reflexivity. Qed.
Print Assumptions C99_old_python_refuted.

Definition run_ends (late : bool) (b : co) (l : list cev) : option tend := timeout_run co_next true "Docket task k exceeded timeout of 1.0s" late (waiting_in b) l.
Example C100_case :
  run_ends true Pass [EInner; EOuter] = Some TTimeout /\ run_ends true Swallow [EInner; EOuter] = Some TTimeout /\
  run_ends true Clean [EInner; EFut RVal; EInner; EOuter] = Some TTimeout /\ run_ends false Pass [EInner; EOuter] = Some TCancelled /\
  run_ends false Clean [EInner; ECancelOuter None; EInner; EOuter] = Some TCancelled.
Proof. repeat split. Qed.

(** The run is cancelled (Docket.cancel) while the task past its deadline is being stopped: it ends as
    timed out - a failure, which is retried - instead of cancelled. *)
Theorem C100_cancel_lost_refuted l : run_ends true Pass l = None \/ run_ends true Pass l = Some TTimeout.
Proof.
  unfold run_ends, timeout_run. destruct (transparent_run co co_next true "Docket task k exceeded timeout of 1.0s" (waiting_in Pass) l Pass) as [H|H]; try reflexivity; rewrite H; auto.
Qed.
Print Assumptions C100_cancel_lost_refuted.
Example C100_lost_case : run_ends true Pass [ECancelOuter None; EInner; EOuter] = Some TTimeout. Proof. reflexivity. Qed.
(** A task past its deadline that ends with a CancelledError of its own is recorded as
    cancelled (and not retried); one that fails while it is stopped hides the timeout; and a cancelled one that fails is recorded as failed. *)
Theorem C100_other_ends_refuted : run_ends true Own [EInner; EOuter] = Some TCancelled /\ run_ends true Fail [EInner; EOuter] = Some (TError "ValueError") /\
  run_ends false Fail [EInner; EOuter] = Some (TError "ValueError").
Proof. repeat split. Qed.
Print Assumptions C100_other_ends_refuted.
