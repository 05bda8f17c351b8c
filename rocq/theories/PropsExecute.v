(** C58, C59, C60, C61: what one execution does. *)
From Verif Require Import Base Execute SpecExecute ExecuteProofs.

(** C58.  A delivered message gets exactly one outcome.
    [partial]: as long as nothing but the task itself goes wrong, no exit of a
    dependency raises or hides AdmissionBlocked, and at most one gate blocks. *)
Theorem C58_one_outcome_partial e :
  calm e -> no_exit_raises e -> blocks_not_suppressed e -> one_gate e ->
  exists v, outcomes (fst (whole e)) = [v] /\ snd (whole e) = None.
Proof. exact (whole_one e). Qed.
Print Assumptions C58_one_outcome_partial.

(** And it is the outcome of what the body did. *)
Theorem C58_right_outcome_partial e :
  calm e -> exits_transparent e -> e_struck e = false -> e_claim e = true -> e_stop e = None ->
  (forall x, ~ In (DFailed x) (e_deps e)) ->
  match e_body e with
  | BReturn _ => outcomes (fst (whole e)) = [ECompleted]
  | BRaise XCancelled => outcomes (fst (whole e)) = [ECancelled]
  | BRaise x =>
      ((exists h, handler_of e h) -> (forall h, handler_of e h -> h x = FRetry) -> outcomes (fst (whole e)) = [ERetried])
      /\ ((forall h, handler_of e h -> h x <> FRetry) -> outcomes (fst (whole e)) = [EFailed])
  end.
Proof.
  intros C T A A' ST F.
  assert (F' : failures (e_deps e) = []).
  { destruct (failures (e_deps e)) as [|x xs] eqn:E; [easy|]. destruct (F x).
    apply failures_in. rewrite E. now left. }
  pose proof (whole_plain e C T A A' ST F') as W.
  assert (Q : forall x,
    (retries (e_deps e) x -> outcomes (fst (whole e)) = [ERetried]) /\ (~ retries (e_deps e) x -> outcomes (fst (whole e)) = [EFailed]) ->
    ((exists h, handler_of e h) -> (forall h, handler_of e h -> h x = FRetry) -> outcomes (fst (whole e)) = [ERetried])
      /\ ((forall h, handler_of e h -> h x <> FRetry) -> outcomes (fst (whole e)) = [EFailed])).
  { intros x [W1 W2]. split.
    - intros (h & ch & y & I) L. apply W1. unfold retries.
      destruct (failure_handler (e_deps e)) as [g|] eqn:G.
      + exists g. split; [easy|]. apply L. exact (failure_handler_in _ _ G).
      + exfalso. clear - I G. induction (e_deps e) as [|d l IH]; [exact I|].
        destruct I as [->|I]; [discriminate|]. apply IH; [exact I|]. destruct d as [[k|] ? ?|?|?]; cbn in G; try easy.
    - intros L. apply W2. intros (h & G & R). exact (L h (failure_handler_in _ _ G) R). }
  destruct (e_body e) as [v|[h r| | |n p]]; try exact W; try exact (Q _ W).
Qed.
Print Assumptions C58_right_outcome_partial.

(** An execution with a Retry and a dependency that cleans up. *)
Definition through (o : option exn) : xres := Through.
Definition retry_dep (n : fres) : dep := DParam (Some (fun _ => n)) None through.
Definition ex_env (ds : list dep) (b : body) : env := mkEnv false true ds None b true None.

Example C58_one_outcome_example :
  let e := ex_env [retry_dep FRetry; DAnnot through] (BRaise (XErr "ValueError" true)) in
  calm e /\ no_exit_raises e /\ blocks_not_suppressed e /\ one_gate e /\ exits_transparent e
  /\ outcomes (fst (whole e)) = [ERetried].
Proof.
  cbn. split; [|split; [|split; [|split; [|split]]]].
  - split; [|split; [reflexivity|split; [now intros _|split; [now left|]]]].
    + intros fh ch x [E|[E|[]]]; inversion E; subst. split; intros h H; inversion H; subst; discriminate.
    + intros x [E|[E|[]]]; discriminate.
  - intros d x [<-|[<-|[]]] ->; discriminate.
  - intros d x [<-|[<-|[]]] ->; discriminate.
  - split; [cbn; apply Nat.le_0_l|easy].
  - intros d x [<-|[<-|[]]] ->; reflexivity.
  - reflexivity.
Qed.

(** The full statement fails.  A dependency whose clean-up raises after the task was
    marked as completed: the run is completed, and it is retried as well. *)
Definition cleanup_fails (o : option exn) : xres := Throw (XErr "OSError" true).
Theorem C58_cleanup_raises_refuted :
  exists e, calm e /\ blocks_not_suppressed e /\ one_gate e
    /\ outcomes (fst (whole e)) = [ECompleted; ERetried].
Proof.
  exists (ex_env [retry_dep FRetry; DParam None None cleanup_fails] (BReturn None)).
  split; [|split; [|split]].
  - split; [|split; [reflexivity|split; [discriminate|split; [now left|]]]].
    + intros fh ch x [E|[E|[]]]; inversion E; subst; split; intros h H; inversion H; subst; discriminate.
    + intros x [E|[E|[]]]; discriminate.
  - intros d x [<-|[<-|[]]] ->; discriminate.
  - split; [cbn; apply Nat.le_0_l|easy].
  - reflexivity.
Qed.
Print Assumptions C58_cleanup_raises_refuted.

(** Two gates that block at the same time: the dependencies are all entered before the
    first failure is looked at, so the task waits in a concurrency line and is dropped. *)
Theorem C58_two_gates_refuted :
  exists e, calm e /\ exits_transparent e
    /\ outcomes (fst (whole e)) = [EParked; EDropped].
Proof.
  exists (ex_env [DFailed (XBlocked false false); DFailed (XBlocked true true)] (BReturn None)).
  split; [|split].
  - split; [|split; [reflexivity|split; [discriminate|split; [now left|]]]].
    + intros fh ch x [E|[E|[]]]; discriminate.
    + intros x [E|[E|[]]]; inversion E; subst; exact Logic.I.
  - intros d x [<-|[<-|[]]] [].
  - reflexivity.
Qed.
Print Assumptions C58_two_gates_refuted.

(** A task that waits in a concurrency line and is then cancelled while its next
    dependency is entered is marked as cancelled, and still waits in the line. *)
Theorem C58_cancelled_while_entering_refuted :
  exists e, calm e /\ exits_transparent e /\ outcomes (fst (whole e)) = [EParked; ECancelled].
Proof.
  exists (mkEnv false true [DFailed (XBlocked true true)] (Some XCancelled) (BReturn None) true None).
  split; [|split].
  - split; [|split; [reflexivity|split; [discriminate|split; [now right|]]]].
    + intros fh ch x [E|[]]; discriminate.
    + intros x [E|[]]; inversion E; subst; exact Logic.I.
  - intros d x [<-|[]] [].
  - reflexivity.
Qed.
Print Assumptions C58_cancelled_while_entering_refuted.

(** An exception that cannot be pickled: no outcome at all. *)
Theorem C58_no_outcome_refuted :
  exists e, exits_transparent e /\ handlers_answer e /\ storage_works e
    /\ outcomes (fst (whole e)) = [].
Proof.
  exists (ex_env [] (BRaise (XErr "Unpicklable" false))).
  split; [|split; [|split; reflexivity]].
  - intros d x [].
  - intros fh ch x [].
Qed.
Print Assumptions C58_no_outcome_refuted.

(** C59.  A run whose body has returned is not retried.
    [partial]: as long as its value can be pickled and stored, completion handlers
    answer and no exit of a dependency raises. *)
Theorem C59_returned_not_retried_partial e v :
  handlers_answer e -> storage_works e -> (e_ttl e = true -> v <> Some false) -> no_exit_raises e ->
  e_body e = BReturn v -> In EBody (fst (whole e)) ->
  outcomes (fst (whole e)) = [ECompleted] /\ ~ In KFailed (fst (whole e)).
Proof. exact (whole_returned e v). Qed.
Print Assumptions C59_returned_not_retried_partial.

Example C59_returned_example :
  let e := ex_env [retry_dep FRetry; DAnnot (fun o => match o with Some _ => Suppress | None => Through end)] (BReturn (Some true)) in
  handlers_answer e /\ no_exit_raises e /\ In EBody (fst (whole e))
  /\ fst (whole e) = [KStarted; KRunning 1; EBody; KSucceeded; EPut; ECompleted; KRunning (-1); KFinished].
Proof.
  cbn. split; [|split; [|split; [tauto|reflexivity]]].
  - intros fh ch x [E|[E|[]]]; inversion E; subst; split; intros h H; inversion H; subst; discriminate.
  - intros d x [<-|[<-|[]]] -> [o|] y; discriminate.
Qed.

(** The full statement fails: a value that cannot be pickled makes the successful run
    count as failed, and its body is run again. *)
Theorem C59_unpicklable_value_refuted :
  exists e v, e_body e = BReturn v /\ exits_transparent e /\ handlers_answer e /\ storage_works e
    /\ In EBody (fst (whole e)) /\ In KSucceeded (fst (whole e)) /\ In KFailed (fst (whole e))
    /\ outcomes (fst (whole e)) = [ERetried].
Proof.
  exists (ex_env [retry_dep FRetry] (BReturn (Some false))), (Some false).
  split; [reflexivity|]. split; [|split; [|split; [reflexivity|]]].
  - intros d x [<-|[]] ->. reflexivity.
  - intros fh ch x [E|[]]; inversion E; subst; split; intros h H; inversion H; subst; discriminate.
  - vm_compute. intuition.
Qed.
Print Assumptions C59_unpicklable_value_refuted.

(** So does a result storage that refuses, for example because execution_ttl is below
    one second (worker.py:1144 passes 0, _result_store.py:103-104 SET ... EX 0). *)
Theorem C59_storage_refuses_refuted :
  exists e v, e_body e = BReturn v /\ exits_transparent e /\ handlers_answer e
    /\ v = Some true /\ outcomes (fst (whole e)) = [ERetried].
Proof.
  exists (mkEnv false true [retry_dep FRetry] None (BReturn (Some true)) true (Some (XErr "ResponseError" true))), (Some true).
  split; [reflexivity|]. split; [|split; [|split; reflexivity]].
  - intros d x [<-|[]] ->. reflexivity.
  - intros fh ch x [E|[]]; inversion E; subst; split; intros h H; inversion H; subst; discriminate.
Qed.
Print Assumptions C59_storage_refuses_refuted.

(** C60.  No task ends its worker.
    [partial]: as long as every exception raised by the body, by entering or by
    leaving a dependency can be pickled and is no other BaseException, handlers answer
    and result storage works. *)
Theorem C60_worker_goes_on_partial e :
  handlers_answer e -> storage_works e ->
  (forall x, e_body e = BRaise x -> survivable e x) ->
  (forall x, e_stop e = Some x -> survivable e x) ->
  (forall x, In (DFailed x) (e_deps e) -> match x with XBlocked _ _ => True | _ => storable e x end) ->
  (forall d x, In d (e_deps e) -> exit_of d x -> forall o y, x o = Throw y -> survivable e y) ->
  survives e.
Proof. exact (whole_survives e). Qed.
Print Assumptions C60_worker_goes_on_partial.

(** Then every finished task is settled, whatever the others did. *)
Theorem C60_all_settled_partial l :
  Forall survives l -> process l = (map (fun e => fst (whole e)) l, [], None).
Proof. exact (process_all l). Qed.
Print Assumptions C60_all_settled_partial.

Example C60_worker_goes_on_example :
  let e := ex_env [retry_dep FDecline; DParam None None cleanup_fails] (BRaise XCancelled) in
  survives e /\ fst (whole e) = [KStarted; KRunning 1; EBody; KFailed; EPut; EFailed; KRunning (-1); KFinished].
Proof. now split. Qed.

(** The full statement fails: a task that raises an exception which cannot be pickled
    ends the worker, the message stays unacknowledged, and the finished tasks behind it
    are not settled. *)
Theorem C60_unpicklable_exception_refuted :
  exists e x, e_body e = BRaise (XErr "Unpicklable" false) /\ e_deps e = [] /\ storage_works e
    /\ snd (whole e) = Some x /\ outcomes (fst (whole e)) = []
    /\ forall l1 l2, Forall survives l1 ->
         process (l1 ++ e :: l2) = (map (fun e => fst (whole e)) (l1 ++ [e]), l2, Some x).
Proof.
  exists (ex_env [] (BRaise (XErr "Unpicklable" false))), (XErr "PicklingError" true).
  split; [reflexivity|]. split; [reflexivity|]. split; [reflexivity|]. split; [reflexivity|]. split; [reflexivity|].
  intros l1 l2 F. now apply process_stops.
Qed.
Print Assumptions C60_unpicklable_exception_refuted.

(** So does a failure handler that raises. *)
Theorem C60_handler_raises_refuted :
  exists e x, e_body e = BRaise (XErr "ValueError" true) /\ storage_works e /\ exits_transparent e
    /\ snd (whole e) = Some x /\ outcomes (fst (whole e)) = [].
Proof.
  exists (ex_env [retry_dep (FThrow (XErr "TypeError" true))] (BRaise (XErr "ValueError" true))), (XErr "TypeError" true).
  split; [reflexivity|]. split; [reflexivity|]. split; [|split; reflexivity].
  intros d x [<-|[]] ->. reflexivity.
Qed.
Print Assumptions C60_handler_raises_refuted.

(** C61.  The counters of started and finished runs agree and the gauge of running
    tasks returns to where it was, whatever the execution does. *)
Theorem C61_counters_balance e :
  total_running (fst (whole e)) = 0
  /\ times is_started (fst (whole e)) = times is_finished (fst (whole e))
  /\ times is_started (fst (whole e)) = (if e_struck e then 0 else if e_claim e then 1 else 0)%nat.
Proof. exact (whole_counts e). Qed.
Print Assumptions C61_counters_balance.

Theorem C61_counters_balance_worker l :
  let '(vs, _, _) := process l in
  total_running (concat vs) = 0
  /\ times is_started (concat vs) = times is_finished (concat vs).
Proof.
  induction l as [|e l IH]; cbn; [easy|].
  pose proof (whole_counts e) as (A & B & _). destruct (whole e) as [v [x|]]; cbn [fst] in A, B.
  - cbn [concat]. rewrite app_nil_r. easy.
  - destruct (process l) as [[vs rest] o]. cbn [concat]. rewrite running_app, !times_app.
    destruct IH as [C D]. rewrite A, C, B, D. easy.
Qed.
Print Assumptions C61_counters_balance_worker.

Example C61_example :
  fst (whole (ex_env [] (BRaise XBase))) = [KStarted; KRunning 1; EBody; KRunning (-1); KFinished]
  /\ snd (whole (ex_env [] (BRaise XBase))) = Some XBase.
Proof. now split. Qed.
