(** Lemmas about one execution. *)
From Verif Require Import Base Execute SpecExecute.
From Coq Require Import Lia.

Lemma exits_in l x : In x (exits l) -> exists d, In d l /\ exit_of d x.
Proof.
  induction l as [|d l IH]; cbn; [easy|].
  destruct d as [fh ch y|y|e]; intros H.
  - apply in_app_or in H as [H|[H|[]]].
    + destruct (IH H) as (d & A & B). exists d. auto.
    + exists (DParam fh ch y). split; [now left|now symmetry].
  - apply in_app_or in H as [H|[H|[]]].
    + destruct (IH H) as (d & A & B). exists d. auto.
    + exists (DAnnot y). split; [now left|now symmetry].
  - destruct (IH H) as (d & A & B). exists d. auto.
Qed.

Lemma unwind_through l o : (forall x, In x l -> forall o, x o = Through) -> unwind l o = o.
Proof.
  revert o. induction l as [|x l IH]; intros o H; cbn; [easy|].
  rewrite (H x (or_introl eq_refl)). apply IH. intros y I. apply H. now right.
Qed.

Lemma unwind_no_raise l o :
  (forall x, In x l -> forall o y, x o <> Throw y) -> unwind l o = o \/ unwind l o = None.
Proof.
  revert o. induction l as [|x l IH]; intros o H; cbn; [now left|].
  assert (H' : forall y, In y l -> forall o z, y o <> Throw z) by (intros y I; apply H; now right).
  destruct (x o) eqn:E.
  - now apply IH.
  - destruct (IH None H') as [->| ->]; now right.
  - now destruct (H x (or_introl eq_refl) o e).
Qed.

Lemma unwind_blocked l h r :
  (forall x, In x l -> forall o y, x o <> Throw y) ->
  (forall x, In x l -> forall h r, x (Some (XBlocked h r)) <> Suppress) ->
  unwind l (Some (XBlocked h r)) = Some (XBlocked h r).
Proof.
  intros H S. induction l as [|x l IH]; cbn; [easy|].
  destruct (x (Some (XBlocked h r))) eqn:E.
  - apply IH; [intros y I; apply H; now right|intros y I; apply S; now right].
  - now destruct (S x (or_introl eq_refl) h r).
  - now destruct (H x (or_introl eq_refl) (Some (XBlocked h r)) e).
Qed.

Lemma unwind_none l : (forall x, In x l -> forall o y, x o <> Throw y) -> unwind l None = None.
Proof. intros H. destruct (unwind_no_raise l None H) as [->| ->]; easy. Qed.

(** The handler found is one of a dependency. *)
Lemma failure_handler_in l h : failure_handler l = Some h -> exists ch x, In (DParam (Some h) ch x) l.
Proof.
  induction l as [|d l IH]; cbn; [easy|].
  destruct d as [[g|] ch x|x|e]; intros H.
  - inversion H; subst g. exists ch, x. now left.
  - destruct (IH H) as (c & y & I). exists c, y. now right.
  - destruct (IH H) as (c & y & I). exists c, y. now right.
  - destruct (IH H) as (c & y & I). exists c, y. now right.
Qed.
Lemma completion_handler_in l h : completion_handler l = Some h -> exists fh x, In (DParam fh (Some h) x) l.
Proof.
  induction l as [|d l IH]; cbn; [easy|].
  destruct d as [fh [g|] x|x|e]; intros H.
  - inversion H; subst g. exists fh, x. now left.
  - destruct (IH H) as (c & y & I). exists c, y. now right.
  - destruct (IH H) as (c & y & I). exists c, y. now right.
  - destruct (IH H) as (c & y & I). exists c, y. now right.
Qed.

Lemma failures_in l x : In x (failures l) <-> In (DFailed x) l.
Proof.
  induction l as [|d l IH]; cbn; [easy|].
  destruct d as [fh ch y|y|e]; cbn; rewrite IH; split; intros H.
  - now right. - destruct H as [H|H]; [discriminate|easy].
  - now right. - destruct H as [H|H]; [discriminate|easy].
  - destruct H as [->|H]; [now left|now right].
  - destruct H as [H|H]; [inversion H; now left|now right].
Qed.

(** Parks and blocks. *)
Lemma blocked_find l :
  find is_blocked (failures l) =
  match filter blocked_dep l with DFailed b :: _ => Some b | _ => None end.
Proof.
  induction l as [|d l IH]; cbn; [easy|].
  destruct d as [fh ch y|y|e]; cbn; try apply IH.
  destruct e as [h r| | |n p]; cbn; try apply IH. easy.
Qed.
Lemma entering_filter l :
  entering l = entering (filter blocked_dep l).
Proof.
  induction l as [|d l IH]; cbn; [easy|].
  destruct d as [fh ch y|y|e]; cbn; try apply IH.
  destruct e as [h r| | |n p]; cbn; try apply IH.
  change (flat_map _ l) with (entering l). change (flat_map _ (filter blocked_dep l)) with (entering (filter blocked_dep l)).
  now rewrite IH.
Qed.
Lemma filter_blocked_shape l d : In d (filter blocked_dep l) -> exists h r, d = DFailed (XBlocked h r).
Proof.
  intros H. apply filter_In in H as [_ H].
  destruct d as [fh ch y|y|[h r| | |n p]]; try discriminate. now exists h, r.
Qed.

Lemma outcomes_app l m : outcomes (l ++ m) = outcomes l ++ outcomes m.
Proof. apply filter_app. Qed.

Lemma acks_outcomes l : existsb acks l = false ->
  (forall v, In v l -> v <> EParked) -> outcomes l = [].
Proof.
  induction l as [|v l IH]; cbn; [easy|]. intros A P.
  apply Bool.orb_false_iff in A as [A B].
  assert (R : outcomes l = []) by (apply IH; [exact B|intros w I; apply P; now right]).
  destruct v; cbn in *; try discriminate; try exact R.
  now destruct (P EParked (or_introl eq_refl)).
Qed.

(** The counters: for every execution. *)
Lemma running_app l m : total_running (l ++ m) = total_running l + total_running m.
Proof.
  induction l as [|v l IH]; [reflexivity|].
  change (total_running ((v :: l) ++ m)) with (match v with KRunning n => n + total_running (l ++ m) | _ => total_running (l ++ m) end).
  change (total_running (v :: l)) with (match v with KRunning n => n + total_running l | _ => total_running l end).
  destruct v; rewrite IH; lia.
Qed.
Lemma times_app p l m : times p (l ++ m) = (times p l + times p m)%nat.
Proof. unfold times. now rewrite filter_app, app_length. Qed.

(** Nothing inside counts. *)
Definition quiet (l : list ev) : Prop := forall v, In v l -> match v with KStarted | KFinished | KRunning _ => False | _ => True end.
Lemma quiet_nil : quiet []. Proof. now intros v []. Qed.
Lemma quiet_cons v l : match v with KStarted | KFinished | KRunning _ => False | _ => True end -> quiet l -> quiet (v :: l).
Proof. intros A B w [<-|I]; [exact A|now apply B]. Qed.
Lemma quiet_app l m : quiet l -> quiet m -> quiet (l ++ m).
Proof. intros A B v I. apply in_app_or in I as [I|I]; [now apply A|now apply B]. Qed.
Lemma quiet_counts l : quiet l -> total_running l = 0 /\ times is_started l = O /\ times is_finished l = O.
Proof.
  induction l as [|v l IH]; [easy|]. intros Q.
  assert (R : quiet l) by (intros w I; apply Q; now right). destruct (IH R) as (A & B & C).
  specialize (Q v (or_introl eq_refl)). unfold times in *. destruct v; cbn; easy.
Qed.
Lemma quiet_entering l : quiet (entering l).
Proof.
  intros v I. apply in_flat_map in I as (d & _ & I).
  destruct d as [fh ch y|y|[[|] r| | |n p]]; cbn in I; try easy. destruct I as [<-|[]]. easy.
Qed.
Ltac quiets := repeat first [apply quiet_nil | apply quiet_app | apply quiet_cons; [exact Logic.I|] ].
Lemma quiet_returned e v : quiet (fst (returned e v)).
Proof.
  unfold returned.
  destruct (completion_handler (e_deps e)) as [h|]; [destruct (h None)|];
    destruct v as [[|]|]; destruct (e_ttl e); destruct (e_put e); cbn; quiets.
Qed.
Lemma quiet_inside e : quiet (fst (inside e)).
Proof.
  unfold inside. destruct (dep_failure (e_deps e)); [quiets|].
  destruct (e_body e) as [v|x]; [|cbn; quiets].
  pose proof (quiet_returned e v) as Q. destruct (returned e v). cbn in *. quiets. exact Q.
Qed.
Lemma quiet_mark e x : quiet (fst (mark_failed e x)).
Proof. unfold mark_failed. destruct (e_ttl e), (pickles x), (e_put e); cbn; quiets. Qed.
Lemma quiet_give_up e ds x : quiet (fst (give_up e ds x)).
Proof.
  unfold give_up. pose proof (quiet_mark e x) as Q.
  destruct (completion_handler ds) as [h|]; [destruct (h (Some x))|]; try exact Q; try (cbn; quiets).
  destruct (mark_failed e x). cbn in *. quiets. exact Q.
Qed.
Lemma quiet_failed e ds x : quiet (fst (failed e ds x)).
Proof.
  unfold failed. pose proof (quiet_give_up e ds x) as Q.
  destruct (failure_handler ds) as [h|]; [destruct (h x)|]; try (cbn; quiets);
    destruct (give_up e ds x); cbn in *; quiets; exact Q.
Qed.
Lemma quiet_attempt e l o ds : attempt e = (l, o, ds) -> quiet l.
Proof.
  unfold attempt. pose proof (quiet_inside e) as Q. destruct (e_stop e).
  - intros H. inversion H; subst. apply quiet_entering.
  - destruct (inside e). intros H. inversion H; subst. quiets; [apply quiet_entering|exact Q].
Qed.
Lemma quiet_handled e : quiet (fst (handled e)).
Proof.
  unfold handled. destruct (attempt e) as [[l o] ds] eqn:E. apply quiet_attempt in E.
  destruct o as [[h r| | |n p]|]; cbn; try exact E.
  - quiets. exact E.
  - pose proof (quiet_failed e ds (XErr n p)) as Q. destruct (failed e ds (XErr n p)). cbn in *. quiets; [exact E|exact Q].
Qed.

Lemma settle_counts r p : (p EFailed = false) -> p ERescheduled = false -> p EDropped = false ->
  times p (fst (settle r)) = times p (fst r).
Proof.
  intros A B C. destruct r as [l o]. cbn.
  assert (T : forall v, p v = false -> times p (l ++ [v]) = times p l).
  { intros v V. rewrite times_app. unfold times at 2. cbn. rewrite V. cbn. lia. }
  destruct o as [[[|] [|]| | |n q]|]; cbn; try reflexivity; try now apply T.
  destruct (existsb acks l); [easy|now apply T].
Qed.
Lemma settle_running r : total_running (fst (settle r)) = total_running (fst r).
Proof.
  destruct r as [l o]. cbn [fst].
  assert (T : forall v, match v with KRunning _ => False | _ => True end -> total_running (l ++ [v]) = total_running l).
  { intros v V. rewrite running_app. destruct v; try easy; change (total_running [_]) with 0; lia. }
  destruct o as [[[|] [|]| | |n q]|]; cbn [settle fst]; try reflexivity; try now apply T.
  destruct (existsb acks l); cbn [fst]; [reflexivity|now apply T].
Qed.

Lemma whole_counts e :
  total_running (fst (whole e)) = 0
  /\ times is_started (fst (whole e)) = times is_finished (fst (whole e))
  /\ times is_started (fst (whole e)) = (if e_struck e then 0 else if e_claim e then 1 else 0)%nat.
Proof.
  unfold whole. rewrite settle_running, !settle_counts by reflexivity.
  unfold execute. destruct (e_struck e); [easy|]. destruct (e_claim e); [|easy].
  cbn [negb]. pose proof (quiet_handled e) as Q. destruct (handled e) as [l o]. cbn [fst] in *.
  destruct (quiet_counts l Q) as (A & B & C).
  change (KStarted :: KRunning 1 :: l ++ [KRunning (-1); KFinished])
    with ([KStarted; KRunning 1] ++ (l ++ [KRunning (-1); KFinished])).
  rewrite !running_app, !times_app, A, B, C. easy.
Qed.

(** What happens inside the dependencies, in a calm execution. *)

Definition unparked (l : list ev) : Prop := forall v, In v l -> v <> EParked.
Lemma unparked_app l m : unparked l -> unparked m -> unparked (l ++ m).
Proof. intros A B v I. apply in_app_or in I as [I|I]; [now apply A|now apply B]. Qed.
Lemma unparked_cons v l : v <> EParked -> unparked l -> unparked (v :: l).
Proof. intros A B w [<-|I]; [exact A|now apply B]. Qed.
Lemma unparked_nil : unparked []. Proof. now intros v []. Qed.
Ltac unparks := repeat first [apply unparked_nil | apply unparked_app | apply unparked_cons; [discriminate|] ].

Lemma returned_shape e v : handlers_answer e -> storage_works e -> (e_ttl e = true -> v <> Some false) ->
  exists l, returned e v = (l, None) /\ outcomes l = [ECompleted] /\ unparked l.
Proof.
  intros H S V. unfold returned, storage_works in *. rewrite S.
  assert (C : forall h o y, completion_handler (e_deps e) = Some h -> h o <> CThrow y).
  { intros h o y E. destruct (completion_handler_in _ _ E) as (fh & x & I).
    destruct (H _ _ _ I) as [_ K]. exact (K h eq_refl o y). }
  destruct (completion_handler (e_deps e)) as [h|]; [destruct (h None) eqn:E|].
  - eexists. split; [reflexivity|]. split; [reflexivity|unparks].
  - eexists. split; [reflexivity|]. split; [reflexivity|unparks].
  - destruct v as [[|]|], (e_ttl e); try (now destruct (V eq_refl)); (eexists; split; [reflexivity|]; split; [reflexivity|unparks]).
  - now destruct (C h None e0 eq_refl).
  - destruct v as [[|]|], (e_ttl e); try (now destruct (V eq_refl)); (eexists; split; [reflexivity|]; split; [reflexivity|unparks]).
Qed.

Lemma mark_shape e x : storage_works e -> storable e x ->
  exists l, mark_failed e x = (l, None) /\ outcomes l = [EFailed] /\ unparked l.
Proof.
  intros S P. unfold mark_failed, storage_works, storable in *. rewrite S.
  destruct (e_ttl e).
  - rewrite (P eq_refl). eexists. split; [reflexivity|]. split; [reflexivity|unparks].
  - eexists. split; [reflexivity|]. split; [reflexivity|unparks].
Qed.

Lemma handlers_sub e ds : handlers_answer e -> ds = e_deps e \/ ds = [] ->
  (forall h x y, failure_handler ds = Some h -> h x <> FThrow y)
  /\ (forall h o y, completion_handler ds = Some h -> h o <> CThrow y).
Proof.
  intros H [->| ->]; [|now split]. split.
  - intros h x y E. destruct (failure_handler_in _ _ E) as (ch & z & I). destruct (H _ _ _ I) as [K _]. exact (K h eq_refl x y).
  - intros h o y E. destruct (completion_handler_in _ _ E) as (fh & z & I). destruct (H _ _ _ I) as [_ K]. exact (K h eq_refl o y).
Qed.

Lemma give_up_shape e ds x : handlers_answer e -> ds = e_deps e \/ ds = [] -> storage_works e -> storable e x ->
  exists l, give_up e ds x = (l, None) /\ outcomes l = [EFailed] /\ unparked l.
Proof.
  intros H D S P. destruct (handlers_sub e ds H D) as [_ C].
  destruct (mark_shape e x S P) as (l & E & O & U). unfold give_up.
  destruct (completion_handler ds) as [h|]; [destruct (h (Some x)) eqn:Q|].
  - rewrite E. eexists. split; [reflexivity|]. split; [exact O|unparks; exact U].
  - now exists l.
  - now exists l.
  - now destruct (C h (Some x) e0 eq_refl).
  - now exists l.
Qed.

Definition retries (ds : list dep) (x : exn) : Prop := exists h, failure_handler ds = Some h /\ h x = FRetry.
Definition takes (ds : list dep) (x : exn) : Prop := exists h, failure_handler ds = Some h /\ h x = FTook.

Lemma failed_shape e ds x : handlers_answer e -> ds = e_deps e \/ ds = [] -> storage_works e -> storable e x ->
  exists l, failed e ds x = (l, None) /\ unparked l
    /\ ((retries ds x /\ outcomes l = [ERetried])
        \/ (takes ds x /\ outcomes l = [])
        \/ (~ retries ds x /\ ~ takes ds x /\ outcomes l = [EFailed])).
Proof.
  intros H D S P. destruct (handlers_sub e ds H D) as [F _].
  destruct (give_up_shape e ds x H D S P) as (l & E & O & U).
  unfold failed, retries, takes. destruct (failure_handler ds) as [h|]; [destruct (h x) eqn:Q|].
  - eexists. split; [reflexivity|]. split; [unparks|]. left. split; [now exists h|reflexivity].
  - eexists. split; [reflexivity|]. split; [unparks|]. right. left. split; [now exists h|reflexivity].
  - rewrite E. eexists. split; [reflexivity|]. split; [unparks; exact U|]. right. right.
    split; [|split; [|exact O]]; intros (g & A & B); inversion A; subst g; rewrite Q in B; discriminate.
  - now destruct (F h x e0 eq_refl).
  - rewrite E. eexists. split; [reflexivity|]. split; [unparks; exact U|]. right. right.
    split; [|split; [|exact O]]; intros (g & A & B); discriminate.
Qed.

(** No block: the failures of dependencies form a group that can be stored. *)
Lemma dep_failure_shape e : plain_failures e -> filter blocked_dep (e_deps e) = [] ->
  dep_failure (e_deps e) = None /\ failures (e_deps e) = []
  \/ exists p, dep_failure (e_deps e) = Some (XErr "ExceptionGroup" p) /\ storable e (XErr "ExceptionGroup" p)
                 /\ failures (e_deps e) <> [].
Proof.
  intros P B. unfold dep_failure. rewrite blocked_find, B.
  destruct (failures (e_deps e)) as [|f fs] eqn:E; [now left|]. right.
  eexists. split; [reflexivity|]. split; [|discriminate]. intros T. cbn [pickles]. rewrite <- E. apply forallb_forall. intros x I.
  apply failures_in in I. specialize (P x I).
  assert (K : is_blocked x = false).
  { destruct x; try reflexivity. exfalso.
    assert (J : In (DFailed (XBlocked handled resched)) (filter blocked_dep (e_deps e))) by now apply filter_In.
    rewrite B in J. exact J. }
  destruct x as [h r| | |n p]; try easy. now apply P.
Qed.

(** The result of entering, body and leaving. *)
Lemma inside_shape e : calm e -> filter blocked_dep (e_deps e) = [] ->
  exists l o, inside e = (l, o) /\ unparked l /\
   ((o = None /\ outcomes l = [ECompleted] /\ failures (e_deps e) = [] /\ exists v, e_body e = BReturn v)
    \/ (o = Some XCancelled /\ outcomes l = [] /\ failures (e_deps e) = [] /\ e_body e = BRaise XCancelled)
    \/ (exists n p, o = Some (XErr n p) /\ outcomes l = [] /\ storable e (XErr n p)
        /\ (failures (e_deps e) = [] -> e_body e = BRaise (XErr n p)))).
Proof.
  intros (H & S & PB & PS & PF) B. unfold inside.
  destruct (dep_failure_shape e PF B) as [[-> E]|(p & -> & St & NE)].
  - unfold plain_body in PB. destruct (e_body e) as [v|x].
    + destruct (returned_shape e v H S PB) as (l & -> & O & U).
      eexists _, _. split; [reflexivity|]. split; [unparks; exact U|]. left.
      split; [reflexivity|]. split; [exact O|]. split; [exact E|now exists v].
    + destruct x as [h r| | |n p]; try easy.
      * eexists _, _. split; [reflexivity|]. split; [unparks|]. right. left. easy.
      * eexists _, _. split; [reflexivity|]. split; [unparks|]. right. right. exists n, p. easy.
  - eexists _, _. split; [reflexivity|]. split; [unparks|]. right. right. exists "ExceptionGroup", p.
    split; [reflexivity|]. split; [reflexivity|]. split; [exact St|]. now intros E.
Qed.

Lemma exits_ok e (P : (option exn -> xres) -> Prop) :
  (forall d x, In d (e_deps e) -> exit_of d x -> P x) -> forall x, In x (exits (e_deps e)) -> P x.
Proof. intros H x I. destruct (exits_in _ _ I) as (d & A & B). exact (H d x A B). Qed.

Lemma settle_none l : outcomes l = [] -> unparked l -> settle (l, None) = (l ++ [EFailed], None).
Proof.
  intros O U. cbn. assert (E : existsb acks l = false).
  { destruct (existsb acks l) eqn:E; [|easy]. apply existsb_exists in E as (v & I & A).
    assert (J : In v (outcomes l)) by (apply filter_In; split; [exact I|now destruct v]).
    rewrite O in J. destruct J. }
  now rewrite E.
Qed.
Lemma settle_some l v : outcomes l = [v] -> v <> EParked -> settle (l, None) = (l, None).
Proof.
  intros O N. cbn. assert (E : existsb acks l = true); [|now rewrite E].
  apply existsb_exists. exists v.
  assert (J : In v (outcomes l)) by (rewrite O; now left). apply filter_In in J as [I J].
  split; [exact I|]. now destruct v.
Qed.

Definition wrap (l : list ev) : list ev := KStarted :: KRunning 1 :: l ++ [KRunning (-1); KFinished].
Lemma wrap_outcomes l : outcomes (wrap l) = outcomes l.
Proof. unfold wrap. cbn. change (filter outcome (l ++ _)) with (outcomes (l ++ [KRunning (-1); KFinished])). rewrite outcomes_app. cbn. apply app_nil_r. Qed.
Lemma wrap_unparked l : unparked l -> unparked (wrap l).
Proof. intros U. unfold wrap. unparks. exact U. Qed.

(** A calm execution ends with exactly one outcome, and the worker goes on. *)
Lemma whole_one e :
  calm e -> no_exit_raises e -> blocks_not_suppressed e -> one_gate e ->
  exists v, outcomes (fst (whole e)) = [v] /\ snd (whole e) = None.
Proof.
  intros C NR BS (G1 & G2). unfold whole, execute.
  destruct (e_struck e); [now exists EStruck|]. destruct (e_claim e); cbn [negb]; [|now exists ESuperseded].
  assert (X1 : forall x, In x (exits (e_deps e)) -> forall o y, x o <> Throw y).
  { apply (exits_ok e (fun x => forall o y, x o <> Throw y)). exact NR. }
  assert (X2 : forall x, In x (exits (e_deps e)) -> forall h r, x (Some (XBlocked h r)) <> Suppress).
  { apply (exits_ok e (fun x => forall h r, x (Some (XBlocked h r)) <> Suppress)). exact BS. }
  unfold handled, attempt.
  destruct (filter blocked_dep (e_deps e)) as [|b bs] eqn:B.
  - assert (EN : entering (e_deps e) = []) by (rewrite entering_filter, B; reflexivity).
    rewrite EN. cbn [app].
    assert (FS : forall ds n p, ds = e_deps e \/ ds = [] -> storable e (XErr n p) -> forall l0, outcomes l0 = [] -> unparked l0 ->
      exists v, outcomes (fst (settle (let '(l, o) := let '(l', o') := failed e ds (XErr n p) in (l0 ++ l', o') in (wrap l, o)))) = [v]
        /\ snd (settle (let '(l, o) := let '(l', o') := failed e ds (XErr n p) in (l0 ++ l', o') in (wrap l, o))) = None).
    { intros ds n p D St l0 O0 U0. destruct C as (H & S & _).
      destruct (failed_shape e ds (XErr n p) H D S St) as (l & -> & U & [(_ & O)|[(_ & O)|(_ & _ & O)]]).
      - rewrite (settle_some _ ERetried); [|rewrite wrap_outcomes, outcomes_app, O0, O; reflexivity|discriminate].
        cbn [fst snd]. rewrite wrap_outcomes, outcomes_app, O0, O. now exists ERetried.
      - rewrite settle_none; [|rewrite wrap_outcomes, outcomes_app, O0, O; reflexivity|apply wrap_unparked; unparks; assumption].
        cbn [fst snd]. rewrite outcomes_app, wrap_outcomes, outcomes_app, O0, O. now exists EFailed.
      - rewrite (settle_some _ EFailed); [|rewrite wrap_outcomes, outcomes_app, O0, O; reflexivity|discriminate].
        cbn [fst snd]. rewrite wrap_outcomes, outcomes_app, O0, O. now exists EFailed. }
    destruct (e_stop e) as [x|] eqn:ST.
    + assert (x = XCancelled) as ->.
      { destruct C as (_ & _ & _ & PS & _). unfold plain_stop in PS. rewrite ST in PS. destruct PS as [PS|PS]; congruence. }
      destruct (unwind_no_raise _ (Some XCancelled) X1) as [->| ->].
      * now exists ECancelled.
      * now exists EFailed.
    + destruct (inside_shape e C B) as (l & o & -> & U & [(-> & O & _)|[(-> & O & _)|(n & p & -> & O & St & _)]]).
      * rewrite (unwind_none _ X1). change (KStarted :: KRunning 1 :: l ++ _) with (wrap l).
        rewrite (settle_some _ ECompleted); [|now rewrite wrap_outcomes|discriminate].
        cbn [fst snd]. rewrite wrap_outcomes, O. now exists ECompleted.
      * destruct (unwind_no_raise _ (Some XCancelled) X1) as [->| ->].
        -- change (KStarted :: KRunning 1 :: (l ++ [ECancelled]) ++ _) with (wrap (l ++ [ECancelled])).
           rewrite (settle_some _ ECancelled); [|rewrite wrap_outcomes, outcomes_app, O; reflexivity|discriminate].
           cbn [fst snd]. rewrite wrap_outcomes, outcomes_app, O. now exists ECancelled.
        -- change (KStarted :: KRunning 1 :: l ++ _) with (wrap l).
           rewrite settle_none; [|now rewrite wrap_outcomes|now apply wrap_unparked].
           cbn [fst snd]. rewrite outcomes_app, wrap_outcomes, O. now exists EFailed.
      * destruct (unwind_no_raise _ (Some (XErr n p)) X1) as [->| ->].
        -- apply FS; [now left|exact St|exact O|exact U].
        -- change (KStarted :: KRunning 1 :: l ++ _) with (wrap l).
           rewrite settle_none; [|now rewrite wrap_outcomes|now apply wrap_unparked].
           cbn [fst snd]. rewrite outcomes_app, wrap_outcomes, O. now exists EFailed.
  - assert (bs = []) as -> by (destruct bs; [easy|cbn in G1; lia]).
    destruct (filter_blocked_shape (e_deps e) b) as (h & r & ->); [rewrite B; now left|].
    destruct (e_stop e) as [x|] eqn:ST; [assert (NE : Some x <> None) by discriminate; specialize (G2 NE); discriminate|].
    unfold inside, dep_failure. rewrite blocked_find, B, entering_filter, B.
    rewrite (unwind_blocked _ _ _ X1 X2).
    destruct h, r; cbn; eexists; split; reflexivity.
Qed.

(** With exits that let everything through, the outcome is the one of the body. *)
Lemma whole_plain e :
  calm e -> exits_transparent e -> e_struck e = false -> e_claim e = true -> e_stop e = None ->
  failures (e_deps e) = [] ->
  match e_body e with
  | BReturn _ => outcomes (fst (whole e)) = [ECompleted]
  | BRaise XCancelled => outcomes (fst (whole e)) = [ECancelled]
  | BRaise x => (retries (e_deps e) x -> outcomes (fst (whole e)) = [ERetried])
                /\ (~ retries (e_deps e) x -> outcomes (fst (whole e)) = [EFailed])
  end.
Proof.
  intros C T A A' ST F.
  assert (B : filter blocked_dep (e_deps e) = []).
  { destruct (filter blocked_dep (e_deps e)) as [|b bs] eqn:B; [easy|].
    assert (I : In b (filter blocked_dep (e_deps e))) by (rewrite B; now left).
    destruct (filter_blocked_shape _ _ I) as (h & r & ->). apply filter_In in I as [I _].
    apply failures_in in I. rewrite F in I. destruct I. }
  assert (EN : entering (e_deps e) = []) by (rewrite entering_filter, B; reflexivity).
  assert (X : forall o, unwind (exits (e_deps e)) o = o).
  { intros o. apply unwind_through. apply (exits_ok e (fun x => forall o, x o = Through)). exact T. }
  unfold whole, execute. rewrite A, A'. cbn [negb]. unfold handled, attempt. rewrite ST, EN. cbn [app].
  pose proof C as (H & S & _).
  destruct (inside_shape e C B) as (l & o & -> & U & [(-> & O & _ & v & ->)|[(-> & O & _ & ->)|(n & p & -> & O & St & Q)]]).
  - rewrite X. change (KStarted :: KRunning 1 :: l ++ _) with (wrap l).
    rewrite (settle_some _ ECompleted); [|now rewrite wrap_outcomes|discriminate]. cbn [fst]. now rewrite wrap_outcomes.
  - rewrite X. change (KStarted :: KRunning 1 :: (l ++ [ECancelled]) ++ _) with (wrap (l ++ [ECancelled])).
    rewrite (settle_some _ ECancelled); [|rewrite wrap_outcomes, outcomes_app, O; reflexivity|discriminate].
    cbn [fst]. now rewrite wrap_outcomes, outcomes_app, O.
  - rewrite X, (Q F).
    destruct (failed_shape e (e_deps e) (XErr n p) H (or_introl eq_refl) S St) as (l' & -> & U' & Z).
    change (KStarted :: KRunning 1 :: (l ++ l') ++ _) with (wrap (l ++ l')).
    destruct Z as [(R & O')|[(R & O')|(R & _ & O')]].
    + rewrite (settle_some _ ERetried); [|rewrite wrap_outcomes, outcomes_app, O, O'; reflexivity|discriminate].
      cbn [fst]. rewrite wrap_outcomes, outcomes_app, O, O'. now split.
    + rewrite settle_none; [|rewrite wrap_outcomes, outcomes_app, O, O'; reflexivity|apply wrap_unparked; unparks; assumption].
      cbn [fst]. rewrite outcomes_app, wrap_outcomes, outcomes_app, O, O'. split; [|easy].
      intros (h & E1 & E2). destruct R as (g & E3 & E4). congruence.
    + rewrite (settle_some _ EFailed); [|rewrite wrap_outcomes, outcomes_app, O, O'; reflexivity|discriminate].
      cbn [fst]. rewrite wrap_outcomes, outcomes_app, O, O'. now split.
Qed.

(** A body that returned, exits that do not raise: completed, and nothing else. *)
Lemma whole_returned e v :
  handlers_answer e -> storage_works e -> (e_ttl e = true -> v <> Some false) -> no_exit_raises e ->
  e_body e = BReturn v -> In EBody (fst (whole e)) -> outcomes (fst (whole e)) = [ECompleted] /\ ~ In KFailed (fst (whole e)).
Proof.
  intros H S V NR BV I.
  assert (X1 : forall x, In x (exits (e_deps e)) -> forall o y, x o <> Throw y).
  { apply (exits_ok e (fun x => forall o y, x o <> Throw y)). exact NR. }
  assert (NB : forall l, (forall w, In w l -> w = EParked) -> ~ In EBody l) by (intros l K J; specialize (K _ J); discriminate).
  assert (PE : forall l w, In w (entering l) -> w = EParked).
  { intros l w J. apply in_flat_map in J as (d & _ & J). destruct d as [?|?|[[|] ?| | |? ?]]; cbn in J; try easy. now destruct J as [<-|[]]. }
  assert (SB : forall r, In EBody (fst (settle r)) -> In EBody (fst r)).
  { intros [l [[[|] [|]| | |n q]|]]; cbn; try easy; try (intros J; apply in_app_or in J as [J|[J|[]]]; [exact J|discriminate]).
    destruct (existsb acks l); cbn; [easy|]. intros J; apply in_app_or in J as [J|[J|[]]]; [exact J|discriminate]. }
  assert (WB : forall l, In EBody (wrap l) -> In EBody l).
  { intros l [J|[J|J]]; try discriminate. apply in_app_or in J as [J|[J|[J|[]]]]; try discriminate. exact J. }
  assert (GB : forall ds x, ~ In EBody (fst (failed e ds x))).
  { intros ds x J. 
    assert (M : ~ In EBody (fst (mark_failed e x))).
    { unfold mark_failed. destruct (e_ttl e), (pickles x), (e_put e); cbn; intuition discriminate. }
    assert (G : ~ In EBody (fst (give_up e ds x))).
    { unfold give_up. destruct (completion_handler ds) as [h|]; [destruct (h (Some x))|]; try exact M; try (cbn; tauto).
      destruct (mark_failed e x). cbn in *. intros [D|D]; [discriminate|tauto]. }
    unfold failed in J. destruct (failure_handler ds) as [h|]; [destruct (h x)|]; cbn in J;
      try (intuition discriminate); destruct (give_up e ds x); cbn in *; (destruct J as [D|D]; [discriminate|tauto]). }
  pose proof I as J. unfold whole in J. apply SB in J. unfold execute in J.
  destruct (e_struck e) eqn:E1; [cbn in J; intuition discriminate|].
  destruct (e_claim e) eqn:E2; cbn [negb] in J; [|cbn in J; intuition discriminate].
  destruct (handled e) as [l o] eqn:HE. change (KStarted :: KRunning 1 :: l ++ _) with (wrap l) in J. cbn [fst] in J. apply WB in J.
  unfold whole, execute. rewrite E1, E2. cbn [negb]. rewrite HE. change (KStarted :: KRunning 1 :: l ++ _) with (wrap l).
  unfold handled, attempt in HE.
  destruct (e_stop e) as [x|] eqn:ST.
  - exfalso. destruct (unwind (exits (e_deps e)) (Some x)) as [[h r| | |n p]|]; 
      try (inversion HE; subst; apply PE in J; discriminate).
    + inversion HE; subst. apply in_app_or in J as [J|[J|[]]]; [apply PE in J|]; discriminate.
    + pose proof (GB [] (XErr n p)) as K. destruct (failed e [] (XErr n p)). inversion HE; subst.
      apply in_app_or in J as [J|J]; [apply PE in J; discriminate|]. cbn in K. tauto.
  - unfold inside in HE. destruct (dep_failure (e_deps e)) as [x|] eqn:DF.
    + exfalso. rewrite app_nil_r in HE.
      destruct (unwind (exits (e_deps e)) (Some x)) as [[h r| | |n p]|]; 
        try (inversion HE; subst; apply PE in J; discriminate).
      * inversion HE; subst. apply in_app_or in J as [J|[J|[]]]; [apply PE in J|]; discriminate.
      * pose proof (GB (e_deps e) (XErr n p)) as K. destruct (failed e (e_deps e) (XErr n p)). inversion HE; subst.
        apply in_app_or in J as [J|J]; [apply PE in J; discriminate|]. cbn in K. tauto.
    + rewrite BV in HE. destruct (returned_shape e v H S V) as (l1 & Q & O & U).
      assert (NF : ~ In KFailed l1).
      { revert Q. unfold returned. rewrite S. intros Q K.
        destruct (completion_handler (e_deps e)) as [h|]; [destruct (h None)|];
          destruct v as [[|]|], (e_ttl e); inversion Q; subst; cbn in K; intuition discriminate. }
      rewrite Q, (unwind_none _ X1) in HE. inversion HE; subst l o.
      assert (EN : entering (e_deps e) = []).
      { unfold dep_failure in DF. rewrite blocked_find in DF. rewrite entering_filter.
        destruct (filter blocked_dep (e_deps e)) as [|b bs] eqn:B; [easy|].
        destruct (filter_blocked_shape (e_deps e) b) as (h & r & ->); [rewrite B; now left|discriminate]. }
      rewrite EN in *. cbn [app] in *.
      rewrite (settle_some _ ECompleted); [|rewrite wrap_outcomes; cbn; exact O|discriminate].
      cbn [fst]. rewrite wrap_outcomes. split; [exact O|].
      unfold wrap. intros [K|[K|K]]; try discriminate. apply in_app_or in K as [K|[K|[K|[]]]]; try discriminate.
      destruct K as [K|[K|K]]; try discriminate. now apply NF.
Qed.

(** What the worker survives. *)
Lemma unwind_survivable e l o :
  (forall x, In x l -> forall o y, x o = Throw y -> survivable e y) ->
  (forall y, o = Some y -> survivable e y) -> forall y, unwind l o = Some y -> survivable e y.
Proof.
  revert o. induction l as [|x l IH]; intros o H O; cbn; [exact O|].
  apply IH; [intros z I; apply H; now right|].
  intros y E. destruct (x o) eqn:Q; [now apply O|discriminate|inversion E; subst; exact (H x (or_introl eq_refl) _ _ Q)].
Qed.
Lemma whole_survives e :
  handlers_answer e -> storage_works e ->
  (forall x, e_body e = BRaise x -> survivable e x) ->
  (forall x, e_stop e = Some x -> survivable e x) ->
  (forall x, In (DFailed x) (e_deps e) -> match x with XBlocked _ _ => True | _ => storable e x end) ->
  (forall d x, In d (e_deps e) -> exit_of d x -> forall o y, x o = Throw y -> survivable e y) ->
  snd (whole e) = None.
Proof.
  intros H S B ST DFa EX. unfold whole, execute.
  destruct (e_struck e); [easy|]. destruct (e_claim e); [|easy]. cbn [negb].
  assert (SN : forall l (o : option exn), (forall x, o = Some x -> is_blocked x = true) -> snd (settle (l, o)) = None).
  { intros l [[[|] [|]| | |n q]|] K; try reflexivity; try (specialize (K _ eq_refl); discriminate).
    cbn. now destruct (existsb acks l). }
  assert (HO : forall l o, handled e = (l, o) -> forall x, o = Some x -> is_blocked x = true).
  { intros l o HE x ->. unfold handled in HE. destruct (attempt e) as [[l0 o0] ds] eqn:AE.
    assert (K : (forall y, o0 = Some y -> survivable e y) /\ (ds = e_deps e \/ ds = [])).
    { unfold attempt in AE.
      assert (X : forall x, In x (exits (e_deps e)) -> forall o y, x o = Throw y -> survivable e y).
      { apply (exits_ok e (fun x => forall o y, x o = Throw y -> survivable e y)). exact EX. }
      destruct (e_stop e) as [z|] eqn:SE.
      - inversion AE; subst. split; [|now right]. apply unwind_survivable; [exact X|].
        intros y E. apply ST. congruence.
      - destruct (inside e) as [l1 o1] eqn:IE. inversion AE; subst. split; [|now left].
        apply unwind_survivable; [exact X|]. intros y ->. unfold inside in IE.
        destruct (dep_failure (e_deps e)) as [w|] eqn:DF.
        + inversion IE; subst. unfold dep_failure in DF. destruct (find is_blocked (failures (e_deps e))) as [b|] eqn:FB.
          * inversion DF; subst. apply find_some in FB as [_ FB]. now destruct y.
          * assert (PA : e_ttl e = true -> forallb pickles (failures (e_deps e)) = true).
            { intros T. apply forallb_forall. intros z I. pose proof (find_none _ _ FB z I) as NBz.
              apply failures_in in I. specialize (DFa z I). destruct z; try discriminate; try exact (DFa T). }
            destruct (failures (e_deps e)); inversion DF; subst. intros T. exact (PA T).
        + destruct (e_body e) as [v|w] eqn:BE.
          * unfold returned in IE. rewrite S in IE.
            assert (CT : forall h z, completion_handler (e_deps e) = Some h -> h None <> CThrow z).
            { intros h z E. destruct (completion_handler_in _ _ E) as (fh & q & I). destruct (H _ _ _ I) as [_ K]. exact (K h eq_refl None z). }
            destruct (completion_handler (e_deps e)) as [h|] eqn:CE; [destruct (h None) eqn:HN|];
              try (now destruct (CT h e0 eq_refl)); destruct v as [[|]|], (e_ttl e) eqn:TE; inversion IE; subst; cbn; intros T; reflexivity.
          * inversion IE; subst. now apply B. }
    destruct K as [K D]. destruct o0 as [[h r| | |n p]|].
    - inversion HE; subst. reflexivity.
    - inversion HE.
    - now destruct (K XBase eq_refl).
    - destruct (failed_shape e ds (XErr n p) H D S (K _ eq_refl)) as (l' & E & _). rewrite E in HE. inversion HE.
    - inversion HE. }
  destruct (handled e) as [l o]. apply SN. exact (HO l o eq_refl).
Qed.

Lemma process_all l : Forall survives l -> process l = (map (fun e => fst (whole e)) l, [], None).
Proof.
  induction 1 as [|e l P F IH]; cbn; [easy|]. unfold survives in P. destruct (whole e). cbn in P. subst. now rewrite IH.
Qed.
Lemma process_stops l1 e l2 x : Forall survives l1 -> snd (whole e) = Some x ->
  process (l1 ++ e :: l2) = (map (fun e => fst (whole e)) (l1 ++ [e]), l2, Some x).
Proof.
  induction 1 as [|a l P F IH]; intros K; cbn.
  - destruct (whole e). cbn in K. now subst.
  - unfold survives in P. destruct (whole a). cbn in P. subst. now rewrite IH.
Qed.
