(** C101: leaving a worker waits for its run. *)
From Verif Require Import Base Leaving.

(** Some run is in its loops. *)
Definition running (s : wk) : Prop := In RLoop (k_runs s).
(** The worker is being taken down, or is. *)
Definition closing (s : wk) : Prop := k_exit s = XClosing \/ k_exit s = XGone.

(** The usual use: a run starts only while no other runs and before the worker is left. *)
Definition orderly_at (s : wk) (e : vev) : Prop :=
  match e with VStart i => nth_error (k_runs s) i = Some RNew -> ~ running s /\ k_exit s = XNo | _ => True end.
Fixpoint orderly (s : wk) (l : list vev) : Prop :=
  match l with [] => True | e :: l => orderly_at s e /\ orderly (vstep s e) l end.

Lemma set_nth_In l : forall i r x, In x (set_nth l i r) -> x = r \/ In x l.
Proof. induction l as [|a l IH]; intros [|i] r x; cbn; try tauto; intros [H|H]; auto. destruct (IH _ _ _ H); auto. Qed.
Lemma set_nth_length l : forall i r, length (set_nth l i r) = length l.
Proof. induction l as [|a l IH]; intros [|i] r; cbn; auto. Qed.
Lemma nth_set_nth l : forall i j r, nth_error (set_nth l i r) j = if Nat.eqb i j then match nth_error l j with Some _ => Some r | None => None end else nth_error l j.
Proof. induction l as [|a l IH]; intros [|i] [|j] r; cbn; auto. now destruct (Nat.eqb i j). Qed.

(** At most one run is in its loops; [_worker_done] is set exactly when none is. *)
Definition VInv (s : wk) : Prop :=
  (forall i j, nth_error (k_runs s) i = Some RLoop -> nth_error (k_runs s) j = Some RLoop -> i = j) /\
  (k_done s = true -> ~ running s) /\
  (k_exit s = XReady \/ closing s -> ~ running s) /\
  (k_exit s <> XNo -> running s -> k_stop s = true).

Lemma running_nth s : running s <-> exists i, nth_error (k_runs s) i = Some RLoop.
Proof. unfold running. split; [intros H; now apply In_nth_error|]. intros [i H]. now apply nth_error_In in H. Qed.

Lemma VInv_finish s i : VInv s -> nth_error (k_runs s) i = Some RLoop -> VInv (finish_run s i).
Proof.
  intros (A & B & C & D) E. assert (G : gone s = false).
  { unfold gone. destruct (k_exit s) eqn:X; auto. exfalso. apply C; [right; right; exact X|]. apply running_nth. eauto. }
  unfold finish_run. rewrite G. assert (N : ~ In RLoop (set_nth (k_runs s) i ROver)).
  { intros H. apply In_nth_error in H as [j H]. rewrite nth_set_nth in H. destruct (Nat.eqb_spec i j) as [->|N]; [destruct (nth_error (k_runs s) j); discriminate|]. exact (N (A i j E H)). }
  unfold VInv, running, set_done. cbn. repeat split; auto; try (intros; contradiction).
  intros j1 j2 H. apply nth_error_In in H. contradiction.
Qed.
Lemma VInv_step s e : VInv s -> orderly_at s e -> VInv (vstep s e).
Proof.
  intros I O. assert (J := I). destruct J as (A & B & C & D). destruct e as [|i|i|i| | |]; cbn [vstep].
  - unfold VInv, running, closing in *. cbn.
    assert (N : In RLoop (k_runs s ++ [RNew]) -> In RLoop (k_runs s)) by (intros H; apply in_app_or in H as [H|[H|[]]]; [auto|discriminate]).
    assert (M : forall i, nth_error (k_runs s ++ [RNew]) i = Some RLoop -> nth_error (k_runs s) i = Some RLoop).
    { intros i H. destruct (Nat.lt_ge_cases i (length (k_runs s))) as [L|L]; [now rewrite nth_error_app1 in H|]. rewrite nth_error_app2 in H by exact L. destruct (i - _)%nat as [|[|n]]; discriminate. }
    split; [intros i j H1 H2; apply A; auto|]. split; [intros H1 H2; exact (B H1 (N H2))|]. split; [intros H1 H2; exact (C H1 (N H2))|]. intros H1 H2; exact (D H1 (N H2)).
  - destruct (nth_error (k_runs s) i) as [[]|] eqn:E; try exact I. destruct (O E) as [O1 O2]. unfold gone. rewrite O2.
    unfold VInv, running, closing. cbn. repeat split; try discriminate; try (intros [H|[H|H]]; discriminate); try (intros H; now destruct H).
    intros j1 j2 H1 H2. rewrite !nth_set_nth in *. destruct (Nat.eqb_spec i j1) as [->|N1]; [|exfalso; apply O1, running_nth; eauto].
    destruct (Nat.eqb_spec j1 j2) as [->|N2]; [reflexivity|exfalso; apply O1, running_nth; eauto].
  - destruct (nth_error (k_runs s) i) as [[]|] eqn:E; try exact I. destruct (k_stop s); [now apply VInv_finish|exact I].
  - destruct (nth_error (k_runs s) i) as [[]|] eqn:E; try exact I. now apply VInv_finish.
  - destruct (k_exit s) eqn:X; try exact I. unfold VInv, running, closing in *. cbn. repeat split; auto.
    destruct (k_done s) eqn:Dn; [auto|]. intros [H|[H|H]]; discriminate.
  - destruct (k_exit s) eqn:X; try exact I. unfold VInv, running, closing in *. cbn. repeat split; auto. intros _ H. apply D; [congruence|exact H].
  - destruct (k_exit s) eqn:X; try exact I. unfold VInv, running, closing in *. cbn. rewrite X in *. repeat split; auto. intros _ H. apply D; [congruence|exact H].
Qed.
Lemma VInv_run l : forall s, VInv s -> orderly s l -> VInv (vrun s l).
Proof. induction l as [|e l IH]; intros s I O; [exact I|]. destruct O as [O1 O2]. cbn. apply IH; [now apply VInv_step|exact O2]. Qed.
Lemma VInv_init : VInv wk_init.
Proof. unfold VInv, running, closing, wk_init. cbn. repeat split; auto. intros [|i] j H; discriminate. Qed.

(** ** C101: leaving a worker waits for its run *)

(** In orderly use: once the worker is taken down no run is in its loops, and no run ever met
    a worker that was taken down under it. *)
Theorem C101_waits_partial l : orderly wk_init l -> closing (vrun wk_init l) -> ~ running (vrun wk_init l).
Proof. intros O C. destruct (VInv_run l wk_init VInv_init O) as (_ & _ & H & _). apply H. now right. Qed.
Print Assumptions C101_waits_partial.

(** In orderly use, once the worker is being left a run that is in its loops is told to stop: its next
    look ends it, and then leaving goes on. *)
Theorem C101_stops_partial l i : orderly wk_init l -> k_exit (vrun wk_init l) = XWait -> nth_error (k_runs (vrun wk_init l)) i = Some RLoop ->
  let s := vstep (vrun wk_init l) (VLook i) in ~ running s /\ k_exit s = XReady.
Proof.
  intros O X E. destruct (VInv_run l wk_init VInv_init O) as (A & B & C & D). revert A B C D X E. set (s := vrun wk_init l). intros A B C D X E.
  assert (S : k_stop s = true) by (apply D; [congruence|apply running_nth; eauto]). cbn [vstep]. rewrite E, S. unfold finish_run, gone. rewrite X. unfold set_done. rewrite X. cbn. split; [|reflexivity].
  unfold running. cbn. intros H. apply In_nth_error in H as [j H]. rewrite nth_set_nth in H. destruct (Nat.eqb_spec i j) as [->|N]; [destruct (nth_error (k_runs s) j); discriminate|]. exact (N (A i j E H)).
Qed.
Print Assumptions C101_stops_partial.

(** In orderly use, while leaving waits there is a run to wait for: it never waits for nothing. *)
Lemma wait_has_run_step s e : VInv s -> orderly_at s e -> (k_done s = false -> running s) /\ (k_exit s = XWait -> running s) ->
  (k_done (vstep s e) = false -> running (vstep s e)) /\ (k_exit (vstep s e) = XWait -> running (vstep s e)).
Proof.
  intros I O [H1 H2]. assert (F : forall i, (k_done (finish_run s i) = false -> running (finish_run s i)) /\ (k_exit (finish_run s i) = XWait -> running (finish_run s i)) \/ nth_error (k_runs s) i <> Some RLoop).
  { intros i. destruct (nth_error (k_runs s) i) as [[]|] eqn:E; try (right; discriminate). left. unfold finish_run, gone.
    destruct (k_exit s) eqn:X; cbn; split; try discriminate; rewrite ?X; try discriminate. intros _. destruct I as (_ & _ & C & _). exfalso. apply C; [right; right; exact X|]. apply running_nth. eauto. }
  destruct e as [|i|i|i| | |]; cbn [vstep].
  - unfold running in *. cbn. split; intros H; apply in_or_app; auto.
  - destruct (nth_error (k_runs s) i) as [[]|] eqn:E; try (split; assumption). destruct (O E) as [_ X]. unfold gone. rewrite X. unfold running. cbn.
    assert (R : In RLoop (set_nth (k_runs s) i RLoop)) by (apply nth_error_In with (n := i); rewrite nth_set_nth, Nat.eqb_refl, E; reflexivity). auto.
  - destruct (nth_error (k_runs s) i) as [[]|] eqn:E; try (split; assumption). destruct (k_stop s); [|split; assumption]. destruct (F i); [assumption|contradiction].
  - destruct (nth_error (k_runs s) i) as [[]|] eqn:E; try (split; assumption). destruct (F i); [assumption|contradiction].
  - destruct (k_exit s) eqn:X; unfold running in *; cbn; rewrite ?X; auto. split; [auto|]. destruct (k_done s); [discriminate|auto].
  - destruct (k_exit s) eqn:X; unfold running in *; cbn; rewrite ?X; auto. split; [auto|discriminate].
  - destruct (k_exit s) eqn:X; unfold running in *; cbn; rewrite ?X; auto. split; [auto|discriminate].
Qed.
Theorem C101_never_stuck_partial l : orderly wk_init l -> k_exit (vrun wk_init l) = XWait -> running (vrun wk_init l).
Proof.
  enough (H : forall l s, VInv s -> (k_done s = false -> running s) /\ (k_exit s = XWait -> running s) -> orderly s l -> (k_exit (vrun s l) = XWait -> running (vrun s l)))
    by (intros O; apply (H l wk_init VInv_init); [split; discriminate|exact O]).
  clear l. induction l as [|e l IH]; intros s I W O; [exact (proj2 W)|]. destruct O as [O1 O2]. cbn. apply IH; auto; [now apply VInv_step|now apply wait_has_run_step].
Qed.
Print Assumptions C101_never_stuck_partial.

(** Two runs one after the other, then the worker is left while the second runs. *)
Definition ex_orderly : list vev := [VCall; VStart 0; VLook 0; VEnd 0; VCall; VStart 1; VLeave].
Example C101_case : orderly wk_init ex_orderly /\ k_exit (vrun wk_init ex_orderly) = XWait /\ nth_error (k_runs (vrun wk_init ex_orderly)) 1 = Some RLoop /\
  vrun wk_init (ex_orderly ++ [VGo; VLook 1; VGo; VClose]) = mkWk true true XGone [ROver; ROver].
Proof. repeat split; unfold running; cbn; intuition discriminate. Qed.

(** Two runs at once: the first to end lets the worker be taken down while the other is in its loops. *)
Theorem C101_two_runs_refuted : let s := vrun wk_init [VCall; VCall; VStart 0; VStart 1; VLeave; VLook 0; VGo; VClose] in
  closing s /\ running s.
Proof. split; cbn; [right; reflexivity|right; left; reflexivity]. Qed.
Print Assumptions C101_two_runs_refuted.
(** A run called before the worker is left but started afterwards (asyncio.create_task, then the end of the async
    with block): leaving does not wait for it, and it starts on a worker whose shared context is being closed. *)
Theorem C101_late_start_refuted : let s := vrun wk_init [VCall; VLeave; VGo; VStart 0; VClose] in closing s /\ running s.
Proof. split; cbn; [right; reflexivity|left; reflexivity]. Qed.
Print Assumptions C101_late_start_refuted.
(** A run that starts while the worker is being left takes the signal to stop back: both runs go on, and
    leaving waits for as long as they find work. *)
Theorem C101_signal_taken_back_refuted looks : (forall e, In e looks -> exists i, e = VLook i) ->
  let s := vrun (vrun wk_init [VCall; VCall; VStart 0; VLeave; VStart 1]) looks in
  k_exit s = XWait /\ k_runs s = [RLoop; RLoop].
Proof.
  intros H. set (s0 := vrun wk_init _). assert (E : vrun s0 looks = s0).
  { induction looks as [|e l IH]; [reflexivity|]. destruct (H e (or_introl eq_refl)) as [i ->].
    replace (vrun s0 (VLook i :: l)) with (vrun s0 l); [apply IH; intros e' He'; apply H; now right|].
    cbn [vrun fold_left]. unfold vrun. f_equal. destruct i as [|[|[|i]]]; reflexivity. }
  cbv zeta. rewrite E. split; reflexivity.
Qed.
Print Assumptions C101_signal_taken_back_refuted.
