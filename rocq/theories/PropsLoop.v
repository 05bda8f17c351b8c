(** C35, C54, C55, C56, C97: the worker loop. *)
From Verif Require Import Base Model WorkerLoop SpecLoop LoopProofs.

(** ** C35 *)

(** Whatever Redis answers and however the tasks end, at no time are more tasks in flight
    than the concurrency, and a request for messages asks for at least one and at
    most as many as there are slots free. *)
Theorem C35_concurrency n forever s : loop_reachable n forever s ->
  Z.of_nat (length (in_flight s)) <= Z.max 0 n /\
  forall e src count, snd (lstep n forever s e) = WAsk src count -> 0 < count <= n - Z.of_nat (length (in_flight s)).
Proof.
  intros R. pose proof (reachable_LInv n forever s R) as I. pose proof (inflight_le n s I) as L. split; [pose proof (li_len _ _ I); lia|].
  intros e src count. destruct e; cbn [lstep].
  - unfold go, ask. destruct (l_pc s) as [|todo| |b c|b ms| | | | |todo| | |] eqn:Hp; try discriminate.
    + destruct (_ && _); discriminate.
    + destruct todo; [discriminate|]. destruct (raises _ _); discriminate.
    + cbn [l_avail]. destruct (_ <=? 0) eqn:E; [discriminate|]. cbn. intros [= _ <-]. lia.
    + destruct ms as [|[] ms]; try discriminate. destruct (_ || _) eqn:E; [discriminate|]. cbn. intros [= _ <-].
      rewrite (li_room _ _ I b) in *; [lia|right; eauto|right; eauto].
    + destruct (_ && _); discriminate.
    + destruct (forallb _ _); discriminate.
    + destruct todo; [discriminate|]. destruct (raises _ _); discriminate.
    + destruct (forallb _ _); discriminate.
  - destruct (l_pc s); try discriminate. destruct (_ && _); discriminate.
  - destruct (l_pc s); discriminate.
  - destruct (l_pc s); discriminate.
  - destruct (find_task _ _) as [[? ? []]|]; discriminate.
  - destruct (find_task _ _) as [t|]; [destruct (is_done t)|]; discriminate.
  - destruct (l_bykey s k); [|discriminate]. destruct (find_task _ _) as [[? ? []]|]; discriminate.
  - discriminate.
  - destruct (l_pc s); discriminate.
  - destruct (l_pc s); discriminate.
Qed.
Print Assumptions C35_concurrency.

(** Two slots: one redelivery and one new message fill them; the worker waits, and asks
    again for one when one task ends. *)
Definition ex_fill : list levent :=
  [LGo; LGo; LGo; LReply [MTask "a"]; LGo; LGo; LReply [MTask "b"]; LGo; LGo; LGo; LGo; LGo; LGo; LFinish 0 false; LGo; LGo; LGo; LGo].
Example C35_case :
  louts 2 true init_loop ex_fill =
    [WOk; WOk; WAsk true 2; WOk; WStart 0 "a"; WAsk false 1; WOk; WStart 1 "b"; WOk; WOk; WOk; WOk; WOk; WOk; WOk; WOk; WOk; WAsk true 1].
Proof. reflexivity. Qed.

(** ** C54: a cancellation reaches the running task *)

(** As long as the worker never starts a task of [k] while an earlier one is still in its
    table, a cancellation of [k] cancels the task of [k] in flight. *)
Theorem C54_cancel_reaches_partial n forever k l i :
  lalong n forever (one_at_a_time n forever k) init_loop l ->
  let s := lrun n forever init_loop l in
  flying s i k -> snd (lstep n forever s (LCancel k)) = WCancelled i.
Proof.
  intros A s F. assert (H : LInv n s /\ KeyInv k s); [|destruct H; eapply cancel_reaches; eauto].
  unfold s. clear s F. enough (H : forall s, LInv n s -> KeyInv k s -> lalong n forever (one_at_a_time n forever k) s l -> LInv n (lrun n forever s l) /\ KeyInv k (lrun n forever s l))
    by (apply H; [apply LInv_init|apply KeyInv_init|exact A]).
  clear A. induction l as [|e l IH]; intros s I K A; [auto|]. destruct A as [A1 A2]. cbn. apply IH; [now apply LInv_step| |exact A2].
  apply (KeyInv_step n); [exact I|exact K|exact A1].
Qed.
Print Assumptions C54_cancel_reaches_partial.

Definition ex_one : list levent :=
  [LGo; LGo; LGo; LReply []; LGo; LReply [MTask "k"]; LGo; LEnter 0; LGo; LGo].
Example C54_case :
  lalong 2 true (one_at_a_time 2 true "k") init_loop ex_one /\
  louts 2 true init_loop (ex_one ++ [LCancel "k"; LCancel "x"]) =
   [WOk; WOk; WAsk true 2; WOk; WAsk false 2; WOk; WStart 0 "k"; WOk; WOk; WOk; WCancelled 0; WNobody].
Proof. split; [|reflexivity]. cbn; repeat split; intros i E t H; try discriminate; contradiction. Qed.

(** For every history: a cancellation of [k] cancels exactly the task of [k] in flight that
    was created last, provided no task of [k] was cleared away since. *)
Theorem C54_cancels_exactly n forever k l i :
  let s := lrun n forever init_loop l in
  snd (lstep n forever s (LCancel k)) = WCancelled i <-> flying s i k /\ holds_entry n forever k i l.
Proof.
  cbv zeta. rewrite <- entry_exact. set (s := lrun n forever init_loop l).
  assert (I : LInv n s) by (apply reachable_LInv with forever; exists l; reflexivity).
  assert (Ho : forall j, l_bykey s k = Some j -> forall t, find_task (l_tasks s) j = Some t -> t_key t = k) by (intros j E t; exact (bykey_owner n forever k l j t E)).
  cbn. split.
  - destruct (l_bykey s k) as [j|] eqn:E; [|discriminate]. specialize (Ho j eq_refl). destruct (find_task (l_tasks s) j) as [[j' k' x]|] eqn:F; [|discriminate].
    specialize (Ho _ eq_refl). cbn in Ho. subst k'. apply find_task_spec in F. destruct F as [F1 F2]. cbn in F2. subst j'.
    destruct x; try discriminate; intros [= <-]; (split; [|reflexivity]); eexists; (split; [exact F1|]); split; discriminate.
  - intros [(x & Hx & N1 & N2) E]. rewrite E. pose proof (find_task_In _ _ (li_ids n s I) Hx) as F. cbn [t_id] in F. rewrite F.
    destruct x as [| |[]]; try reflexivity; congruence.
Qed.
Print Assumptions C54_cancels_exactly.
(** Two tasks of "k" in flight together: the second is the one cancelled. *)
Example C54_exactly_case :
  let l := ex_one ++ [LGo; LGo; LGo; LReply [MTask "k"]; LGo] in
  flying (lrun 2 true init_loop l) 0 "k" /\ flying (lrun 2 true init_loop l) 1 "k" /\ holds_entry 2 true "k" 1 l /\ ~ holds_entry 2 true "k" 0 l /\
  snd (lstep 2 true (lrun 2 true init_loop l) (LCancel "k")) = WCancelled 1.
Proof.
  cbv zeta. rewrite <- !entry_exact. split; [exists TIn; split; [vm_compute; auto|split; discriminate]|].
  split; [exists TPre; split; [vm_compute; auto|split; discriminate]|]. split; [reflexivity|]. split; [vm_compute; discriminate|reflexivity].
Qed.

(** The full statement is false: a task of "k" reschedules itself at once (Perpetual with
    no delay, or an add of "k" while it runs) and ends while the worker waits for
    messages.  The successor arrives in that very poll and takes the entry of "k";
    then the ended task is cleared, and the entry with it.  The successor runs and a
    cancellation of "k" finds nobody. *)
Definition ex_successor : list levent :=
  ex_one ++ [LGo; LGo; LGo; LReply []; LGo; LFinish 0 false; LReply [MTask "k"]; LGo; LEnter 1; LGo; LGo; LGo; LGo].
Theorem C54_successor_unreachable_refuted :
  let s := lrun 2 true init_loop ex_successor in
  flying s 1 "k" /\ In 1 (l_active s) /\ snd (lstep 2 true s (LCancel "k")) = WNobody.
Proof.
  intros s. assert (T : l_tasks s = [mkTask 0 "k" (TDone false); mkTask 1 "k" TIn]) by (vm_compute; reflexivity).
  assert (A : l_active s = [1]) by (vm_compute; reflexivity). assert (C : snd (lstep 2 true s (LCancel "k")) = WNobody) by (vm_compute; reflexivity).
  split; [|split; [rewrite A; now left|exact C]]. exists TIn. rewrite T. split; [right; now left|]. split; discriminate.
Qed.
Print Assumptions C54_successor_unreachable_refuted.

(** ** C55: the worker survives its tasks *)

Local Ltac qs := repeat split; auto; try congruence; try tauto; try (repeat match goal with H : l_pc _ = _ |- _ => rewrite H end; cbn; tauto); try (exfalso; match goal with P : ~ ended _ |- _ => apply P; exact Logic.I end).
Lemma quiet_state n l : forall s, lalong n true ordinary_traffic s l -> LInv n s -> l_stop s = false ->
  (forall t, In t (l_tasks s) -> t_st t <> TDone true) -> ~ ended (l_pc s) ->
  (forall b ms, l_pc s = PStart b ms -> ~ In MBad ms) -> ~ In WLeave (louts n true s l) /\ l_stop (lrun n true s l) = false /\
   (forall t, In t (l_tasks (lrun n true s l)) -> t_st t <> TDone true).
Proof.
  induction l as [|e l IH]; intros s A I St T P M; [cbn; tauto|]. destruct A as [A1 A2]. cbn [louts lrun].
  assert (Set_ok : forall i x, x <> TDone true -> forall t, In t (set_st (l_tasks s) i x) -> t_st t <> TDone true).
  { intros i x Nx t H. apply set_st_In in H as [[H _]|(u & _ & _ & ->)]; [auto|exact Nx]. }
  assert (Key : snd (lstep n true s e) <> WLeave /\ l_stop (fst (lstep n true s e)) = false /\ (forall t, In t (l_tasks (fst (lstep n true s e))) -> t_st t <> TDone true) /\
    ~ ended (l_pc (fst (lstep n true s e))) /\ (forall b ms, l_pc (fst (lstep n true s e)) = PStart b ms -> ~ In MBad ms)).
  { destruct e; cbn in A1; try contradiction; cbn [lstep].
    - unfold go, ask. destruct (l_pc s) as [|todo| |b c|b ms| | | | |todo| | |] eqn:Hp; cbn [ended] in P; try (exfalso; apply P; exact Logic.I).
      + cbn [orb]. rewrite St. cbn. qs.
      + destruct todo as [|i todo]; [cbn; qs|]. replace (raises s i) with false; [cbn; qs|].
        unfold raises. destruct (find_task (l_tasks s) i) as [t|] eqn:F; [|reflexivity]. apply find_task_spec in F as [F _]. apply T in F. destruct (t_st t) as [| |[]]; congruence.
      + cbn [l_avail]. destruct (_ <=? 0); cbn; qs.
      + cbn. qs.
      + pose proof (M b ms eq_refl) as Mb. destruct ms as [|[| |k] ms]; cbn.
        * destruct (_ || _); cbn; qs.
        * qs. intros b' ms' [= <- <-]. intros H. apply Mb. now right.
        * exfalso. apply Mb. now left.
        * qs. { intros t H. apply in_app_or in H as [H|[<-|[]]]; [auto|discriminate]. }
          intros b' ms' [= <- <-]. intros H. apply Mb. now right.
      + cbn [negb andb]. cbn. qs.
      + cbn. qs.
    - destruct (l_pc s) eqn:Hp; try solve [cbn; rewrite ?Hp; qs]. destruct (_ && _); [cbn; rewrite ?Hp; qs|].
      cbn. qs.
    - destruct (l_pc s) eqn:Hp; cbn; rewrite ?Hp; qs.
    - destruct (find_task _ _) as [[? ? []]|]; cbn; qs. apply Set_ok. discriminate.
    - subst raised. destruct (find_task _ _) as [t|]; [|cbn; qs]. destruct (is_done t); cbn; qs. apply Set_ok. discriminate.
    - destruct (l_bykey s k) as [i|] eqn:B; [|cbn; qs].
      destruct (find_task (l_tasks s) i) as [[i' k' []]|] eqn:F; cbn; qs.
      + apply find_task_spec in F as [F1 F2]. cbn in F2. subst i'. exfalso. exact (A1 i _ eq_refl F1 eq_refl eq_refl).
      + apply Set_ok. discriminate. }
  destruct Key as (K1 & K2 & K3 & K4 & K5). destruct (IH _ A2 (LInv_step _ _ _ _ I) K2 K3 K4 K5) as (R1 & R2 & R3).
  split; [|auto]. cbn. intros [H|H]; [congruence|contradiction].
Qed.

(** A worker running forever does not leave its loop because of the tasks it runs, how
    they end, or their cancellation once they run. *)
Theorem C55_survives_partial n l :
  lalong n true ordinary_traffic init_loop l -> ~ In WLeave (louts n true init_loop l).
Proof.
  intros A. apply quiet_state with (n := n) in A; [tauto|apply LInv_init|reflexivity|intros t []|cbn; tauto|intros b ms [=]].
Qed.
Print Assumptions C55_survives_partial.

Example C55_case : lalong 2 true ordinary_traffic init_loop (ex_one ++ [LCancel "k"; LGo; LGo; LGo; LGo; LReply []; LGo]) /\
  nth 16 (louts 2 true init_loop (ex_one ++ [LCancel "k"; LGo; LGo; LGo; LGo; LReply []; LGo])) WOk = WAsk false 2.
Proof. split; [|reflexivity]. cbn. repeat split; auto; try (intros [H|[]]; discriminate). intros i t [= <-] [<-|[]] _. discriminate. Qed.

(** The full statement is false, twice.  A cancellation that arrives while the task is
    claiming its message is caught by nobody: the loop ends and the worker with it. *)
Theorem C55_cancel_in_claim_refuted :
  let l := [LGo; LGo; LGo; LReply []; LGo; LReply [MTask "k"]; LGo; LGo; LGo; LCancel "k"; LGo; LGo] in
  (forall e, In e l -> match e with LGo | LCancel _ => True | LReply ms => ~ In MBad ms | _ => False end) /\
  louts 2 true init_loop l = [WOk; WOk; WAsk true 2; WOk; WAsk false 2; WOk; WStart 0 "k"; WOk; WOk; WCancelled 0; WOk; WLeave] /\
  snd (lstep 2 true (lrun 2 true init_loop (l ++ [LGo; LGo])) LGo) = WExit.
Proof.
  intros l. split; [|split; reflexivity]. intros e H. unfold l in H. cbn in H. repeat (destruct H as [<-|H]; [cbn; auto; intros [X|[]]; discriminate|]). contradiction.
Qed.
Print Assumptions C55_cancel_in_claim_refuted.
(** A message whose arguments cannot be unpickled ends it too, before the messages read
    with it are started. *)
Theorem C55_bad_message_refuted :
  let l := [LGo; LGo; LGo; LReply []; LGo; LReply [MBad; MTask "k"]; LGo] in
  louts 2 true init_loop l = [WOk; WOk; WAsk true 2; WOk; WAsk false 2; WOk; WLeave] /\ l_tasks (lrun 2 true init_loop l) = [].
Proof. split; reflexivity. Qed.
Print Assumptions C55_bad_message_refuted.

(** ** C56: how the loop ends *)

(** When the loop is over no task is in flight, unless it was cancelled a second time while
    it removed its heartbeat. *)
Theorem C56_drained_partial n forever s e : loop_reachable n forever s ->
  ~ over (l_pc s) -> over (l_pc (fst (lstep n forever s e))) ->
  in_flight (fst (lstep n forever s e)) = [] \/ (e = LAbort /\ l_pc s = PBeat).
Proof.
  intros R N O. pose proof (LInv_step n forever s e (reachable_LInv n forever s R)) as I.
  assert (P : l_pc (fst (lstep n forever s e)) = PExit \/ (e = LAbort /\ l_pc s = PBeat)).
  { clear I R. revert N O. destruct e; cbn [lstep].
    - unfold go, ask. destruct (l_pc s) as [|todo| |b c|b ms| | | | |todo| | |] eqn:Hp; cbn [over fst]; rewrite ?Hp; cbn [over]; try tauto.
      + destruct (_ && _); cbn; tauto.
      + destruct todo; [cbn; tauto|]. destruct (raises _ _); cbn; tauto.
      + destruct (_ <=? 0); cbn; tauto.
      + destruct ms as [|[] ms]; cbn; try tauto. destruct (_ || _); cbn; tauto.
      + destruct (_ && _); cbn; tauto.
      + destruct (forallb _ _); cbn; rewrite ?Hp; cbn; tauto.
      + destruct todo; [cbn; tauto|]. destruct (raises _ _); cbn; tauto.
      + destruct (forallb _ _); cbn; rewrite ?Hp; cbn; tauto.
    - destruct (l_pc s) eqn:Hp; cbn; rewrite ?Hp; cbn; try tauto. destruct (_ && _); cbn; rewrite ?Hp; cbn; tauto.
    - destruct (l_pc s) eqn:Hp; cbn; rewrite ?Hp; cbn; tauto.
    - destruct (l_pc s) eqn:Hp; cbn; rewrite ?Hp; cbn; tauto.
    - destruct (find_task _ _) as [[? ? []]|]; cbn; tauto.
    - destruct (find_task _ _) as [t|]; [destruct (is_done t)|]; cbn; tauto.
    - destruct (l_bykey s k); [|cbn; tauto]. destruct (find_task _ _) as [[? ? []]|]; cbn; tauto.
    - cbn. tauto.
    - destruct (l_pc s) eqn:Hp; cbn; rewrite ?Hp; cbn; tauto.
    - destruct (l_pc s) eqn:Hp; cbn; rewrite ?Hp; cbn; tauto. }
  destruct P as [P|P]; [left|now right].
  pose proof (li_exit _ _ I (or_introl P)) as D. unfold in_flight.
  induction (l_tasks (fst (lstep n forever s e))) as [|t l IH]; [reflexivity|]. cbn. rewrite (D t (or_introl eq_refl)). cbn. apply IH. intros u H. apply D. now right.
Qed.
Print Assumptions C56_drained_partial.

(** Two signals, the second while the worker's heartbeat is being removed from Redis: the
    loop is over and its task still runs. *)
Definition ex_run : list levent := [LGo; LGo; LGo; LReply []; LGo; LReply [MTask "k"]; LGo; LEnter 0; LGo; LGo].
Theorem C56_left_behind_refuted :
  let s := lrun 2 true init_loop (ex_run ++ [LAbort; LAbort]) in
  louts 2 true (lrun 2 true init_loop ex_run) [LAbort; LAbort] = [WLeave; WGone] /\ over (l_pc s) /\ in_flight s = [mkTask 0 "k" TIn].
Proof. split; [reflexivity|]. split; [exact Logic.I|reflexivity]. Qed.
Print Assumptions C56_left_behind_refuted.

(** ** C97: a worker that shuts down lets its tasks finish *)

(** Once it has left its loop the worker starts nothing and asks for nothing (until _run
    calls the loop again after a disconnection). *)
Theorem C97_starts_nothing n forever s e : ended (l_pc s) -> e <> LRestart ->
  ended (l_pc (fst (lstep n forever s e))) /\ (forall i k, snd (lstep n forever s e) <> WStart i k) /\ (forall b c, snd (lstep n forever s e) <> WAsk b c).
Proof.
  intros E N. destruct e; cbn [lstep]; try congruence.
  - unfold go, ask. destruct (l_pc s) as [|todo| |b c|b ms| | | | |todo| | |] eqn:Hp; try contradiction; cbn [fst snd]; try (rewrite ?Hp; repeat split; discriminate).
    + destruct (forallb _ _); cbn; rewrite ?Hp; repeat split; discriminate.
    + destruct todo; [cbn; repeat split; discriminate|]. destruct (raises _ _); cbn; repeat split; discriminate.
    + destruct (forallb _ _); cbn; rewrite ?Hp; repeat split; discriminate.
  - destruct (l_pc s) eqn:Hp; try contradiction; cbn; rewrite ?Hp; repeat split; discriminate.
  - destruct (l_pc s) eqn:Hp; try contradiction; cbn; rewrite ?Hp; repeat split; discriminate.
  - destruct (l_pc s) eqn:Hp; try contradiction; cbn; rewrite ?Hp; repeat split; discriminate.
  - destruct (find_task _ _) as [[? ? []]|]; cbn; repeat split; try discriminate; exact E.
  - destruct (find_task _ _) as [t|]; [destruct (is_done t)|]; cbn; repeat split; try discriminate; exact E.
  - destruct (l_bykey s k); [destruct (find_task _ _) as [[? ? []]|]|]; cbn; repeat split; try discriminate; exact E.
  - cbn; repeat split; try discriminate; exact E.
  - destruct (l_pc s) eqn:Hp; try contradiction; cbn; rewrite ?Hp; repeat split; discriminate.
Qed.
Print Assumptions C97_starts_nothing.

(** A task in flight goes on until it ends by itself or is cancelled by its key, as long as
    the worker is not cancelled while it already waits for its tasks. *)
Theorem C97_finish_partial n forever s e i k : loop_reachable n forever s -> flying s i k -> ~ (e = LAbort /\ l_pc s = PDrain) ->
  flying (fst (lstep n forever s e)) i k \/ (exists r, e = LFinish i r) \/ (exists k', e = LCancel k' /\ snd (lstep n forever s e) = WCancelled i).
Proof.
  intros R F N. assert (I := reachable_LInv n forever s R). destruct F as (x & H & X1 & X2).
  assert (Same : forall s', l_tasks s' = l_tasks s -> flying s' i k) by (intros s' E; exists x; rewrite E; auto).
  assert (Set_st : forall j y, flying (set_tasks s (set_st (l_tasks s) j y)) i k \/ j = i).
  { intros j y. destruct (Z.eq_dec j i) as [E|E]; [now right|left]. exists x. split; [|auto]. unfold set_st. cbn. apply in_map_iff. exists (mkTask i k x). split; [|exact H].
    cbn. destruct (Z.eqb_spec i j); [congruence|reflexivity]. }
  destruct e; cbn [lstep].
  - left. unfold go, ask. destruct (l_pc s) as [|todo| |b c|b ms| | | | |todo| | |] eqn:Hp; try (now apply Same).
    + destruct (_ && _); now apply Same.
    + destruct todo; [now apply Same|]. destruct (raises _ _); now apply Same.
    + destruct (_ <=? 0); now apply Same.
    + destruct ms as [|[] ms]; try (now apply Same). { destruct (_ || _); now apply Same. }
      exists x. cbn. split; [apply in_or_app; now left|auto].
    + destruct (_ && _); now apply Same.
    + destruct (forallb _ _); now apply Same.
    + destruct todo; [now apply Same|]. destruct (raises _ _); now apply Same.
    + destruct (forallb _ _); now apply Same.
  - left. destruct (l_pc s); try (now apply Same). destruct (_ && _); now apply Same.
  - left. destruct (l_pc s); now apply Same.
  - left. destruct (l_pc s); now apply Same.
  - left. destruct (find_task (l_tasks s) i0) as [[i' k' []]|] eqn:Ft; try (now apply Same). cbn [fst]. destruct (Set_st i0 TIn) as [S|S]; [exact S|]. subst i0.
    exists TIn. split; [|split; discriminate]. unfold set_st. cbn. apply in_map_iff. exists (mkTask i k x). split; [|exact H]. cbn. now rewrite Z.eqb_refl.
  - destruct (find_task (l_tasks s) i0) as [t|]; [|left; now apply Same]. destruct (is_done t); [left; now apply Same|]. cbn [fst].
    destruct (Set_st i0 (TDone raised)) as [S|S]; [now left|]. subst i0. right; left. eauto.
  - destruct (l_bykey s k0) as [j|]; [|left; now apply Same]. destruct (find_task (l_tasks s) j) as [[i' k' st]|]; [|left; now apply Same].
    destruct st; cbn [fst snd]; try (left; now apply Same).
    + destruct (Set_st j (TDone true)) as [S|S]; [now left|]. subst j. right; right. eauto.
    + destruct (Set_st j (TDone false)) as [S|S]; [now left|]. subst j. right; right. eauto.
  - left. now apply Same.
  - left. destruct (l_pc s) eqn:Hp; try (now apply Same). exfalso. now apply N.
  - left. destruct (l_pc s); now apply Same.
Qed.
Print Assumptions C97_finish_partial.

(** One signal while a task runs: the worker waits for it, the task ends by itself, and only
    then the loop is over. *)
Example C97_case :
  flying (lrun 2 true init_loop ex_run) 0 "k" /\
  louts 2 true (lrun 2 true init_loop ex_run) [LAbort; LGo; LGo; LFinish 0 false; LGo; LGo; LGo] = [WLeave; WOk; WRefused; WOk; WOk; WOk; WExit].
Proof. split; [|reflexivity]. exists TIn. split; [now left|split; discriminate]. Qed.

(** A second signal (or a second cancellation of run_forever) while the worker waits: gather
    passes it on to every task.  The body is interrupted, and _execute records the task as
    cancelled; what is then left of it in Redis is a state, no message and no schedule,
    so no worker gets it again. *)
Theorem C97_second_signal_refuted :
  (let s := lrun 2 true init_loop (ex_run ++ [LAbort; LGo]) in
   flying s 0 "k" /\ louts 2 true s [LAbort; LGo] = [WCancelAll [0]; WExit] /\
   l_tasks (lrun 2 true s [LAbort; LGo]) = [mkTask 0 "k" (TDone false)]) /\
  (let d := s_db (final (mkCfg 900 100) init_sys [OAdd (mkCall "k" 0 "f" "" "") 0; ORead "w"; OClaim 0 1; OBodyStart 0; OBodyEnd 0; OTerminal 0 SCancelled 2 None None]) in
   d_stream d = [] /\ d_queue d = [] /\ d_pel d = [] /\ match d_runs d "k" with Some r => r_state r = Some SCancelled | None => False end).
Proof. split; [split; [exists TIn; split; [now left|split; discriminate]|split; reflexivity]|vm_compute; repeat split]. Qed.
Print Assumptions C97_second_signal_refuted.

Lemma go_top n f s : l_pc s = PTop -> l_stop s = false -> snd (lstep n f s LGo) = WLeave -> f = false /\ l_work s = false /\ l_active s = [].
Proof.
  intros P S. cbn [lstep]. unfold go. rewrite P, S. destruct f, (l_work s), (l_active s); cbn; intros; try discriminate; auto.
Qed.

(** has_work is false only after a check that found nothing, and then nothing starts. *)
Definition Idle (f : bool) (s : loop) : Prop :=
  (l_pc s = PCheck -> f = false /\ l_active s = []) /\
  (l_work s = false -> f = false /\ ((l_pc s = PTop /\ l_active s = []) \/ ended (l_pc s))).

Lemma Idle_step n f s e : Idle f s -> Idle f (fst (lstep n f s e)) /\
  (l_work (fst (lstep n f s e)) = false -> (l_work s = false /\ (forall i k, snd (lstep n f s e) <> WStart i k)) \/
     exists a b, e = LChecked a b /\ l_pc s = PCheck /\ a <= 0 /\ b <= 0).
Proof.
  intros [C W]. unfold Idle. destruct e; cbn [lstep].
  - unfold go, ask. destruct (l_pc s) as [|todo| |b c|b ms| | | | |todo| | |] eqn:Hp.
    + destruct ((f || l_work s || _) && _) eqn:E.
      * cbn. split; [split; [discriminate|]|]; intros Wf; destruct (W Wf) as [-> [[_ A]|[]]]; exfalso; rewrite Wf, A in E; discriminate.
      * cbn. split; [split; [discriminate|]|]; intros Wf; [destruct (W Wf); auto|]. left. split; [exact Wf|discriminate].
    + assert (Wt : l_work s = true) by (destruct (l_work s); [reflexivity|]; destruct (W eq_refl) as [_ [[X _]|[]]]; discriminate).
      destruct todo; [cbn; rewrite Wt; repeat split; discriminate|]. destruct (raises _ _); cbn; rewrite Wt; repeat split; discriminate.
    + assert (Wt : l_work s = true) by (destruct (l_work s); [reflexivity|]; destruct (W eq_refl) as [_ [[X _]|[]]]; discriminate).
      cbn [l_avail]. destruct (_ <=? 0); cbn; rewrite Wt; repeat split; discriminate.
    + assert (Wt : l_work s = true) by (destruct (l_work s); [reflexivity|]; destruct (W eq_refl) as [_ [[X _]|[]]]; discriminate).
      cbn. rewrite Wt, Hp. repeat split; discriminate.
    + assert (Wt : l_work s = true) by (destruct (l_work s); [reflexivity|]; destruct (W eq_refl) as [_ [[X _]|[]]]; discriminate).
      destruct ms as [|[] ms]; [destruct (_ || _)|..]; cbn; rewrite Wt; repeat split; discriminate.
    + assert (Wt : l_work s = true) by (destruct (l_work s); [reflexivity|]; destruct (W eq_refl) as [_ [[X _]|[]]]; discriminate).
      destruct f, (l_active s) eqn:A; cbn; rewrite ?Wt, ?A; repeat split; try discriminate.
    + cbn. rewrite Hp. split; [split; [exact C|exact W]|]. intros Wf. left. split; [exact Wf|discriminate].
    + cbn; (split; [split; [discriminate|]|]); intros Wf; try (left; split; [exact Wf|discriminate]); destruct (W Wf); auto.
    + destruct (forallb _ _); cbn; rewrite ?Hp; (split; [split; [discriminate|]|]); intros Wf; try (left; split; [exact Wf|discriminate]); destruct (W Wf); auto.
    + destruct todo; [|destruct (raises _ _)]; cbn; (split; [split; [discriminate|]|]); intros Wf; try (left; split; [exact Wf|discriminate]); destruct (W Wf); auto.
    + destruct (forallb _ _); cbn; rewrite ?Hp; (split; [split; [discriminate|]|]); intros Wf; try (left; split; [exact Wf|discriminate]); destruct (W Wf); auto.
    + cbn. rewrite Hp. split; [split; [exact C|exact W]|]. intros Wf. left. split; [exact Wf|discriminate].
    + cbn. rewrite Hp. split; [split; [exact C|exact W]|]. intros Wf. left. split; [exact Wf|discriminate].
  - assert (Same : (((l_pc s = PCheck -> f = false /\ l_active s = []) /\ (l_work s = false -> f = false /\ ((l_pc s = PTop /\ l_active s = []) \/ ended (l_pc s)))) /\ (l_work s = false -> l_work s = false /\ (forall (i : Z) k, WRefused <> WStart i k) \/ exists a b, LReply ms = LChecked a b /\ l_pc s = PCheck /\ a <= 0 /\ b <= 0))) by (split; [auto|]; intros Wf; left; split; [exact Wf|discriminate]).
    destruct (l_pc s) eqn:Hp; try (cbn; rewrite Hp; exact Same). destruct (_ && _); [cbn; rewrite Hp; exact Same|].
    assert (Wt : l_work s = true) by (destruct (l_work s); [reflexivity|]; destruct (W eq_refl) as [_ [[X _]|[]]]; discriminate).
    cbn. rewrite Wt. repeat split; discriminate.
  - destruct (l_pc s) eqn:Hp; cbn; rewrite ?Hp; (split; [split; [try discriminate; auto|]|]); intros Wf; try (left; split; [exact Wf|discriminate]); destruct (W Wf); auto.
  - destruct (l_pc s) eqn:Hp; cbn; rewrite ?Hp; try (split; [split; [exact C|exact W]|]; intros Wf; left; split; [exact Wf|discriminate]).
    destruct (C eq_refl) as [-> A]. split; [split; [discriminate|]|]; intros Wf; [auto|]. right. exists stream, queue. repeat split; auto; lia.
  - destruct (find_task _ _) as [[? ? []]|]; cbn; (split; [split; [exact C|exact W]|]); intros Wf; left; (split; [exact Wf|discriminate]).
  - destruct (find_task _ _) as [t|]; [destruct (is_done t)|]; cbn; (split; [split; [exact C|exact W]|]); intros Wf; left; (split; [exact Wf|discriminate]).
  - destruct (l_bykey s k); [destruct (find_task _ _) as [[? ? []]|]|]; cbn; (split; [split; [exact C|exact W]|]); intros Wf; left; (split; [exact Wf|discriminate]).
  - cbn; (split; [split; [exact C|exact W]|]); intros Wf; left; (split; [exact Wf|discriminate]).
  - destruct (l_pc s) eqn:Hp; cbn; rewrite ?Hp; (split; [split; [try discriminate; auto|]|]); intros Wf; try (left; split; [exact Wf|discriminate]); destruct (W Wf); auto.
  - destruct (l_pc s) eqn:Hp; cbn; rewrite ?Hp; (split; [split; [try discriminate; auto|]|]); intros Wf; try discriminate; try (left; split; [exact Wf|discriminate]); destruct (W Wf); auto.
Qed.

Lemma idle_history n f l : let s := lrun n f init_loop l in Idle f s /\ (l_work s = false ->
  exists l1 a b l2, l = l1 ++ LChecked a b :: l2 /\ l_pc (lrun n f init_loop l1) = PCheck /\ a <= 0 /\ b <= 0 /\
    forall i k, ~ In (WStart i k) (louts n f (lrun n f init_loop (l1 ++ [LChecked a b])) l2)).
Proof.
  induction l as [|e l IH] using rev_ind; [split; [split; cbn; discriminate|discriminate]|]. cbv zeta in *. rewrite lrun_app. cbn [lrun].
  destruct IH as [I H]. destruct (Idle_step n f _ e I) as [I' H']. split; [exact I'|]. intros W. destruct (H' W) as [[W0 N]|(a & b & -> & P & Ha & Hb)].
  - destruct (H W0) as (l1 & a & b & l2 & -> & P & Ha & Hb & S). exists l1, a, b, (l2 ++ [e]). rewrite <- app_assoc. repeat split; auto.
    intros i k X. assert (Lo : forall l s l', louts n f s (l ++ l') = louts n f s l ++ louts n f (lrun n f s l) l').
    { clear. induction l as [|x l IH]; intros s l'; [reflexivity|]. cbn. now rewrite IH. }
    rewrite Lo in X. apply in_app_or in X as [X|[X|[]]]; [exact (S i k X)|]. apply (N i k). rewrite <- X. repeat (rewrite lrun_app; cbn [lrun]). reflexivity.
  - exists l, a, b, []. repeat split; auto.
Qed.

(** run_until_finished ends by itself (not stopped, connection not lost, no exception) only
    after it saw the stream and the schedule empty; nothing is in flight, and nothing
    was started since it looked. *)
Theorem C56_until_finished n forever l :
  let s := lrun n forever init_loop l in
  l_pc s = PTop -> l_stop s = false -> snd (lstep n forever s LGo) = WLeave ->
  forever = false /\ in_flight s = [] /\
  exists l1 stream queue l2, l = l1 ++ LChecked stream queue :: l2 /\ l_pc (lrun n forever init_loop l1) = PCheck /\
    stream <= 0 /\ queue <= 0 /\
    forall i k, ~ In (WStart i k) (louts n forever (lrun n forever init_loop (l1 ++ [LChecked stream queue])) l2).
Proof.
  intros s P S G. destruct (go_top _ _ _ P S G) as (F & W & A). split; [exact F|]. split; [|exact (proj2 (idle_history n forever l) W)].
  assert (I : LInv n s) by (apply (reachable_LInv n forever); exists l; reflexivity).
  pose proof (inflight_le n s I) as L. rewrite A in L. destruct (in_flight s); [reflexivity|cbn in L; lia].
Qed.
Print Assumptions C56_until_finished.

Example C56_case :
  let l := [LGo; LGo; LGo; LReply []; LGo; LReply [MTask "k"]; LGo; LGo; LGo; LFinish 0 false; LGo; LGo; LGo; LGo; LReply []; LGo; LReply []; LGo; LGo; LChecked 0 0] in
  let s := lrun 1 false init_loop l in
  l_pc s = PTop /\ l_stop s = false /\ louts 1 false s [LGo; LGo; LGo; LGo] = [WLeave; WOk; WOk; WExit].
Proof. repeat split. Qed.
