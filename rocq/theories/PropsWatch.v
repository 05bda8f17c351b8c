(** C65: "docket watch" follows a task until it is finished. *)
From Verif Require Import Base ZSet Model Watch.

(** A round in which an event arrived. *)
Definition busy (r : round) : Prop := match r with RQuiet _ => False | _ => True end.
(** The last state made known. *)
Definition newest (cur : state) (l : list round) : state :=
  fold_left (fun c r => match r with RState s | RQuiet s => s | RProgress => c end) l cur.
Definition told (s : state) (l : list round) : Prop := In (RState s) l \/ In (RQuiet s) l.
Definition ends (s : state) : Prop := s = SCompleted \/ s = SFailed.

Lemma stops_ends s : stops s = true <-> ends s.
Proof. unfold ends. destruct s; cbn; split; intros H; try discriminate; auto; destruct H; discriminate. Qed.

Lemma show_busy l : Forall busy l -> forall cur,
  (exists l1 s l2, l = l1 ++ RState s :: l2 /\ ends s /\ (forall u, told u l1 -> ~ ends u) /\
     show cur (iterate true l) (exhausted true l) = WEnded s) \/
  ((forall u, told u l -> ~ ends u) /\ show cur (iterate true l) (exhausted true l) = WGoesOn (newest cur l)).
Proof.
  intros B. induction B as [|r l B1 B2 IH]; intros cur.
  - right. split; [intros u [[]|[]]|reflexivity].
  - destruct r as [s'| |p]; [| |destruct B1]; cbn [iterate exhausted show].
    + destruct (stops s') eqn:S.
      * left. exists [], s', l. split; [reflexivity|]. split; [now apply stops_ends|]. split; [intros u [[]|[]]|reflexivity].
      * assert (N : ~ ends s') by (intros E; apply stops_ends in E; congruence).
        destruct (IH s') as [(l1 & s & l2 & -> & H1 & H2 & H3)|[H1 H2]].
        -- left. exists (RState s' :: l1), s, l2. split; [reflexivity|]. split; [exact H1|]. split; [|exact H3].
           intros u [[E|U]|[E|U]]; [inversion E; subst; exact N|apply H2; now left|discriminate|apply H2; now right].
        -- right. split; [|exact H2]. intros u [[E|U]|[E|U]]; [inversion E; subst; exact N|apply H1; now left|discriminate|apply H1; now right].
    + destruct (IH cur) as [(l1 & s & l2 & -> & H1 & H2 & H3)|[H1 H2]].
      * left. exists (RProgress :: l1), s, l2. split; [reflexivity|]. split; [exact H1|]. split; [|exact H3].
        intros u [[E|U]|[E|U]]; [discriminate|apply H2; now left|discriminate|apply H2; now right].
      * right. split; [|exact H2]. intros u [[E|U]|[E|U]]; [discriminate|apply H1; now left|discriminate|apply H1; now right].
Qed.

(** While at least one event arrives in every second: the command ends when it is first
    told that the task completed or failed, and shows that; otherwise it goes on and
    shows the newest state.
    Missing from the full statement: seconds without an event, and cancelled tasks
    (false, below). *)
Theorem C65_follows_partial cur l : ~ ends cur -> Forall busy l ->
  (exists l1 s l2, l = l1 ++ RState s :: l2 /\ ends s /\ (forall u, told u l1 -> ~ ends u) /\ watch cur l = WEnded s) \/
  ((forall u, told u l -> ~ ends u) /\ watch cur l = WGoesOn (newest cur l)).
Proof.
  intros N B. unfold watch. destruct (stops cur) eqn:S; [apply stops_ends in S; contradiction|]. now apply show_busy.
Qed.
Print Assumptions C65_follows_partial.

Example C65_follows_example :
  let l := [RState SRunning; RProgress; RState SQueued; RState SRunning; RProgress; RState SFailed] in
  Forall busy l /\ watch SQueued l = WEnded SFailed /\ watch SQueued (removelast l) = WGoesOn SRunning.
Proof. split; [repeat constructor|split; reflexivity]. Qed.

(** The first second without an event ends the command, whatever comes later, even
    though the poll has just shown that the task is not finished. *)
Theorem C65_quiet_second_refuted cur l1 p l2 : ~ ends cur -> Forall busy l1 -> (forall u, told u l1 -> ~ ends u) ->
  ~ ends p -> watch cur (l1 ++ RQuiet p :: l2) = WEnded p.
Proof.
  intros N B. unfold watch. destruct (stops cur) eqn:S; [apply stops_ends in S; contradiction|]. clear N S. revert cur.
  induction B as [|r l1 B1 B2 IH]; intros cur T P.
  - cbn [app iterate exhausted show]. destruct (stops p) eqn:Sp; [apply stops_ends in Sp; contradiction|].
    assert (I : forall l, iterate false l = []) by (intros l; destruct l; reflexivity).
    assert (E : forall l, exhausted false l = true) by (intros l; destruct l; reflexivity). rewrite I, E.
    destruct (state_eqb p cur) eqn:Q; [|reflexivity]. cbn. destruct p, cur; try discriminate Q; reflexivity.
  - assert (T' : forall u, told u l1 -> ~ ends u) by (intros u [U|U]; apply T; [left|right]; now right).
    destruct r as [s'| |q]; [| |destruct B1]; cbn [app iterate exhausted show].
    + destruct (stops s') eqn:S; [exfalso; apply (T s'); [left; now left|now apply stops_ends]|]. now apply IH.
    + now apply IH.
Qed.
Print Assumptions C65_quiet_second_refuted.

(** A task that has ended already ends the command at once, and so does a poll that finds
    the task ended. *)
Theorem C65_ended cur l : ends cur -> watch cur l = WEnded cur.
Proof. intros H. unfold watch. apply stops_ends in H. now rewrite H. Qed.
Print Assumptions C65_ended.
Theorem C65_polled cur l1 p l2 : ~ ends cur -> Forall busy l1 -> (forall u, told u l1 -> ~ ends u) ->
  ends p -> watch cur (l1 ++ RQuiet p :: l2) = WEnded p.
Proof.
  intros N B. unfold watch. destruct (stops cur) eqn:S; [apply stops_ends in S; contradiction|]. clear N S. revert cur.
  induction B as [|r l1 B1 B2 IH]; intros cur T P.
  - cbn [app iterate exhausted show]. apply stops_ends in P. rewrite P.
    assert (I : forall l, iterate false l = []) by (intros l; destruct l; reflexivity).
    assert (E : forall l, exhausted false l = true) by (intros l; destruct l; reflexivity). rewrite I, E.
    destruct (state_eqb p cur) eqn:Q; [|reflexivity]. cbn. destruct p, cur; try discriminate Q; reflexivity.
  - assert (T' : forall u, told u l1 -> ~ ends u) by (intros u [U|U]; apply T; [left|right]; now right).
    destruct r as [s'| |q]; [| |destruct B1]; cbn [app iterate exhausted show].
    + destruct (stops s') eqn:S; [exfalso; apply (T s'); [left; now left|now apply stops_ends]|]. now apply IH.
    + now apply IH.
Qed.
Print Assumptions C65_polled.

(** For instance a task that runs for more than a second without reporting. *)
Example C65_quiet_second_example : watch SQueued [RState SRunning; RQuiet SRunning; RState SCompleted] = WEnded SRunning.
Proof. reflexivity. Qed.

(** A task that is cancelled has ended, but the command goes on. *)
Theorem C65_cancelled_refuted : exists cur l, Forall busy l /\ In (RState SCancelled) l /\ watch cur l = WGoesOn SCancelled.
Proof. exists SRunning, [RState SCancelled]. split; [repeat constructor|]. split; [now left|reflexivity]. Qed.
Print Assumptions C65_cancelled_refuted.
