(** C132: reconnecting. *)
From Coq Require Import List.
From Verif Require Import Base Reconnect.
Import ListNotations.

(** ** C132: a worker reconnects after reconnection_delay until it is told to stop *)

(** When the attempt after those of [a] starts: each takes its time, and then the delay. *)
Definition start_after (delay t0 : Z) (a : list attempt) : Z := t0 + fold_right (fun x s => at_takes x + delay + s) 0 a.
Definition is_end (f : finish) (t : Z) (o : outcome) : Prop :=
  match f with Returns => o = Over t | Fails => o = Raised t | Disconnected => False end.

(** Without a stop: after any number of connection errors the next attempt starts exactly
    the delay after the last error; every one of them is counted; and the first attempt that ends in
    another way ends the run in that way. *)
Theorem C132_reconnects delay a x l t0 : (forall y, In y a -> at_end y = Disconnected) -> at_end x <> Disconnected ->
  exists ts o, run_loop delay None (a ++ x :: l) t0 = (ts, length a, o) /\ length ts = S (length a) /\
    (forall i, (i <= length a)%nat -> nth_error ts i = Some (start_after delay t0 (firstn i a))) /\
    is_end (at_end x) (start_after delay t0 a + at_takes x) o.
Proof.
  intros H X. revert t0. induction a as [|y a IH]; intros t0.
  - cbn [app run_loop stopped]. unfold start_after. cbn [fold_right]. destruct (at_end x) eqn:E; [|now elim X|];
      (do 2 eexists; split; [reflexivity|]; split; [reflexivity|]; split; [intros [|i] I; [cbn; f_equal; lia|cbn in I; lia]|cbn; f_equal; lia]).
  - cbn [app run_loop stopped]. rewrite (H y (or_introl eq_refl)). destruct (IH (fun z I => H z (or_intror I)) (t0 + at_takes y + delay)) as (ts & o & E & L & N & O).
    rewrite E. do 2 eexists. split; [reflexivity|]. split; [cbn; now rewrite L|]. split.
    + intros [|i] I; [cbn; unfold start_after; cbn; f_equal; lia|]. cbn [nth_error firstn]. rewrite N by (cbn in I; lia). f_equal. unfold start_after. cbn [fold_right]. lia.
    + replace (start_after delay t0 (y :: a)) with (start_after delay (t0 + at_takes y + delay) a); [exact O|]. unfold start_after. cbn [fold_right]. lia.
Qed.
Print Assumptions C132_reconnects.

(** Told to stop at time [s]: no attempt starts then or later; the run ends by then, or with the
    attempt during which it was told. *)
Theorem C132_stops delay s l t0 ts n o : 0 <= delay -> (forall x, In x l -> 0 <= at_takes x) -> run_loop delay (Some s) l t0 = (ts, n, o) ->
  (forall t, In t ts -> t0 <= t < s) /\ (n <= length ts)%nat /\
  match o with
  | Over t | Raised t => t <= Z.max s t0 \/ exists i x t', nth_error l i = Some x /\ nth_error ts i = Some t' /\ S i = length ts /\ t = t' + at_takes x
  | GoesOn t => t < s
  end.
Proof.
  intros D. revert t0 ts n o. induction l as [|x l IH]; intros t0 ts n o P; cbn [run_loop]; unfold stopped at 1.
  - destruct (s <=? t0) eqn:S0; intros E; injection E as <- <- <-; (split; [intros t []|]); (split; [cbn; lia|]); lia.
  - destruct (s <=? t0) eqn:S0; [intros E; injection E as <- <- <-; split; [intros t []|]; split; [cbn; lia|]; lia|].
    assert (Px : 0 <= at_takes x) by (apply P; now left).
    assert (One : forall o, (forall t, In t [t0] -> t0 <= t < s) /\ match o with Over t | Raised t => t = t0 + at_takes x -> exists i x' t', nth_error (x :: l) i = Some x' /\ nth_error [t0] i = Some t' /\ S i = length [t0] /\ t = t' + at_takes x' | GoesOn _ => True end).
    { intros o'. split; [intros t [<-|[]]; lia|]. destruct o'; try exact I; intros ->; exists 0%nat, x, t0; repeat split. }
    destruct (at_end x).
    + intros E; injection E as <- <- <-. destruct (One (Over (t0 + at_takes x))) as [A B]. split; [exact A|]. split; [cbn; lia|]. right. now apply B.
    + unfold stopped. destruct (s <=? t0 + at_takes x) eqn:S1.
      * intros E; injection E as <- <- <-. destruct (One (Over (t0 + at_takes x))) as [A B]. split; [exact A|]. split; [cbn; lia|]. right. now apply B.
      * destruct (s <=? t0 + at_takes x + delay) eqn:S2.
        { intros E; injection E as <- <- <-. split; [exact (proj1 (One (GoesOn 0)))|]. split; [cbn; lia|]. left. lia. }
        destruct (run_loop delay (Some s) l (t0 + at_takes x + delay)) as [[ts' n'] o'] eqn:R. intros E; injection E as <- <- <-.
        destruct (IH _ _ _ _ (fun y I => P y (or_intror I)) R) as (A & B & C). split; [intros t [<-|I]; [lia|specialize (A t I); lia]|]. split; [cbn; lia|].
        assert (G : forall t, (t <= Z.max s (t0 + at_takes x + delay) \/ (exists i x0 t', nth_error l i = Some x0 /\ nth_error ts' i = Some t' /\ S i = length ts' /\ t = t' + at_takes x0)) ->
          t <= Z.max s t0 \/ exists i x0 t', nth_error (x :: l) i = Some x0 /\ nth_error (t0 :: ts') i = Some t' /\ S i = length (t0 :: ts') /\ t = t' + at_takes x0).
        { intros t [Q|(i & y & t' & Q1 & Q2 & Q3 & Q4)]; [left; lia|]. right. exists (S i), y, t'. cbn [nth_error length]. rewrite Q3. auto. }
        destruct o'; [now apply G|now apply G|exact C].
    + intros E; injection E as <- <- <-. destruct (One (Raised (t0 + at_takes x))) as [A B]. split; [exact A|]. split; [cbn; lia|]. right. now apply B.
Qed.
Print Assumptions C132_stops.

(** The disruptions counted are exactly the attempts that ended with a connection error
    before the worker was told to stop. *)
Definition disruption (s : Z) (p : Z * attempt) : bool :=
  match at_end (snd p) with Disconnected => fst p + at_takes (snd p) <? s | _ => false end.
Theorem C132_counted delay s l t0 ts n o : run_loop delay (Some s) l t0 = (ts, n, o) -> n = length (filter (disruption s) (combine ts l)).
Proof.
  revert t0 ts n o. induction l as [|x l IH]; intros t0 ts n o; cbn [run_loop]; unfold stopped at 1.
  - destruct (s <=? t0); intros E; injection E as <- <- <-; reflexivity.
  - destruct (s <=? t0); [intros E; injection E as <- <- <-; reflexivity|].
    destruct (at_end x) eqn:X; [| |].
    + intros E; injection E as <- <- <-. cbn [combine filter]. unfold disruption at 1. cbn [fst snd]. now rewrite X.
    + unfold stopped. destruct (s <=? t0 + at_takes x) eqn:S1.
      * intros E; injection E as <- <- <-. cbn [combine filter]. unfold disruption at 1. cbn [fst snd]. rewrite X. destruct (t0 + at_takes x <? s) eqn:L; [lia|reflexivity].
      * assert (L : (t0 + at_takes x <? s) = true) by lia. destruct (s <=? t0 + at_takes x + delay).
        { intros E; injection E as <- <- <-. cbn [combine filter]. unfold disruption at 1. cbn [fst snd]. now rewrite X, L. }
        destruct (run_loop delay (Some s) l (t0 + at_takes x + delay)) as [[ts' n'] o'] eqn:R. intros E; injection E as <- <- <-.
        cbn [combine filter]. unfold disruption at 1. cbn [fst snd]. rewrite X, L. cbn [length]. now rewrite (IH _ _ _ _ R).
    + intros E; injection E as <- <- <-. cbn [combine filter]. unfold disruption at 1. cbn [fst snd]. now rewrite X.
Qed.
Print Assumptions C132_counted.

(** Two disruptions and a stop: in time, during the wait, and during an attempt. *)
Example C132_case : let d := mkAttempt Disconnected 10 in
  run_loop 5 None [d; d; mkAttempt Returns 7; d] 0 = ([0; 15; 30], 2%nat, Over 37) /\
  run_loop 5 None [d; mkAttempt Fails 1] 0 = ([0; 15], 1%nat, Raised 16) /\
  run_loop 5 (Some 28) [d; d; d; d] 0 = ([0; 15], 2%nat, Over 28) /\
  run_loop 5 (Some 20) [d; d; d; d] 0 = ([0; 15], 1%nat, Over 25).
Proof. vm_compute. repeat split. Qed.
