(** C133: the ports of a worker. *)
From Coq Require Import List.
From Verif Require Import Base Ports.
Import ListNotations.

(** ** C133: the health and metrics ports are open exactly while the worker runs *)

(** The ports asked for. *)
Definition asked (health metrics : option Z) : list Z := match health with Some p => [p] | None => [] end ++ match metrics with Some p => [p] | None => [] end.
(** They can all be had: no other process has one of them, and they differ. *)
Definition free (taken : Z -> bool) (ps : list Z) : Prop := NoDup ps /\ forall p, In p ps -> taken p = false.
(** The worker with its tasks, which opens and closes no such servers itself, and records in what
    state of the process it ran. *)
Definition quiet (body : process -> result * process) : Prop := forall s, snd (body s) = s.

Lemma remove_head p l : ~ In p l -> remove p (p :: l) = l.
Proof.
  intros N. unfold remove. cbn [filter]. rewrite Z.eqb_refl. cbn [negb]. induction l as [|q l IH]; [reflexivity|]. cbn [filter].
  destruct (q =? p) eqn:E; [elim N; left; lia|]. cbn [negb]. f_equal. apply IH. intros I. apply N. now right.
Qed.
Lemma has_spec p l : existsb (Z.eqb p) l = true <-> In p l.
Proof. rewrite existsb_exists. split; [intros (q & I & E); assert (q = p) as -> by lia; exact I|intros I; exists p; split; [exact I|lia]]. Qed.

(** If the ports can be had, the worker runs, with all of them listened on and served; its
    result is the result; and afterwards no port is open. *)
Theorem C133_open_partial taken health metrics body : quiet body -> free taken (asked health metrics) ->
  exists s, (forall p, In p (asked health metrics) <-> In p (listening s)) /\ (forall p, In p (asked health metrics) <-> In p (serving s)) /\
    fst (run taken health metrics body (mkProcess [] [])) = fst (body s) /\
    listening (snd (run taken health metrics body (mkProcess [] []))) = [] /\
    (fst (body s) = Fine -> serving (snd (run taken health metrics body (mkProcess [] []))) = []).
Proof.
  intros Q [D F]. unfold run, around, asked in *.
  assert (R : forall x s, body x = s -> s = (fst (body x), x)) by (intros x s <-; rewrite <- (Q x) at 3; now destruct (body x)).
  destruct health as [h|], metrics as [m|]; cbn [app In] in *.
  - rewrite (F h) by auto. cbn [orb listening existsb]. rewrite (F m) by auto. cbn [orb].
    assert (N : h <> m) by (inversion D as [|? ? X _]; intros ->; apply X; now left).
    destruct ((m =? h) || false) eqn:E; [lia|]. exists (mkProcess [m; h] [m; h]). cbn [listening serving In].
    rewrite (R _ _ eq_refl). cbn [fst snd listening serving]. rewrite !remove_head by (cbn; intuition lia).
    split; [intros p; tauto|]. split; [intros p; tauto|]. split; [reflexivity|]. split; [reflexivity|]. intros B. rewrite B. rewrite ?remove_head by (cbn; intuition lia). reflexivity.
  - rewrite (F h) by auto. cbn [orb listening existsb]. exists (mkProcess [h] [h]). cbn [listening serving In]. rewrite (R _ _ eq_refl). cbn [fst snd listening serving].
    split; [intros p; tauto|]. split; [intros p; tauto|]. split; [reflexivity|]. split; [apply remove_head; intros []|]. intros B. rewrite B. apply remove_head. intros [].
  - rewrite (F m) by auto. cbn [orb listening existsb]. exists (mkProcess [m] [m]). cbn [listening serving In]. rewrite (R _ _ eq_refl). cbn [fst snd listening serving].
    split; [intros p; tauto|]. split; [intros p; tauto|]. split; [reflexivity|]. split; [apply remove_head; intros []|]. intros B. rewrite B. apply remove_head. intros [].
  - exists (mkProcess [] []). rewrite (R _ _ eq_refl). cbn. repeat split; tauto.
Qed.
Print Assumptions C133_open_partial.

(** If one of them cannot, Worker.run raises, whatever the worker would have done, and no
    port stays open. *)
Theorem C133_taken_partial taken health metrics body : ~ free taken (asked health metrics) ->
  fst (run taken health metrics body (mkProcess [] [])) = Raise /\ listening (snd (run taken health metrics body (mkProcess [] []))) = [].
Proof.
  intros N. unfold run, around, asked, free in *. destruct health as [h|], metrics as [m|]; cbn [app In listening existsb orb] in *.
  - destruct (taken h) eqn:Th; cbn [orb fst snd listening]; [split; reflexivity|]. destruct (taken m || ((m =? h) || false)) eqn:E; cbn [orb fst snd listening serving].
    + split; [reflexivity|]. apply remove_head. intros [].
    + exfalso. apply N. split; [constructor; [intros [->|[]]; lia|constructor; [intros []|constructor]]|]. intros p [<-|[<-|[]]]; [exact Th|]. destruct (taken m); [discriminate E|reflexivity].
  - destruct (taken h) eqn:Th; cbn [orb fst snd listening]; [split; reflexivity|]. exfalso. apply N. split; [constructor; [intros []|constructor]|]. intros p [<-|[]]. exact Th.
  - destruct (taken m) eqn:Th; cbn [orb fst snd listening]; [split; reflexivity|]. exfalso. apply N. split; [constructor; [intros []|constructor]|]. intros p [<-|[]]. exact Th.
  - exfalso. apply N. split; [constructor|intros p []].
Qed.
Print Assumptions C133_taken_partial.

Example C133_case : run (fun _ => false) (Some 8080) (Some 9090) (fun s => (Fine, s)) (mkProcess [] []) = (Fine, mkProcess [] []) /\
  free (fun _ => false) (asked (Some 8080) (Some 9090)) /\ quiet (fun s => (Fine, s)) /\
  run (fun p => p =? 9090) (Some 8080) (Some 9090) (fun s => (Fine, s)) (mkProcess [] []) = (Raise, mkProcess [] [8080]).
Proof.
  split; [reflexivity|]. split; [|split; [intros s; reflexivity|reflexivity]].
  split; [|reflexivity]. cbn. constructor; [intros [X|[]]; discriminate X|constructor; [intros []|constructor]].
Qed.

(** If the worker raises, or if the second port cannot be had, the threads of the servers are not
    ended: they go on serving closed sockets. *)
Theorem C133_thread_left_refuted h : 
  serving (snd (run (fun _ => false) (Some h) None (fun s => (Raise, s)) (mkProcess [] []))) = [h] /\
  serving (snd (run (fun _ => false) (Some h) (Some h) (fun s => (Fine, s)) (mkProcess [] []))) = [h].
Proof. unfold run, around. cbn [orb listening existsb snd serving]. rewrite Z.eqb_refl. split; reflexivity. Qed.
Print Assumptions C133_thread_left_refuted.
