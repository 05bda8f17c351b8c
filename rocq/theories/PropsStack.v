(** C96: what entering a docket opens, leaving it closes. *)
From Verif Require Import Base Stack SpecStack StackProofs.

Definition fresh_below (n : nat) (e : ev) : Prop := match e with EOpen _ k | EClose _ k => (k < n)%nat end.
Record good (s : st) : Prop := {
  g_idle : idle s;
  g_nested : nested (st_log s);
  g_nodup : NoDup (opens (st_log s));
  g_fresh : Forall (fresh_below (st_next s)) (st_log s) }.

Lemma opens_app l l' : opens (l ++ l') = opens l ++ opens l'.
Proof. unfold opens. apply flat_map_app. Qed.
Lemma fresh_opens n l : Forall (fresh_below n) l -> forall k, In k (opens l) -> (k < n)%nat.
Proof.
  intros H k Hk. unfold opens in Hk. apply in_flat_map in Hk. destruct Hk as (e & He & Hk).
  rewrite Forall_forall in H. specialize (H e He). destruct e; cbn in Hk; [destruct Hk as [<-|[]]; exact H|destruct Hk].
Qed.

Lemma nested_use m own n : nested (d_opens m own n ++ d_closes m own n).
Proof.
  assert (N1 : forall k a l, nested l -> nested ([EOpen k a] ++ l ++ [EClose k a])) by (intros; now apply nested_wrap).
  assert (R : forall a l, nested l -> nested (r_opens m a ++ l ++ r_closes m a)).
  { intros a l H. destruct m; cbn [r_opens r_closes].
    - now apply N1.
    - replace ([EOpen KCluster a; EOpen KNode (S a)] ++ l ++ [EClose KNode (S a); EClose KCluster a])
        with ([EOpen KCluster a] ++ ([EOpen KNode (S a)] ++ l ++ [EClose KNode (S a)]) ++ [EClose KCluster a])
        by (cbn [app]; rewrite <- !app_assoc; reflexivity).
      now apply N1, N1.
    - cbn [app]. now rewrite app_nil_r. }
  assert (U : nested ((if own then res_opens m (S (n2 m n)) else []) ++ (if own then res_closes m (S (n2 m n)) else []))).
  { destruct own; [|constructor]. destruct m; cbn [res_opens res_closes app]; try constructor.
    apply (N1 KPool (S (n2 Standalone n)) [EOpen KClient (S (S (n2 Standalone n))); EClose KClient (S (S (n2 Standalone n)))]).
    apply (N1 KClient (S (S (n2 Standalone n))) []). constructor. }
  pose proof (R n _ (R (n1 m n) _ (N1 KMonitor (n2 m n) _ U))) as H.
  unfold d_opens, d_closes. rewrite <- !app_assoc in *. exact H.
Qed.

Lemma opens_use m own n : NoDup (opens (d_opens m own n ++ d_closes m own n)) /\
  Forall (fun e => match e with EOpen _ k | EClose _ k => (n <= k < n + d_count m own)%nat end) (d_opens m own n ++ d_closes m own n).
Proof.
  unfold d_opens, d_closes, d_count, n1, n2, opens. destruct m, own; cbn; split;
    repeat (constructor; [cbn; lia|]); constructor.
Qed.

Lemma NoDup_join {A} (a b : list A) : NoDup a -> NoDup b -> (forall x, In x a -> In x b -> False) -> NoDup (a ++ b).
Proof.
  induction a as [|x a IH]; intros Ha Hb H; [exact Hb|]. inversion Ha; subst. cbn. constructor.
  - rewrite in_app_iff. intros [X|X]; [contradiction|apply (H x); [now left|exact X]].
  - apply IH; auto. intros y Y1 Y2. apply (H y); [now right|exact Y2].
Qed.

Lemma use_good m sto s f : good s -> smooth f \/ at_once m f -> good (use m sto s f).
Proof.
  intros [Hi Hn Hd Hf] [S|A].
  - destruct (docket_enter_ok m sto f s S Hi) as (s1 & E1 & I1 & L1 & G1 & M1).
    destruct (docket_exit_ok m (is_own sto) (st_next s) s1 I1) as (s2 & E2 & I2 & L2 & M2 & G2).
    unfold use. rewrite E1, E2. cbn [snd].
    destruct (opens_use m (is_own sto) (st_next s)) as [Q1 Q2].
    assert (L : st_log s2 = st_log s ++ (d_opens m (is_own sto) (st_next s) ++ d_closes m (is_own sto) (st_next s)))
      by (rewrite L2, L1, app_assoc; reflexivity).
    constructor.
    + exact I2.
    + rewrite L. apply nested_app; [exact Hn|apply nested_use].
    + rewrite L, opens_app. apply NoDup_join; [exact Hd|exact Q1|].
      intros k K1 K2. apply (fresh_opens _ _ Hf) in K1. unfold opens in K2. apply in_flat_map in K2. destruct K2 as (e & He & K2).
      rewrite Forall_forall in Q2. specialize (Q2 e He). destruct e; cbn in K2; [destruct K2 as [<-|[]]; lia|destruct K2].
    + rewrite L, M2, M1. apply Forall_app. split.
      * eapply Forall_impl; [|exact Hf]. intros [k x|k x]; cbn; lia.
      * eapply Forall_impl; [|exact Q2]. intros [k x|k x]; cbn; lia.
  - unfold use. rewrite (at_once_enter m sto f s A Hi). destruct Hi as [Hr Hw]. constructor; try assumption. constructor.
    + exact Hr.
    + intros g a H. apply Hw. cbn in H. lia.
Qed.
Lemma uses_good m sto l : Forall (fun f => smooth f \/ at_once m f) l -> good (uses m sto l).
Proof.
  unfold uses. assert (G : good init_st).
  { constructor; [constructor; reflexivity|constructor|constructor|constructor]. }
  revert G. generalize init_st. induction l as [|f l IH]; intros s G H; [exact G|].
  inversion H; subst. cbn [fold_left]. apply IH; [now apply use_good|assumption].
Qed.

(** A docket may be used any number of times, one after another; while each entering goes well, or
    fails at its very first connection, everything that was opened has been closed, in the reverse
    order, whatever the blocks and the closings did; and the docket can be entered again. *)
Theorem C96_closed_partial : forall m sto l,
  Forall (fun f => smooth f \/ at_once m f) l ->
  nested (st_log (uses m sto l)) /\ NoDup (opens (st_log (uses m sto l))) /\
  forall f, smooth f -> fst (docket_enter m sto f (uses m sto l)) = true.
Proof.
  intros m sto l H. destruct (uses_good m sto l H) as [Hi Hn Hd Hf]. split; [exact Hn|]. split; [exact Hd|].
  intros f S. destruct (docket_enter_ok m sto f _ S Hi) as (s1 & E1 & _). now rewrite E1.
Qed.
Print Assumptions C96_closed_partial.

(** Inside the block all of it is open: one strike monitor, and per mode the pools and clients. *)
Definition pools (m : mode) (sto : storage) (k : kind) : nat :=
  match k, m with
  | KMonitor, _ => 1
  | KPool, Standalone => match sto with Own => 3 | User _ => 2 end
  | KClient, Standalone => match sto with Own => 1 | User _ => 0 end
  | KCluster, Cluster | KNode, Cluster => 2
  | _, _ => 0
  end.
Theorem C96_inside : forall m sto l f,
  Forall (fun f => smooth f \/ at_once m f) l -> smooth f ->
  exists new, st_log (snd (docket_enter m sto f (uses m sto l))) = st_log (uses m sto l) ++ new /\
    (forall k, of_kind k new = pools m sto k) /\ Forall (fun e => exists k n, e = EOpen k n) new.
Proof.
  intros m sto l f H S. destruct (uses_good m sto l H) as [Hi _ _ _].
  destruct (docket_enter_ok m sto f _ S Hi) as (s1 & E1 & _ & L1 & _). rewrite E1. cbn [snd].
  eexists. split; [exact L1|]. split.
  - intros k. destruct m, sto, k; reflexivity.
  - unfold d_opens. destruct m, sto; cbn; repeat (constructor; [eauto|]); constructor.
Qed.
Print Assumptions C96_inside.

(** Once the first connection is there, a failure later in __aenter__ is never undone: __aexit__ is
    not called for a context that was not entered, so something stays open whatever comes next, and
    every later entering trips over the connection that is still marked. *)
Lemma stuck_use m sto n s f : connected ORedis s = true -> left_open n (st_log s) ->
  connected ORedis (use m sto s f) = true /\ left_open n (st_log (use m sto s f)).
Proof. intros C L. unfold use. rewrite (connected_enter m sto f s C). split; [exact C|exact L]. Qed.

Theorem C96_failed_entering_refuted : forall m sto l f l',
  Forall (fun f => smooth f \/ at_once m f) l ->
  ~ at_once m f -> fst (docket_enter m sto f (uses m sto l)) = false ->
  (exists n, left_open n (st_log (uses m sto (l ++ f :: l')))) /\
  forall f', fst (docket_enter m sto f' (uses m sto (l ++ f :: l'))) = false.
Proof.
  intros m sto l f l' H N E. destruct (uses_good m sto l H) as [Hi Hn Hd Hf].
  destruct (late_enter m sto f _ Hi N) as ([(new & L & O) _] & C & (k & K)).
  set (s := uses m sto l) in *.
  assert (P : connected ORedis (use m sto s f) = true /\ left_open (st_next s) (st_log (use m sto s f))).
  { unfold use. destruct (docket_enter m sto f s) as [b s1]. cbn [fst snd] in *. subst b. split; [exact C|]. split; [exists k; exact K|].
    intros k' X. rewrite L in X. apply in_app_iff in X. destruct X as [X|X].
    - rewrite Forall_forall in Hf. specialize (Hf _ X). cbn in Hf. lia.
    - rewrite Forall_forall in O. destruct (O _ X) as (k2 & n2 & X2). discriminate X2. }
  assert (Q : forall l2 s2, connected ORedis s2 = true /\ left_open (st_next s) (st_log s2) ->
    connected ORedis (fold_left (use m sto) l2 s2) = true /\ left_open (st_next s) (st_log (fold_left (use m sto) l2 s2))).
  { induction l2 as [|g l2 IH]; intros s2 X; [exact X|]. cbn [fold_left]. apply IH. destruct X. now apply stuck_use. }
  assert (R : uses m sto (l ++ f :: l') = fold_left (use m sto) l' (use m sto s f)) by (unfold uses, s; rewrite fold_left_app; reflexivity).
  rewrite R. destruct (Q l' _ P) as [C' L'].
  split; [eauto|]. intros f'. now rewrite (connected_enter m sto f' _ C').
Qed.
Print Assumptions C96_failed_entering_refuted.

(** Entering a docket that is entered already is refused, but by then its exit stack has been
    replaced: leaving the docket closes nothing, and it can never be entered again. *)
Theorem C96_entered_twice_refuted : forall m sto l f f1,
  Forall (fun f => smooth f \/ at_once m f) l -> smooth f ->
  let s1 := snd (docket_enter m sto f (uses m sto l)) in
  let s2 := snd (docket_enter m sto f1 s1) in
  let s3 := snd (docket_exit s2) in
  fst (docket_enter m sto f1 s1) = false /\ fst (docket_exit s2) = true /\
  st_log s3 = st_log s1 /\ (exists n, left_open n (st_log s3)) /\
  forall f2, fst (docket_enter m sto f2 s3) = false.
Proof.
  intros m sto l f f1 H S. destruct (uses_good m sto l H) as [Hi Hn Hd Hf]. set (s := uses m sto l) in *.
  destruct (docket_enter_ok m sto f _ S Hi) as (s1 & E1 & I1 & L1 & _). rewrite E1. cbn [snd].
  assert (C : connected ORedis s1 = true).
  { unfold connected. rewrite !(in_attr _ _ _ _ I1). now destruct m. }
  rewrite (connected_enter m sto f1 s1 C). cbn [fst snd].
  split; [reflexivity|]. split; [reflexivity|]. split; [reflexivity|]. split.
  - exists (n2 m (st_next s)). split.
    + exists KMonitor. change (In (EOpen KMonitor (n2 m (st_next s))) (st_log s1)). rewrite L1. unfold d_opens.
      rewrite !in_app_iff. right. right. right. left. now left.
    + intros k X. change (In (EClose k (n2 m (st_next s))) (st_log s1)) in X. rewrite L1 in X. apply in_app_iff in X. destruct X as [X|X].
      * rewrite Forall_forall in Hf. specialize (Hf _ X). cbn in Hf. unfold n2 in Hf. lia.
      * unfold d_opens in X. destruct m, sto; cbn in X; repeat (destruct X as [X|X]; [discriminate X|]); exact X.
  - intros f2. rewrite (connected_enter m sto f2); [reflexivity|exact C].
Qed.
Print Assumptions C96_entered_twice_refuted.

(** ** Examples *)
Definition no_faults : faults := Faults (fun _ _ => false) false.
Definition refused : faults := Faults (fun o k => match o, k with ORedis, KPool => true | _, _ => false end) false.
Definition bad_setup : faults := Faults (fun _ _ => false) true.
Definition no_primary : faults := Faults (fun o k => match o, k with OStrikeRedis _, KNode => true | _, _ => false end) false.
(** One use of a standalone docket with its own result storage, after one that could not connect. *)
Example C96_one_use :
  st_log (uses Standalone Own [refused; no_faults]) =
  [EOpen KPool 0; EOpen KPool 1; EOpen KMonitor 2; EOpen KPool 3; EOpen KClient 4;
   EClose KClient 4; EClose KPool 3; EClose KMonitor 2; EClose KPool 1; EClose KPool 0]%nat.
Proof. reflexivity. Qed.
Example C96_hypotheses_met : Forall (fun f => smooth f \/ at_once Standalone f) [refused; no_faults; no_faults].
Proof.
  constructor; [right; reflexivity|]. constructor; [left; split; reflexivity|]. constructor; [left; split; reflexivity|]. constructor.
Qed.
(** The setup of the user's result storage fails once: the pools and the monitor stay, and the docket
    is unusable though the next entering would have gone well. *)
Example C96_setup_fails_once :
  ~ at_once Standalone bad_setup /\ fst (docket_enter Standalone (User true) bad_setup init_st) = false /\
  st_log (uses Standalone (User true) [bad_setup; no_faults]) = [EOpen KPool 0; EOpen KPool 1; EOpen KMonitor 2]%nat /\
  fst (docket_enter Standalone (User true) no_faults (uses Standalone (User true) [bad_setup])) = false.
Proof. repeat split. discriminate. Qed.
(** A cluster without a primary node to listen to, seen by the strike list only. *)
Example C96_cluster_case :
  st_log (uses Cluster Own [no_primary; no_faults]) = [EOpen KCluster 0; EOpen KNode 1; EOpen KCluster 2]%nat.
Proof. reflexivity. Qed.
