(** C124: a docket talks to the server of its URL. *)
From Verif Require Import Base Stack SpecStack StackProofs PropsStack Route.

(** ** C124: every call goes to the server that the URL names *)

(** All requests of a call go to the server. *)
Definition to_server (a : answer) : Prop := exists l, a = Asks l /\ l <> [] /\ forall p, In p l -> p = TheServer.

Lemma redis_enter_attr m f o s s' : redis_enter m f o s = (true, s') ->
  (match m with
   | Cluster => st_attr s' o ACluster = true /\ st_attr s' o ANode = true
   | Memory => st_attr s' o AMemory = true
   | Standalone => st_attr s' o APool = true
   end) /\ (forall o' a, obj_eqb o o' = false -> st_attr s' o' a = st_attr s o' a) /\ st_gen s' = st_gen s /\
  (m <> Cluster -> st_attr s' o ACluster = false).
Proof.
  assert (X : forall o, obj_eqb o o = true) by (intros []; cbn; try reflexivity; apply Nat.eqb_refl).
  assert (P : forall o c s o' a, st_attr (push o c s) o' a = st_attr s o' a) by (intros; unfold push; destruct (st_stack _ _); reflexivity).
  assert (Q : forall o c s, st_gen (push o c s) = st_gen s) by (intros; unfold push; destruct (st_stack _ _); reflexivity).
  unfold redis_enter. destruct (connected o s) eqn:C; [discriminate|]. unfold connected in C. apply Bool.orb_false_elim in C as [C C3]. apply Bool.orb_false_elim in C as [C1 C2].
  destruct m.
  - destruct (f_open f o KPool); [discriminate|]. intros E. injection E as <-. unfold make_attr, make. repeat rewrite ?P, ?Q. cbn. repeat rewrite ?P, ?Q. cbn. rewrite X. cbn.
    split; [reflexivity|]. split; [intros o' a N; repeat (rewrite ?P, ?Q; cbn); rewrite ?N; cbn; reflexivity|]. split; [reflexivity|intros _; exact C2].
  - destruct (f_open f o KCluster); [discriminate|]. destruct (f_open f o KNode); [discriminate|]. intros E. injection E as <-. unfold make_attr, make.
    repeat (rewrite ?P, ?Q; cbn). rewrite X. cbn. split; [split; reflexivity|].
    split; [intros o' a N; repeat (rewrite ?P, ?Q; cbn); rewrite ?N; cbn; reflexivity|]. split; [reflexivity|intros H; elim H; reflexivity].
  - intros E. injection E as <-. repeat (rewrite ?P, ?Q; cbn). rewrite X. cbn. split; [reflexivity|].
    split; [intros o' a N; repeat (rewrite ?P, ?Q; cbn); rewrite ?N; cbn; reflexivity|]. split; [reflexivity|intros _; exact C2].
Qed.

(** The attributes of a connection that is open in mode [m]. *)
Definition opened (m : mode) (o : obj) (s : st) : Prop :=
  match m with
  | Cluster => st_attr s o ACluster = true /\ st_attr s o ANode = true
  | Memory => st_attr s o AMemory = true /\ st_attr s o ACluster = false
  | Standalone => st_attr s o APool = true /\ st_attr s o ACluster = false
  end.
Lemma opened_place m o s : opened m o s -> client o s = TheServer /\ pubsub o s = TheServer /\ publish o s = TheServer /\ connected o s = true.
Proof.
  unfold opened, client, pubsub, publish, redis_with, connected. destruct m; intros [A B]; rewrite A, B; destruct (st_attr s o AMemory), (st_attr s o APool), (st_attr s o ACluster); auto.
Qed.
Lemma redis_opened m f o s s' : redis_enter m f o s = (true, s') -> opened m o s'.
Proof. intros E. destruct (redis_enter_attr m f o s s' E) as (A & _ & _ & B). destruct m; cbn in *; try (split; [exact A|apply B; discriminate]). exact A. Qed.

Lemma push_attr o c s o' a : st_attr (push o c s) o' a = st_attr s o' a.
Proof. unfold push. destruct (st_stack _ _); reflexivity. Qed.
Lemma push_gen o c s : st_gen (push o c s) = st_gen s.
Proof. unfold push. destruct (st_stack _ _); reflexivity. Qed.
Lemma make_keeps o k s o' a : st_attr (make o k s) o' a = st_attr s o' a /\ st_gen (make o k s) = st_gen s.
Proof. unfold make. rewrite push_attr, push_gen. split; reflexivity. Qed.

Lemma strike_opened m f g s s' : strike_enter m f g s = (true, s') -> opened m (OStrikeRedis g) s' /\
  (forall a, st_attr s' ORedis a = st_attr s ORedis a) /\ st_gen s' = st_gen s.
Proof.
  unfold strike_enter. destruct (connected _ _); [discriminate|]. unfold bind, enter_context.
  destruct (redis_enter m f (OStrikeRedis g) _) as [[] s1] eqn:E; [|discriminate]. intros H. injection H as <-.
  pose proof (redis_opened _ _ _ _ _ E) as O. destruct (redis_enter_attr _ _ _ _ _ E) as (_ & K & G & _).
  assert (A : forall o a, st_attr (make (OStrike g) KMonitor (push (OStrike g) (CExit (OStrikeRedis g)) s1)) o a = st_attr s1 o a)
    by (intros o a; rewrite (proj1 (make_keeps _ _ _ o a)); apply push_attr).
  split; [unfold opened in *; rewrite !A; exact O|]. split; [intros a; rewrite A, K by reflexivity; reflexivity|].
  rewrite (proj2 (make_keeps _ _ _ ORedis APool)), push_gen, G. reflexivity.
Qed.

Lemma result_keeps m f g s s' : result_enter m f g s = (true, s') -> (forall o a, st_attr s' o a = st_attr s o a) /\ st_gen s' = st_gen s.
Proof.
  unfold result_enter. destruct m.
  - destruct (f_open f (OResult g) KPool); [discriminate|]. intros H. injection H as _ <-. split; [intros o a; rewrite (proj1 (make_keeps _ _ _ o a)), (proj1 (make_keeps _ _ _ o a)); reflexivity|].
    rewrite (proj2 (make_keeps _ _ _ ORedis APool)), (proj2 (make_keeps _ _ _ ORedis APool)). reflexivity.
  - destruct (st_attr _ ORedis ACluster); [|discriminate]. intros H. injection H as _ <-. split; reflexivity.
  - destruct (st_attr _ ORedis AMemory); [|discriminate]. intros H. injection H as _ <-. split; reflexivity.
Qed.

Lemma docket_opened m sto f s s' : docket_enter m sto f s = (true, s') ->
  opened m ORedis s' /\ opened m (OStrikeRedis (st_gen s')) s' /\ st_gen s' = S (st_gen s).
Proof.
  unfold docket_enter, bind, enter_context. destruct (redis_enter m f ORedis _) as [[] s1] eqn:E1; [|discriminate].
  destruct (strike_enter m f _ _) as [[] s2] eqn:E2; [|discriminate].
  pose proof (redis_opened _ _ _ _ _ E1) as O1. destruct (redis_enter_attr _ _ _ _ _ E1) as (_ & _ & G1 & _). cbn in G1.
  destruct (strike_opened _ _ _ _ _ E2) as (O2 & K2 & G2). rewrite push_gen, G1 in G2. cbn in O2.
  assert (X : forall s3, (forall o a, st_attr s3 o a = st_attr s2 o a) -> st_gen s3 = st_gen s2 ->
    opened m ORedis s3 /\ opened m (OStrikeRedis (st_gen s3)) s3 /\ st_gen s3 = S (st_gen s)).
  { intros s3 A G. rewrite G, G2. unfold opened in *. rewrite !A. cbn. rewrite !K2, !push_attr. auto. }
  destruct sto as [|b].
  - destruct (result_enter m f _ _) as [[] s3] eqn:E3; [|discriminate]. intros H. injection H as <-. destruct (result_keeps _ _ _ _ _ E3) as [A G].
    apply X; [intros o a; rewrite push_attr, A, push_attr; reflexivity|rewrite push_gen, G, push_gen; reflexivity].
  - intros H. injection H as _ <-. apply X; [intros o a; apply push_attr|apply push_gen].
Qed.

(** Inside the block, whatever was before and whatever the mode, every call asks the server
    of the URL, and nothing else. *)
Theorem C124_inside_partial m sto f s s' c : docket_enter m sto f s = (true, s') -> to_server (asks c s').
Proof.
  intros E. destruct (docket_opened m sto f s s' E) as (O1 & O2 & G). apply opened_place in O1 as (A & B & C & _). apply opened_place in O2 as (A2 & _ & _ & D).
  unfold to_server, asks. rewrite G in *. cbn [Nat.eqb]. rewrite D, A2, A, B, C.
  destruct c; eexists; (split; [reflexivity|]); (split; [discriminate|]); intros p I; cbn in I; intuition congruence.
Qed.
Print Assumptions C124_inside_partial.

(** Strikes never go elsewhere, inside or outside. *)
Theorem C124_strikes_partial s : asks CStrike s = Raises \/ asks CStrike s = Asks [TheServer].
Proof.
  unfold asks, connected, client, redis_with. destruct (Nat.eqb (st_gen s) 0); [auto|].
  destruct (st_attr s _ APool), (st_attr s _ ACluster), (st_attr s _ AMemory); auto.
Qed.
Print Assumptions C124_strikes_partial.

(** Outside, the other calls go to localhost, whatever the URL, before the first entering and after
    every leaving... *)
Theorem C124_outside_refuted m sto l : Forall (fun f => smooth f \/ at_once m f) l ->
  let s := uses m sto l in
  asks CLook s = Asks [Localhost] /\ asks CCancel s = Asks [Localhost; Localhost] /\ asks CSubscribe s = Asks [Localhost; Localhost].
Proof.
  intros H. cbv zeta. destruct (uses_good m sto l H) as [[A _] _ _ _]. unfold asks, client, publish, pubsub. rewrite !A. auto.
Qed.
Print Assumptions C124_outside_refuted.

(** ... and also add, once the docket has been left. *)
Theorem C124_add_outside_refuted m sto l f : Forall (fun f => smooth f \/ at_once m f) l -> smooth f ->
  asks CAdd (uses m sto (l ++ [f])) = Asks [Localhost].
Proof.
  intros H S. destruct (uses_good m sto l H) as [I _ _ _]. unfold uses. rewrite fold_left_app. cbn [fold_left]. fold (uses m sto l).
  destruct (docket_enter_ok m sto f _ S I) as (s1 & E1 & I1 & _). destruct (docket_exit_ok m (is_own sto) _ s1 I1) as (s2 & E2 & [A _] & _ & _ & G2).
  destruct (docket_opened _ _ _ _ _ E1) as (_ & _ & G). unfold use. rewrite E1, E2. cbn [snd]. unfold asks, client. rewrite !A, G2, G. reflexivity.
Qed.
Print Assumptions C124_add_outside_refuted.

(** A cluster that has no primary node when the docket is entered: the entering raises, but
    the docket counts as connected from then on; a cancel of it reaches the cluster, and its signal
    to the workers goes to localhost. *)
Theorem C124_half_entered_refuted sto f l : f_open f ORedis KCluster = false -> f_open f ORedis KNode = true ->
  let s := uses Cluster sto (f :: l) in connected ORedis s = true /\ asks CCancel s = Asks [TheServer; Localhost].
Proof.
  intros A B. cbv zeta. unfold uses. cbn [fold_left]. set (s0 := use Cluster sto init_st f).
  assert (X : st_attr s0 ORedis ACluster = true /\ st_attr s0 ORedis ANode = false).
  { unfold s0, use, docket_enter, bind, enter_context, redis_enter. cbn [connected st_attr init_st set_stack orb]. rewrite A, B. cbn. split; reflexivity. }
  assert (C0 : connected ORedis s0 = true) by (unfold connected; rewrite (proj1 X); destruct (st_attr s0 ORedis APool); reflexivity).
  assert (Y : forall s f, connected ORedis s = true -> forall a, st_attr (use Cluster sto s f) ORedis a = st_attr s ORedis a).
  { intros s f' C a. unfold use, docket_enter, bind, enter_context, redis_enter. change (connected ORedis (St (st_attr (set_stack ODocket (Some []) s)) (st_stack (set_stack ODocket (Some []) s)) (Datatypes.S (st_gen (set_stack ODocket (Some []) s))) (st_next (set_stack ODocket (Some []) s)) (st_log (set_stack ODocket (Some []) s)))) with (connected ORedis s). rewrite C. reflexivity. }
  revert X C0. generalize s0. clear s0. induction l as [|f' l IH]; intros s X C; cbn [fold_left].
  - split; [exact C|]. unfold asks, client, publish. rewrite (proj1 X), (proj2 X). reflexivity.
  - apply IH; [rewrite !(Y s f' C); exact X|]. unfold connected in *. rewrite !(Y s f' C). exact C.
Qed.
Print Assumptions C124_half_entered_refuted.

(** The hypotheses are met, in every mode. *)
Definition no_faults : faults := Faults (fun _ _ => false) false.
Definition no_primary : faults := Faults (fun o k => match k with KNode => true | _ => false end) false.
Example C124_case :
  (forall m sto, fst (docket_enter m sto no_faults (uses m sto [no_faults; no_faults])) = true) /\ smooth no_faults /\
  f_open no_primary ORedis KCluster = false /\ f_open no_primary ORedis KNode = true /\
  asks CAdd init_st = Raises /\ asks CStrike (uses Memory Own [no_faults]) = Raises /\
  asks CStrike (snd (docket_enter Cluster Own no_faults (uses Cluster Own [no_faults]))) = Asks [TheServer].
Proof.
  split; [intros m [|b]; destruct m; try destruct b; vm_compute; reflexivity|]. split; [split; [intros; reflexivity|reflexivity]|].
  repeat split; vm_compute; reflexivity.
Qed.
