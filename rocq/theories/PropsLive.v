(** Property theorems: in a fair infinite history every accepted call is started. *)
From Verif Require Import Base ZSet Model GInv Spec Check Hist Steps SpecLive LiveProofs.

(** C66: in a fair infinite history an accepted call eventually starts its body, if until
    then the record of its key is not dropped, nobody calls the docket about the key,
    and none of its executions is settled or put off before its body starts. *)
Theorem C66_accepted_call_starts c skew h n a k :
  fair c skew h -> a_key a = k -> 0 <= a_when a ->
  (forall j, (j < n)%nat -> keeps c k (at_ c init_sys h j) (h j)) ->
  accepts c (at_ c init_sys h n) (h n) a -> not_waiting k (at_ c init_sys h n) ->
  (forall j, (n < j)%nat -> (forall q, (n < q < j)%nat -> ~ call_starts c h a q) -> undisturbed c k (at_ c init_sys h j) (h j)) ->
  exists j, (n < j)%nat /\ call_starts c h a j.
Proof. apply call_comes. Qed.
Print Assumptions C66_accepted_call_starts.

(** The same for any current message on the stream or in the future queue, in
    particular for one abandoned by a worker that crashed. *)
Theorem C66_stored_message_starts c skew h n m k :
  fair c skew h -> m_key m = k -> 0 <= m_when m ->
  (forall j, (j < n)%nat -> keeps c k (at_ c init_sys h j) (h j)) ->
  ((exists i, on_stream (at_ c init_sys h n) i m) \/ in_future (at_ c init_sys h n) m) -> live (at_ c init_sys h n) m ->
  not_waiting k (at_ c init_sys h n) ->
  (forall x, In x (s_execs (at_ c init_sys h n)) -> x_msg x = m -> x_phase x = PDelivered \/ x_phase x = PClaimed) ->
  (forall j, (n <= j)%nat -> (forall q i, (n <= q < j)%nat -> ~ starts c (at_ c init_sys h q) (h q) m i) -> undisturbed c k (at_ c init_sys h j) (h j)) ->
  exists j i, (n <= j)%nat /\ starts c (at_ c init_sys h j) (h j) m i.
Proof.
  intros F E Hw K Sp Lv W X D. apply (message_comes c skew h n m k); auto.
  intros j Hj Hn. apply D; [exact Hj|]. intros q i Hq Hs. apply (Hn q Hq). exists i. exact Hs.
Qed.
Print Assumptions C66_stored_message_starts.

(** Example: a task is added for later; the first worker to take it crashes, another
    gets it after the redelivery timeout and completes it; from then on time passes,
    with a scheduler pass and a read every third step. *)
Definition lv_cfg : cfg := mkCfg 900 10.
Definition lv_call : call := mkCall "k" 5 "f" "x" "".
Definition lv_start : list op :=
  [OAdd lv_call 0; OTick 6; OScheduler 6; ORead "w1"; OClaim 0 7; OCrash "w1"; OTick 20; OAutoclaim "w2" 1; OClaim 1 27; OBodyStart 1;
   OBodyEnd 1; OTerminal 1 SCompleted 28 None None].
Definition lv_hist (n : nat) : op :=
  match nth_error lv_start n with
  | Some o => o
  | None => match Nat.modulo n 3 with O => OTick 1 | 1%nat => OScheduler (1000 + Z.of_nat n) | _ => ORead "w2" end
  end.

(** From the twelfth step on nothing is left to do. *)
Definition quiet (n : nat) (s : sys) : Prop :=
  d_stream (s_db s) = [] /\ d_queue (s_db s) = [] /\ d_pel (s_db s) = [] /\
  (forall x, In x (s_execs s) -> x_phase x = PDone).

Lemma lv_later n : (12 <= n)%nat -> lv_hist n = OTick 1 \/ lv_hist n = OScheduler (1000 + Z.of_nat n) \/ lv_hist n = ORead "w2".
Proof.
  intros H. unfold lv_hist. destruct (nth_error lv_start n) eqn:E.
  - exfalso. assert (X : nth_error lv_start n <> None) by congruence. apply nth_error_Some in X. cbn in X. lia.
  - destruct (Nat.modulo n 3) as [|[|?]]; auto.
Qed.

Lemma lv_quiet n : (12 <= n)%nat -> quiet n (at_ lv_cfg init_sys lv_hist n).
Proof.
  induction 1 as [|n Hn IH].
  - vm_compute. repeat split; auto. intros x [<-|[]]. reflexivity.
  - destruct IH as (Q1 & Q2 & Q3 & Q4). cbn [at_]. set (s := at_ lv_cfg init_sys lv_hist n) in *.
    destruct (lv_later n Hn) as [-> |[-> | ->]]; cbn [step].
    + unfold quiet. cbn. auto.
    + unfold lua_stream_due. rewrite Q2. cbn [zrangebyscore filter map fold_left length Z.of_nat]. unfold quiet. cbn. auto.
    + unfold read_group, next_new. rewrite Q1. cbn [find deliver fst]. unfold quiet. cbn. auto.
Qed.

Lemma lv_ops n : (12 <= n)%nat -> lv_hist n = match Nat.modulo n 3 with O => OTick 1 | 1%nat => OScheduler (1000 + Z.of_nat n) | _ => ORead "w2" end.
Proof.
  intros H. unfold lv_hist. destruct (nth_error lv_start n) eqn:E; [|reflexivity].
  exfalso. assert (X : nth_error lv_start n <> None) by congruence. apply nth_error_Some in X. cbn in X. lia.
Qed.

Lemma lv_now n : (12 <= n)%nat -> d_now (s_db (at_ lv_cfg init_sys lv_hist n)) <= 1000 + Z.of_nat n.
Proof.
  induction 1 as [|n Hn IH]; [vm_compute; discriminate|]. destruct (lv_quiet n Hn) as (Q1 & Q2 & _). cbn [at_]. set (s := at_ lv_cfg init_sys lv_hist n) in *.
  destruct (lv_later n Hn) as [-> |[-> | ->]]; cbn [step].
  - change (d_now (s_db s) + 1 <= 1000 + Z.of_nat (S n)). lia.
  - unfold lua_stream_due. rewrite Q2. change (d_now (s_db s) <= 1000 + Z.of_nat (S n)). lia.
  - unfold read_group, next_new. rewrite Q1. change (d_now (s_db s) <= 1000 + Z.of_nat (S n)). lia.
Qed.

Lemma lv_round n : (12 <= n)%nat -> Nat.modulo n 3 = O -> Nat.modulo (S n) 3 = 1%nat -> Nat.modulo (S (S n)) 3 = 2%nat ->
  d_now (s_db (at_ lv_cfg init_sys lv_hist (S (S (S n))))) = d_now (s_db (at_ lv_cfg init_sys lv_hist n)) + 1.
Proof.
  intros Hn M M1 M2. cbn [at_].
  pose proof (lv_quiet (S n) ltac:(lia)) as Q1. pose proof (lv_quiet (S (S n)) ltac:(lia)) as Q2. cbn [at_] in Q1, Q2.
  rewrite (lv_ops (S (S n))), M2 in * by lia. rewrite (lv_ops (S n)), M1 in * by lia. rewrite (lv_ops n), M in * by lia.
  generalize dependent (at_ lv_cfg init_sys lv_hist n). intros s0 Q1. generalize (1000 + Z.of_nat (S n)). intros t Q2.
  assert (E1 : d_now (s_db (fst (step lv_cfg s0 (OTick 1)))) = d_now (s_db s0) + 1) by reflexivity.
  generalize dependent (fst (step lv_cfg s0 (OTick 1))). intros s1 Q1 Q2 E1.
  assert (E2 : d_now (s_db (fst (step lv_cfg s1 (OScheduler t)))) = d_now (s_db s1)).
  { cbn [step]. unfold lua_stream_due. destruct Q1 as (_ & -> & _). reflexivity. }
  generalize dependent (fst (step lv_cfg s1 (OScheduler t))). intros s2 Q2 E2.
  cbn [step]. unfold read_group, next_new. destruct Q2 as (-> & _). cbn [find deliver fst s_db]. lia.
Qed.

Lemma lv_time b : d_now (s_db (at_ lv_cfg init_sys lv_hist (12 + 3 * b))) = 26 + Z.of_nat b.
Proof.
  induction b as [|b IH]; [vm_compute; reflexivity|].
  assert (E : (12 + 3 * S b = S (S (S (12 + 3 * b))))%nat) by lia. rewrite E. clear E.
  assert (Hn : (12 <= 12 + 3 * b)%nat) by lia.
  assert (M : Nat.modulo (12 + 3 * b) 3 = O) by (replace (12 + 3 * b)%nat with (0 + (4 + b) * 3)%nat by lia; rewrite Nat.mod_add by lia; reflexivity).
  assert (M1 : Nat.modulo (S (12 + 3 * b)) 3 = 1%nat) by (replace (S (12 + 3 * b))%nat with (1 + (4 + b) * 3)%nat by lia; rewrite Nat.mod_add by lia; reflexivity).
  assert (M2 : Nat.modulo (S (S (12 + 3 * b))) 3 = 2%nat) by (replace (S (S (12 + 3 * b)))%nat with (2 + (4 + b) * 3)%nat by lia; rewrite Nat.mod_add by lia; reflexivity).
  revert IH Hn M M1 M2. generalize (12 + 3 * b)%nat. intros n IH Hn M M1 M2. rewrite lv_round by assumption. lia.
Qed.

Lemma lv_fair : fair lv_cfg 0 lv_hist.
Proof.
  assert (Sp : forall n r, (r < 3)%nat -> exists j, (n <= j)%nat /\ (12 <= j)%nat /\ Nat.modulo j 3 = r).
  { intros n r Hr. exists (r + (12 + n) * 3)%nat. split; [lia|]. split; [lia|]. rewrite Nat.mod_add by lia. apply Nat.mod_small. exact Hr. }
  constructor.
  - intros n T. exists (12 + 3 * (n + Z.to_nat T))%nat. split; [lia|]. rewrite lv_time. lia.
  - intros n. destruct (Sp n 1%nat ltac:(lia)) as (j & H1 & H2 & H3). exists j, (1000 + Z.of_nat j). split; [exact H1|]. rewrite lv_ops, H3 by exact H2.
    split; [reflexivity|]. pose proof (lv_now j H2). lia.
  - intros n. destruct (Sp n 2%nat ltac:(lia)) as (j & H1 & H2 & H3). exists j, "w2"%string. split; [exact H1|]. now rewrite lv_ops, H3 by exact H2.
  - intros n i. exists (12 + n)%nat. split; [lia|]. left. destruct (lv_quiet (12 + n) ltac:(lia)) as (_ & _ & -> & _). intros [].
  - intros n x Hx. exists (12 + n)%nat. split; [lia|]. intros Hin. destruct (lv_quiet (12 + n) ltac:(lia)) as (_ & _ & _ & Q). pose proof (Q x Hin) as E. destruct Hx; congruence.
  - exists 12%nat. intros j w Hj E. destruct (lv_later j Hj) as [X|[X|X]]; congruence.
Qed.

Definition undisturbedb (c : cfg) (k : key) (s : sys) (o : op) : bool :=
  keepsb c k s o && no_callsb k o &&
  match o with
  | OResched _ _ _ _ | OAcquire _ _ _ _ | ODelKnown _ | OTerminal _ _ _ _ _ | ORelease _ _ => false
  | _ => true
  end.
Lemma undisturbedb_sound c k s o : undisturbedb c k s o = true -> undisturbed c k s o.
Proof.
  unfold undisturbedb. rewrite !andb_true_iff. intros [[H1 H2] H3]. split; [now apply keepsb_sound|]. split; [now apply no_callsb_sound|].
  intros h x _ _. destruct o; try exact Logic.I; discriminate.
Qed.

Lemma lv_undisturbed j : (0 < j)%nat -> (forall q, (0 < q < j)%nat -> ~ call_starts lv_cfg lv_hist lv_call q) ->
  undisturbed lv_cfg "k" (at_ lv_cfg init_sys lv_hist j) (lv_hist j).
Proof.
  intros H N. destruct (le_lt_dec 10 j) as [Le|Lt].
  - exfalso. apply (N 9%nat); [lia|]. exists (mkMsg "k" 5 "f" "x" "" 1 1), 1. split; [repeat split|]. vm_compute. reflexivity.
  - apply undisturbedb_sound. do 10 (destruct j as [|j]; [try lia; vm_compute; reflexivity|]). lia.
Qed.

Example C66_example : fair lv_cfg 0 lv_hist /\ exists j, (0 < j)%nat /\ call_starts lv_cfg lv_hist lv_call j.
Proof.
  split; [apply lv_fair|]. apply (C66_accepted_call_starts lv_cfg 0 lv_hist 0 lv_call "k").
  - apply lv_fair.
  - reflexivity.
  - vm_compute. discriminate.
  - intros j Hj. lia.
  - split; [exists 0; left; reflexivity|vm_compute; reflexivity].
  - intros cc i m [].
  - apply lv_undisturbed.
Qed.

(** Example: after the sixth step the message lies abandoned on the stream. *)
Definition lv_msg : msg := mkMsg "k" 5 "f" "x" "" 1 1.
Example C66_example_abandoned : exists j i, (6 <= j)%nat /\ starts lv_cfg (at_ lv_cfg init_sys lv_hist j) (lv_hist j) lv_msg i.
Proof.
  apply (C66_stored_message_starts lv_cfg 0 lv_hist 6 lv_msg "k").
  - apply lv_fair.
  - reflexivity.
  - vm_compute. discriminate.
  - intros j Hj. apply keepsb_sound. do 6 (destruct j as [|j]; [vm_compute; reflexivity|]). lia.
  - left. exists 1. vm_compute. auto.
  - vm_compute. reflexivity.
  - intros cc i m H. vm_compute in H. contradiction.
  - intros x H. vm_compute in H. contradiction.
  - intros j Hj N. destruct (le_lt_dec 10 j) as [Le|Lt].
    + exfalso. apply (N 9%nat 1); [lia|]. vm_compute. reflexivity.
    + apply undisturbedb_sound. do 10 (destruct j as [|j]; [try lia; vm_compute; reflexivity|]). lia.
Qed.
