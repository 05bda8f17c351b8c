(** C94: the depth gauges (instrumentation.py:119-128: "How many tasks are due to be executed
    now", "How many tasks are scheduled to be executed in the future"). *)
From Verif Require Import Base ZSet Model GInv Spec Depth PropsHist.

(** Messages no worker has yet, and those a worker has. *)
Definition undelivered (s : sys) (e : sid * msg) : Prop := In e (d_stream (s_db s)) /\ ~ In (fst e) (map pe_id (d_pel (s_db s))).
Definition delivered (s : sys) (e : sid * msg) : Prop := In e (d_stream (s_db s)) /\ In (fst e) (map pe_id (d_pel (s_db s))).
(** Tasks waiting for their time: overdue ones, those due at this very moment, later ones. *)
Definition planned (s : sys) (p : Z * key) : Prop := In p (d_queue (s_db s)).
(** There are [n] things with the property [P]. *)
Definition there_are {A} (n : Z) (P : A -> Prop) : Prop := exists l, NoDup l /\ (forall x, In x l <-> P x) /\ n = Z.of_nat (length l).

Lemma there_are_filter {A} (l : list A) (f : A -> bool) (P : A -> Prop) : NoDup l -> (forall x, In x l /\ f x = true <-> P x) -> there_are (Z.of_nat (length (filter f l))) P.
Proof. intros N H. exists (filter f l). split; [now apply NoDup_filter|]. split; [intros x; now rewrite filter_In|reflexivity]. Qed.
Lemma filter_split {A} (f g h : A -> bool) l : (forall x, In x l -> f x = g x || h x) -> (forall x, In x l -> g x && h x = false) ->
  length (filter f l) = (length (filter g l) + length (filter h l))%nat.
Proof.
  induction l as [|x l IH]; intros A1 A2; [reflexivity|]. cbn [filter]. specialize (IH (fun y H => A1 y (or_intror H)) (fun y H => A2 y (or_intror H))).
  pose proof (A1 x (or_introl eq_refl)) as B1. pose proof (A2 x (or_introl eq_refl)) as B2. rewrite B1. destruct (g x), (h x); cbn in *; try discriminate; lia.
Qed.

(** What the gauges show in every reachable state: the first, the tasks no worker has yet,
    those that workers have, and those whose time has come; the second, the tasks whose time
    is to come, and those whose time is now.  (Times before 1970 cannot be counted; see
    below for what else is missing.) *)
Theorem C94_depths_partial c s now : reachable c s -> 0 <= now -> (forall p, planned s p -> 0 <= fst p) ->
  exists waiting running due exact later,
    there_are waiting (undelivered s) /\ there_are running (delivered s) /\
    there_are due (fun p => planned s p /\ fst p < now) /\ there_are exact (fun p => planned s p /\ fst p = now) /\ there_are later (fun p => planned s p /\ now < fst p) /\
    queue_depth (s_db s) now = waiting + running + due + exact /\
    schedule_depth (s_db s) now = later + exact.
Proof.
  intros R N0 Sc. pose proof (reachable_GInv c s R) as [D _]. unfold planned in *.
  set (has := fun e : sid * msg => existsb (fun i => i =? fst e) (map pe_id (d_pel (s_db s)))).
  assert (Has : forall e, has e = true <-> In (fst e) (map pe_id (d_pel (s_db s)))).
  { intros e. unfold has. rewrite existsb_exists. split; [intros (i & I & E); apply Z.eqb_eq in E; now subst i|intros I; exists (fst e); split; [exact I|apply Z.eqb_refl]]. }
  assert (Ns : NoDup (d_stream (s_db s))) by (apply (NoDup_map_inv fst), ids_sorted_NoDup, (di_sorted _ D)).
  assert (Nq : NoDup (d_queue (s_db s))) by (apply (NoDup_map_inv snd), (di_queue _ D)).
  exists (Z.of_nat (length (filter (fun e => negb (has e)) (d_stream (s_db s))))), (Z.of_nat (length (filter has (d_stream (s_db s))))),
    (Z.of_nat (length (filter (fun p => fst p <? now) (d_queue (s_db s))))), (Z.of_nat (length (filter (fun p => fst p =? now) (d_queue (s_db s))))), (Z.of_nat (length (filter (fun p => now <? fst p) (d_queue (s_db s))))).
  split; [apply there_are_filter; [exact Ns|]; intros e; unfold undelivered; rewrite negb_true_iff, <- Has; destruct (has e); intuition congruence|].
  split; [apply there_are_filter; [exact Ns|]; intros e; unfold delivered; rewrite Has; tauto|].
  split; [apply there_are_filter; [exact Nq|]; intros p; now rewrite Z.ltb_lt|]. split; [apply there_are_filter; [exact Nq|]; intros p; now rewrite Z.eqb_eq|].
  split; [apply there_are_filter; [exact Nq|]; intros p; now rewrite Z.ltb_lt|].
  assert (Ls : length (d_stream (s_db s)) = (length (filter (fun e => negb (has e)) (d_stream (s_db s))) + length (filter has (d_stream (s_db s))))%nat).
  { rewrite <- (filter_split (fun _ => true)); [now rewrite filter_all|intros e _; now destruct (has e)|intros e _; now destruct (has e)]. }
  unfold queue_depth, schedule_depth, zcount. rewrite Ls, Nat2Z.inj_add. split.
  - rewrite (filter_split (fun p : Z * string => (0 <=? fst p) && (fst p <=? now)) (fun p => fst p <? now) (fun p => fst p =? now)); [lia| |intros p _; lia].
    intros p I. specialize (Sc p I). destruct p as [x k]. cbn [fst] in *. lia.
  - rewrite (filter_split (fun p : Z * string => (now <=? fst p) && true) (fun p => now <? fst p) (fun p => fst p =? now)); [lia|intros p _; lia|intros p _; lia].
Qed.
Print Assumptions C94_depths_partial.

(** A running task is counted as due. *)
Theorem C94_running_refuted : exists c s, reachable c s /\ (forall e, ~ undelivered s e) /\ (forall p, ~ planned s p) /\ queue_depth (s_db s) 1 = 1.
Proof.
  exists ex_cfg, (final ex_cfg init_sys ex_running). split; [now exists ex_running|]. split; [|split; [|vm_compute; reflexivity]].
  - intros e [I N]. apply N. vm_compute in I. destruct I as [<-|[]]. vm_compute. now left.
  - intros p I. vm_compute in I. destruct I.
Qed.
Print Assumptions C94_running_refuted.

(** A task due at this very moment is counted by both. *)
Definition ex_moment : list op := [OAdd (mkCall "k" 100 "f" "" "") 0; OTick 100].
Theorem C94_twice_refuted : exists c s, reachable c s /\ length (d_queue (s_db s)) = 1%nat /\ d_stream (s_db s) = [] /\
  queue_depth (s_db s) (d_now (s_db s)) = 1 /\ schedule_depth (s_db s) (d_now (s_db s)) = 1.
Proof. exists ex_cfg, (final ex_cfg init_sys ex_moment). split; [now exists ex_moment|]. repeat split; vm_compute; reflexivity. Qed.
Print Assumptions C94_twice_refuted.

(** A task waiting for a concurrency slot is counted by none, though it is neither running
    nor done. *)
Definition ex_held : list op :=
  [OAdd (mkCall "a" 0 "f" "" "") 0; OAdd (mkCall "b" 0 "f" "" "") 0; ORead "w"; ORead "w"; OClaim 0 1; OAcquire 0 "c" 1 1; OBodyStart 0; OClaim 1 2; OAcquire 1 "c" 1 2; OBodyEnd 0; OTerminal 0 SCompleted 3 None None; OCrash "w"].
Theorem C94_parked_refuted : exists c s, reachable c s /\ map (fun e => m_key (snd (snd e))) (d_wait (s_db s)) = ["b"%string] /\
  r_state (rget (s_db s) "b") = Some SScheduled /\ queue_depth (s_db s) 3 = 0 /\ schedule_depth (s_db s) 3 = 0.
Proof. exists ex_cfg, (final ex_cfg init_sys ex_held). split; [now exists ex_held|]. repeat split; vm_compute; reflexivity. Qed.
Print Assumptions C94_parked_refuted.

Definition ex_mixed : list op := [OAdd (mkCall "a" 0 "f" "" "") 0; OAdd (mkCall "b" 0 "f" "" "") 0; OAdd (mkCall "c" 50 "f" "" "") 0; OAdd (mkCall "d" 500 "f" "" "") 0; ORead "w"; OTick 100].
Example C94_example : let s := final ex_cfg init_sys ex_mixed in reachable ex_cfg s /\ (forall p, planned s p -> 0 <= fst p) /\
  queue_depth (s_db s) 100 = 3 /\ schedule_depth (s_db s) 100 = 1.
Proof.
  split; [now exists ex_mixed|]. split; [|split; vm_compute; reflexivity]. intros p I. unfold planned in I. vm_compute in I. destruct I as [<-|[<-|[]]]; cbn [fst]; lia.
Qed.
