(** C45: snapshots. *)
From Coq Require Import Permutation.
From Verif Require Import Base ZSet Model GInv Spec Snapshot QueueInv PropsHist.

(** The part of the future list that comes from the stream, and from the queue. *)
Definition from_stream (l : list (option sid * msg)) : list (sid * msg) := flat_map (fun e => match fst e with Some i => [(i, snd e)] | None => [] end) l.
Definition from_queue (l : list (option sid * msg)) : list msg := flat_map (fun e => match fst e with Some _ => [] | None => [snd e] end) l.

Lemma pins_In p l x : In x (pins p l) <-> x = p \/ In x l.
Proof. induction l as [|q l IH]; cbn; [intuition|]. destruct (_ <=? _); cbn; rewrite ?IH; intuition. Qed.
Lemma sorted_In l x : In x (fold_right pins [] l) <-> In x l.
Proof. induction l as [|p l IH]; cbn; [tauto|]. rewrite pins_In, IH. intuition. Qed.
Lemma pins_length p l : length (pins p l) = S (length l).
Proof. induction l as [|q l IH]; cbn; [reflexivity|]. destruct (_ <=? _); cbn; lia. Qed.
Lemma sorted_length l : length (fold_right pins [] l) = length l.
Proof. induction l as [|p l IH]; cbn; [reflexivity|]. rewrite pins_length. lia. Qed.
Lemma page_all d : (length (d_pel d) <= snap_page)%nat -> forall x, In x (xpending_page d) <-> In x (d_pel d).
Proof. intros L x. unfold xpending_page. rewrite firstn_all2 by (now rewrite sorted_length). apply sorted_In. Qed.
Lemma pending_some l i w : pending_of l i = Some w -> exists p, In p l /\ pe_id p = i /\ pe_owner p = w.
Proof. unfold pending_of. destruct (find (fun p => pe_id p =? i) l) as [p|] eqn:F; [|discriminate]. intros [= <-]. apply find_some in F as [F E]. exists p. repeat split; auto; lia. Qed.
Lemma pending_none l i : pending_of l i = None -> ~ In i (map pe_id l).
Proof.
  unfold pending_of. destruct (find (fun p => pe_id p =? i) l) as [p|] eqn:F; [discriminate|]. intros _ H. apply in_map_iff in H as (p & E & H).
  apply find_none with (x := p) in F; [lia|exact H].
Qed.
Lemma split_perm {A B C} (f : A -> option B) (g : A -> B -> C) (h : C -> A) l : (forall a b, h (g a b) = a) ->
  Permutation (map h (flat_map (fun a => match f a with Some b => [g a b] | None => [] end) l) ++ flat_map (fun a => match f a with Some _ => [] | None => [a] end) l) l.
Proof.
  intros E. induction l as [|a l IH]; cbn; [constructor|]. destruct (f a); cbn.
  - rewrite E. now constructor.
  - apply Permutation_sym, Permutation_cons_app, Permutation_sym, IH.
Qed.

Lemma fs_split (pend : list pent) l (q : list msg) :
  from_stream (flat_map (fun e => match pending_of pend (fst e) with Some _ => [] | None => [(Some (fst e), snd e)] end) l ++ map (fun m => (None, m)) q) =
  flat_map (fun e => match pending_of pend (fst e) with Some _ => [] | None => [e] end) l.
Proof.
  induction l as [|[i m] l IH]; [induction q as [|m q IH]; [reflexivity|exact IH]|]. cbn [flat_map fst snd]. destruct (pending_of pend i); [exact IH|]. cbn. f_equal. exact IH.
Qed.
Lemma fq_split (pend : list pent) (l : list (sid * msg)) (q : list msg) :
  from_queue (flat_map (fun e => match pending_of pend (fst e) with Some _ => [] | None => [(Some (fst e), snd e)] end) l ++ map (fun m => (None, m)) q) = q.
Proof.
  induction l as [|[i m] l IH]; [induction q as [|m q IH]; [reflexivity|cbn; f_equal; exact IH]|]. cbn [flat_map fst snd]. destruct (pending_of pend i); exact IH.
Qed.

(** For a docket with at most 1000 messages on the stream and 1000 pending: however the
    docket changes between the two reads of a snapshot that succeeds,
    - its total is the number of messages on the stream and the queue at the first read;
    - every message on the stream is listed exactly once, as running with the worker it
      is delivered to, or as future when it has not been delivered;
    - every task on the queue whose payload is still there at the second read is listed
      exactly once, as future. *)
Theorem C45_lists_partial c s l reg sn : reachable c s ->
  (length (d_stream (s_db s)) <= 1000)%nat -> (length (d_pel (s_db s)) <= 1000)%nat ->
  snapshot reg (s_db s) (s_db (final c s l)) = Some sn ->
  sn_total sn = Z.of_nat (length (d_stream (s_db s))) + Z.of_nat (length (d_queue (s_db s))) /\
  Permutation (map fst (sn_running sn) ++ from_stream (sn_future sn)) (d_stream (s_db s)) /\
  (forall i m w, In (i, m, w) (sn_running sn) -> exists p, In p (d_pel (s_db s)) /\ pe_id p = i /\ pe_owner p = w) /\
  (forall i m, In (Some i, m) (sn_future sn) -> d_last (s_db s) < i) /\
  NoDup (map m_key (from_queue (sn_future sn))) /\
  (forall m, In m (from_queue (sn_future sn)) <-> In (m_key m) (map snd (d_queue (s_db s))) /\ d_parked (s_db (final c s l)) (m_key m) = Some m).
Proof.
  intros R Ls Lp E. pose proof (reachable_GInv c s R) as [D _].
  assert (D' : DInv (s_db (final c s l))). { destruct R as [l0 ->]. rewrite <- final_app. apply (reachable_GInv c). now exists (l0 ++ l). }
  assert (Page : snap_page = 1000%nat) by reflexivity.
  unfold snapshot in E. rewrite (firstn_all2 (n := snap_page) (d_stream (s_db s))) in E by lia.
  destruct (forallb _ _); [|discriminate]. injection E as <-. cbn [sn_total sn_running sn_future].
  set (pend := xpending_page (s_db s)) in *. assert (Pa : forall x, In x pend <-> In x (d_pel (s_db s))) by (apply page_all; lia).
  set (q := flat_map (fun k => match d_parked (s_db (final c s l)) k with Some m => [m] | None => [] end) (map snd (d_queue (s_db s)))).
  assert (Fs : from_stream (flat_map (fun e => match pending_of pend (fst e) with Some _ => [] | None => [(Some (fst e), snd e)] end) (d_stream (s_db s)) ++ map (fun m => (None, m)) q) =
               flat_map (fun e => match pending_of pend (fst e) with Some _ => [] | None => [e] end) (d_stream (s_db s))).
  { apply fs_split. }
  assert (Fq : from_queue (flat_map (fun e => match pending_of pend (fst e) with Some _ => [] | None => [(Some (fst e), snd e)] end) (d_stream (s_db s)) ++ map (fun m => (None, m)) q) = q).
  { apply fq_split. }
  rewrite Fs, Fq. split; [reflexivity|]. split.
  { exact (split_perm (fun e => pending_of pend (fst e)) (fun e w => (fst e, snd e, w)) fst (d_stream (s_db s)) (fun a b => match a with (i, m) => eq_refl end)). }
  split.
  { intros i m w H. apply in_flat_map in H as ([j n] & H & K). cbn [fst snd] in K. destruct (pending_of pend j) as [w'|] eqn:P; cbn in K; [|contradiction]. destruct K as [K|K]; [|contradiction]. injection K as <- <- <-.
    apply pending_some in P as (p & H1 & H2 & H3). exists p. split; [now apply Pa|auto]. }
  split.
  { intros i m H. apply in_app_or in H as [H|H]; [|apply in_map_iff in H as (? & ? & _); discriminate].
    apply in_flat_map in H as ([j n] & H & K). cbn [fst snd] in K. destruct (pending_of pend j) eqn:P; cbn in K; [contradiction|]. destruct K as [K|K]; [|contradiction]. injection K as <- <-.
    apply pending_none in P. destruct (Z.le_gt_cases j (d_last (s_db s))) as [Lj|Gj]; [|lia]. exfalso. apply P. pose proof (di_deliv _ D j n H Lj) as K.
    rewrite in_map_iff in *. destruct K as (p & Ep & Kp). exists p. split; [exact Ep|now apply Pa]. }
  assert (Nq : NoDup (map snd (d_queue (s_db s)))) by apply (di_queue _ D).
  assert (Keys : forall ks m, In m (flat_map (fun k => match d_parked (s_db (final c s l)) k with Some m => [m] | None => [] end) ks) <-> In (m_key m) ks /\ d_parked (s_db (final c s l)) (m_key m) = Some m).
  { intros ks m. rewrite in_flat_map. split.
    - intros (k & Hk & Hm). destruct (d_parked (s_db (final c s l)) k) as [m'|] eqn:P; [|destruct Hm]. destruct Hm as [->|[]]. pose proof (di_parked _ D' k m P). subst k. auto.
    - intros [Hk P]. exists (m_key m). split; [exact Hk|]. rewrite P. now left. }
  split; [|intros m; apply Keys].
  unfold q. clear Fs Fq q. induction (map snd (d_queue (s_db s))) as [|k ks IH]; [constructor|]. inversion Nq; subst. cbn.
  destruct (d_parked (s_db (final c s l)) k) as [m|] eqn:P; [|now apply IH]. cbn. constructor; [|now apply IH].
  rewrite in_map_iff. intros (m' & E & I). apply Keys in I as [I _]. rewrite E, (di_parked _ D' k m P) in I. contradiction.
Qed.
Print Assumptions C45_lists_partial.

(** When nothing happens between the two reads, the total is the number of tasks listed,
    and the future list has every payload on the queue. *)
Theorem C45_total_partial c s reg sn : reachable c s ->
  (length (d_stream (s_db s)) <= 1000)%nat -> (length (d_pel (s_db s)) <= 1000)%nat ->
  snapshot reg (s_db s) (s_db s) = Some sn ->
  sn_total sn = Z.of_nat (length (sn_running sn)) + Z.of_nat (length (sn_future sn)) /\
  (forall m, in_future s m -> In (None, m) (sn_future sn)).
Proof.
  intros R Ls Lp E. destruct (C45_lists_partial c s [] reg sn R Ls Lp E) as (T & P & _ & _ & N & Q). pose proof (reachable_GInv c s R) as [D _].
  assert (Len : length (sn_future sn) = (length (from_stream (sn_future sn)) + length (from_queue (sn_future sn)))%nat).
  { clear. induction (sn_future sn) as [|[[i|] m] t IH]; [reflexivity| |]; unfold from_stream, from_queue in *; cbn [flat_map fst app length]; rewrite IH; lia. }
  assert (Lq : length (from_queue (sn_future sn)) = length (d_queue (s_db s))).
  { rewrite <- (map_length m_key), <- (map_length snd (d_queue (s_db s))). apply Permutation_length, NoDup_Permutation; [exact N|apply (di_queue _ D)|].
    intros k. split.
    - intros H. apply in_map_iff in H as (m & <- & H). now apply Q.
    - intros H. apply in_map_iff. pose proof (QP_reachable c s R k H) as K. destruct (d_parked (s_db s) k) as [m|] eqn:Pk; [|congruence]. pose proof (di_parked _ D k m Pk). subst k. exists m. split; [reflexivity|]. apply Q. auto. }
  apply Permutation_length in P. rewrite app_length, map_length in P. split; [lia|].
  intros m [H1 H2]. assert (I : In m (from_queue (sn_future sn))).
  { apply Q. split; [|exact H1]. apply zscore_Some_In in H2. change (m_key m) with (snd (m_when m, m_key m)). now apply in_map. }
  unfold from_queue in I. apply in_flat_map in I as ([[i|] m'] & I1 & I2); cbn in I2; [destruct I2|]. destruct I2 as [->|[]]. exact I1.
Qed.
Print Assumptions C45_total_partial.

(** One running, one waiting on the stream, one in the future. *)
Definition ex_three : list op :=
  [OAdd (mkCall "a" 0 "f" "" "") 0; OAdd (mkCall "b" 0 "g" "" "") 0; OAdd (mkCall "c" 100 "f" "" "") 0; ORead "w"; OClaim 0 1].
Example C45_case : let d := s_db (final ex_cfg init_sys ex_three) in
  snapshot (fun _ => true) d d = Some (mkSnap 3 [(1, mkMsg "a" 0 "f" "" "" 1 1, "w")] [(Some 2, mkMsg "b" 0 "g" "" "" 1 1); (None, mkMsg "c" 100 "f" "" "" 1 1)]).
Proof. vm_compute. reflexivity. Qed.

(** A stored task can be missing although the total counts it: moved from the queue to
    the stream between the two reads. *)
Theorem C45_moved_refuted : exists c l1 l2 sn m, let s := final c init_sys l1 in let s' := final c s l2 in
  snapshot (fun _ => true) (s_db s) (s_db s') = Some sn /\ in_future s m /\ (exists i, on_stream s' i m) /\
  sn_total sn = 1 /\ sn_running sn = [] /\ sn_future sn = [].
Proof.
  exists ex_cfg, [OAdd (mkCall "c" 100 "f" "" "") 0], [OScheduler 100], (mkSnap 1 [] []), (mkMsg "c" 100 "f" "" "" 1 1).
  split; [vm_compute; reflexivity|]. split; [split; vm_compute; reflexivity|]. split; [exists 1; vm_compute; auto|]. auto.
Qed.
Print Assumptions C45_moved_refuted.

(** A task waiting for a concurrency slot is neither listed nor counted. *)
Definition ex_wait : list op :=
  [OAdd (mkCall "a" 0 "f" "" "") 0; OAdd (mkCall "b" 0 "f" "" "") 0; ORead "w"; ORead "w"; OClaim 0 1; OAcquire 0 "c" 1 1; OBodyStart 0; OClaim 1 2; OAcquire 1 "c" 1 2].
Theorem C45_waiting_refuted : exists c l sn cc i m, let s := final c init_sys l in
  snapshot (fun _ => true) (s_db s) (s_db s) = Some sn /\ in_line s cc i m /\ sn_total sn = 1 /\
  sn_running sn = [(1, mkMsg "a" 0 "f" "" "" 1 1, "w")] /\ sn_future sn = [] /\ m_key m = "b".
Proof.
  exists ex_cfg, ex_wait, (mkSnap 1 [(1, mkMsg "a" 0 "f" "" "" 1 1, "w")] []), "c", 3, (mkMsg "b" 0 "f" "" "" 1 2).
  split; [vm_compute; reflexivity|]. split; [split; vm_compute; auto|]. auto.
Qed.
Print Assumptions C45_waiting_refuted.

(** One task of a function this process has not registered, and there is no snapshot at
    all. *)
Theorem C45_unregistered_refuted : exists c l, let s := final c init_sys l in
  length (d_stream (s_db s)) = 2%nat /\ snapshot (fun f => String.eqb f "f") (s_db s) (s_db s) = None.
Proof. exists ex_cfg, ex_three. split; vm_compute; reflexivity. Qed.
Print Assumptions C45_unregistered_refuted.

(** Beyond a thousand messages the rest of the stream is counted but not listed. *)
Fixpoint digits (n : nat) (x : Z) : string := match n with O => "" | S n => String (Ascii.ascii_of_N (Z.to_N (48 + x mod 10))) (digits n (x / 10)) end.
Definition ex_many : list op := map (fun i => OAdd (mkCall (digits 4 (Z.of_nat i)) 0 "f" "" "") 0) (seq 0 1001).
Theorem C45_truncated_refuted : exists c l, let s := final c init_sys l in
  option_map (fun sn => (sn_total sn, length (sn_running sn), length (sn_future sn))) (snapshot (fun _ => true) (s_db s) (s_db s)) = Some (1001, 0%nat, 1000%nat).
Proof. exists ex_cfg, ex_many. vm_compute. reflexivity. Qed.
Print Assumptions C45_truncated_refuted.
