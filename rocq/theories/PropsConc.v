(** C23: the number of running bodies of a concurrency-limited group. *)
From Verif Require Import Base ZSet Model GInv KView KSim Spec KInv Check SpecConc ConcProofs ConcHist PropsHist.

(** In every history from the empty database (any tasks, workers, crashes,
    redeliveries, releases, scavenges, cancels, clears, superseded runs, clocks) in
    which all takers of [cc] use the limit [n] and every live holder took or renewed its slot
    less than the redelivery timeout ago whenever anything happens: the executions whose body is running after having been given a slot of
    [cc] number at most [n]. *)
Theorem C23_limit_never_exceeded c n cc l xs :
  Forall (limit_is n cc) l -> timely c cc l ->
  NoDup xs -> (forall x, In x xs -> runs_in_group c l cc x) ->
  Z.of_nat (length xs) <= Z.max 0 n.
Proof.
  intros F T N Hx. assert (H := timely_init c n cc l F T).
  apply Z.le_trans with (Z.of_nat (length (holders cc (final c init_sys l)))).
  - apply Nat2Z.inj_le, NoDup_incl_length; [exact N|]. intros x Ix. destruct (Hx x Ix) as (A & P & Q).
    apply filter_In. split; [exact A|]. eapply acquired_holds; eauto. unfold early. now rewrite P.
  - apply SInv_bound. apply SInv_final; [exact GInv_init|apply SInv_init|exact H].
Qed.
Print Assumptions C23_limit_never_exceeded.

(** The same state by state: nobody is given a slot while [n] live holders exist. *)
Theorem C23_no_slot_while_full c n cc l h t :
  Forall (limit_is n cc) l -> timely c cc (l ++ [OAcquire h cc n t]) ->
  let s := final c init_sys l in
  Z.max 0 n <= Z.of_nat (length (holders cc s)) ->
  snd (step c s (OAcquire h cc n t)) <> OAcquired true.
Proof.
  intros Fl T s F E.
  assert (H : along c (fun s o => limit_is n cc o /\ renewed c cc s o) init_sys (l ++ [OAcquire h cc n t])).
  { apply timely_init; [|exact T]. apply Forall_app. split; [exact Fl|]. constructor; [cbn; auto|constructor]. }
  apply along_app in H as [H [[_ R] _]]. fold s in R.
  assert (G : GInv s) by apply GInv_final, GInv_init.
  assert (S : SInv n cc s) by (apply SInv_final; [exact GInv_init|apply SInv_init|exact H]).
  assert (S' : SInv n cc (fst (step c s (OAcquire h cc n t)))) by (apply SInv_step; auto; cbn; auto).
  pose proof (SInv_bound _ _ _ S') as B. pose proof (SInv_bound _ _ _ S) as B0.
  destruct (acquire_true _ _ _ _ _ _ E) as (x & Gx & Px & Sx & Ex & _). unfold holders in *. rewrite Ex in B.
  apply (Nat.lt_irrefl (length (filter (holds cc) (s_execs s)))).
  apply Nat.lt_le_trans with (length (filter (holds cc) (upd_exec (s_execs s) h (with_slot (Some (cc, n)))))); [|lia].
  clear - Gx Sx. unfold get_exec in Gx. revert Gx. generalize (s_execs s). clear - Sx. intros l Gx. induction l as [|y l IH]; [discriminate|].
  cbn [find upd_exec map filter] in *. fold (upd_exec l h (with_slot (Some (cc, n)))). destruct (Z.eqb_spec (x_id y) h) as [Ey|Ey].
  - injection Gx as ->. assert (X : holds cc x = false) by (unfold holds; now rewrite Sx). rewrite X.
    assert (Y : holds cc (with_slot (Some (cc, n)) x) = true) by (unfold holds; cbn; apply String.eqb_refl). rewrite Y. cbn [length].
    apply Nat.lt_succ_r. clear. induction l as [|z l IH]; [apply Nat.le_refl|]. cbn [upd_exec map filter]. fold (upd_exec l h (with_slot (Some (cc, n)))).
    destruct (x_id z =? h).
    + assert (Y : holds cc (with_slot (Some (cc, n)) z) = true) by (unfold holds; cbn; apply String.eqb_refl). rewrite Y. destruct (holds cc z); cbn [length]; lia.
    + destruct (holds cc z); cbn [length]; lia.
  - specialize (IH Gx). destruct (holds cc y); cbn [length]; lia.
Qed.
Print Assumptions C23_no_slot_while_full.

Definition limitb (n : Z) (cc : string) (o : op) : bool :=
  match o with OAcquire _ cc' m _ => negb (String.eqb cc' cc) || (m =? n) | _ => true end.
Definition timely_atb (c : cfg) (cc : string) (s : sys) (L : Z -> option (Z * Z)) (o : op) : bool :=
  forallb (fun x =>
    match L (x_id x) with
    | None => true
    | Some (t0, n0) =>
        match op_clock o with Some t => t <? t0 + c_redeliver c | None => true end &&
        match o with OTick dt => d_now (s_db s) + dt <? n0 + c_redeliver c | _ => true end
    end) (holders cc s).
Fixpoint timelyb (c : cfg) (cc : string) (s : sys) (L : Z -> option (Z * Z)) (l : list op) : bool :=
  match l with
  | [] => true
  | o :: l => timely_atb c cc s L o && timelyb c cc (fst (step c s o)) (touch c cc s o L) l
  end.
Lemma timelyb_sound c cc l : forall s L, timelyb c cc s L l = true -> timely_from c cc s L l.
Proof.
  induction l as [|o l IH]; intros s L H; [exact Logic.I|]. cbn [timelyb] in H. apply andb_prop in H as [H1 H2]. split; [|now apply IH].
  intros x t0 n0 Hx E. unfold timely_atb in H1. rewrite forallb_forall in H1. apply H1 in Hx. rewrite E in Hx. apply andb_prop in Hx as [A B]. split.
  - intros t Et. rewrite Et in A. lia.
  - intros dt ->. lia.
Qed.
Lemma limitb_sound n cc o : limitb n cc o = true -> limit_is n cc o.
Proof. destruct o; cbn; auto. destruct (String.eqb_spec c cc); cbn; intros; [lia|contradiction]. Qed.

(** Limit 2: "a" and "b" run on w1 and w2; "k" and "d" are parked; "a" renews; w2
    crashes and its slot goes stale while w1 keeps renewing; the redelivered "b" takes its own slot over
    in w3 while the scavenged capacity wakes nobody; "a" ends and "k" is woken and runs. *)
Definition ex_group : list op :=
  [OAdd (mkCall "a" 0 "f" "" "") 0; OAdd (mkCall "b" 0 "f" "" "") 0; OAdd (ex_call 0 "f" "") 0; OAdd (mkCall "d" 0 "f" "" "") 0;
   ORead "w1"; ORead "w2"; ORead "w1"; ORead "w2";
   OClaim 0 1; OAcquire 0 "c" 2 1; OBodyStart 0; OClaim 1 1; OAcquire 1 "c" 2 1; OBodyStart 1;
   OClaim 2 2; OAcquire 2 "c" 2 2; OClaim 3 2; OAcquire 3 "c" 2 2;
   OTick 75000000; ORenewSlot 0 75000000; ORenewSlot 1 75000000; ORenew "w1"; ORenew "w2"; OCrash "w2";
   OTick 200000000; ORenewSlot 0 275000000; ORenew "w1"; OTick 101000000; OAutoclaim "w3" 2; OClaim 4 376000000;
   OAcquire 4 "c" 2 376000000; OBodyStart 4].
Definition ex_group_end : list op := [OBodyEnd 0; ORelease 0 376000001; ORead "w1"; OClaim 5 376000002; OAcquire 5 "c" 2 376000002; OBodyStart 5].
Example C23_case :
  Forall (limit_is 2 "c") (ex_group ++ ex_group_end) /\ timely ex_cfg "c" (ex_group ++ ex_group_end) /\
  length (holders "c" (final ex_cfg init_sys ex_group)) = 2%nat /\
  map (fun x => (m_key (x_msg x), x_phase x)) (holders "c" (final ex_cfg init_sys (ex_group ++ ex_group_end))) = [("b", PBody); ("k", PBody)]%string /\
  map (fun x => (m_key (x_msg x), x_phase x)) (holders "c" (final ex_cfg init_sys ex_group)) = [("a", PBody); ("b", PBody)]%string.
Proof.
  split; [|split; [|split; [|split]; vm_compute; reflexivity]].
  - apply Forall_forall. intros o Ho. apply limitb_sound. revert o Ho. apply forallb_forall. vm_compute. reflexivity.
  - apply timelyb_sound. vm_compute. reflexivity.
Qed.

(** The condition is needed: when the holder of the only slot did not renew for
    longer than the redelivery timeout (a blocked event loop), another task takes its slot and
    two bodies run at once. *)
Example C23_late_holder :
  let l := [OAdd (mkCall "a" 0 "f" "" "") 0; OAdd (ex_call 0 "f" "") 0; ORead "w1"; ORead "w2"; OClaim 0 1; OAcquire 0 "c" 1 1; OBodyStart 0;
            OTick 301000000; OClaim 1 301000000; OAcquire 1 "c" 1 301000000; OBodyStart 1] in
  map (fun x => (m_key (x_msg x), x_phase x)) (holders "c" (final ex_cfg init_sys l)) = [("a", PBody); ("k", PBody)]%string.
Proof. vm_compute. reflexivity. Qed.
