(** C102: the docket's counters tell what the calls did. *)
From Verif Require Import Base ZSet Model Strike StrikeSys PropsHist ClientCount.

(** ** What happened, read off the store *)

(** The generation of a key; each run that is placed gets the next one. *)
Definition gen_at (s : ssys) (k : key) : Z := match d_runs (s_db (ss_sys s)) k with Some r => default 0 (r_gen r) | None => 0 end.
(** The key whose run the call asks for. *)
Definition asks (o : nop) : option key :=
  match o with NAdd _ a _ _ | NReplace _ a _ _ | NSchedule _ a _ _ => Some (a_key a) | _ => None end.
(** The answer of the step is lost. *)
Definition lost_answer (o : nop) : bool :=
  match o with NAdd _ _ _ l | NReplace _ _ _ l | NSchedule _ _ _ l | NCancelEnd _ l => l | _ => false end.
Definition asks_add (o : nop) : bool := match o with NAdd _ _ _ _ => true | _ => false end.

Definition asks_replace (o : nop) : bool := match o with NReplace _ _ _ _ => true | _ => false end.

(** The runs the calls (of the given kind) placed: how far the generations of the keys asked for rose. *)
Fixpoint placed_by (f : nop -> bool) (c : cfg) (bind : binder) (s : ssys * ctr) (l : list nop) : Z :=
  match l with
  | [] => 0
  | o :: l => let s' := nstep c bind s o in
      (if f o then match asks o with Some k => gen_at (fst s') k - gen_at (fst s) k | None => 0 end else 0) + placed_by f c bind s' l
  end.
Definition placed := placed_by (fun _ => true).
(** The calls that changed nothing in the store because of a strike in their process. *)
Fixpoint struck (c : cfg) (bind : binder) (s : ssys * ctr) (l : list nop) : Z :=
  match l with
  | [] => 0
  | o :: l => match o with
      | NAdd p a _ _ | NReplace p a _ _ | NSchedule p a _ _ => if ss_stricken bind (fst s) p (call_msg a) then 1 else 0
      | _ => 0 end + struck c bind (nstep c bind s o) l
  end.

(** ** Proofs *)
Definition dgen (d : db) (k : key) : Z := match d_runs d k with Some r => default 0 (r_gen r) | None => 0 end.
Lemma dgen_rget d k : dgen d k = default 0 (r_gen (rget d k)).
Proof. unfold dgen, rget. destruct (d_runs d k); reflexivity. Qed.
Lemma dgen_place d k w imm m : dgen (place d k w imm false m) k = dgen d k + 1.
Proof. rewrite (dgen_rget d). unfold place, hincr_gen, dgen. destruct imm; cbn; rewrite !upd_eq; cbn; unfold rget; cbn; rewrite upd_eq; reflexivity. Qed.
Lemma dgen_replace d k j : dgen (lua_replace_existing d k) j = dgen d j.
Proof. unfold lua_replace_existing, dgen. cbv zeta. match goal with |- context [match ?x with Some i => xdel _ i | None => _ end] => destruct x end; reflexivity. Qed.

(** A scheduling call of the store: a run is placed exactly when the answer is SCHEDULED. *)
Lemma do_schedule_gen d a repl t : dgen (fst (do_schedule d a repl t)) (a_key a) - dgen d (a_key a) =
  plus1 (is_scheduled (ODisp (snd (do_schedule d a repl t)))) /\ (repl = true -> snd (do_schedule d a repl t) = DScheduled) /\
  snd (do_schedule d a repl t) <> DStruck.
Proof.
  unfold do_schedule, lua_schedule. destruct repl; cbn [negb andb].
  - cbn [fst snd is_scheduled plus1]. split; [|split; [reflexivity|discriminate]].
    change (dgen (publish ?x _ _) ?k) with (dgen x k). rewrite dgen_place, dgen_replace. lia.
  - destruct (lua_exists d (a_key a)); cbn [fst snd is_scheduled plus1]; (split; [|split; discriminate]); [lia|].
    change (dgen (publish ?x _ _) ?k) with (dgen x k). rewrite dgen_place. lia.
Qed.

Lemma sched_step c bind s p a t (repl : bool) : let r := sstep c bind s (if repl then SReplace p a t else SAdd p a t) in
  is_struck (snd r) = ss_stricken bind s p (call_msg a) /\
  gen_at (fst r) (a_key a) - gen_at s (a_key a) = plus1 (is_scheduled (snd r)) /\
  (repl = true -> is_struck (snd r) = false -> is_scheduled (snd r) = true).
Proof.
  cbv zeta. unfold gen_at. change (match d_runs ?d ?k with Some r => default 0 (r_gen r) | None => 0 end) with (dgen d k).
  destruct (do_schedule_gen (s_db (ss_sys s)) a repl t) as (A & B & C).
  destruct repl; cbn [sstep]; destruct (ss_stricken bind s p (call_msg a)) eqn:E;
    try (cbn [fst snd is_struck is_scheduled plus1]; repeat split; [lia|discriminate]);
    unfold lift; cbn [step]; destruct (do_schedule _ _ _ _) as [d' r]; cbn [fst snd ss_sys set_db s_db] in *;
    (split; [destruct r; try reflexivity; now elim C|]); (split; [exact A|]); intros; try discriminate.
  now rewrite B.
Qed.

(** ** C102 *)


Definition nlost (l : list nop) : Z := Z.of_nat (length (filter lost_answer l)).
Lemma nlost_cons o l : nlost (o :: l) = plus1 (lost_answer o) + nlost l.
Proof. unfold nlost. cbn [filter]. destruct (lost_answer o); cbn [plus1 length]; lia. Qed.

(** One step: what each counter gains. *)
Lemma counts_step c bind s o : let x := snd (nstep c bind s o) in
  let rise f := if (f o : bool) then match asks o with Some k => gen_at (fst (nstep c bind s o)) k - gen_at (fst s) k | None => 0 end else 0 in
  c_sched x <= c_sched (snd s) + rise (fun _ => true) <= c_sched x + plus1 (lost_answer o) /\
  c_replaced x <= c_replaced (snd s) + rise asks_replace <= c_replaced x + plus1 (lost_answer o) /\
  c_added (snd s) + rise asks_add <= c_added x + plus1 (lost_answer o) /\
  c_stricken x = c_stricken (snd s) + match o with
      | NAdd p a _ _ | NReplace p a _ _ | NSchedule p a _ _ => if ss_stricken bind (fst s) p (call_msg a) then 1 else 0
      | _ => 0 end.
Proof.
  destruct o as [p a t b|p a t b|p a t b|k t|k b|o]; cbv zeta; cbn [asks asks_add asks_replace lost_answer].
  - destruct (sched_step c bind (fst s) p a t false) as (A & B & _).
    unfold nstep in *; cbn [nsop] in *; destruct (sstep c bind (fst s) (SAdd p a t)) as [s' r]; cbn [fst snd] in *; unfold count_add; rewrite A in *.
    destruct (ss_stricken bind (fst s) p (call_msg a)) eqn:E, b, (is_scheduled r) eqn:ES; cbn [c_sched c_stricken c_added c_replaced plus1] in *; try lia; destruct r as [| |[]| | | | | |]; try discriminate; lia.
  - destruct (sched_step c bind (fst s) p a t true) as (A & B & C).
    unfold nstep in *; cbn [nsop] in *; destruct (sstep c bind (fst s) (SReplace p a t)) as [s' r]; cbn [fst snd] in *; unfold count_replace; rewrite A in *.
    destruct (ss_stricken bind (fst s) p (call_msg a)) eqn:E, b; try (specialize (C eq_refl eq_refl); rewrite C in B); cbn [c_sched c_stricken c_added c_replaced plus1] in *; try lia;
    destruct r as [| |[]| | | | | |]; try discriminate; cbn [is_scheduled plus1] in *; lia.
  - destruct (sched_step c bind (fst s) p a t false) as (A & B & _).
    unfold nstep in *; cbn [nsop] in *; destruct (sstep c bind (fst s) (SAdd p a t)) as [s' r]; cbn [fst snd] in *; unfold count_schedule; rewrite A in *.
    destruct (ss_stricken bind (fst s) p (call_msg a)) eqn:E, b, (is_scheduled r) eqn:ES; cbn [c_sched c_stricken c_added c_replaced plus1] in *; try lia; destruct r as [| |[]| | | | | |]; try discriminate; lia.
  - unfold nstep; destruct (sstep _ _ _ _); cbn [snd plus1]; lia.
  - unfold nstep; destruct (sstep _ _ _ _), b; cbn [snd plus1 c_sched c_stricken c_added c_replaced]; lia.
  - unfold nstep; destruct (sstep _ _ _ _); cbn [snd plus1]; lia.
Qed.
Lemma counts_run c bind l : forall s, let x := snd (nrun c bind s l) in
  c_sched x <= c_sched (snd s) + placed c bind s l <= c_sched x + nlost l /\
  c_replaced x <= c_replaced (snd s) + placed_by asks_replace c bind s l <= c_replaced x + nlost l /\
  c_added (snd s) + placed_by asks_add c bind s l <= c_added x + nlost l /\
  c_stricken x = c_stricken (snd s) + struck c bind s l.
Proof.
  induction l as [|o l IH]; intros s; [cbn; lia|].
  assert (A := counts_step c bind s o). specialize (IH (nstep c bind s o)). unfold placed in *. cbn [nrun placed_by struck]. cbv zeta in *. rewrite nlost_cons. lia.
Qed.

(** The systems of the theorems: a fresh docket with counters at 0. *)
Definition n_init : ssys * ctr := (ss_init, ctr0).

(** TASKS_SCHEDULED is the number of runs placed by the calls of all processes, and TASKS_REPLACED the number placed by
    replace, as long as no answer of the store is lost; each lost answer costs at most one, and nothing is counted that was not placed. *)
Theorem C102_scheduled_partial c bind l : let x := snd (nrun c bind n_init l) in
  (c_sched x <= placed c bind n_init l <= c_sched x + nlost l) /\
  (c_replaced x <= placed_by asks_replace c bind n_init l <= c_replaced x + nlost l) /\
  ((forall o, In o l -> lost_answer o = false) -> c_sched x = placed c bind n_init l /\ c_replaced x = placed_by asks_replace c bind n_init l).
Proof.
  assert (H := counts_run c bind l n_init). cbv zeta in *. cbn [n_init snd ctr0 c_sched c_replaced] in H. split; [lia|]. split; [lia|]. intros N.
  assert (E : nlost l = 0); [|lia]. clear -N. induction l as [|o l IH]; [reflexivity|]. rewrite nlost_cons, (N o (or_introl eq_refl)), IH; [reflexivity|].
  intros o' Ho. apply N. now right.
Qed.
Print Assumptions C102_scheduled_partial.

(** TASKS_STRICKEN (docket.where = docket) is exactly the number of struck calls, and those are counted nowhere else:
    with the bounds above, a struck call changes no other counter. *)
Theorem C102_stricken c bind l : c_stricken (snd (nrun c bind n_init l)) = struck c bind n_init l.
Proof. apply (counts_run c bind l n_init). Qed.
Print Assumptions C102_stricken.

(** TASKS_ADDED misses no run placed by add (but for lost answers). *)
Theorem C102_added_partial c bind l : placed_by asks_add c bind n_init l <= c_added (snd (nrun c bind n_init l)) + nlost l.
Proof. apply (counts_run c bind l n_init). Qed.
Print Assumptions C102_added_partial.

(** A history with a strike, a refused add, a replacement, a run in between and a lost answer. *)
Definition ex_bind : binder := fun _ _ _ => Some [].
Definition ex_n : list nop :=
  [NAdd "p" (ex_call 0 "f" "") 0 false; NAdd "p" (ex_call 0 "f" "") 1 false; NReplace "q" (ex_call 5 "f" "") 2 false;
   NDo (SSend (mkInstr true (Some "g") None OpEq (PInt 0))); NDo (SMonitor "p"); NAdd "p" (mkCall "j" 0 "g" "" "") 3 false; NSchedule "q" (mkCall "j" 0 "g" "" "") 3 true;
   NDo (SDo (OScheduler 9)); NDo (SDo (ORead "w"))].
Example C102_case : snd (nrun ex_cfg ex_bind n_init ex_n) = mkCtr 2 1 2 1 1 /\ placed ex_cfg ex_bind n_init ex_n = 3 /\
  placed_by asks_add ex_cfg ex_bind n_init ex_n = 1 /\ placed_by asks_replace ex_cfg ex_bind n_init ex_n = 1 /\ struck ex_cfg ex_bind n_init ex_n = 1 /\ nlost ex_n = 1.
Proof. vm_compute. repeat split. Qed.

(** A lost answer: the run is placed, no counter says so. *)
Theorem C102_lost_refuted : exists c bind l, placed c bind n_init l = 1 /\ snd (nrun c bind n_init l) = ctr0.
Proof. exists ex_cfg, ex_bind, [NAdd "p" (ex_call 0 "f" "") 0 true]. vm_compute. split; reflexivity. Qed.
Print Assumptions C102_lost_refuted.
(** TASKS_ADDED counts refused calls: any number of adds for one run. *)
Theorem C102_refused_refuted n : let l := repeat (NAdd "p" (ex_call 0 "f" "") 0 false) (S n) in
  let x := snd (nrun ex_cfg ex_bind n_init l) in c_added x = Z.of_nat (S n) /\ c_sched x = 1 /\ placed ex_cfg ex_bind n_init l = 1.
Proof.
  cbv zeta. assert (H : forall n s, lua_exists (s_db (ss_sys (fst s))) "k" = true -> ss_applied (fst s) "p" = [] ->
    let l := repeat (NAdd "p" (ex_call 0 "f" "") 0 false) n in let x := snd (nrun ex_cfg ex_bind s l) in
    c_added x = c_added (snd s) + Z.of_nat n /\ c_sched x = c_sched (snd s) /\ placed ex_cfg ex_bind s l = 0).
  { clear n. induction n as [|n IH]; intros s E1 E2; [cbn; lia|]. cbv zeta in *. unfold placed in *. cbn [repeat nrun placed_by].
    assert (K : nstep ex_cfg ex_bind s (NAdd "p" (ex_call 0 "f" "") 0 false) =
      (fst s, mkCtr (c_added (snd s) + 1) (c_replaced (snd s)) (c_sched (snd s) + 0) (c_cancelled (snd s)) (c_stricken (snd s)))).
    { unfold nstep. cbn [nsop sstep]. unfold ss_stricken. rewrite E2. cbn [step]. unfold do_schedule, lua_schedule. cbn [ex_call a_key negb andb]. rewrite E1.
      destruct s as [[[] ] ]; reflexivity. }
    rewrite K. destruct (IH (fst s, mkCtr (c_added (snd s) + 1) (c_replaced (snd s)) (c_sched (snd s) + 0) (c_cancelled (snd s)) (c_stricken (snd s))) E1 E2) as (A & B & C). rewrite A, B, C. cbn [fst snd c_added c_sched asks ex_call a_key]. lia. }
  cbn [repeat nrun]. unfold placed in *. cbn [placed_by]. destruct (H n (nstep ex_cfg ex_bind n_init (NAdd "p" (ex_call 0 "f" "") 0 false)) eq_refl eq_refl) as (A & B & C).
  rewrite A, B, C. split; [|split; [reflexivity|vm_compute; reflexivity]].
  change (c_added (snd (nstep ex_cfg ex_bind n_init (NAdd "p" (ex_call 0 "f" "") 0 false)))) with 1. lia.
Qed.
Print Assumptions C102_refused_refuted.
(** TASKS_CANCELLED and TASKS_REPLACED count where there was nothing to cancel or to replace: on a fresh docket, cancelling
    and replacing a key that never existed counts two cancelled tasks and one replaced. *)
Theorem C102_nothing_cancelled_refuted : let l := [NCancel "k" 0; NCancelEnd "k" false; NReplace "p" (ex_call 0 "f" "") 0 false] in
  let x := snd (nrun (mkCfg 0 300000000) ex_bind n_init l) in c_cancelled x = 2 /\ c_replaced x = 1 /\ placed (mkCfg 0 300000000) ex_bind n_init l = 1.
Proof. vm_compute. repeat split. Qed.
Print Assumptions C102_nothing_cancelled_refuted.
