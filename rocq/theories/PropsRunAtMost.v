(** C50: run_at_most. *)
From Verif Require Import Base ZSet Model GInv KSim Spec RecoverProofs RunAtMost SpecRunAtMost RunAtMostProofs PropsHist.

Fixpoint ralongb (c : cfg) (w : string) (limit : key -> option Z) (P : ra -> bool) (s : ra) (l : list rop) : bool :=
  match l with [] => P s | o :: l => P s && ralongb c w limit P (fst (rstep c w limit s o)) l end.
Lemma ralongb_sound c w limit (P : ra -> bool) (Q : ra -> Prop) l : (forall s, P s = true -> Q s) ->
  forall s, ralongb c w limit P s l = true -> ralong c w limit Q s l.
Proof. intros H. induction l as [|o l IH]; intros s E; cbn in *; [auto|]. apply andb_prop in E as [E1 E2]. auto. Qed.

(** Whatever else happens on the docket, if at most [W] executions of the limited key are
    between their strike check and their count at the same time, the worker
    starts the key at most n + W - 1 times; a limit of 0 admits no start at all. *)
Theorem C50_bound_partial c w limit k n W s l : reachable c s -> limit k = Some n -> 0 <= W ->
  ralong c w limit (fun s => Z.of_nat (length (between w k s)) <= W) (ra_begin s) l ->
  starts_of c w limit k (ra_begin s) l <= (if n <=? 0 then 0 else n + W - 1).
Proof.
  intros R Lim HW A. pose proof (RInv_run c w limit k n W Lim l 0 (ra_begin s)) as H.
  assert (None1 : forall x, isPassed w k (ra_begin s) x = false) by (intros x; apply andb_false_r).
  assert (None2 : forall x, isCounted w k (ra_begin s) x = false) by (intros x; apply andb_false_r).
  destruct H as [_ _ B _ St].
  - constructor; cbn.
    + now apply reachable_GInv in R.
    + reflexivity.
    + rewrite cnt_none by auto. unfold at_most. destruct (Z.leb_spec n 0); lia.
    + lia.
    + rewrite cnt_none by auto. lia.
  - exact A.
  - unfold at_most in B. pose proof (cnt_nonneg (isPassed w k (rrun c w limit (ra_begin s) l)) (s_execs (ra_sys (rrun c w limit (ra_begin s) l)))).
    pose proof (cnt_nonneg (isCounted w k (rrun c w limit (ra_begin s) l)) (s_execs (ra_sys (rrun c w limit (ra_begin s) l)))). lia.
Qed.
Print Assumptions C50_bound_partial.

(** So the limit is kept when the key's executions are checked and counted one after
    another. *)
Theorem C50_one_by_one_partial c w limit k n s l : reachable c s -> limit k = Some n ->
  ralong c w limit (fun s => (length (between w k s) <= 1)%nat) (ra_begin s) l ->
  starts_of c w limit k (ra_begin s) l <= Z.max 0 n.
Proof.
  intros R Lim A. assert (H : starts_of c w limit k (ra_begin s) l <= (if n <=? 0 then 0 else n + 1 - 1)).
  - apply C50_bound_partial; [exact R|exact Lim|lia|]. revert A. generalize (ra_begin s). induction l as [|o l IH]; intros s0 A; cbn in *; [lia|]. split; [lia|apply IH, A].
  - destruct (Z.leb_spec n 0); lia.
Qed.
Print Assumptions C50_one_by_one_partial.

(** A key without a limit passes the check unless another strike holds, is started after
    its claim, and is never refused when added. *)
Theorem C50_others_unlimited c w limit s h x t :
  mine w s h = Some x -> limit (m_key (x_msg x)) = None -> x_phase x = PDelivered -> ra_stage s h = GNew ->
  snd (step c (ra_sys s) (OClaim h t)) = OClaimed true ->
  routs c w limit s [RCheck h false; RDo (OClaim h t); RCount h; RDo (OBodyStart h)] = [ODone; OClaimed true; ODone; OStarted (x_msg x) (x_mid x)] /\
  (forall own repl a t', a_key a = m_key (x_msg x) -> snd (rstep c w limit s (RAdd own repl a t')) = snd (step c (ra_sys s) (if repl then OReplace a t' else OAdd a t'))).
Proof.
  intros M Lim P Sg Cl. split.
  - assert (Gx : get_exec (s_execs (ra_sys s)) h = Some x /\ String.eqb (x_worker x) w = true).
    { unfold mine in M. destruct (get_exec (s_execs (ra_sys s)) h) as [y|] eqn:Gy; [|discriminate]. destruct (String.eqb (x_worker y) w) eqn:Ew; [|discriminate]. injection M as <-. auto. }
    destruct Gx as [Gx Ew].
    assert (E1 : rstep c w limit s (RCheck h false) = (mkRA (ra_sys s) (ra_count s) (set_stage s h GPassed), ODone)).
    { cbn [rstep]. rewrite M, P, Sg. cbn [orb]. unfold reached. now rewrite Lim. }
    set (s1 := mkRA (ra_sys s) (ra_count s) (set_stage s h GPassed)) in *.
    assert (M1 : mine w s1 h = Some x) by exact M.
    assert (Sg1 : ra_stage s1 h = GPassed) by (unfold s1, set_stage; cbn; now rewrite Z.eqb_refl).
    assert (E2 : exists d, rstep c w limit s1 (RDo (OClaim h t)) = (mkRA (set_execs (ra_sys s) d (upd_exec (s_execs (ra_sys s)) h (with_phase PClaimed))) (ra_count s) (ra_stage s1), OClaimed true)).
    { cbn [rstep]. rewrite M1, Sg1. unfold rdo. change (ra_sys s1) with (ra_sys s). revert Cl. cbn [step]. rewrite Gx, P.
      destruct (lua_claim (s_db (ra_sys s)) (m_key (x_msg x)) (x_worker x) t (m_gen (x_msg x)) (x_mid x)) as [d []]; try discriminate; intros _; exists d; reflexivity. }
    destruct E2 as (d & E2). set (s2 := mkRA (set_execs (ra_sys s) d (upd_exec (s_execs (ra_sys s)) h (with_phase PClaimed))) (ra_count s) (ra_stage s1)) in *.
    assert (G2 : get_exec (s_execs (ra_sys s2)) h = Some (with_phase PClaimed x)).
    { apply (get_upd_same _ h (with_phase PClaimed)); [reflexivity|exact Gx]. }
    assert (M2 : mine w s2 h = Some (with_phase PClaimed x)) by (unfold mine; rewrite G2; cbn; now rewrite Ew).
    assert (E3 : rstep c w limit s2 (RCount h) = (mkRA (ra_sys s2) (ra_count s2) (set_stage s2 h GCounted), ODone)).
    { cbn [rstep]. rewrite M2. cbn [with_phase x_phase x_msg]. change (ra_stage s2 h) with (ra_stage s1 h). rewrite Sg1. now rewrite Lim. }
    set (s3 := mkRA (ra_sys s2) (ra_count s2) (set_stage s2 h GCounted)) in *.
    assert (E4 : snd (rstep c w limit s3 (RDo (OBodyStart h))) = OStarted (x_msg x) (x_mid x)).
    { assert (M3 : mine w s3 h = Some (with_phase PClaimed x)) by exact M2. assert (Sg3 : ra_stage s3 h = GCounted) by (unfold s3, set_stage; cbn; now rewrite Z.eqb_refl).
      cbn [rstep]. rewrite M3, Sg3. unfold rdo. change (ra_sys s3) with (ra_sys s2). cbn [step]. rewrite G2. reflexivity. }
    cbn [routs]. rewrite E1. cbn [fst snd]. rewrite E2. cbn [fst snd]. rewrite E3. cbn [fst snd]. rewrite E4. reflexivity.
  - intros own repl a t' Ea. cbn [rstep]. unfold reached. rewrite Ea, Lim, andb_false_r. unfold rdo. clear. destruct (step c (ra_sys s) (if repl then OReplace a t' else OAdd a t')); reflexivity.
Qed.
Print Assumptions C50_others_unlimited.

(** A perpetual task under run_at_most k -> 2: it re-adds itself, the third delivery is
    stricken, the re-adds through the worker's docket are refused from then on. *)
Definition ex_limit : key -> option Z := fun k => if String.eqb k "k" then Some 2 else None.
Definition ex_again (h : Z) : list rop :=
  [RDo (ORead "w"); RCheck h false; RDo (OClaim h 1); RCount h; RDo (OBodyStart h); RDo (OBodyEnd h); RAdd false true (ex_call 0 "f" "") 2; RDo (OTerminal h SCompleted 3 None None)].
Definition ex_limited : list rop :=
  RAdd true false (ex_call 0 "f" "") 0 :: ex_again 0 ++ ex_again 1 ++ [RDo (ORead "w"); RCheck 2 false; RDo (OClaim 2 4); RDo (ODelKnown 2); RDo (OTerminal 2 SCancelled 5 None None); RAdd true false (ex_call 0 "f" "") 6].
Example C50_case :
  ralong ex_cfg "w" ex_limit (fun s => (length (between "w" "k" s) <= 1)%nat) (ra_begin init_sys) ex_limited /\
  starts_of ex_cfg "w" ex_limit "k" (ra_begin init_sys) ex_limited = 2 /\
  skipn 17 (routs ex_cfg "w" ex_limit (ra_begin init_sys) ex_limited) =
    [ODelivered 2 3 (mkMsg "k" 0 "f" "" "" 1 3); ODone; ORefused; ODone; ODone; ODisp DStruck].
Proof.
  split; [|split; [vm_compute; reflexivity|vm_compute; reflexivity]].
  apply (ralongb_sound ex_cfg "w" ex_limit (fun s => Nat.leb (length (between "w" "k" s)) 1)); [intros s H; now apply Nat.leb_le|vm_compute; reflexivity].
Qed.
Example C50_others_case : let s := rrun ex_cfg "w" ex_limit (ra_begin init_sys) [RAdd true false (mkCall "other" 0 "f" "" "") 0; RDo (ORead "w")] in
  exists x, mine "w" s 0 = Some x /\ ex_limit (m_key (x_msg x)) = None /\ x_phase x = PDelivered /\ ra_stage s 0 = GNew /\ snd (step ex_cfg (ra_sys s) (OClaim 0 1)) = OClaimed true.
Proof. exists (mkExec 0 "w" 1 (mkMsg "other" 0 "f" "" "" 1 1) false PDelivered None). vm_compute. auto. Qed.

(** The limit is exceeded when the same key is delivered again while the first claim's
    reply is still on its way: the count is only raised once the reply is read
    (worker.py:1027-1033), so the second check still sees 0. *)
Definition ex_one : key -> option Z := fun k => if String.eqb k "k" then Some 1 else None.
Definition ex_overlap : list rop :=
  [RAdd true false (ex_call 0 "f" "") 0; RDo (ORead "w"); RCheck 0 false; RDo (OClaim 0 1);
   RAdd true true (ex_call 0 "f" "") 2; RDo (ORead "w"); RCheck 1 false; RCount 0; RDo (OClaim 1 3); RCount 1;
   RDo (OBodyStart 0); RDo (OBodyStart 1)].
Theorem C50_overlap_refuted : exists c w limit k l, limit k = Some 1 /\ starts_of c w limit k (ra_begin init_sys) l = 2.
Proof. exists ex_cfg, "w", ex_one, "k", ex_overlap. vm_compute. auto. Qed.
Print Assumptions C50_overlap_refuted.
Example C50_overlap_is_two : ralongb ex_cfg "w" ex_one (fun s => Nat.leb (length (between "w" "k" s)) 2) (ra_begin init_sys) ex_overlap = true.
Proof. vm_compute. reflexivity. Qed.

(** A run that is only parked uses up an iteration: the count is raised at the claim, the
    body never starts, and the run that was waiting is then thrown away. *)
Definition ex_parked : list rop :=
  [RAdd true false (mkCall "other" 0 "f" "" "") 0; RAdd true false (ex_call 0 "f" "") 0; RDo (ORead "w"); RDo (ORead "w");
   RCheck 0 false; RDo (OClaim 0 1); RCount 0; RDo (OAcquire 0 "c" 1 1); RDo (OBodyStart 0);
   RCheck 1 false; RDo (OClaim 1 2); RCount 1; RDo (OAcquire 1 "c" 1 2);
   RDo (OBodyEnd 0); RDo (ORelease 0 3); RDo (OTerminal 0 SCompleted 3 None None);
   RDo (ORead "w"); RCheck 2 false; RDo (OClaim 2 4); RDo (ODelKnown 2); RDo (OTerminal 2 SCancelled 5 None None)].
Theorem C50_parked_run_counts : exists c w limit k l, limit k = Some 1 /\
  starts_of c w limit k (ra_begin init_sys) l = 0 /\
  In (RCheck 2 false) l /\ ra_stage (rrun c w limit (ra_begin init_sys) l) 2 = GStruck /\ map fst (d_stream (s_db (ra_sys (rrun c w limit (ra_begin init_sys) l)))) = [].
Proof.
  exists ex_cfg, "w", ex_one, "k", ex_parked. split; [reflexivity|]. split; [vm_compute; reflexivity|]. split; [cbn; tauto|].
  split; vm_compute; reflexivity.
Qed.
Print Assumptions C50_parked_run_counts.
