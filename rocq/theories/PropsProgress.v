(** C41: progress. *)
From Verif Require Import Base ZSet Model GInv KView KSim Spec KInv Hist PropsHist Progress SpecProgress ProgressProofs.

(** A run of [k] is claimed.  Then, as long as [k] is not cancelled, no other run of
    [k] is claimed, and only superseded runs of an earlier generation end, the
    progress of [k] is what the reports made since the claim say: it started at 0 of
    100 without a message, increments add up, the last total and message count.  In
    particular the end of a superseded run does not remove it.
    Missing from the full statement: the reports counted are those of every run of
    [k], not only of the claimed one (false otherwise, below). *)
Theorem C41_progress_is_reported_partial c q h t x l v : preachable c q ->
  get_exec (s_execs (p_sys q)) h = Some x -> snd (step c (p_sys q) (OClaim h t)) = OClaimed true ->
  let k := m_key (x_msg x) in
  let q1 := pstep c q (POp (OClaim h t)) in
  palong c (running_on c k (m_gen (x_msg x))) q1 l ->
  told_progress c k q1 l (0, 100, None) v -> seen k (pfinal c q1 l) = Some v.
Proof.
  intros R X E k q1 A T. destruct (claim_agrees c q h t x R X E) as [_ S].
  destruct (shows_final c k _ l q1 (0, 100, None) (PInv_step _ _ _ (PInv_reach _ _ R)) A S) as (v' & T' & p & P1 & _ & P3).
  rewrite (told_det _ _ _ _ _ _ _ T T'). unfold seen. rewrite P1. cbn. now rewrite P3.
Qed.
Print Assumptions C41_progress_is_reported_partial.

(** The premise above is never empty: what the reports say is defined for every
    continuation. *)
Theorem C41_reports_defined c q k l u : exists v, told_progress c k q l u v.
Proof.
  revert q u. induction l as [|o l IH]; intros q [[a b] m]; [eexists; constructor|].
  destruct o as [o|h n t|h n t|h m' t].
  - destruct (IH (pstep c q (POp o)) (a, b, m)) as [v V]. exists v. now apply tp_other.
  - destruct (Z.leb_spec 1 n) as [N|N].
    2: { destruct (IH (pstep c q (PIncr h n t)) (a, b, m)) as [v V]. exists v. apply tp_other; auto. }
    destruct (reports_dec k q h) as [R|R].
    + destruct (IH (pstep c q (PIncr h n t)) (a + n, b, m)) as [v V]. exists v. now apply tp_incr.
    + destruct (IH (pstep c q (PIncr h n t)) (a, b, m)) as [v V]. exists v. apply tp_other; auto.
  - destruct (Z.leb_spec 1 n) as [N|N].
    2: { destruct (IH (pstep c q (PTotal h n t)) (a, b, m)) as [v V]. exists v. apply tp_other; auto. }
    destruct (reports_dec k q h) as [R|R].
    + destruct (IH (pstep c q (PTotal h n t)) (a, n, m)) as [v V]. exists v. now apply tp_total.
    + destruct (IH (pstep c q (PTotal h n t)) (a, b, m)) as [v V]. exists v. apply tp_other; auto.
  - destruct (reports_dec k q h) as [R|R].
    + destruct (IH (pstep c q (PMessage h m' t)) (a, b, m')) as [v V]. exists v. now apply tp_message.
    + destruct (IH (pstep c q (PMessage h m' t)) (a, b, m)) as [v V]. exists v. apply tp_other; auto.
Qed.
Print Assumptions C41_reports_defined.

(** While only the claimed run reports, every event it publishes shows exactly what
    the hash then contains. *)
Theorem C41_events_partial c q h t x l o : preachable c q ->
  get_exec (s_execs (p_sys q)) h = Some x -> snd (step c (p_sys q) (OClaim h t)) = OClaimed true ->
  let k := m_key (x_msg x) in
  let q1 := pstep c q (POp (OClaim h t)) in
  palong c (fun q o => running_on c k (m_gen (x_msg x)) q o /\ alone_reporting k h q o) q1 l ->
  let q2 := pfinal c q1 l in
  reports k q2 h ->
  (exists n t', 1 <= n /\ (o = PIncr h n t' \/ o = PTotal h n t')) \/ (exists m t', o = PMessage h m t') ->
  exists a b m, seen k (pstep c q2 o) = Some (a, b, m) /\ p_events (pstep c q2 o) = p_events q2 ++ [mkEv k a b m].
Proof.
  intros R X E k q1 A q2 Rp O. destruct (claim_agrees c q h t x R X E) as [Ag _].
  pose proof (Agrees_final c k h _ l q1 (PInv_step _ _ _ (PInv_reach _ _ R)) A Ag) as Ag2. fold q2 in Ag2.
  enough (W : exists v, seen k (pstep c q2 o) = Some v /\ p_events (pstep c q2 o) = p_events q2 ++ [mkEv k (fst (fst v)) (snd (fst v)) (snd v)]).
  { destruct W as ([[a b] m] & W1 & W2). exists a, b, m. auto. }
  destruct O as [(n & t' & N & [->| ->])|(m & t' & ->)]; cbn [pstep];
    match goal with |- context [report q2 h ?ok ?f ?l] =>
      apply (proj2 (Agrees_report k h _ q2 h ok f l Ag2 (fun N => False_ind _ (N eq_refl)) (fun _ => eq_refl) (fun _ => eq_refl))); auto; lia end.
Qed.
Print Assumptions C41_events_partial.

(** When a run that is not superseded ends, its progress goes away, and stays away
    until a run of [k] is claimed or reports. *)
Theorem C41_removed_at_end_partial c q h st t e r x l : preachable c q ->
  get_exec (s_execs (p_sys q)) h = Some x -> live (p_sys q) (x_msg x) -> snd (step c (p_sys q) (OTerminal h st t e r)) = ODone ->
  let k := m_key (x_msg x) in
  let q1 := pstep c q (POp (OTerminal h st t e r)) in
  palong c (silent c k) q1 l -> seen k (pfinal c q1 l) = None.
Proof.
  intros R X L D k q1 A. unfold seen. rewrite (none_final c k l q1 (PInv_step _ _ _ (PInv_reach _ _ R)) A); [reflexivity|].
  exact (end_clears c (p_sys q) h st t e r x X L D).
Qed.
Print Assumptions C41_removed_at_end_partial.

(** ** An instance: "k" is replaced while its first run reports; the second run is
    claimed, the first one ends, the second one reports. *)
Definition pg_pre : list pop :=
  [POp (OAdd (ex_call 0 "f" "x") 0); POp (ORead "w1"); POp (OClaim 0 1); POp (OBodyStart 0); PIncr 0 7 2;
   POp (OReplace (ex_call 0 "f" "y") 3); POp (ORead "w2")].
Definition pg_run : list pop :=
  [POp (OBodyEnd 0); POp (OTerminal 0 SCompleted 5 None None); POp (OBodyStart 1);
   PIncr 1 3 6; PTotal 1 10 7; PIncr 1 0 7; PMessage 1 (Some "half"%string) 8; PIncr 1 4 9].

Fixpoint palongb (c : cfg) (P : psys -> pop -> bool) (q : psys) (l : list pop) : bool :=
  match l with [] => true | o :: l => P q o && palongb c P (pstep c q o) l end.
Lemma palongb_sound c (P : psys -> pop -> Prop) Pb : (forall q o, Pb q o = true -> P q o) ->
  forall l q, palongb c Pb q l = true -> palong c P q l.
Proof. intros H. induction l as [|o l IH]; simpl; intros q E; [exact I|]. apply andb_prop in E as [E1 E2]. auto. Qed.

Definition running_onb (c : cfg) (k : key) (g : Z) (q : psys) (o : pop) : bool :=
  match o with
  | POp (OCancel _ _) | POp (OCancelCleanup _ _ _) | POp (OClaim _ _) => false
  | POp (OTerminal h _ _ _ _) =>
      match get_exec (s_execs (p_sys q)) h with
      | Some x => (m_gen (x_msg x) <? g) && superseded (s_db (p_sys q)) (m_key (x_msg x)) (m_gen (x_msg x))
      | None => true
      end
  | _ => true
  end.
Lemma running_onb_sound c k g q o : running_onb c k g q o = true -> running_on c k g q o.
Proof.
  unfold running_onb, running_on. destruct o as [o|h n t|h n t|h m t]; auto. destruct o; auto; try discriminate.
  intros H x X _. rewrite X in H. apply andb_prop in H as [H1 H2]. split; [lia|]. unfold live. congruence.
Qed.

Definition alone_reportingb (h : Z) (o : pop) : bool :=
  match o with PIncr h' _ _ | PTotal h' _ _ | PMessage h' _ _ => h' =? h | POp _ => true end.
Lemma alone_reportingb_sound k h q o : alone_reportingb h o = true -> alone_reporting k h q o.
Proof. destruct o; cbn; auto; intros H; lia. Qed.

Definition pg_q : psys := pfinal ex_cfg init_psys pg_pre.

Example C41_case : exists q h t x l, preachable ex_cfg q /\
  get_exec (s_execs (p_sys q)) h = Some x /\ snd (step ex_cfg (p_sys q) (OClaim h t)) = OClaimed true /\
  m_key (x_msg x) = "k"%string /\
  let q1 := pstep ex_cfg q (POp (OClaim h t)) in
  palong ex_cfg (fun q o => running_on ex_cfg "k" (m_gen (x_msg x)) q o /\ alone_reporting "k" h q o) q1 l /\
  palong ex_cfg (running_on ex_cfg "k" (m_gen (x_msg x))) q1 l /\
  seen "k" q = Some (7, 100, None) /\ seen "k" (pfinal ex_cfg q1 l) = Some (7, 10, Some "half"%string) /\
  reports "k" (pfinal ex_cfg q1 l) h /\
  (forall t', exists y, let q3 := pfinal ex_cfg q1 (l ++ [POp (OBodyEnd h)]) in
     get_exec (s_execs (p_sys q3)) h = Some y /\ live (p_sys q3) (x_msg y) /\ snd (step ex_cfg (p_sys q3) (OTerminal h SCompleted t' None None)) = ODone).
Proof.
  exists pg_q, 1, 4, (mkExec 1 "w2" 2 (with_gen (call_msg (ex_call 0 "f" "y")) 2) false PDelivered None), pg_run.
  split; [exists pg_pre; reflexivity|]. split; [vm_compute; reflexivity|]. split; [vm_compute; reflexivity|]. split; [reflexivity|].
  cbv zeta. split.
  { apply palongb_sound with (Pb := fun q o => running_onb ex_cfg "k" 2 q o && alone_reportingb 1 o).
    - intros q o H. apply andb_prop in H as [H1 H2]. split; [now apply running_onb_sound|now apply alone_reportingb_sound].
    - vm_compute; reflexivity. }
  split.
  { apply palongb_sound with (Pb := running_onb ex_cfg "k" 2); [apply running_onb_sound|vm_compute; reflexivity]. }
  split; [vm_compute; reflexivity|]. split; [vm_compute; reflexivity|]. split.
  - eexists. split; [vm_compute; reflexivity|]. split; [reflexivity|]. right; left. reflexivity.
  - intros t'. eexists. split; [vm_compute; reflexivity|]. split; [vm_compute; reflexivity|]. reflexivity.
Qed.

(** ** The progress of a run counts the increments of the run it replaced *)
Theorem C41_replaced_run_counts_refuted : exists l1 l2, let q := pfinal ex_cfg init_psys l1 in
  snd (step ex_cfg (p_sys q) (OClaim 1 4)) = OClaimed true /\
  (forall o, In o l2 -> o = PIncr 0 5 5) /\
  let q2 := pfinal ex_cfg (pstep ex_cfg q (POp (OClaim 1 4))) l2 in
  seen "k" q2 = Some (5, 100, None) /\
  exists x0 x1, get_exec (s_execs (p_sys q2)) 0 = Some x0 /\ ~ live (p_sys q2) (x_msg x0) /\
    get_exec (s_execs (p_sys q2)) 1 = Some x1 /\ live (p_sys q2) (x_msg x1).
Proof.
  exists pg_pre, [PIncr 0 5 5]. cbv zeta. split; [vm_compute; reflexivity|]. split; [intros o [<-|[]]; reflexivity|].
  split; [vm_compute; reflexivity|]. eexists _, _. split; [vm_compute; reflexivity|]. split; [vm_compute; discriminate|].
  split; [vm_compute; reflexivity|]. vm_compute; reflexivity.
Qed.
Print Assumptions C41_replaced_run_counts_refuted.

(** ** Progress left behind: a replaced run reports after its successor has ended; its
    worker dies, and the redelivered message is dropped as superseded.  The progress hash it created
    has no expiry and no run of the key is left to remove it. *)
Definition pg_left : list pop :=
  pg_pre ++ [POp (OClaim 1 4); POp (OBodyStart 1); POp (OBodyEnd 1); POp (OTerminal 1 SCompleted 5 None None);
             PIncr 0 5 6; POp (OCrash "w1"); POp (OTick 300000000); POp (OAutoclaim "w2" 1); POp (OClaim 2 300000000); POp (OTick 10000000000)].
Theorem C41_progress_left_behind_refuted :
  let q := pfinal ex_cfg init_psys pg_left in
  seen "k" q = Some (5, 100, None) /\ d_runs (s_db (p_sys q)) "k" = None /\ d_stream (s_db (p_sys q)) = [] /\
  (forall x, In x (s_execs (p_sys q)) -> x_phase x = PDone).
Proof.
  cbv zeta. split; [vm_compute; reflexivity|]. split; [vm_compute; reflexivity|]. split; [vm_compute; reflexivity|].
  intros x H. vm_compute in H. destruct H as [<-|[<-|[]]]; reflexivity.
Qed.
Print Assumptions C41_progress_left_behind_refuted.
