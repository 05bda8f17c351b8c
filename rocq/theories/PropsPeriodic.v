(** C111 and C112: the periodic jobs of a worker come round in time. *)
From Verif Require Import Base ZSet Model Spec GInv PropsHist Heartbeat SpecHeartbeat Periodic SpecPeriodic PeriodicProofs.

(** ** C111: a due task leaves the future queue within a scheduling period *)

(** Any number of workers run scheduler loops beside whatever happens to the docket;
    passes may be slow, wake late, or raise.  While some loop has had at most [fails]
    failures in a row and runs long enough, nothing in the future queue is overdue by
    [fails + 1] cycles, one slow pass and the lag of the clocks. *)
Theorem C111_due_leaves_in_time c p fails lag l w lp m :
  sane p -> 0 <= fails -> 0 <= lag -> u_along c p (u_clock lag) us_init l ->
  let s := urun c p us_init l in
  let now := d_now (s_db (us_sys s)) in
  In (w, lp) (us_loops s) -> pl_fails lp <= fails -> pl_since lp + (fails + 1) * cycle p < now + pe_every p ->
  in_future (us_sys s) m -> now - m_when m < (fails + 1) * cycle p + pe_slow p + lag.
Proof.
  intros S N0 L0 A s now Hl Hf Hs Hm.
  pose proof (UGood_run c p fails lag l us_init S N0 L0 (UGood_init p fails lag) A) as I. fold s in I.
  destruct (good_bound true p fails S _ _ _ (ug_good _ _ _ _ I w lp Hl) Hf Hs) as (r & Fr & Hr).
  specialize (Fr m Hm). fold now in Hr. lia.
Qed.
Print Assumptions C111_due_leaves_in_time.

(** The loop is kept going: whatever has happened, a loop whose worker has neither stopped
    nor crashed is there, and its next move is possible at the latest when it is due. *)
Definition leaves (w : string) (o : uop) : bool :=
  match o with UStop w' | UDo (OCrash w') => String.eqb w' w | _ => false end.
Lemma get_set l w p w' : get_loop (set_loop l w p) w' = match get_loop l w' with None => None | Some q => if String.eqb w' w then Some p else Some q end.
Proof.
  unfold get_loop, set_loop. induction l as [|[a q] l IH]; [reflexivity|]. cbn [map find]. cbn [fst].
  destruct (String.eqb_spec a w) as [->|N]; cbn [fst].
  - destruct (String.eqb_spec w w') as [->|N']; cbn; [rewrite String.eqb_refl; reflexivity|exact IH].
  - destruct (String.eqb_spec a w') as [->|N']; cbn; [|exact IH]. destruct (String.eqb_spec w' w); [contradiction|reflexivity].
Qed.
Lemma get_del l w w' : w <> w' -> get_loop (del_loop l w) w' = get_loop l w'.
Proof.
  intros N. unfold get_loop, del_loop. induction l as [|[a q] l IH]; [reflexivity|]. cbn [filter find fst].
  destruct (String.eqb_spec a w) as [->|N1]; cbn [negb find fst].
  - destruct (String.eqb_spec w w'); [contradiction|exact IH].
  - destruct (String.eqb_spec a w'); [reflexivity|exact IH].
Qed.
Lemma get_app l w p w' : get_loop (l ++ [(w, p)]) w' = match get_loop l w' with Some q => Some q | None => if String.eqb w w' then Some p else None end.
Proof.
  unfold get_loop. induction l as [|[a q] l IH]; cbn [app find fst].
  - destruct (String.eqb w w'); reflexivity.
  - destruct (String.eqb a w'); [reflexivity|exact IH].
Qed.

Theorem C111_goes_on c p s l w : get_loop (us_loops s) w <> None -> forallb (fun o => negb (leaves w o)) l = true ->
  let s' := urun c p s l in
  exists lp, get_loop (us_loops s') w = Some lp /\
  match pl_phase lp with
  | PWaits u => u <= d_now (s_db (us_sys s')) -> forall t, exists lp', get_loop (us_loops (ustep c p s' (UBegin w t))) w = Some lp' /\ pl_phase lp' = PBegun t (d_now (s_db (us_sys s')))
  | PBegun t b => us_sys (ustep c p s' (UCommand w)) = fst (step c (us_sys s') (OScheduler t))
  | PMade t b => forall ok, exists lp', get_loop (us_loops (ustep c p s' (UEnd w ok))) w = Some lp' /\ pl_phase lp' = PWaits (d_now (s_db (us_sys s')) + pe_every p)
  end.
Proof.
  revert s. induction l as [|o l IH]; intros s H N.
  - cbn [urun]. destruct (get_loop (us_loops s) w) as [lp|] eqn:E; [|congruence]. exists lp. split; [reflexivity|].
    destruct (pl_phase lp) as [u|t b|t b] eqn:Ep.
    + intros Hu t. cbn [ustep]. rewrite E. unfold loop_begin. rewrite Ep. replace (_ <? u) with false by (symmetry; lia).
      eexists. cbn [us_loops]. rewrite get_set, E, String.eqb_refl. split; reflexivity.
    + cbn [ustep]. rewrite E. unfold loop_command. rewrite Ep. reflexivity.
    + intros ok. cbn [ustep]. rewrite E. unfold loop_end. rewrite Ep. eexists. cbn [us_loops]. rewrite get_set, E, String.eqb_refl. split; reflexivity.
  - cbn [forallb] in N. apply andb_prop in N as [N1 N2]. cbn [urun]. apply IH; [|exact N2]. clear IH N2.
    assert (D : forall w' q, get_loop (us_loops (mkU (us_sys s) (set_loop (us_loops s) w' q))) w <> None).
    { intros w' q. cbn [us_loops]. rewrite get_set. destruct (get_loop (us_loops s) w); [|exact H]. destruct (String.eqb w w'); discriminate. }
    destruct o as [w'|w' t|w'|w' ok|w'|o]; cbn [ustep].
    + destruct (get_loop _ w'); [exact H|]. cbn [us_loops]. rewrite get_app. destruct (get_loop (us_loops s) w); [discriminate|congruence].
    + destruct (get_loop _ w') as [q|]; [|exact H]. destruct (loop_begin _ _ _); [apply D|exact H].
    + destruct (get_loop _ w') as [q|]; [|exact H]. destruct (loop_command _) as [[t q']|]; [apply (D w' q')|exact H].
    + destruct (get_loop _ w') as [q|]; [|exact H]. destruct (loop_end _ _ _ _); [apply D|exact H].
    + cbn in N1 |- *. destruct (String.eqb_spec w' w); [discriminate|]. now rewrite get_del.
    + destruct o; try exact H; cbn in N1 |- *.
      * destruct (forallb _ _); exact H.
      * destruct (String.eqb_spec w0 w); [discriminate|]. now rewrite get_del.
Qed.
Print Assumptions C111_goes_on.

(** A quarter of a second between passes, a pass of up to 2 ms, 1 ms late, clocks up to
    half a millisecond behind.  The second schedule is just missed by one pass and picked
    up by the next; the bound of the theorem is reached. *)
Definition ex_period : period := mkPeriod 250000 1000 2000.
Definition ex_times : list uop :=
  [UDo (OTick 1000000); UStart "w"; UBegin "w" 1000000; UCommand "w"; UEnd "w" true;
   UDo (OAdd (mkCall "a" 1100000 "f" "" "") 999500); UDo (OAdd (mkCall "b" 1249501 "f" "" "") 999500);
   UDo (OTick 250000); UBegin "w" 1249500; UCommand "w"; UDo (OTick 2000); UEnd "w" true;
   UDo (OTick 251000); UBegin "w" 1503000; UDo (OTick 2000)].
Example C111_case :
  let s := urun ex_cfg ex_period us_init ex_times in
  u_along ex_cfg ex_period (u_clock 500) us_init ex_times /\ sane ex_period /\
  d_now (s_db (us_sys s)) = 1505000 /\ us_loops s = [("w", mkPloop (PBegun 1503000 1503000) 0 1000000)] /\
  in_future (us_sys s) (mkMsg "b" 1249501 "f" "" "" 1 1) /\
  1505000 - 1249501 = (0 + 1) * cycle ex_period + pe_slow ex_period + 500 - 1 /\
  ~ in_future (us_sys s) (mkMsg "a" 1100000 "f" "" "" 1 1) /\
  d_queue (s_db (us_sys (ustep ex_cfg ex_period s (UCommand "w")))) = [].
Proof.
  cbv zeta. split; [vm_compute; repeat split; discriminate|]. split; [vm_compute; repeat split; discriminate|].
  do 2 (split; [vm_compute; reflexivity|]). split; [split; vm_compute; reflexivity|]. split; [vm_compute; reflexivity|].
  split; [|vm_compute; reflexivity]. intros [H _]. vm_compute in H. discriminate H.
Qed.
(** A pass that raises costs one cycle. *)
Example C111_fails_case :
  let l := [UDo (OTick 1000000); UStart "w"; UDo (OAdd (mkCall "a" 1000500 "f" "" "") 1000000); UDo (OTick 1000); UBegin "w" 1001000; UEnd "w" false;
            UDo (OTick 250000); UBegin "w" 1251000; UEnd "w" false; UDo (OTick 250000); UBegin "w" 1501000] in
  let s := urun ex_cfg ex_period us_init l in
  u_along ex_cfg ex_period (u_clock 500) us_init l /\
  us_loops s = [("w", mkPloop (PBegun 1501000 1501000) 2 1000000)] /\ in_future (us_sys s) (mkMsg "a" 1000500 "f" "" "" 1 1) /\
  d_queue (s_db (us_sys (ustep ex_cfg ex_period s (UCommand "w")))) = [].
Proof. cbv zeta. split; [vm_compute; repeat split; discriminate|]. split; [vm_compute; reflexivity|].
  split; [split; vm_compute; reflexivity|]. vm_compute. reflexivity.
Qed.

(** ** C112: a worker that sends its heartbeats is in every listing *)

(** Every docket allows the same age; [fails + 1] cycles, one slow pass and the difference
    of the clocks fit in it.  Then a worker with at most [fails] failed heartbeats in a
    row is listed, whoever else sends, withdraws and lists what.
    Missing from the full statement: ages the cycles do not fit in, such as one interval;
    there it is false. *)
Theorem C112_listed_partial age p fails lag ahead b w l lp t z :
  sane p -> 0 <= fails -> (fails + 1) * cycle p + pe_slow p + lag + ahead < age ->
  b_along age p (b_clock age lag ahead b w) bs_init l ->
  let s := brun age p bs_init l in
  let now := hb_now (bs_hb s) in
  In (w, lp) (bs_loops s) -> pl_fails lp <= fails -> pl_since lp + (fails + 1) * cycle p < now + pe_every p ->
  t <= now + ahead -> snd (hstep (fst (hstep (bs_hb s) (HPurge b age t))) (HRange b)) = HListed z ->
  exists t', In (t', w) z /\ now - ((fails + 1) * cycle p + pe_slow p + lag) <= t'.
Proof.
  intros S N0 Fit A s now Hl Hf Hs Ht E.
  pose proof (BGood_run age p fails lag ahead b w S N0 Fit l bs_init (BGood_init p fails lag ahead b w) A) as I. fold s in I.
  destruct (good_bound true p fails S _ _ _ (bg_good _ _ _ _ _ _ _ I lp Hl) Hf Hs) as (r & Fr & Hr).
  apply (listed_purge age p fails lag ahead b w Fit (bs_hb s) b t r Ht Hr) in Fr as (q & Q1 & Q2).
  cbn [hstep snd] in E. injection E as <-. exists q. split; [exact Q1|]. fold now in Hr. lia.
Qed.
Print Assumptions C112_listed_partial.

(** Heartbeats every 2 s, 5 may be missed (the defaults, docket.py:153-154): up to three
    failures in a row fit.  "v" lists just before the fourth try arrives. *)
Definition ex_beats : period := mkPeriod 2000000 100000 200000.
Definition ex_beat_times : list bop :=
  [BDo (HTick 50000000); BStart "w"; BStart "v"; BBegin "w" 50000000; BBegin "v" 50000000; BCommand "w" ["f"]; BCommand "v" ["f"; "g"]; BEnd "w" true; BEnd "v" true;
   BDo (HTick 2000000); BBegin "w" 51999000; BBegin "v" 52000000; BEnd "w" false; BCommand "v" ["f"; "g"]; BEnd "v" true;
   BDo (HTick 2000000); BBegin "w" 53999000; BBegin "v" 54000000; BEnd "w" false; BCommand "v" ["f"; "g"]; BEnd "v" true;
   BDo (HTick 2000000); BBegin "w" 55999000; BBegin "v" 56000000; BEnd "w" false; BCommand "v" ["f"; "g"]; BEnd "v" true;
   BDo (HTick 1999999)].
Example C112_case :
  let s := brun 10000000 ex_beats bs_init ex_beat_times in
  b_along 10000000 ex_beats (b_clock 10000000 1000 0 (BTask "f") "w") bs_init ex_beat_times /\
  (3 + 1) * cycle ex_beats + pe_slow ex_beats + 1000 + 0 < 10000000 /\
  bs_loops s = [("w", mkPloop (PWaits 58000000) 3 50000000); ("v", mkPloop (PWaits 58000000) 0 50000000)] /\
  snd (hstep (fst (hstep (bs_hb s) (HPurge (BTask "f") 10000000 57999999))) (HRange (BTask "f"))) = HListed [(50000000, "w"); (56000000, "v")].
Proof. cbv zeta. split; [vm_compute; repeat split; try discriminate; reflexivity|]. split; [vm_compute; reflexivity|]. split; vm_compute; reflexivity. Qed.

(** With missed_heartbeats = 1 the age is one interval, shorter than a cycle: a worker none
    of whose heartbeats failed, whose loop was never late, disappears from the lists
    between two of them. *)
Theorem C112_one_interval_refuted : exists p l s lp,
  pe_late p = 0 /\ b_along (pe_every p) p (b_clock (pe_every p) 0 0 BAll "w") bs_init l /\ s = brun (pe_every p) p bs_init l /\
  bs_loops s = [("w", lp)] /\ pl_fails lp = 0 /\ pl_since lp + 3 * cycle p < hb_now (bs_hb s) /\
  snd (hstep (fst (hstep (bs_hb s) (HPurge BAll (pe_every p) (hb_now (bs_hb s))))) (HRange BAll)) = HListed [].
Proof.
  exists (mkPeriod 2000000 0 2000),
   [BDo (HTick 50000000); BStart "w"; BBegin "w" 50000000; BCommand "w" ["f"]; BDo (HTick 1000); BEnd "w" true;
    BDo (HTick 2000000); BBegin "w" 52001000; BCommand "w" ["f"]; BDo (HTick 1000); BEnd "w" true;
    BDo (HTick 2000000); BBegin "w" 54002000; BCommand "w" ["f"]; BDo (HTick 1000); BEnd "w" true;
    BDo (HTick 2000000); BBegin "w" 56003000; BCommand "w" ["f"]; BDo (HTick 1000); BEnd "w" true;
    BDo (HTick 1999000); BDo (HTick 1000)].
  eexists _, _. split; [reflexivity|]. split; [vm_compute; repeat split; try discriminate; reflexivity|].
  split; [reflexivity|]. split; [vm_compute; reflexivity|]. split; [reflexivity|]. split; vm_compute; reflexivity.
Qed.
Print Assumptions C112_one_interval_refuted.
