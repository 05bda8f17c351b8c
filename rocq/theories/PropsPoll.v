(** C116: an idle worker looks around, notices that it is to stop, and finishes, in time. *)
From Verif Require Import Base Model WorkerLoop SpecLoop LoopProofs Poll SpecPoll PollProofs.

(** With a check interval of at least a millisecond: a worker told to stop has left its loop one
    lap later, whatever its tasks do and whether or not messages come. *)
Theorem C116_stops_partial p n f l1 l2 : sane_pace p -> 1000 <= pa_check p ->
  paced p n f tl_init (l1 ++ l2) -> l_stop (tl (trun n f tl_init l1)) = true -> (forall e, In e l2 -> e <> TDo LRestart) ->
  lap p n < lasts l2 -> ended (l_pc (tl (trun n f tl_init (l1 ++ l2)))).
Proof.
  intros S C P St Nr D. apply paced_app in P as [P1 P2]. rewrite trun_app. set (s := trun n f tl_init l1) in *.
  assert (TI : TInv n s) by apply TInv_run, TInv_init. assert (IP : in_pace p s) by (apply paced_end; [now apply in_pace_init|exact P1]).
  destruct (stop_run p n f (tl_now s + lap p n) l2 S C s TI IP P2 St Nr) as [H|H]; [|exact H|].
  - right. pose proof (to_top_le p n S C (l_pc (tl s)) (proj2 (proj2 TI)) (start_bound n s TI)). destruct TI as (_ & T & _). lia.
  - rewrite now_run in H. lia.
Qed.
Print Assumptions C116_stops_partial.

(** In every span longer than a lap the worker looks for abandoned messages, unless it has
    left its loop or runs as many tasks as it may. *)
Theorem C116_looks_partial p n f l1 l2 : sane_pace p -> 1000 <= pa_check p ->
  paced p n f tl_init (l1 ++ l2) -> lap p n < lasts l2 ->
  exists la lb, l2 = la ++ lb /\ let s := trun n f tl_init (l1 ++ la) in
    ended (l_pc (tl s)) \/ full n s \/ exists e lc, lb = e :: lc /\ looks (snd (tstep n f s e)).
Proof.
  intros S C P D. apply paced_app in P as [P1 P2]. set (s := trun n f tl_init l1) in *.
  assert (TI : TInv n s) by apply TInv_run, TInv_init. assert (IP : in_pace p s) by (apply paced_end; [now apply in_pace_init|exact P1]).
  destruct (look_run p n f (tl_now s + lap p n) l2 S C s TI IP P2) as [(la & lb & E & H)|H].
  - pose proof (to_look_le p n S C (l_pc (tl s)) (proj2 (proj2 TI)) (start_bound n s TI)). destruct TI as (_ & T & _). lia.
  - exists la, lb. split; [exact E|]. cbv zeta. rewrite trun_app. exact H.
  - rewrite now_run in H. lia.
Qed.
Print Assumptions C116_looks_partial.

(** run_until_finished on an empty docket is over after a lap and a check interval. *)
Theorem C116_finishes_partial p n l : 0 < n -> sane_pace p -> 1000 <= pa_check p ->
  Forall nothing_there l -> paced p n false tl_init l -> lap p n + pa_check p + pa_busy p < lasts l ->
  ended (l_pc (tl (trun n false tl_init l))).
Proof.
  intros Hn S C F P D. destruct (idle_run p n (lap p n + pa_check p + pa_busy p) l Hn S C F tl_init (TInv_init n) (in_pace_init p S) P) as [H|H]; [|exact H|].
  - right. split; [split; [reflexivity|exact Logic.I]|]. cbn [tl_init tl tl_in init_loop l_work l_pc]. unfold lap, to_end. cbv zeta. destruct S as (H1 & H2 & H3). nia.
  - rewrite now_run in H. cbn in H. lia.
Qed.
Print Assumptions C116_finishes_partial.

(** The default check interval, 100 ms: the worker asks twice, finds nothing, is told to stop while it waits, and leaves. *)
Definition ex_pace : pace := mkPace 100000 1000 5000.
Definition ex_round (t : Z) : list tevent :=
  [TDo LGo; TDo LGo; TDo LGo; TTick 2000; TDo (LReply []); TDo LGo; TTick t; TDo (LReply []); TDo LGo; TDo LGo].
Example C116_case :
  let l1 := ex_round 100000 ++ firstn 6 (ex_round 100000) ++ [TDo LStop] in
  let l2 := [TTick 100000; TDo (LReply []); TDo LGo; TDo LGo; TTick 50000; TDo LGo; TTick 100000] in
  paced ex_pace 2 true tl_init (l1 ++ l2) /\ l_stop (tl (trun 2 true tl_init l1)) = true /\ l_pc (tl (trun 2 true tl_init l1)) = PAsk false 2 /\
  lap ex_pace 2 = 227000 /\ lasts l2 = 250000 /\ l_pc (tl (trun 2 true tl_init (l1 ++ l2))) = PBeat.
Proof.
  cbv zeta. split; [vm_compute; repeat split; discriminate|]. repeat split; vm_compute; reflexivity.
Qed.
Example C116_finishes_case :
  let l := ex_round 100000 ++ [TDo (LChecked 0 0); TTick 90000; TDo LGo; TTick 150000] in
  Forall nothing_there l /\ paced ex_pace 2 false tl_init l /\ lap ex_pace 2 + 101000 < lasts l /\ l_pc (tl (trun 2 false tl_init l)) = PBeat.
Proof.
  cbv zeta. split; [repeat constructor|]. split; [vm_compute; repeat split; discriminate|]. split; vm_compute; reflexivity.
Qed.

Lemma in_pace_now p s : sane_pace p -> tl_now s = tl_in s -> in_pace p s.
Proof.
  intros (H1 & H2 & H3) E. unfold in_pace. rewrite E. assert (0 <= block_ms p) by (apply Z.div_pos; lia).
  destruct (l_pc (tl s)) as [| | |[]| | | | | | | | |]; cbn [allow]; try lia; try exact Logic.I. destruct (_ =? _); [exact Logic.I|lia].
Qed.
Lemma paced_now p n f l : sane_pace p -> (forall e, In e l -> exists e', e = TDo e') -> forall s, tl_now s = tl_in s -> paced p n f s l /\ tl_now (trun n f s l) = tl_in (trun n f s l).
Proof.
  intros S. induction l as [|e l IH]; intros F s E; [split; [exact Logic.I|exact E]|]. destruct (F e (or_introl eq_refl)) as [e' ->].
  assert (X : tl_now (fst (tstep n f s (TDo e'))) = tl_in (fst (tstep n f s (TDo e')))) by (rewrite tstep_now, tstep_in; destruct (_ && _); auto).
  destruct (IH (fun q H => F q (or_intror H)) _ X) as [H1 H2]. split; [|exact H2]. split; [now apply in_pace_now|exact H1].
Qed.

(** Below a millisecond (minimum_check_interval = 0, say) the read is sent with BLOCK 0: on an
    empty docket it is never answered; the worker neither looks for abandoned messages again,
    nor sees that it is told to stop, nor does run_until_finished return, for any time. *)
Theorem C116_blocks_forever_refuted p forever : sane_pace p -> pa_check p < 1000 ->
  exists l, Forall nothing_there l /\ forall T, 0 <= T ->
    let s := trun 1 forever tl_init (l ++ [TDo LStop; TTick T]) in
    paced p 1 forever tl_init (l ++ [TDo LStop; TTick T]) /\ l_stop (tl s) = true /\ ~ ended (l_pc (tl s)) /\ tl_now s = T /\
    (forall e, e <> LAbort -> e <> LLost -> (forall ms, e <> LReply ms) -> ~ looks (snd (lstep 1 forever (tl s) e)) /\ l_pc (fst (lstep 1 forever (tl s) e)) = l_pc (tl s)).
Proof.
  intros S C. set (l := [TDo LGo; TDo LGo; TDo LGo; TDo (LReply []); TDo LGo; TDo LStop]). exists [TDo LGo; TDo LGo; TDo LGo; TDo (LReply []); TDo LGo]. split; [repeat constructor|].
  intros T HT. change ([TDo LGo; TDo LGo; TDo LGo; TDo (LReply []); TDo LGo] ++ [TDo LStop; TTick T]) with (l ++ [TTick T]).
  assert (Eb : block_ms p =? 0 = true). { unfold block_ms. destruct S. rewrite Z.div_small by lia. reflexivity. }
  assert (F : forall e, In e l -> exists e', e = TDo e') by (intros e H; repeat (destruct H as [<-|H]; [eauto|]); contradiction).
  destruct (paced_now p 1 forever l S F tl_init eq_refl) as [P _].
  assert (Es : trun 1 forever tl_init l = mkTloop (mkLoop [] [] (fun _ => None) 1 true true (PAsk false 1) 0) 0 0) by (destruct forever; vm_compute; reflexivity).
  cbv zeta. rewrite trun_app, paced_app, Es. cbn [trun tstep]. assert (ET : 0 <=? T = true) by lia. cbn [paced tstep]. rewrite ET. cbn [fst tl l_stop l_pc tl_now].
  split; [split; [exact P|split; [|exact Logic.I]]|].
  { unfold in_pace. cbn [tl l_pc allow]. rewrite Eb. exact Logic.I. }
  split; [reflexivity|]. split; [exact (fun H => H)|]. split; [reflexivity|].
  intros e N1 N2 N3. destruct e; cbn; try congruence; try (exfalso; now apply (N3 ms)); split; try reflexivity; intros [c X]; discriminate X.
Qed.
Print Assumptions C116_blocks_forever_refuted.
