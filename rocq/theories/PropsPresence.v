(** C123: the record of a task is there until the task ends. *)
From Verif Require Import Base ZSet Model GInv Spec SpecPresence PresenceProofs PropsHist PropsReuse.

(** ** C123: a task that has not ended has its record *)

(** An accepted task whose key had no record, or one that is not to expire, has a record,
    and has it after every history in which no run of the key is marked as ended, no cancel
    of it sends its second request and no clear applies to it. *)
Theorem C123_there_partial c s o a l : ordinary (a_key a) -> accepts c s o a ->
  d_runs (s_db s) (a_key a) = None \/ lasting s (a_key a) ->
  let s1 := fst (step c s o) in
  along c (fun s o => ~ retires (a_key a) s o) s1 l ->
  lasting s1 (a_key a) /\ lasting (final c s1 l) (a_key a).
Proof. intros O A L. cbv zeta. intros H. pose proof (accepted c s o a A L) as L1. split; [exact L1|]. exact (stays c (a_key a) l O _ L1 H). Qed.
Print Assumptions C123_there_partial.

(** So a run of it is turned away only for a newer generation, never for want of a record. *)
Theorem C123_heard_partial c s o a l h t x : ordinary (a_key a) -> accepts c s o a ->
  d_runs (s_db s) (a_key a) = None \/ lasting s (a_key a) ->
  let s1 := fst (step c s o) in let s2 := final c s1 l in
  along c (fun s o => ~ retires (a_key a) s o) s1 l ->
  get_exec (s_execs s2) h = Some x -> m_key (x_msg x) = a_key a -> snd (step c s2 (OClaim h t)) = OClaimed false ->
  exists g, r_gen (rget (s_db s2) (a_key a)) = Some g /\ m_gen (x_msg x) < g.
Proof.
  intros O A L. cbv zeta. intros H Gx Kx C. destruct (C123_there_partial c s o a l O A L H) as [_ (r & Er & Eg & _)].
  set (s2 := final c (fst (step c s o)) l) in *. clearbody s2. cbn [step] in C. rewrite Gx in C. destruct (x_phase x); try discriminate C.
  unfold lua_claim in C. destruct (superseded _ _ _) eqn:Su; [|discriminate C]. clear C. rewrite Kx in Su. unfold superseded in Su. unfold rget in *. rewrite Er in *. cbn in *.
  destruct (r_gen r) as [g|]; [|contradiction]. exists g. split; [reflexivity|lia].
Qed.
Print Assumptions C123_heard_partial.

(** The hypotheses are met: the task is due in 50 us, is replaced by one for an hour later,
    a clear is begun, a cancel of another key runs, the hour passes, and the task is running for
    another. *)
Definition pr_life : list op :=
  [OReplace (ex_call 3600000000 "f" "two") 1; OCancel "j" 1; OCancelFinish "j"; OTick 3600000000; OScheduler 3600000000; ORead "w1"; OClaim 0 3600000000;
   OBodyStart 0; OTick 3600000000; OClearRead "c"].
Definition retires_no (s : sys) (o : op) : bool :=
  match o with OTerminal _ _ _ _ _ | OClearApply _ => false | OCancelFinish k => negb (String.eqb k "k") | _ => true end.
Lemma retires_no_ok c l : forall s, forallb (retires_no s) l = true -> along c (fun s o => ~ retires "k" s o) s l.
Proof.
  induction l as [|o l IH]; intros s H; [exact I|]. cbn in H. apply andb_prop in H as [H1 H2]. split; [|apply IH; exact H2].
  intros [F|[->|(w & sn & -> & _)]]; [destruct o; try contradiction; discriminate H1|discriminate H1|discriminate H1].
Qed.
Example C123_case : let o := OAdd (ex_call 50 "f" "one") 0 in let s1 := fst (step ex_cfg init_sys o) in
  ordinary "k" /\ accepts ex_cfg init_sys o (ex_call 50 "f" "one") /\ d_runs (s_db init_sys) "k" = None /\
  along ex_cfg (fun s o => ~ retires "k" s o) s1 pr_life /\
  d_now (s_db (final ex_cfg s1 pr_life)) = 7200000000 /\ state_of (final ex_cfg s1 pr_life) "k" = Some SRunning.
Proof.
  cbv zeta. split; [intros k' E; discriminate E|]. split; [split; [exists 0; left; reflexivity|vm_compute; reflexivity]|]. split; [reflexivity|].
  split; [apply retires_no_ok; reflexivity|]. split; vm_compute; reflexivity.
Qed.

(** And for a run that is turned away: it was delivered, and its task replaced before the claim. *)
Example C123_heard_case : let o := OAdd (ex_call 0 "f" "one") 0 in let l := [ORead "w1"; OReplace (ex_call 50 "f" "two") 1] in
  let s1 := fst (step ex_cfg init_sys o) in let s2 := final ex_cfg s1 l in
  accepts ex_cfg init_sys o (ex_call 0 "f" "one") /\ along ex_cfg (fun s o => ~ retires "k" s o) s1 l /\
  (exists x, get_exec (s_execs s2) 0 = Some x /\ m_key (x_msg x) = "k"%string /\ m_gen (x_msg x) = 1) /\
  snd (step ex_cfg s2 (OClaim 0 2)) = OClaimed false /\ r_gen (rget (s_db s2) "k") = Some 2.
Proof.
  cbv zeta. split; [split; [exists 0; left; reflexivity|vm_compute; reflexivity]|]. split; [apply retires_no_ok; reflexivity|].
  split; [eexists; split; [vm_compute; reflexivity|split; reflexivity]|]. split; vm_compute; reflexivity.
Qed.

(** A key that was used within execution_ttl: the record expires with the new task still
    stored. *)
Theorem C123_reused_key_refuted : exists c s o a l, accepts c s o a /\ reachable c s /\
  let s1 := fst (step c s o) in along c (fun s o => ~ retires (a_key a) s o) s1 l /\
  (exists m, m_key m = a_key a /\ stored (final c s1 l) m) /\ d_runs (s_db (final c s1 l)) (a_key a) = None.
Proof.
  exists ex_cfg, (final ex_cfg init_sys ex_used), (ex_again 1000000000), (ex_call 1000000000 "f" "two"), [OTick 998000000].
  split; [split; [exists 2000000; left; reflexivity|vm_compute; reflexivity]|]. split; [exists ex_used; reflexivity|]. cbv zeta.
  split; [apply retires_no_ok; reflexivity|]. split; [|vm_compute; reflexivity].
  exists (mkMsg "k" 1000000000 "f" "two" "" 1 2). split; [reflexivity|]. right. left. vm_compute. repeat split; discriminate.
Qed.
Print Assumptions C123_reused_key_refuted.

(** A clear while the task runs: its record goes execution_ttl later, and then the end of
    the run is not recorded. *)
Definition pr_cleared : list op :=
  [OAdd (ex_call 0 "f" "one") 0; ORead "w1"; OClaim 0 1; OBodyStart 0; OClearRead "c"; OClearKeys "c"; OClearApply "c"; OTick 900000000].
Theorem C123_cleared_refuted : exists c l h x, let s := final c init_sys l in
  get_exec (s_execs s) h = Some x /\ x_phase x = PBody /\ d_runs (s_db s) (m_key (x_msg x)) = None /\
  forall t res, d_runs (s_db (final c s [OBodyEnd h; OTerminal h SCompleted t None res])) (m_key (x_msg x)) = None.
Proof.
  exists ex_cfg, pr_cleared, 0. eexists. cbv zeta. split; [vm_compute; reflexivity|]. split; [reflexivity|]. split; [vm_compute; reflexivity|].
  intros t res. vm_compute. reflexivity.
Qed.
Print Assumptions C123_cleared_refuted.
