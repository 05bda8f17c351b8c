(** C72: what get_execution gives back. *)
From Verif Require Import Base ZSet Model GInv Spec Check PropsHist Lookup SpecLookup LookupProofs.

(** While a run of a task is scheduled, queued, waiting for a slot or running and
    nothing superseded it, get_execution finds it and gives back its function, its
    arguments and its time; also after retries, redeliveries and waiting lines.
    [d'] is whatever the store has become at the second read.  Partial: the attempt
    number is not restored, the name only for functions registered under their own
    name, and runs that disturb a waiting line are excluded; see the refutations. *)
Theorem C72_describes_run_partial c reg k l d' m : orderly c k l ->
  let s := final c init_sys l in
  present s m -> m_key m = k -> m_fn m <> EmptyString -> live s m ->
  exists h, get_execution reg (s_db s) d' k = Some h /\ describes reg h m.
Proof. exact (lookup_describes c reg k l d' m). Qed.
Print Assumptions C72_describes_run_partial.

(** In every history at all: what get_execution returns repeats the function and
    arguments of one call of add or replace with this key. *)
Theorem C72_from_a_call c reg l d' k h : let s := final c init_sys l in
  get_execution reg (s_db s) d' k = Some h ->
  exists a t, (In (OAdd a t) l \/ In (OReplace a t) l) /\ repeats reg h a.
Proof. exact (lookup_from_call c reg l d' k h). Qed.
Print Assumptions C72_from_a_call.

(** A task that was accepted is found as long as its record is kept, whatever else
    happens to it: claimed, finished, failed, cancelled, replaced. *)
Theorem C72_found c reg l1 l2 o k d' : Forall named (l1 ++ o :: l2) ->
  (exists a t, (o = OAdd a t \/ o = OReplace a t) /\ a_key a = k) ->
  let s1 := final c init_sys l1 in
  snd (step c s1 o) = ODisp DScheduled -> along c (keeps c k) (fst (step c s1 o)) l2 ->
  exists h, get_execution reg (s_db (final c init_sys (l1 ++ o :: l2))) d' k = Some h.
Proof. exact (lookup_found c reg l1 l2 o k d'). Qed.
Print Assumptions C72_found.

(** The handle's state, worker, times, error and result are those of the store at
    the second read. *)
Theorem C72_up_to_date c reg d k h s' : reachable c s' -> d_runs (s_db s') k <> None ->
  get_execution reg d (s_db s') k = Some h -> up_to_date (s_db s') h.
Proof. exact (lookup_up_to_date c reg d k h s'). Qed.
Print Assumptions C72_up_to_date.

(** What is stored: who runs the task and since when; how it ended and when. *)
Theorem C72_claim_stored c s h t x : get_exec (s_execs s) h = Some x ->
  snd (step c s (OClaim h t)) = OClaimed true ->
  let r := rget (s_db (fst (step c s (OClaim h t)))) (m_key (x_msg x)) in
  r_state r = Some SRunning /\ r_worker r = Some (x_worker x) /\ r_started r = Some t.
Proof.
  destruct s as [d xs n cl]. cbn [s_execs]. intros X. cbn [step s_execs s_db]. rewrite X. destruct (x_phase x); try (intros E; discriminate E). unfold lua_claim.
  destruct (superseded d (m_key (x_msg x)) (m_gen (x_msg x))); [intros E; discriminate E|]. intros _. cbn [fst set_execs s_db]. unfold rget.
  cbn [d_runs publish set_pubs hdel hset set_runs set_prog]. unfold del_legacy. cbn [d_runs hdel hset set_runs set_prog set_pubs set_legacy]. rewrite upd_eq, upd_eq. cbn [option_map default rdel_known rset_running r_state r_worker r_started]. repeat split.
Qed.
Print Assumptions C72_claim_stored.
Theorem C72_outcome_stored c s h st t err res x : 0 < c_ttl c -> get_exec (s_execs s) h = Some x -> may_finish (x_phase x) st = true ->
  superseded (s_db s) (m_key (x_msg x)) (m_gen (x_msg x)) = false ->
  let r0 := rget (s_db s) (m_key (x_msg x)) in let r := rget (s_db (fst (step c s (OTerminal h st t err res)))) (m_key (x_msg x)) in
  r_state r = Some st /\ r_completed r = Some t /\ (forall e, err = Some e -> r_error r = Some e) /\ (forall e, res = Some e -> r_result r = Some e) /\
  r_worker r = r_worker r0 /\ r_started r = r_started r0.
Proof.
  destruct s as [d xs n cl]. cbn [s_execs s_db]. intros T X P S. cbn [step s_execs s_db]. rewrite X, P. unfold lua_terminal. rewrite S. replace (0 <? c_ttl c) with true by lia.
  cbn [fst set_execs s_db]. unfold rget. cbn [d_runs xdel xack set_stream set_pel del_prog set_prog publish set_pubs expire_runs hdel hset set_runs]. rewrite upd_eq, upd_eq.
  cbn [option_map default rset_terminal rset_expire r_state r_error r_completed r_result r_worker r_started]. repeat split; intros e ->; reflexivity.
Qed.
Print Assumptions C72_outcome_stored.

(** ** Example: "k" fails, is retried at 50, then waits for the slot of "a" and is
    woken; it is found in line, and after waking. *)
Definition one_lineb (k : key) (s : sys) (o : op) : bool :=
  let free := negb (existsb (fun e => String.eqb (m_key (snd (snd e))) k) (d_wait (s_db s))) in
  let of_k h := match get_exec (s_execs s) h with Some x => String.eqb (m_key (x_msg x)) k | None => false end in
  match o with
  | OAdd a _ | OReplace a _ => neqb (a_key a) k || free
  | OResched h _ _ _ => negb (of_k h) || free
  | OAcquire h _ _ _ => current_runb k s h && (negb (of_k h) || free)
  | _ => true
  end.

Lemma one_lineb_sound k s o : one_lineb k s o = true -> one_line k s o.
Proof.
  assert (F : negb (existsb (fun e => String.eqb (m_key (snd (snd e))) k) (d_wait (s_db s))) = true -> not_waiting k s).
  { intros H cc i m Hin E. apply negb_true_iff in H.
    assert (X : existsb (fun e => String.eqb (m_key (snd (snd e))) k) (d_wait (s_db s)) = true); [|congruence].
    apply existsb_exists. exists (cc, (i, m)). split; [exact Hin|]. cbn. now apply String.eqb_eq. }
  assert (G : forall h, negb (match get_exec (s_execs s) h with Some x => String.eqb (m_key (x_msg x)) k | None => false end)
                || negb (existsb (fun e => String.eqb (m_key (snd (snd e))) k) (d_wait (s_db s))) = true ->
                forall x, get_exec (s_execs s) h = Some x -> m_key (x_msg x) = k -> not_waiting k s).
  { intros h H x E Ek. rewrite E, Ek, String.eqb_refl in H. exact (F H). }
  unfold one_lineb, one_line. destruct o; try (intros; exact I).
  - intros H E. apply orb_prop in H as [H|H]; [now apply neqb_sound in H|exact (F H)].
  - intros H E. apply orb_prop in H as [H|H]; [now apply neqb_sound in H|exact (F H)].
  - apply G.
  - intros H. apply andb_prop in H as [H1 H2]. split; [now apply current_runb_sound|now apply G].
Qed.

Lemma orderly_by c k l : alongb c (fun s o => keepsb c k s o && one_lineb k s o) init_sys l = true -> orderly c k l.
Proof.
  apply alongb_sound. intros s o H. apply andb_prop in H as [H1 H2]. split; [now apply keepsb_sound|now apply one_lineb_sound].
Qed.

Definition ex_f : pyfun := mkFun "f" "the function f".
Definition ex_reg : registry := fun n => if String.eqb n "f" then Some ex_f else if String.eqb n "alias" then Some ex_f else None.

Definition ex_line : list op :=
  [OAdd (ex_call 0 "f" "x") 0; ORead "w1"; OClaim 0 1; OBodyStart 0; OBodyEnd 0; OResched 0 50 true 2;
   OAdd (mkCall "a" 0 "g" "" "") 3; ORead "w2"; OClaim 1 4; OAcquire 1 "c" 1 4; OBodyStart 1;
   OScheduler 60; ORead "w1"; OClaim 2 61; OAcquire 2 "c" 1 61].
Definition ex_woken : list op := [OBodyEnd 1; ORelease 1 70].

Definition ex_in_line : msg := mkMsg "k" 50 "f" "x" "" 2 3.
Definition ex_after : msg := mkMsg "k" 50 "f" "x" "" 2 4.

Definition handle_view (h : handle) := (hd_name h, hd_args h, hd_when h, hd_attempt h, hd_state h).

Example C72_case_line :
  orderly ex_cfg "k" ex_line /\ present (final ex_cfg init_sys ex_line) ex_in_line /\ live (final ex_cfg init_sys ex_line) ex_in_line /\
  option_map handle_view (get_execution ex_reg (s_db (final ex_cfg init_sys ex_line)) (s_db (final ex_cfg init_sys ex_line)) "k") =
    Some ("f", "x", 50, 1, SScheduled)%string.
Proof.
  split; [|split; [|split]].
  - apply orderly_by. vm_compute. reflexivity.
  - right; right; left. exists "c"%string, 4. vm_compute. auto.
  - vm_compute. reflexivity.
  - vm_compute. reflexivity.
Qed.

Example C72_case_woken :
  orderly ex_cfg "k" (ex_line ++ ex_woken) /\ present (final ex_cfg init_sys (ex_line ++ ex_woken)) ex_after /\
  live (final ex_cfg init_sys (ex_line ++ ex_woken)) ex_after /\
  option_map handle_view (get_execution ex_reg (s_db (final ex_cfg init_sys (ex_line ++ ex_woken)))
                            (s_db (final ex_cfg init_sys (ex_line ++ ex_woken))) "k") =
    Some ("f", "x", 50, 1, SQueued)%string.
Proof.
  split; [|split; [|split]].
  - apply orderly_by. vm_compute. reflexivity.
  - left. exists 5. vm_compute. auto.
  - vm_compute. reflexivity.
  - vm_compute. reflexivity.
Qed.

(** A finished task is found with its outcome, until its record expires. *)
Example C72_case_found :
  let l := [ORead "w1"; OClaim 0 1; OBodyStart 0; OBodyEnd 0; OTerminal 0 SFailed 2 (Some "boom") None; OTick 5] in
  let d := s_db (final ex_cfg init_sys (OAdd (ex_call 0 "f" "x") 0 :: l)) in
  along ex_cfg (keeps ex_cfg "k") (fst (step ex_cfg init_sys (OAdd (ex_call 0 "f" "x") 0))) l /\
  option_map (fun h => (hd_state h, hd_worker h, hd_completed h, hd_error h)) (get_execution ex_reg d d "k") =
    Some (SFailed, Some "w1", Some 2, Some "boom")%string /\
  let d' := s_db (final ex_cfg init_sys (OAdd (ex_call 0 "f" "x") 0 :: l ++ [OTick 900000000])) in
  get_execution ex_reg d' d' "k" = None.
Proof.
  split; [|split].
  - apply (alongb_sound _ _ (keepsb ex_cfg "k")); [apply keepsb_sound|vm_compute; reflexivity].
  - vm_compute. reflexivity.
  - vm_compute. reflexivity.
Qed.

(** A key that was only ever cancelled has a record, but is not found. *)
Example C72_case_only_cancelled :
  let d := s_db (final ex_cfg init_sys [OCancel "k" 1]) in
  d_runs d "k" <> None /\ get_execution ex_reg d d "k" = None.
Proof. split; [vm_compute; discriminate|vm_compute; reflexivity]. Qed.

(** ** What is not given back *)

(** The attempt: a task in its second attempt is reported as in its first. *)
Theorem C72_attempt_refuted : exists l m h,
  orderly ex_cfg "k" l /\ present (final ex_cfg init_sys l) m /\ m_key m = "k"%string /\ live (final ex_cfg init_sys l) m /\
  get_execution ex_reg (s_db (final ex_cfg init_sys l)) (s_db (final ex_cfg init_sys l)) "k" = Some h /\
  hd_attempt h <> m_attempt m.
Proof.
  exists ex_line, ex_in_line. eexists. destruct C72_case_line as (A & B & C & _).
  split; [exact A|]. split; [exact B|]. split; [reflexivity|]. split; [exact C|]. split; [vm_compute; reflexivity|]. vm_compute. discriminate.
Qed.
Print Assumptions C72_attempt_refuted.

(** The name: a task scheduled under an alias of its function is reported under the
    function's own name. *)
Theorem C72_alias_refuted : exists l m h,
  orderly ex_cfg "k" l /\ present (final ex_cfg init_sys l) m /\ m_key m = "k"%string /\ live (final ex_cfg init_sys l) m /\
  get_execution ex_reg (s_db (final ex_cfg init_sys l)) (s_db (final ex_cfg init_sys l)) "k" = Some h /\
  hd_name h <> m_fn m.
Proof.
  exists [OAdd (ex_call 9 "alias" "x") 0], (mkMsg "k" 9 "alias" "x" "" 1 1). eexists.
  split; [apply orderly_by; vm_compute; reflexivity|]. split; [right; left; vm_compute; reflexivity|].
  split; [reflexivity|]. split; [vm_compute; reflexivity|]. split; [vm_compute; reflexivity|]. vm_compute. discriminate.
Qed.
Print Assumptions C72_alias_refuted.

(** The arguments: while "k" waits for a slot, the same key is added again (the
    docket accepts it: a parked run does not count as known); the waiting run is woken and runs with its own
    arguments, get_execution shows those of the later call. *)
Theorem C72_line_refuted : exists l m h,
  along ex_cfg (keeps ex_cfg "k") init_sys l /\ present (final ex_cfg init_sys l) m /\ m_key m = "k"%string /\
  live (final ex_cfg init_sys l) m /\
  get_execution ex_reg (s_db (final ex_cfg init_sys l)) (s_db (final ex_cfg init_sys l)) "k" = Some h /\
  hd_args h <> m_args m.
Proof.
  exists (ex_line ++ [OAdd (ex_call 200 "f" "later") 65] ++ ex_woken), (mkMsg "k" 50 "f" "x" "" 2 5). eexists.
  split; [apply (alongb_sound _ _ (keepsb ex_cfg "k")); [apply keepsb_sound|vm_compute; reflexivity]|].
  split; [left; exists 5; vm_compute; auto|].
  split; [reflexivity|]. split; [vm_compute; reflexivity|]. split; [vm_compute; reflexivity|]. vm_compute. discriminate.
Qed.
Print Assumptions C72_line_refuted.
