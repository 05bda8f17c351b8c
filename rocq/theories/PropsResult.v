(** C18, C19: get_result. *)
From Verif Require Import Base ZSet Model GInv KView KSim Spec Check KInv Hist WaitProofs PropsHist GetResult SpecResult ResultProofs.

(** ** C18: what get_result answers *)

(** The body of the run [h] of [k] did [b].  The worker stores the outcome, other
    things happen, it marks the run, other things happen.  All along nobody calls the
    docket about [k], and until the mark [h] is the only run of [k].  Then whoever
    asks - having subscribed at any time before or asking afterwards - and is
    answered before execution_ttl has passed since the outcome was stored, is told
    what the body did: its value, None for None, its exception.
    Missing from the full statement: a run that returns None after an earlier
    run of the same key left a result key in the record (false, below), other runs
    of [k] between storing and marking (false, below), keys that are empty strings,
    execution_ttl 0 (nothing is stored then). *)
Theorem C18_answer_partial c q k h b l2 t l3 i a : rreachable c q -> ordinary k -> k <> ""%string -> 0 < c_ttl c ->
  only_run k h (q_sys q) -> q_body q h = Some b -> q_put q h = false ->
  (b = Returned None -> r_result (rget (s_db (q_sys q)) k) = None) ->
  let dl := d_now (s_db (q_sys q)) + c_ttl c * 1000000 in
  let q1 := rstep c q (RPut h) in
  ralong c (leaves_alone c k h) q1 l2 ->
  let q2 := rstep c (rfinal c q1 l2) (RMark h t) in
  undecided k i q2 ->
  ralong c (fun q o => undisturbed c k q o /\ fresh_handle k i o /\ d_now (s_db (q_sys q)) < dl) q2 l3 ->
  answered k i (rfinal c q2 l3) a -> a = told b.
Proof. exact (answer_told c q k h b l2 t l3 i a). Qed.
Print Assumptions C18_answer_partial.

(** C18, cancelled runs: a caller that takes its final look while the record says
    cancelled is told that the run was cancelled. *)
Theorem C18_cancelled_partial c q k i l a : undecided k i q ->
  ralong c (fun q o => r_state (rget (s_db (q_sys q)) k) = Some SCancelled /\ fresh_handle k i o) q l ->
  answered k i (rfinal c q l) a -> a = ACancelled.
Proof. exact (cancelled_told c k i l q a). Qed.
Print Assumptions C18_cancelled_partial.

(** Checking the conditions on concrete histories. *)
Fixpoint ralongb (c : cfg) (P : rsys -> rop -> bool) (q : rsys) (l : list rop) : bool :=
  match l with [] => true | o :: l => P q o && ralongb c P (rstep c q o) l end.
Lemma ralongb_sound c (P : rsys -> rop -> Prop) Pb : (forall q o, Pb q o = true -> P q o) ->
  forall l q, ralongb c Pb q l = true -> ralong c P q l.
Proof. intros H. induction l as [|o l IH]; simpl; intros q E; [exact I|]. apply andb_prop in E as [E1 E2]. auto. Qed.

Definition doneb (x : exec) : bool := match x_phase x with PDone => true | _ => false end.
Lemma doneb_sound x : doneb x = true -> x_phase x = PDone.
Proof. unfold doneb. destruct (x_phase x); auto; discriminate. Qed.

Definition only_runb (k : key) (h : Z) (s : sys) : bool :=
  match get_exec (s_execs s) h with
  | Some x => String.eqb (m_key (x_msg x)) k && (match x_phase x with PClaimed | PEnded => true | _ => false end) &&
      negb (superseded (s_db s) (m_key (x_msg x)) (m_gen (x_msg x))) &&
      forallb (fun y => negb (String.eqb (m_key (x_msg y)) k) || (x_id y =? h) || doneb y) (s_execs s) &&
      forallb (fun e => negb (String.eqb (m_key (snd e)) k) || (fst e =? x_mid x)) (d_stream (s_db s)) &&
      negb (is_some (d_parked (s_db s) k)) && forallb (fun e => negb (String.eqb (m_key (snd (snd e))) k)) (d_wait (s_db s))
  | None => false
  end.
Lemma only_runb_sound k h s : only_runb k h s = true -> only_run k h s.
Proof.
  unfold only_runb, only_run. destruct (get_exec (s_execs s) h) as [x|]; [|discriminate]. rewrite !andb_true_iff.
  intros ((((((H1 & H2) & H3) & H4) & H5) & H6) & H7). exists x. apply String.eqb_eq in H1. rewrite forallb_forall in H4, H5, H7.
  split; [reflexivity|]. split; [exact H1|]. split; [destruct (x_phase x); auto; discriminate|].
  split; [unfold live; now apply negb_true_iff|]. split.
  - intros y Y1 Y2 Y3. specialize (H4 y Y1). rewrite !orb_true_iff in H4. destruct H4 as [[H4|H4]|H4]; [|lia|now apply doneb_sound].
    rewrite Y2, String.eqb_refl in H4. discriminate.
  - intros p m P1 P2. destruct p as [j| |cc j]; cbn in P1.
    + specialize (H5 (j, m) P1). cbn in H5. rewrite P2, String.eqb_refl in H5. cbn in H5. f_equal. lia.
    + exfalso. rewrite P2 in P1. rewrite P1 in H6. discriminate.
    + exfalso. specialize (H7 _ P1). cbn in H7. rewrite P2, String.eqb_refl in H7. discriminate.
Qed.

Definition undisturbedb (c : cfg) (k : key) (q : rsys) (o : rop) : bool :=
  match o with ROp o => no_callsb k o && keepsb c k (q_sys q) o | _ => true end.
Lemma undisturbedb_sound c k q o : undisturbedb c k q o = true -> undisturbed c k q o.
Proof.
  destruct o; cbn; auto. rewrite andb_true_iff. intros [H1 H2]. split; [now apply no_callsb_sound|now apply keepsb_sound].
Qed.

Definition leaves_aloneb (c : cfg) (k : key) (h : Z) (q : rsys) (o : rop) : bool :=
  undisturbedb c k q o && (match rop_exec o with Some h' => negb (h' =? h) | None => true end) && only_runb k h (q_sys (rstep c q o)).
Lemma leaves_aloneb_sound c k h q o : leaves_aloneb c k h q o = true -> leaves_alone c k h q o.
Proof.
  unfold leaves_aloneb. rewrite !andb_true_iff. intros [[H1 H2] H3]. split; [now apply undisturbedb_sound|]. split; [|now apply only_runb_sound].
  destruct (rop_exec o); [intros [= ->]; rewrite Z.eqb_refl in H2|]; discriminate.
Qed.

Definition afterb (c : cfg) (k : key) (i dl : Z) (q : rsys) (o : rop) : bool :=
  undisturbedb c k q o && (match o with RGet j k' v => negb (j =? i) || negb (String.eqb k' k) || negb (terminal_state (v_state v)) | _ => true end) &&
  (d_now (s_db (q_sys q)) <? dl).
Lemma afterb_sound c k i dl q o : afterb c k i dl q o = true -> undisturbed c k q o /\ fresh_handle k i o /\ d_now (s_db (q_sys q)) < dl.
Proof.
  unfold afterb. rewrite !andb_true_iff. intros [[H1 H2] H3]. split; [now apply undisturbedb_sound|]. split; [|lia].
  destruct o; cbn; auto. intros -> ->. rewrite Z.eqb_refl, String.eqb_refl in H2. cbn in H2. now apply negb_true_iff.
Qed.

(** A caller that waits, and one that asks after the fact, are both told "42";
    another key is scheduled and run in between. *)
Definition ex_handle : view := mkView SQueued None None.
Definition ex_run (h : Z) (w : string) : list rop := [ROp (ORead w); ROp (OClaim h 10); ROp (OBodyStart h)].
Definition ex_first (b : result) : list rop :=
  ROp (OAdd (ex_call 5 "f" "1") 10) :: ex_run 0 "w1" ++ [RGet 7 "k" ex_handle; RWait 7; RWait 7; RReturn 0 b].
Definition ex_l2 : list rop := [ROp (OTick 1000); ROp (OAdd (mkCall "other" 5 "g" "" "") 10); ROp (ORead "w2"); RWait 7].
Definition ex_l3 : list rop := [ROp (OTick 800000000); RGet 8 "k" ex_handle; RWait 7; RWait 8; RWait 7; RWait 8; RWait 7; RWait 8].
Example C18_case :
  let q := rfinal ex_cfg init_rsys (ex_first (Returned (Some "42"))) in
  let dl := d_now (s_db (q_sys q)) + c_ttl ex_cfg * 1000000 in
  let q1 := rstep ex_cfg q (RPut 0) in
  let q2 := rstep ex_cfg (rfinal ex_cfg q1 ex_l2) (RMark 0 20) in
  only_run "k" 0 (q_sys q) /\ q_body q 0 = Some (Returned (Some "42"%string)) /\ q_put q 0 = false /\
  ralong ex_cfg (leaves_alone ex_cfg "k" 0) q1 ex_l2 /\
  (forall i, i = 7 \/ i = 8 -> undecided "k" i q2 /\
     ralong ex_cfg (fun q o => undisturbed ex_cfg "k" q o /\ fresh_handle "k" i o /\ d_now (s_db (q_sys q)) < dl) q2 ex_l3 /\
     answered "k" i (rfinal ex_cfg q2 ex_l3) (AReturn (Some (DValue "42")))).
Proof.
  intros q dl q1 q2. split; [apply only_runb_sound; vm_compute; reflexivity|]. split; [vm_compute; reflexivity|]. split; [vm_compute; reflexivity|].
  split; [apply (ralongb_sound _ _ _ (leaves_aloneb_sound _ _ _)); vm_compute; reflexivity|].
  intros i [-> | ->].
  - split; [|split].
    + intros w Hw _. assert (E : option_map w_pc (q_wait q2 7) = Some (WListen 3)) by (vm_compute; reflexivity). rewrite Hw in E. injection E as ->. exact I.
    + apply (ralongb_sound _ _ _ (afterb_sound _ _ _ _)). vm_compute. reflexivity.
    + eexists. split; [vm_compute; reflexivity|]. split; reflexivity.
  - split; [|split].
    + intros w Hw _. assert (E : option_map w_pc (q_wait q2 8) = None) by (vm_compute; reflexivity). rewrite Hw in E. discriminate.
    + apply (ralongb_sound _ _ _ (afterb_sound _ _ _ _)). vm_compute. reflexivity.
    + eexists. split; [vm_compute; reflexivity|]. split; reflexivity.
Qed.

(** The record of a failed run says what the exception said. *)
Theorem C18_error_text c q h x e text t : 0 < c_ttl c ->
  get_exec (s_execs (q_sys q)) h = Some x -> (x_phase x = PClaimed \/ x_phase x = PEnded) ->
  q_body q h = Some (Raised e text) -> q_put q h = true -> text <> ""%string ->
  superseded (s_db (q_sys q)) (m_key (x_msg x)) (m_gen (x_msg x)) = false ->
  let r := rget (s_db (q_sys (rstep c q (RMark h t)))) (m_key (x_msg x)) in
  r_state r = Some SFailed /\ r_error r = Some text.
Proof.
  intros T X P B Pt N S. cbn [rstep]. rewrite X, B, Pt. replace (is_some (stored_data c (Raised e text))) with true by (unfold stored_data; now replace (0 <? c_ttl c) with true by lia). cbn [Bool.eqb].
  unfold mark_op. replace (String.eqb text "") with false by (symmetry; now apply String.eqb_neq).
  unfold with_sys. cbn [q_sys]. cbn [step]. destruct (q_sys q) as [d xs]. cbn [s_db s_execs] in *. rewrite X.
  replace (may_finish (x_phase x) SFailed) with true by (now destruct P as [-> | ->]).
  unfold lua_terminal. rewrite S. replace (0 <? c_ttl c) with true by lia. cbn [fst set_execs s_db].
  unfold rget, set_execs. cbn [s_db q_sys d_runs xdel xack set_stream set_pel del_prog set_prog publish set_pubs expire_runs hdel hset set_runs]. rewrite upd_eq, upd_eq.
  cbn [option_map default rset_terminal rset_expire r_state r_error]. split; reflexivity.
Qed.
Print Assumptions C18_error_text.
Example C18_error_case : let q := rfinal ex_cfg init_rsys (ex_first (Raised "ValueError" "bad input") ++ [RPut 0]) in
  exists x, get_exec (s_execs (q_sys q)) 0 = Some x /\ x_phase x = PEnded /\ q_body q 0 = Some (Raised "ValueError" "bad input") /\ q_put q 0 = true /\
    superseded (s_db (q_sys q)) (m_key (x_msg x)) (m_gen (x_msg x)) = false /\
    r_error (rget (s_db (q_sys (rstep ex_cfg q (RMark 0 20)))) "k") = Some "bad input"%string.
Proof. eexists. split; [vm_compute; reflexivity|]. repeat split. Qed.

(** Two runs, one after the other; the first returns "one", the second None.
    Whoever asks then is given "one". *)
Definition ex_again : list rop :=
  ROp (OAdd (ex_call 5 "f" "1") 10) :: ex_run 0 "w1" ++ [RReturn 0 (Returned (Some "one")); RPut 0; RMark 0 20;
  ROp (OAdd (ex_call 25 "f" "2") 30)] ++ ex_run 1 "w1" ++ [RReturn 1 (Returned None); RPut 1; RMark 1 40;
  RGet 7 "k" ex_handle; RWait 7; RWait 7; RWait 7].
Theorem C18_none_gives_old_value_refuted : exists l q x, q = rfinal ex_cfg init_rsys l /\
  get_exec (s_execs (q_sys q)) 1 = Some x /\ m_key (x_msg x) = "k"%string /\ m_args (x_msg x) = "2"%string /\ live (q_sys q) (x_msg x) /\
  state_of (q_sys q) "k" = Some SCompleted /\ q_body q 1 = Some (Returned None) /\
  answered "k" 7 q (AReturn (Some (DValue "one"))).
Proof.
  exists ex_again. eexists. eexists. split; [reflexivity|]. split; [vm_compute; reflexivity|]. split; [reflexivity|]. split; [reflexivity|].
  split; [vm_compute; reflexivity|]. split; [vm_compute; reflexivity|]. split; [vm_compute; reflexivity|].
  eexists. split; [vm_compute; reflexivity|]. split; reflexivity.
Qed.

(** A run is replaced while it is executing; the replacement completes with "new"; then the
    old run ends with "old": although superseded, it has overwritten the stored result. *)
Definition ex_overwritten : list rop :=
  ROp (OAdd (ex_call 5 "f" "1") 10) :: ex_run 0 "w1" ++ ROp (OReplace (ex_call 6 "f" "2") 10) ::
  ex_run 1 "w2" ++ [RReturn 1 (Returned (Some "new")); RPut 1; RMark 1 20;
  RReturn 0 (Returned (Some "old")); RPut 0; RMark 0 30; RGet 7 "k" ex_handle; RWait 7; RWait 7; RWait 7].
Theorem C18_replaced_run_overwrites_refuted : exists l q x y, q = rfinal ex_cfg init_rsys l /\
  get_exec (s_execs (q_sys q)) 1 = Some x /\ live (q_sys q) (x_msg x) /\ q_body q 1 = Some (Returned (Some "new"%string)) /\
  get_exec (s_execs (q_sys q)) 0 = Some y /\ ~ live (q_sys q) (x_msg y) /\
  state_of (q_sys q) "k" = Some SCompleted /\ answered "k" 7 q (AReturn (Some (DValue "old"))).
Proof.
  exists ex_overwritten. eexists. eexists. eexists. split; [reflexivity|]. split; [vm_compute; reflexivity|]. split; [vm_compute; reflexivity|].
  split; [vm_compute; reflexivity|]. split; [vm_compute; reflexivity|]. split; [vm_compute; discriminate|]. split; [vm_compute; reflexivity|].
  eexists. split; [vm_compute; reflexivity|]. split; reflexivity.
Qed.

(** The outcome is stored before the run is marked, both with the same time to live:
    for a while the record still says completed but the value is gone, and the
    caller is given None. *)
Definition ex_expired : list rop :=
  ex_first (Returned (Some "42")) ++ [RPut 0; ROp (OTick 1000000); RMark 0 20; ROp (OTick 899500000);
  RGet 8 "k" ex_handle; RWait 8; RWait 8; RWait 8].
Theorem C18_value_expires_first_refuted : exists l q, q = rfinal ex_cfg init_rsys l /\
  state_of (q_sys q) "k" = Some SCompleted /\ q_body q 0 = Some (Returned (Some "42"%string)) /\
  answered "k" 8 q (AReturn None).
Proof.
  exists ex_expired. eexists. split; [reflexivity|]. split; [vm_compute; reflexivity|]. split; [vm_compute; reflexivity|].
  eexists. split; [vm_compute; reflexivity|]. split; reflexivity.
Qed.

(** A replaced run ends while its replacement is executing: the caller waiting for
    the key is released and given None. *)
Definition ex_early : list rop :=
  ex_first (Returned (Some "old")) ++ [ROp (OReplace (ex_call 6 "f" "2") 10)] ++ ex_run 1 "w2" ++
  [RPut 0; RMark 0 30; RWait 7; RWait 7; RWait 7; RWait 7; RWait 7].
Theorem C18_answers_while_running_refuted : exists l q x, q = rfinal ex_cfg init_rsys l /\
  get_exec (s_execs (q_sys q)) 1 = Some x /\ live (q_sys q) (x_msg x) /\ x_phase x = PBody /\
  state_of (q_sys q) "k" = Some SRunning /\ answered "k" 7 q (AReturn None).
Proof.
  exists ex_early. eexists. eexists. split; [reflexivity|]. split; [vm_compute; reflexivity|]. split; [vm_compute; reflexivity|].
  split; [vm_compute; reflexivity|]. split; [vm_compute; reflexivity|].
  eexists. split; [vm_compute; reflexivity|]. split; reflexivity.
Qed.

(** ** C19: waiting callers are released *)

(** A caller that is subscribed when a worker marks a run of its key is released after
    finitely many turns, whatever happens in between.
    Missing from the full statement: the mark falling between reading the state and
    subscribing, and cancel() (both false, below). *)
Theorem C19_subscribed_released_partial c q k i w pos o : rreachable c q -> q_wait q i = Some w -> w_key w = k -> w_pc w = WListen pos ->
  ends_a_run c k q o -> exists n, forall l, (n <= turns i l)%nat -> released i (rfinal c (rstep c q o) l).
Proof. exact (subscribed_released c q k i w pos o). Qed.
Print Assumptions C19_subscribed_released_partial.

(** A caller that reads the record when the key is completed, failed or cancelled is
    released after two more turns. *)
Theorem C19_reader_released_partial c q k i w l : q_wait q i = Some w -> w_key w = k -> w_pc w = WStart ->
  (exists st, state_of (q_sys q) k = Some st /\ terminal_state st = true) ->
  (2 <= turns i l)%nat -> released i (rfinal c (rstep c q (RWait i)) l).
Proof. exact (reader_released c q k i w l). Qed.
Print Assumptions C19_reader_released_partial.

Example C19_case :
  let q := rfinal ex_cfg init_rsys (ex_first (Raised "boom" "ValueError: boom") ++ [RPut 0]) in
  (exists w, q_wait q 7 = Some w /\ w_key w = "k"%string /\ w_pc w = WListen 2) /\ ends_a_run ex_cfg "k" q (RMark 0 20) /\
  answered "k" 7 (rfinal ex_cfg (rstep ex_cfg q (RMark 0 20)) [RWait 7; RWait 7; RWait 7]) (ARaise (DExn "boom")).
Proof.
  intros q. split; [|split].
  - eexists. split; [vm_compute; reflexivity|]. split; reflexivity.
  - exists 0. eexists. exists 20. split; [vm_compute; reflexivity|]. split; [reflexivity|]. right. split; [reflexivity|]. split; [right; reflexivity|].
    eexists. split; vm_compute; reflexivity.
  - eexists. split; [vm_compute; reflexivity|]. split; reflexivity.
Qed.

Definition overb (k : key) (s : sys) : bool :=
  forallb (fun e => negb (String.eqb (m_key (snd e)) k)) (d_stream (s_db s)) && negb (is_some (d_parked (s_db s) k)) &&
  (match state_of s k with Some SScheduled => false | _ => true end) &&
  forallb (fun x => negb (String.eqb (m_key (x_msg x)) k) || doneb x) (s_execs s) &&
  forallb (fun e => negb (String.eqb (m_key (snd (snd e))) k)) (d_wait (s_db s)).
Lemma overb_sound k s : overb k s = true -> Over (kabs k s).
Proof.
  unfold overb. rewrite !andb_true_iff. intros ((((H1 & H2) & H3) & H4) & H5). rewrite forallb_forall in H1, H4, H5.
  assert (X : forall {A} (f : A -> bool) l, (forall x, In x l -> negb (f x) = true) -> filter f l = []).
  { intros A f l H. induction l as [|x l IH]; [reflexivity|]. cbn. pose proof (H x (or_introl eq_refl)) as Hx. destruct (f x); [discriminate|]. apply IH. intros; apply H; now right. }
  split; [constructor|].
  - apply X. exact H1.
  - cbn. destruct (d_parked (s_db s) k); [discriminate|reflexivity].
  - change (state_of s k <> Some SScheduled). destruct (state_of s k) as [[]|]; congruence.
  - intros x Hx. apply kexecs_In in Hx as [E1 E2]. specialize (H4 x E1). rewrite E2, String.eqb_refl in H4. now apply doneb_sound.
  - apply X. exact H5.
Qed.

Definition deafb (k : key) (i : Z) (q : rsys) : bool :=
  overb k (q_sys q) &&
  match q_wait q i with
  | Some w => String.eqb (w_key w) k &&
      match w_pc w with
      | WListen pos => forallb (fun e => negb (String.eqb (fst e) k && terminal_state (snd e))) (skipn pos (d_pubs (s_db (q_sys q))))
      | _ => false end
  | None => false end.
Lemma nth_skipn {A} (l : list A) : forall pos p x, (pos <= p)%nat -> nth_error l p = Some x -> In x (skipn pos l).
Proof.
  induction l as [|y l IH]; intros pos p x Hp H; [destruct p; discriminate|].
  destruct pos as [|pos]; [now apply nth_error_In in H|]. destruct p as [|p]; [lia|]. cbn in *. apply (IH pos p); [lia|exact H].
Qed.
Lemma deafb_sound k i q : deafb k i q = true -> Deaf k i q.
Proof.
  unfold deafb. rewrite andb_true_iff. intros [H1 H2]. constructor; [now apply overb_sound|].
  destruct (q_wait q i) as [w|] eqn:Ew; [|discriminate]. rewrite andb_true_iff in H2. destruct H2 as [H2 H3]. apply String.eqb_eq in H2.
  destruct (w_pc w) as [| |pos| | |] eqn:Ep; try discriminate. exists w, pos. split; [reflexivity|]. split; [exact H2|]. split; [exact Ep|].
  intros p st Hp H. rewrite forallb_forall in H3. apply (nth_skipn _ pos p _ Hp) in H. specialize (H3 _ H). cbn in H3. rewrite String.eqb_refl in H3.
  cbn in H3. now destruct (terminal_state st).
Qed.

(** The caller reads "running", the run completes, the caller subscribes: nothing that
    happens later releases it, unless the key is scheduled again. *)
Definition ex_lost : list rop :=
  ROp (OAdd (ex_call 5 "f" "1") 10) :: ex_run 0 "w1" ++ [RGet 7 "k" ex_handle; RWait 7;
  RReturn 0 (Returned (Some "42")); RPut 0; RMark 0 20; RWait 7].
Theorem C19_lost_wakeup_refuted : exists l q, q = rfinal ex_cfg init_rsys l /\
  state_of (q_sys q) "k" = Some SCompleted /\ (exists w, q_wait q 7 = Some w /\ w_key w = "k"%string) /\
  forall l', ralong ex_cfg (fun _ o => no_new_run "k" o) q l' -> ~ released 7 (rfinal ex_cfg q l').
Proof.
  exists ex_lost. eexists. split; [reflexivity|]. split; [vm_compute; reflexivity|].
  split; [eexists; split; [vm_compute; reflexivity|reflexivity]|].
  intros l' A. apply (Deaf_final ex_cfg "k"); [exists ex_lost; reflexivity|exact A|]. apply deafb_sound. vm_compute. reflexivity.
Qed.
Print Assumptions C19_lost_wakeup_refuted.

(** A caller is subscribed; the task, due later, is cancelled: the record says cancelled,
    but nothing releases the caller. *)
Definition ex_cancelled : list rop :=
  [ROp (OAdd (ex_call 500 "f" "1") 10); RGet 7 "k" ex_handle; RWait 7; RWait 7; ROp (OCancel "k" 20); ROp (OCancelFinish "k")].
Theorem C19_cancel_not_announced_refuted : exists l q, q = rfinal ex_cfg init_rsys l /\
  state_of (q_sys q) "k" = Some SCancelled /\ (exists w, q_wait q 7 = Some w /\ w_key w = "k"%string) /\
  forall l', ralong ex_cfg (fun _ o => no_new_run "k" o) q l' -> ~ released 7 (rfinal ex_cfg q l').
Proof.
  exists ex_cancelled. eexists. split; [reflexivity|]. split; [vm_compute; reflexivity|].
  split; [eexists; split; [vm_compute; reflexivity|reflexivity]|].
  intros l' A. apply (Deaf_final ex_cfg "k"); [exists ex_cancelled; reflexivity|exact A|]. apply deafb_sound. vm_compute. reflexivity.
Qed.
Print Assumptions C19_cancel_not_announced_refuted.

(** Example for [C18_cancelled_partial]: a scheduled task is cancelled; a caller
    holding the handle from before subscribes, takes its look and is told so. *)
Definition ex_dropped : rsys := rfinal ex_cfg init_rsys [ROp (OAdd (mkCall "k" 50 "f" "x" "") 0); ROp (OCancel "k" 5); ROp (OCancelFinish "k")].
Definition ex_looks : list rop := RGet 1 "k" ex_handle :: repeat (RWait 1) 5.
Example C18_cancelled_example : undecided "k" 1 ex_dropped /\
  ralong ex_cfg (fun q o => r_state (rget (s_db (q_sys q)) "k") = Some SCancelled /\ fresh_handle "k" 1 o) ex_dropped ex_looks /\
  answered "k" 1 (rfinal ex_cfg ex_dropped ex_looks) ACancelled.
Proof.
  split; [intros w; vm_compute; discriminate|]. split; [vm_compute; repeat split|]. eexists. vm_compute. repeat split.
Qed.
