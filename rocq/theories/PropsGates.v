(** C62: a run that admission control has let in is not dropped by the same control
    when it comes back.  C64: a run that is held back gives back its own place. *)
From Verif Require Import Base ZSet Text Admission SpecAdm AdmProofs PropsAdm Execute SpecExecute Gates.

(** ** C62 *)

(** Each delivery comes more than [w] after the one before. *)
Fixpoint apart (w : Z) (l : list visit) : Prop :=
  match l with
  | v :: ((v' :: _) as l') => v_time v + w < v_time v' /\ apart w l'
  | _ => True
  end.

(** Neither the body nor the failure handler raises AdmissionBlocked itself. *)
Definition plain (v : visit) : Prop :=
  (forall h r, v_body v <> BRaise (XBlocked h r)) /\ (forall h r, v_retry v <> FThrow (XBlocked h r)).

Lemma let_in d v : plain v -> d = DAnnot pass -> ~ In EDropped (events d v).
Proof.
  intros [P1 P2] ->. unfold events. destruct v as [t f c b r]; cbn in P1, P2 |- *. destruct c; [intros [E|[E|[]]]; discriminate|].
  unfold visit_env; cbn. destruct f; [cbn; intros H; repeat (destruct H as [H|H]; [discriminate|]); exact H|].
  destruct b as [[[]|]|[? ?| | |? []]]; [..|now destruct (P1 handled resched eq_refl)| | | |];
    try (cbn; intros H; repeat (destruct H as [H|H]; [discriminate|]); exact H);
    destruct r as [| | |[? ?| | |? []]]; try (now destruct (P2 handled resched eq_refl));
    cbn; intros H; repeat (destruct H as [H|H]; [discriminate|]); exact H.
Qed.

Lemma blocked_in d v : v_full v = false -> v_crash v = false -> d = DFailed (XBlocked false false) ->
  outcomes (events d v) = [EDropped].
Proof. intros F C ->. unfold events. rewrite C. unfold whole, visit_env. rewrite F. reflexivity. Qed.

Lemma cd_apart w : 0 < w -> forall l st, Forall plain l -> apart w l ->
  match l with [] => True | v :: _ => match st with Some e => e < v_time v | None => True end end ->
  forall es, In es (cd_visits w st l) -> ~ In EDropped es.
Proof.
  intros W. induction l as [|v l IH]; intros st P A S es I; [destruct I|].
  assert (E : cd_step w st (v_time v) = (Some (v_time v + w), CDProceed)).
  { unfold cd_step. destruct (Z.leb_spec w 0); [lia|]. destruct st as [e|]; [|reflexivity].
    unfold gone. destruct (Z.ltb_spec e (v_time v)); [reflexivity|lia]. }
  inversion P as [|? ? P1 P2]; subst. cbn [cd_visits] in I. unfold cd_visit in I. rewrite E in I. cbn [fst snd] in I.
  destruct I as [<-|I]; [now apply let_in|].
  destruct l as [|v' l]; [destruct I|]. destruct A as [A1 A2]. exact (IH (Some (v_time v + w)) P2 A2 A1 es I).
Qed.

(** [partial]: as long as the run comes back only after the window is over.  Missing:
    coming back within it (false, below). *)
Theorem C62_comes_back_later_partial w l es : 0 < w -> Forall plain l -> apart w l ->
  In es (cd_visits w None l) -> ~ In EDropped es.
Proof. intros W P A. apply cd_apart; auto. now destruct l. Qed.
Print Assumptions C62_comes_back_later_partial.

Definition raises : body := BRaise (XErr "ValueError" true).

Example C62_comes_back_later_example :
  let l := [mkVisit 0 false false raises FRetry; mkVisit 101 true false raises FRetry; mkVisit 300 false true raises FRetry;
            mkVisit 500 false false (BReturn None) FRetry] in
  Forall plain l /\ apart 100 l /\ map outcomes (cd_visits 100 None l) = [[ERetried]; [EParked]; []; [ECompleted]].
Proof.
  split; [|split; [cbn; lia|reflexivity]].
  repeat constructor; cbn; discriminate.
Qed.

(** A task that fails and is retried within the cooldown is dropped at its second
    attempt: it is never completed nor failed, though its Retry has attempts left. *)
Theorem C62_retry_refuted w t d : 0 < w -> 0 <= d <= w ->
  map outcomes (cd_visits w None [mkVisit t false false raises FRetry; mkVisit (t + d) false false (BReturn None) FRetry])
  = [[ERetried]; [EDropped]].
Proof.
  intros W D. cbn [cd_visits map]. unfold cd_visit, cd_step. destruct (Z.leb_spec w 0); [lia|].
  cbn [fst snd v_time gone]. destruct (Z.ltb_spec (t + w) (t + d)); [lia|]. reflexivity.
Qed.
Print Assumptions C62_retry_refuted.

(** So is one that its concurrency limit holds back and wakes within the cooldown,
    without ever having run. *)
Theorem C62_parked_refuted w t d : 0 < w -> 0 <= d <= w ->
  map outcomes (cd_visits w None [mkVisit t true false raises FRetry; mkVisit (t + d) false false (BReturn None) FRetry])
  = [[EParked]; [EDropped]].
Proof.
  intros W D. cbn [cd_visits map]. unfold cd_visit, cd_step. destruct (Z.leb_spec w 0); [lia|].
  cbn [fst snd v_time gone]. destruct (Z.ltb_spec (t + w) (t + d)); [lia|]. reflexivity.
Qed.
Print Assumptions C62_parked_refuted.

(** And one whose worker died: when it is delivered again within the cooldown, it is
    dropped, so a crash loses the task. *)
Theorem C62_crash_refuted w t d : 0 < w -> 0 <= d <= w ->
  map outcomes (cd_visits w None [mkVisit t false true (BReturn None) FRetry; mkVisit (t + d) false false (BReturn None) FRetry])
  = [[]; [EDropped]].
Proof.
  intros W D. cbn [cd_visits map]. unfold cd_visit, cd_step. destruct (Z.leb_spec w 0); [lia|].
  cbn [fst snd v_time gone]. destruct (Z.ltb_spec (t + w) (t + d)); [lia|]. reflexivity.
Qed.
Print Assumptions C62_crash_refuted.

(** A RateLimit without drop never drops. *)
Theorem C62_ratelimit_keeps n w k st l es : Forall plain l ->
  In es (rl_visits n w false k st l) -> ~ In EDropped es.
Proof.
  intros P. revert st. induction l as [|v l IH]; intros st I; [destruct I|]. inversion P as [|? ? P1 P2]; subst.
  cbn [rl_visits] in I. destruct I as [<-|I]; [|exact (IH P2 _ I)].
  unfold rl_visit. destruct (rl_step n w st _) as [st' r]. cbn [snd].
  destruct r as [[|d|]|]; cbn [rl_dep negb]; try (now apply let_in); clear IH;
    unfold events; destruct v as [t f c b rr]; cbn [v_crash v_full v_body v_retry]; (destruct c; [intros [E|[E|[]]]; discriminate|]);
    unfold visit_env; cbn [v_crash v_full v_body v_retry].
  - destruct f; cbn; intros H; repeat (destruct H as [H|H]; [discriminate|]); exact H.
  - destruct P1 as [_ P2']. cbn in P2'. destruct f; [cbn; intros H; repeat (destruct H as [H|H]; [discriminate|]); exact H|].
    destruct rr as [| | |[? ?| | |? []]]; try (now destruct (P2' handled resched eq_refl));
    cbn; intros H; repeat (destruct H as [H|H]; [discriminate|]); exact H.
Qed.
Print Assumptions C62_ratelimit_keeps.

(** With drop, a run that the concurrency limit holds back gives its place back: held
    back any number of times, it is let in when it is woken at last. *)
Theorem C62_ratelimit_parked_partial n w k l v : 1 <= n -> 0 < w ->
  Forall plain (l ++ [v]) -> Forall (fun u => v_full u = true /\ v_crash u = false) l ->
  forall es, In es (rl_visits n w true k rl_empty (l ++ [v])) -> ~ In EDropped es.
Proof.
  intros N W.
  assert (S : forall st u, rl_log st = [] -> rl_step n w st (RLReq k (v_time u) (v_time u)) =
    (mkRlog [(v_time u, rl_member k (v_time u))] (Some (v_time u + w * 2)), Some RLProceed)).
  { intros [log e] u E. cbn in E. subst log. cbn [rl_step]. unfold rl_script. cbv zeta.
    assert (L : filter (fun p => v_time u - w <? fst p) (rl_log (if gone (rl_exp (mkRlog [] e)) (v_time u) then rl_empty else mkRlog [] e)) = [])
      by (destruct (gone _ _); reflexivity).
    rewrite L. replace (zcard []) with 0 by reflexivity. destruct (Z.ltb_spec 0 n); [|lia]. destruct (Z.leb_spec (w * 2) 0); [lia|]. reflexivity. }
  assert (G : forall l st, rl_log st = [] -> Forall plain (l ++ [v]) -> Forall (fun u => v_full u = true /\ v_crash u = false) l ->
    forall es, In es (rl_visits n w true k st (l ++ [v])) -> ~ In EDropped es).
  { clear l. induction l as [|u l IH]; intros st E P F es I.
    - cbn [app rl_visits] in I. destruct I as [<-|[]]. unfold rl_visit. rewrite (S st v E). cbn [snd]. inversion P; subst. now apply let_in.
    - cbn [app rl_visits] in I. inversion P as [|? ? P1 P2]; inversion F as [|? ? [F1 F2] F3]; subst.
      unfold rl_visit in I. rewrite (S st u E), F1, F2 in I. cbn [fst snd andb negb rl_step] in I.
      destruct I as [<-|I]; [now apply let_in|]. refine (IH _ _ P2 F3 es I).
      cbn [rl_log]. unfold zrem. cbn [filter snd]. now rewrite String.eqb_refl. }
  intros P F. exact (G l rl_empty eq_refl P F).
Qed.
Print Assumptions C62_ratelimit_parked_partial.

Example C62_ratelimit_parked_example :
  let l := [mkVisit 0 true false raises FRetry; mkVisit 1 true false raises FRetry] in
  let v := mkVisit 2 false false (BReturn None) FRetry in
  Forall plain (l ++ [v]) /\ Forall (fun u => v_full u = true /\ v_crash u = false) l /\
  map outcomes (rl_visits 1 100 true "k" rl_empty (l ++ [v])) = [[EParked]; [EParked]; [ECompleted]].
Proof. split; [|split; [repeat constructor|reflexivity]]. repeat constructor; cbn; discriminate. Qed.

(** But one that fails and is retried within the window is dropped. *)
Theorem C62_ratelimit_retry_refuted w t d : 0 < w -> 0 <= d < w ->
  map outcomes (rl_visits 1 w true "k" rl_empty [mkVisit t false false raises FRetry; mkVisit (t + d) false false (BReturn None) FRetry])
  = [[ERetried]; [EDropped]].
Proof.
  intros W D.
  assert (S1 : rl_step 1 w rl_empty (RLReq "k" t t) = (mkRlog [(t, rl_member "k" t)] (Some (t + w * 2)), Some RLProceed)).
  { cbn. destruct (Z.leb_spec (w * 2) 0); [lia|reflexivity]. }
  cbn [rl_visits map]. unfold rl_visit at 1. cbn [v_time v_full]. rewrite S1. cbn [andb snd fst].
  assert (S2 : exists r, snd (rl_step 1 w (mkRlog [(t, rl_member "k" t)] (Some (t + w * 2))) (RLReq "k" (t + d) (t + d))) = Some (RLBlocked r)).
  { cbn [rl_step rl_script]. unfold rl_script. cbv zeta. cbn [rl_exp gone]. destruct (Z.ltb_spec (t + w * 2) (t + d)); [lia|].
    cbn [rl_log filter fst]. destruct (Z.ltb_spec (t + d - w) t); [|lia]. cbn [zcard length Z.of_nat]. eexists. reflexivity. }
  destruct S2 as [r S2].
  unfold rl_visit. cbn [v_time v_full]. rewrite S1. cbn [andb fst].
  destruct (rl_step 1 w (mkRlog _ _) (RLReq "k" (t + d) (t + d))) as [st' r'] eqn:E. cbn [snd] in S2. subst r'. cbn [snd].
  reflexivity.
Qed.
Print Assumptions C62_ratelimit_retry_refuted.

(** ** C64 *)

(** Whenever a run is held back, the run the RateLimit object admitted last is that
    same run: nobody else was admitted since it entered. *)
Fixpoint undisturbed (n w : Z) (st : rshare) (last : option (string * Z)) (l : list rs_ev) : Prop :=
  match l with
  | [] => True
  | RSEnter k now srv :: l =>
      undisturbed n w (fst (rs_step n w st (RSEnter k now srv)))
        (match snd (rs_step n w st (RSEnter k now srv)) with Some RLProceed => Some (k, now) | _ => last end) l
  | RSHeld k now :: l => last = Some (k, now) /\ undisturbed n w (fst (rs_step n w st (RSHeld k now))) last l
  end.

(** Then the log is what it would be with an object for every run, and the properties
    of C25 and C26 hold. *)
Lemma shared_same n w l : forall st, undisturbed n w st (rs_obj st) l ->
  rs_log (rs_run n w st l) = rl_run n w (rs_log st) (map rs_meant l) /\
  rs_trace n w st l = rl_trace n w (rs_log st) (map rs_meant l).
Proof.
  induction l as [|e l IH]; intros st U; [split; reflexivity|]. destruct e as [k now srv|k now]; cbn [undisturbed] in U.
  - cbn [rs_run rs_trace map rs_meant rl_run rl_trace]. cbn [rs_step] in *.
    destruct (rl_step n w (rs_log st) (RLReq k now srv)) as [log r] eqn:E. cbn [fst snd] in *.
    destruct (IH _ U) as [A B]. rewrite A, B. split; reflexivity.
  - destruct st as [log obj]. cbn [rs_obj] in U. destruct U as [-> U2].
    cbn [rs_run rs_trace map rs_meant rl_run rl_trace rs_step rl_step rs_log rs_obj fst snd] in *.
    destruct (IH _ U2) as [A B]. cbn [rs_log] in A, B. rewrite A, B. split; reflexivity.
Qed.

Theorem C64_own_place_partial n w l : undisturbed n w rs_empty None l ->
  rs_log (rs_run n w rs_empty l) = rl_run n w rl_empty (map rs_meant l) /\
  rs_trace n w rs_empty l = rl_trace n w rl_empty (map rs_meant l).
Proof. exact (shared_same n w l rs_empty). Qed.
Print Assumptions C64_own_place_partial.

(** In particular the limit is kept. *)
Theorem C64_window_bound_partial n w d t l T : 0 <= n -> 0 < w -> 2 * d <= w ->
  undisturbed n w rs_empty None l -> clocks_ok d t (map rs_meant l) -> NoDup (requests (map rs_meant l)) ->
  window_count T w (net (rs_trace n w rs_empty l)) <= n.
Proof.
  intros N W D U C R. rewrite (proj2 (C64_own_place_partial n w l U)). now apply (C25_window_bound_partial n w d t).
Qed.
Print Assumptions C64_window_bound_partial.

Example C64_example :
  let l := [RSEnter "a" 1000 1000; RSEnter "b" 1010 1010; RSHeld "b" 1010; RSEnter "c" 1020 1020; RSEnter "d" 1030 1030] in
  undisturbed 2 100 rs_empty None l /\ clocks_ok 0 0 (map rs_meant l) /\ NoDup (requests (map rs_meant l)) /\
  net (rs_trace 2 100 rs_empty l) = [("a"%string, 1000); ("c"%string, 1020)].
Proof.
  split; [vm_compute; tauto|]. split; [cbn; lia|]. split; [|reflexivity].
  cbn. repeat (constructor; [cbn; intros H; repeat (destruct H as [H|H]; [discriminate H|]); exact H|]). constructor.
Qed.

(** Two runs are admitted one after the other and the first is held back: the place of
    the second, which runs, is given away, and three runs go ahead within one window
    although the limit is two. *)
Theorem C64_limit_exceeded_refuted : exists n w l T, 0 < n /\ 0 < w /\ clocks_ok 0 0 (map rs_meant l) /\
  NoDup (requests (map rs_meant l)) /\
  (forall k t, In (RSHeld k t) l -> In (k, t) (net (rs_trace n w rs_empty [RSEnter k t t]))) /\
  window_count T w (net (rs_trace n w rs_empty l)) > n.
Proof.
  exists 2, 100, [RSEnter "a" 1000 1000; RSEnter "b" 1090 1090; RSHeld "a" 1000; RSEnter "c" 1100 1100; RSEnter "d" 1101 1101], 1101.
  split; [lia|]. split; [lia|]. split; [cbn; lia|]. split.
  { cbn. repeat (constructor; [cbn; intros H; repeat (destruct H as [H|H]; [discriminate H|]); exact H|]). constructor. }
  split; [|vm_compute; reflexivity].
  intros k t [H|[H|[H|[H|[H|[]]]]]]; inversion H; subst. vm_compute. now left.
Qed.
Print Assumptions C64_limit_exceeded_refuted.

(** Two runs are admitted and both are held back, but only one place is given back: then
    a request is turned away although fewer runs than the limit have gone ahead at all. *)
Theorem C64_place_lost_refuted : exists n w l k t r, 0 < n /\ 0 < w /\
  Z.of_nat (length (net (rs_trace n w rs_empty l))) < n /\
  snd (rs_step n w (rs_run n w rs_empty l) (RSEnter k t t)) = Some (RLBlocked r) /\
  snd (rl_step n w (rl_run n w rl_empty (map rs_meant l)) (RLReq k t t)) = Some RLProceed.
Proof.
  exists 2, 100, [RSEnter "a" 1000 1000; RSEnter "b" 1010 1010; RSHeld "b" 1010; RSHeld "a" 1000; RSEnter "c" 1020 1020], "d"%string, 1030, 70.
  split; [lia|]. split; [lia|]. split; [vm_compute; reflexivity|]. split; vm_compute; reflexivity.
Qed.
Print Assumptions C64_place_lost_refuted.
