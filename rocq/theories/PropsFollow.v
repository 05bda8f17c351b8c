(** C120: what a caller of Execution.subscribe is shown. *)
From Verif Require Import Base ZSet Model GInv Spec Check SpecEvents EventProofs GetResult Follow SpecFollow FollowProofs PropsHist PropsEvents.

(** ** C120: whoever subscribes to a task is shown its state *)

(** From the acknowledged subscription on, whatever happens: the caller has been given, after
    what it had before, exactly the states announced for its key since then, each once and in
    order, up to where the generator is. *)
Theorem C120_relays_partial c q l : reachable c (fs_sys q) -> f_pc (fs_f q) = FRead ->
  let q' := ffinal c q (FTurn :: l) in exists evs n,
  d_pubs (s_db (fs_sys q')) = d_pubs (s_db (fs_sys q)) ++ evs /\ (n <= length evs)%nat /\
  f_pc (fs_f q') = FListen (length (d_pubs (s_db (fs_sys q))) + n) /\
  f_seen (fs_f q') = f_seen (fs_f q) ++ told_of (f_key (fs_f q)) (firstn n evs).
Proof. intros R P. exact (proj2 (relays c q l R P)). Qed.
Print Assumptions C120_relays_partial.

(** It gets through as many announcements as it has turns. *)
Theorem C120_catches_up_partial c q pos m : f_pc (fs_f q) = FListen pos -> (pos <= length (d_pubs (s_db (fs_sys q))))%nat ->
  (length (d_pubs (s_db (fs_sys q))) - pos <= m)%nat -> caught_up (ffinal c q (repeat FTurn m)).
Proof. exact (catches_up c m q pos). Qed.
Print Assumptions C120_catches_up_partial.

(** If nothing was announced for the key between the first read and the subscription, then
    a caller that has read everything was shown last what the record says (for histories without
    what C98 excepts). *)
Theorem C120_undisturbed_partial c s k v st l1 l2 : let q := begin s k v in let l := FTurn :: l1 ++ FTurn :: l2 in
  reachable c s -> state_of s k = Some st -> docket_only l1 -> falong c (tells_all c k) q l ->
  (forall st' evs, d_pubs (s_db (fs_sys (ffinal c q (FTurn :: l1)))) = d_pubs (s_db s) ++ evs -> ~ In (k, st') evs) ->
  caught_up (ffinal c q l) -> shown (ffinal c q l) = state_of (fs_sys (ffinal c q l)) k.
Proof. exact (undisturbed c s k v st l1 l2). Qed.
Print Assumptions C120_undisturbed_partial.

(** Whatever was missed, one announcement after the subscription puts it right. *)
Theorem C120_next_event_heals_partial c q l : reachable c (fs_sys q) -> f_pc (fs_f q) = FRead ->
  falong c (tells_all c (f_key (fs_f q))) q (FTurn :: l) -> caught_up (ffinal c q (FTurn :: l)) ->
  (exists st evs, d_pubs (s_db (fs_sys (ffinal c q (FTurn :: l)))) = d_pubs (s_db (fs_sys q)) ++ evs /\ In (f_key (fs_f q), st) evs) ->
  shown (ffinal c q (FTurn :: l)) = state_of (fs_sys (ffinal c q (FTurn :: l))) (f_key (fs_f q)).
Proof. exact (heals c q l). Qed.
Print Assumptions C120_next_event_heals_partial.

(** "k" is running when subscribe() reads its record; it completes before the SUBSCRIBE
    arrives.  The caller is shown "running", and nothing else for as long as nothing is announced
    for "k" again. *)
Definition fo_started : list op := [OAdd (ex_call 0 "f" "x") 0; ORead "w"; OClaim 0 1; OBodyStart 0].
Definition fo_view : view := mkView SScheduled None None.
Definition fo_gap : list fop := [FTurn; FOp (OBodyEnd 0); FOp (OTerminal 0 SCompleted 2 None None); FTurn].
Theorem C120_gap_refuted : exists s l q, reachable ex_cfg s /\ falong ex_cfg (tells_all ex_cfg "k") (begin s "k" fo_view) l /\
  q = ffinal ex_cfg (begin s "k" fo_view) l /\ caught_up q /\ state_of (fs_sys q) "k" = Some SCompleted /\ shown q = Some SRunning /\
  forall l', (forall st evs, d_pubs (s_db (fs_sys (ffinal ex_cfg q l'))) = d_pubs (s_db (fs_sys q)) ++ evs -> ~ In ("k"%string, st) evs) ->
    shown (ffinal ex_cfg q l') = Some SRunning.
Proof.
  set (s := final ex_cfg init_sys fo_started). set (b := begin s "k" fo_view). exists s, fo_gap, (ffinal ex_cfg b fo_gap).
  assert (R : reachable ex_cfg s) by (exists fo_started; reflexivity).
  split; [exact R|]. split.
  { unfold fo_gap. cbn [falong]. repeat split; try discriminate; try (intros []; fail); try (intros (? & ? & ? & ? & ? & ? & [=] & _); fail).
    - vm_compute. intros [H _]. exact (H eq_refl).
    - intros (h & st & t & e & r & x & [= <- <- <- <- <-] & G & _ & S). vm_compute in G. injection G as <-. vm_compute in S. discriminate. }
  split; [reflexivity|]. split; [vm_compute; reflexivity|]. split; [vm_compute; reflexivity|]. split; [vm_compute; reflexivity|].
  intros l' N. set (q1 := ffinal ex_cfg b [FTurn; FOp (OBodyEnd 0); FOp (OTerminal 0 SCompleted 2 None None)]).
  assert (R1 : reachable ex_cfg (fs_sys q1)) by (apply fsys_reachable; exact R).
  assert (E : ffinal ex_cfg (ffinal ex_cfg b fo_gap) l' = ffinal ex_cfg q1 (FTurn :: l')) by reflexivity.
  assert (P1 : f_pc (fs_f q1) = FRead) by (vm_compute; reflexivity).
  destruct (relays ex_cfg q1 l' R1 P1) as (_ & evs & n & P & L & _ & S). rewrite E in *.
  assert (Es : fs_sys (ffinal ex_cfg b fo_gap) = fs_sys q1) by reflexivity. rewrite Es in N.
  assert (Sk : f_key (fs_f q1) = "k"%string) by (vm_compute; reflexivity). rewrite Sk in S.
  assert (Se : f_seen (fs_f q1) = [SRunning]) by (vm_compute; reflexivity). rewrite Se in S.
  assert (T : told_of "k" (firstn n evs) = []).
  { unfold told_of. destruct (filter (fun e => String.eqb (fst e) "k") (firstn n evs)) as [|[j s0] r] eqn:Ef; [reflexivity|exfalso].
    assert (I : In (j, s0) (firstn n evs) /\ String.eqb j "k" = true)
      by (apply (proj1 (filter_In (fun e => String.eqb (fst e) "k") (j, s0) (firstn n evs))); rewrite Ef; now left).
    destruct I as [I J]. apply String.eqb_eq in J. subst j. apply (N s0 evs P). rewrite <- (firstn_skipn n evs). apply in_or_app. now left. }
  unfold shown. rewrite S, T. reflexivity.
Qed.
Print Assumptions C120_gap_refuted.

(** The hypotheses are met: a caller subscribes while "k" is scheduled; another key is added
    in between; "k" then runs, is retried and completes, and the caller is shown all of it. *)
Definition fo_whole : list fop :=
  map FOp [OScheduler 6; ORead "w"; OClaim 0 6; OBodyStart 0; OBodyEnd 0; OResched 0 8 true 7] ++ [FTurn; FTurn] ++
  map FOp [OScheduler 9; ORead "w"; OClaim 1 9; OBodyStart 1; OBodyEnd 1; OTerminal 1 SCompleted 10 None None] ++ repeat FTurn 4.
Definition fo_other : list fop := [FOp (OAdd (mkCall "o" 90 "f" "" "") 0)].
Example C120_case : let s := final ex_cfg init_sys [OAdd (ex_call 5 "f" "x") 0] in let q := begin s "k" fo_view in let l := FTurn :: fo_other ++ FTurn :: fo_whole in
  state_of s "k" = Some SScheduled /\ docket_only fo_other /\ falong ex_cfg (tells_all ex_cfg "k") q l /\
  d_pubs (s_db (fs_sys (ffinal ex_cfg q (FTurn :: fo_other)))) = d_pubs (s_db s) ++ [("o"%string, SScheduled)] /\
  caught_up (ffinal ex_cfg q l) /\
  f_seen (fs_f (ffinal ex_cfg q l)) = [SScheduled; SQueued; SRunning; SScheduled; SQueued; SRunning; SCompleted] /\
  state_of (fs_sys (ffinal ex_cfg q l)) "k" = Some SCompleted.
Proof.
  cbv zeta. split; [vm_compute; reflexivity|]. split; [intros [H|[]]; discriminate|]. split; [|vm_compute; repeat split].
  unfold fo_whole, fo_other. cbn [falong app map repeat]. repeat split; try discriminate; try (intros []; fail); try (intros (? & ? & ? & ? & ? & ? & [=] & _); fail).
  - vm_compute. intros [H _]. exact (H eq_refl).
  - intros (h & st & t & e & r & x & [= <- <- <- <- <-] & G & _ & S). vm_compute in G. injection G as <-. vm_compute in S. discriminate.
Qed.

(** The caller of [C120_gap_refuted] again: once "k" is scheduled anew, it is put right. *)
Example C120_heals_case : let s := final ex_cfg init_sys fo_started in
  let q := ffinal ex_cfg (begin s "k" fo_view) (removelast fo_gap) in let q' := ffinal ex_cfg q [FTurn; FOp (OAdd (ex_call 9 "f" "y") 3); FTurn] in
  f_pc (fs_f q) = FRead /\ shown q = Some SRunning /\ d_pubs (s_db (fs_sys q')) = d_pubs (s_db (fs_sys q)) ++ [("k"%string, SScheduled)] /\
  caught_up q' /\ shown q' = Some SScheduled /\ state_of (fs_sys q') "k" = Some SScheduled.
Proof. vm_compute. repeat split. Qed.
