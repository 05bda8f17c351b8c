(** C98: the state events and the records. *)
From Verif Require Import Base ZSet Model GInv Spec Check SpecEvents EventProofs PropsHist.

(** ** C98: whoever follows the state events of a key knows its state *)

(** One operation, all keys at once: it announces each key at most once, and afterwards
    the record of every key has the state last announced, or its old one if nothing was announced -
    unless the record was dropped (see [may_drop]), the key was cancelled (nothing is announced), or
    a superseded run reported its end (which is announced, and not recorded). *)
Theorem C98_events_tell_partial c s o : reachable c s -> exists evs, published s (fst (step c s o)) evs /\ NoDup (map fst evs) /\ forall k,
  state_of (fst (step c s o)) k = told k evs (state_of s k) \/
  (state_of (fst (step c s o)) k = None /\ may_drop c s o k) \/
  (exists t, o = OCancel k t /\ evs = []) \/
  (stale_report s o k /\ state_of (fst (step c s o)) k = state_of s k).
Proof. intros R. exact (step_tells c s o (reachable_GInv c s R)). Qed.
Print Assumptions C98_events_tell_partial.

(** Every history from the empty store in which [k] meets none of the three: the last
    event about [k] is its state. *)
Theorem C98_history_told_partial c k l : along c (tells_all c k) init_sys l ->
  state_of (final c init_sys l) k = told k (d_pubs (s_db (final c init_sys l))) None.
Proof. intros H. apply history_told; auto. apply GInv_init. Qed.
Print Assumptions C98_history_told_partial.

(** What a cancel leaves: no event, whatever the record says now. *)
Theorem C98_cancel_untold_partial c s k t : published s (fst (step c s (OCancel k t))) [] /\
  state_of (fst (step c s (OCancel k t))) k = Some (match state_of s k with Some SCompleted => SCompleted | Some SFailed => SFailed | _ => SCancelled end).
Proof. exact (cancel_untold c s k t). Qed.
Print Assumptions C98_cancel_untold_partial.

(** "k" is scheduled for later, moved, claimed, retried and finished; "o" only waits. *)
Definition ex_events : list op :=
  [OAdd (ex_call 5 "f" "x") 0; OAdd (mkCall "o" 90 "f" "" "") 0; OScheduler 6; ORead "w"; OClaim 0 6; OBodyStart 0; OBodyEnd 0; OResched 0 8 true 7;
   OScheduler 9; ORead "w"; OClaim 1 9; OBodyStart 1; OBodyEnd 1; OTerminal 1 SCompleted 10 None None].
Example C98_case : along ex_cfg (tells_all ex_cfg "k") init_sys ex_events /\
  d_pubs (s_db (final ex_cfg init_sys ex_events)) =
    [("k", SScheduled); ("o", SScheduled); ("k", SQueued); ("k", SRunning); ("k", SScheduled); ("k", SQueued); ("k", SRunning); ("k", SCompleted)]%string /\
  state_of (final ex_cfg init_sys ex_events) "k" = Some SCompleted /\ told "k" (d_pubs (s_db (final ex_cfg init_sys ex_events))) None = Some SCompleted.
Proof.
  split; [|vm_compute; auto].
  unfold ex_events. cbn [along]. repeat split; try discriminate; try (intros []; fail); try (intros (? & ? & ? & ? & ? & ? & [=] & _); fail).
  - vm_compute. intros [H _]. exact (H eq_refl).
  - intros (h & st & t & e & r & x & [= <- <- <- <- <-] & G & _ & S). vm_compute in G. injection G as <-. vm_compute in S. discriminate.
Qed.

(** Following the events is not enough: a task due later is cancelled, and its followers
    are left with "scheduled". *)
Theorem C98_cancelled_untold_refuted : exists l,
  state_of (final ex_cfg init_sys l) "k" = Some SCancelled /\ told "k" (d_pubs (s_db (final ex_cfg init_sys l))) None = Some SScheduled.
Proof. exists [OAdd (ex_call 5 "f" "x") 0; OCancel "k" 1; OCancelFinish "k"]. vm_compute. auto. Qed.
Print Assumptions C98_cancelled_untold_refuted.

(** And it tells too much: the first run of "k" is replaced, the replacement is running,
    and the first run ends: its followers hear "completed". *)
Theorem C98_superseded_told_refuted : exists l,
  state_of (final ex_cfg init_sys l) "k" = Some SRunning /\ told "k" (d_pubs (s_db (final ex_cfg init_sys l))) None = Some SCompleted.
Proof.
  exists [OAdd (ex_call 0 "f" "x") 0; ORead "w1"; OClaim 0 1; OBodyStart 0; OReplace (ex_call 0 "f" "new") 2; ORead "w2"; OClaim 1 3; OBodyStart 1;
          OBodyEnd 0; OTerminal 0 SCompleted 4 None None].
  vm_compute. auto.
Qed.
Print Assumptions C98_superseded_told_refuted.
