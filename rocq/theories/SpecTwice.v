(** Vocabulary of C105: histories in which executions can have several outcomes.  Specification, not model. *)
From Verif Require Import Base ZSet Model Twice GInv Spec SpecConc.

Fixpoint along2 (c : cfg) (P : sys -> op -> Prop) (s : sys) (l : list op) : Prop :=
  match l with [] => True | o :: l => P s o /\ along2 c P (fst (step2 c s o)) l end.
Fixpoint total2 (c : cfg) (f : sys -> op -> out -> Z) (s : sys) (l : list op) : Z :=
  match l with [] => 0 | o :: l => f s o (snd (step2 c s o)) + total2 c f (fst (step2 c s o)) l end.
Definition starts2 (c : cfg) (s : sys) (o : op) (m : msg) (i : sid) : Prop := snd (step2 c s o) = OStarted m i.

(** The reschedules that were carried out of runs of messages that satisfy [p]. *)
Definition n_rescheduled (p : msg -> bool) (s : sys) (o : op) (r : out) : Z :=
  match o, r with
  | OResched h _ _ _, ODone => match get_exec (s_execs s) h with Some x => if p (x_msg x) then 1 else 0 | None => 0 end
  | _, _ => 0
  end.

(** Why the message [m] with id [i] leaves the stream: something is done to a run delivered from it, or to its key. *)
Definition leaves_for_a_reason2 (c : cfg) (s : sys) (o : op) (i : sid) (m : msg) : Prop :=
  (exists x, In x (s_execs s) /\ x_mid x = i /\ x_msg x = m /\
     ((exists st t e r, o = OTerminal (x_id x) st t e r /\ snd (step2 c s o) = ODone) \/
      (exists w b t, o = OResched (x_id x) w b t /\ snd (step2 c s o) = ODone) \/
      (exists cc mx t, o = OAcquire (x_id x) cc mx t /\ snd (step2 c s o) = OAcquired false) \/
      (exists t, o = OClaim (x_id x) t /\ snd (step2 c s o) = OClaimed false /\ superseded (s_db s) (m_key m) (m_gen m) = true))) \/
  (exists t, o = OCancel (m_key m) t) \/ (exists a t, o = OReplace a t /\ a_key a = m_key m) \/ (exists w, o = OClearApply w).

(** Leases, as SpecConc.v has them. *)
Fixpoint timely_from2 (c : cfg) (cc : string) (s : sys) (L : Z -> option (Z * Z)) (l : list op) : Prop :=
  match l with
  | [] => True
  | o :: l => timely_at c cc s L o /\ timely_from2 c cc (fst (step2 c s o)) (touch c cc s o L) l
  end.
Definition timely2 (c : cfg) (cc : string) (l : list op) : Prop := timely_from2 c cc init_sys (fun _ => None) l.
Definition runs_in_group2 (c : cfg) (l : list op) (cc : string) (x : exec) : Prop :=
  In x (s_execs (final2 c init_sys l)) /\ x_phase x = PBody /\
  exists l1 maxc t l2, l = l1 ++ OAcquire (x_id x) cc maxc t :: l2 /\
    snd (step2 c (final2 c init_sys l1) (OAcquire (x_id x) cc maxc t)) = OAcquired true.
