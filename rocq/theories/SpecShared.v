(** Vocabulary for the Progress dependency. *)
From Verif Require Import Base ZSet Model Progress Shared.

Fixpoint salong (c : cfg) (P : ssys -> sop -> Prop) (q : ssys) (l : list sop) : Prop :=
  match l with
  | [] => True
  | o :: l => P q o /\ salong c P (sstep c q o) l
  end.

(** The same calls made on the run's own progress. *)
Definition own (o : sop) : list pop :=
  match o with
  | SOp p => [p]
  | SEnter _ => []
  | SIncr h n t => [PIncr h n t]
  | STotal h n t => [PTotal h n t]
  | SMessage h m t => [PMessage h m t]
  end.

(** When a run enters the dependency, its worker has no other run of the same task
    between its claim and its end; calls are made only by runs that entered it. *)
Definition one_at_a_time (q : ssys) (o : sop) : Prop :=
  match o with
  | SOp _ => True
  | SEnter h => forall x y, In x (s_execs (p_sys (sh_p q))) -> x_id x = h ->
      In y (s_execs (p_sys (sh_p q))) -> x_id y <> h -> x_worker y = x_worker x -> m_fn (x_msg y) = m_fn (x_msg x) ->
      x_phase y <> PClaimed /\ x_phase y <> PBody /\ x_phase y <> PEnded
  | SIncr h _ _ | STotal h _ _ | SMessage h _ _ => In h (sh_in q)
  end.
