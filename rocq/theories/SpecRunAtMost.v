(** Vocabulary for run_at_most. *)
From Verif Require Import Base ZSet Model RunAtMost.

(** How often worker [w] starts a body of [k] in a history. *)
Definition starts_one (c : cfg) (w : string) (limit : key -> option Z) (k : key) (s : ra) (o : rop) : Z :=
  match o, snd (rstep c w limit s o) with
  | RDo (OBodyStart h), OStarted m _ =>
      if String.eqb (m_key m) k && existsb (fun x => (x_id x =? h) && String.eqb (x_worker x) w) (s_execs (ra_sys s)) then 1 else 0
  | _, _ => 0
  end.
Fixpoint starts_of (c : cfg) (w : string) (limit : key -> option Z) (k : key) (s : ra) (l : list rop) : Z :=
  match l with [] => 0 | o :: l => starts_one c w limit k s o + starts_of c w limit k (fst (rstep c w limit s o)) l end.

(** The executions of [k] the worker has checked and let through, but not yet counted. *)
Definition between (w : string) (k : key) (s : ra) : list exec :=
  filter (fun x => String.eqb (x_worker x) w && String.eqb (m_key (x_msg x)) k &&
    match ra_stage s (x_id x), x_phase x with GPassed, (PDelivered | PClaimed) => true | _, _ => false end) (s_execs (ra_sys s)).

Fixpoint ralong (c : cfg) (w : string) (limit : key -> option Z) (P : ra -> Prop) (s : ra) (l : list rop) : Prop :=
  match l with [] => P s | o :: l => P s /\ ralong c w limit P (fst (rstep c w limit s o)) l end.
