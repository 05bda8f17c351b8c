(** Conditions on clocks for histories with periodic loops. *)
From Verif Require Import Base ZSet Model Spec Heartbeat SpecHeartbeat Periodic.

(** The time from the start of one pass to the start of the next, at most. *)
Definition cycle (p : period) : Z := pe_every p + pe_late p + pe_slow p.
Definition sane (p : period) : Prop := 0 <= pe_every p /\ 0 <= pe_late p /\ 0 <= pe_slow p.

(** Clocks that are read when a schedule is put down or a pass begins are after the epoch
    and at most [lag] behind the store's. *)
Definition lagging (lag now t : Z) : Prop := 0 <= t /\ now - lag <= t.
Definition u_clock (lag : Z) (s : usys) (o : uop) : Prop :=
  let now := d_now (s_db (us_sys s)) in
  match o with
  | UBegin _ t => lagging lag now t
  | UDo (OAdd _ t) | UDo (OReplace _ t) | UDo (OResched _ _ _ t) => lagging lag now t
  | _ => True
  end.
Fixpoint u_along (c : cfg) (p : period) (P : usys -> uop -> Prop) (s : usys) (l : list uop) : Prop :=
  match l with [] => True | o :: l => P s o /\ u_along c p P (ustep c p s o) l end.

(** Heartbeats and listings allow the age [age]; their clocks are at most [lag] behind and
    [ahead] ahead of the store's.  The heartbeats of [w] concern the board [b]. *)
Definition b_clock (age lag ahead : Z) (b : board) (w : string) (s : bsys) (o : bop) : Prop :=
  let now := hb_now (bs_hb s) in
  match o with
  | BBegin _ t => now - lag <= t <= now + ahead
  | BCommand w' names => w' = w -> concerns b names = true
  | BDo (HBeat a _ t _) | BDo (HPurge _ a t) => a = age /\ t <= now + ahead
  | _ => True
  end.
Fixpoint b_along (age : Z) (p : period) (P : bsys -> bop -> Prop) (s : bsys) (l : list bop) : Prop :=
  match l with [] => True | o :: l => P s o /\ b_along age p P (bstep age p s o) l end.
