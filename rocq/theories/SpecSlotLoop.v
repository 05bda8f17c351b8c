(** Conditions for histories with the renewal loops of slot holders. *)
From Verif Require Import Base ZSet Model Spec SpecConc Periodic SpecPeriodic SlotLoop.

(** Clocks are at most [ahead] ahead of the store's; those a lease is written with are at
    most [lag] behind it (an acquisition reads its clock before it is sent). *)
Definition r_clock (lag ahead : Z) (s : rsys) (o : rop) : Prop :=
  let now := d_now (s_db (rs_sys s)) in
  match o with
  | RBegin _ t => now - lag <= t <= now + ahead
  | RDo (OAcquire _ _ _ t) => now - lag <= t <= now + ahead
  | RDo o => forall t, op_clock o = Some t -> t <= now + ahead
  | _ => True
  end.
(** Of no holder of a slot of [cc] did more than [fails] renewals in a row fail. *)
Definition r_fails (cc : string) (fails : Z) (s : rsys) : Prop :=
  forall x l, In x (holders cc (rs_sys s)) -> rs_loop s (x_id x) = Some l -> pl_fails (sl_loop l) <= fails.
Fixpoint r_along (c : cfg) (p : period) (P : rsys -> rop -> Prop) (s : rsys) (l : list rop) : Prop :=
  match l with [] => True | o :: l => P s o /\ r_along c p P (fst (rstep c p s o)) l end.
