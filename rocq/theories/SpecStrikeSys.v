(** Vocabulary of the property about struck tasks. *)
From Verif Require Import Base ZSet Model Strike SpecStrike StrikeSys.

(** [P] holds in every state of a history. *)
Fixpoint sthroughout (c : cfg) (bind : binder) (P : ssys -> Prop) (s : ssys) (l : list sop) : Prop :=
  P s /\ match l with [] => True | o :: l => sthroughout c bind P (fst (sstep c bind s o)) l end.

(** In process [p] a strike that describes the message is in force. *)
Definition struck_in (bind : binder) (p : string) (m : msg) (s : ssys) : Prop :=
  exists i, In i (ss_applied s p) /\ in_force (ss_applied s p) i /\ describes i (target_of bind m).
(** The instructions [p] has seen strike functions either as a whole or by
    parameters, with hashable values. *)
Definition orderly (p : string) (s : ssys) : Prop := unmixed (ss_applied s p) /\ all_hashable (ss_applied s p).

(** What blocks the message in [p], whatever the instructions [p] has seen: a lasting strike
    of its function as a whole, or a strike in force on a parameter that describes it;
    instructions on unhashable values count for nothing. *)
Definition blocked_in (bind : binder) (p : string) (m : msg) (s : ssys) : Prop :=
  let l := filter (fun i => hashable (in_val i)) (ss_applied s p) in
  wholly_struck l (tg_fn (target_of bind m)) \/
  exists i, In i l /\ in_force l i /\ given (in_param i) <> None /\ describes i (target_of bind m).

(** The body of an execution has been started, or may be without another check. *)
Definition under_way (x : exec) : Prop := x_phase x = PClaimed \/ x_phase x = PBody \/ x_phase x = PEnded.
