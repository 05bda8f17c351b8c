(** Vocabulary of C115. *)
From Verif Require Import Base ZSet Heartbeat Departed.

Definition named (w : string) (s : dep) (y : stay) : Prop := In y (dp_stays s) /\ st_name y = w.
(** Nothing of [w] is at work, and nothing it sent is on its way. *)
Definition at_rest (w : string) (s : dep) : Prop :=
  (forall y, named w s y -> st_on y = false) /\ (forall t names, ~ In (w, t, names) (dp_air s)).
(** The tasks a worker knows only become more: every earlier attempt under the name knew no
    other tasks than [y] does. *)
Definition knows_all (w : string) (s : dep) (y : stay) : Prop :=
  forall z n, named w s z -> In n (st_tasks z) -> In n (st_tasks y).
Definition not_coming (w : string) (e : dev) : Prop := forall names, e <> DCome w names.
(** The clock readings of the heartbeats that [w] sent. *)
Fixpoint sent (age : Z) (w : string) (s : dep) (l : list dev) : list Z :=
  match l with
  | [] => []
  | e :: l =>
      (match e with
       | DSend i t => match nth_error (dp_stays s) i with Some y => if st_on y && String.eqb (st_name y) w then [t] else [] | None => [] end
       | _ => []
       end) ++ sent age w (dstep age s e) l
  end.
