(** What due times mean, over exact microseconds. *)
From Verif Require Import Base Instant.

(** Instants from 1970 to 2242-03-16 12:56:32 UTC (2^33 seconds). *)
Definition near (t : Z) : Prop := 0 <= t < 1000000 * 2 ^ 33.

Definition near_ev (e : qev) : Prop :=
  match e with QPark _ w => near w | QRemove _ => True | QSweep now => near now end.

(** Instants from 1970 to the end of the year 9999, the last Python can name. *)
Definition calendar (t : Z) : Prop := 0 <= t < 1000000 * 253402300800.

(** What key [k] is waiting for: the time it was parked until last, unless it has been
    taken out since or a sweep at or after that time has. *)
Definition waits1 (k : nat) (o : option Z) (e : qev) : option Z :=
  match e with
  | QPark k' w => if (k' =? k)%nat then Some w else o
  | QRemove k' => if (k' =? k)%nat then None else o
  | QSweep now => match o with Some w => if w <=? now then None else o | None => None end
  end.

Definition waits (k : nat) (evs : list qev) : option Z := fold_left (waits1 k) evs None.
