(** What histories of run_at_most calls mean (C109). *)
From Verif Require Import Base Conditions.

Definition is_begin (o : cop) : bool := match o with CBegin _ _ => true | _ => false end.
(** Calls are numbered in the order in which they begin. *)
Definition calls (l : list cop) : nat := length (filter is_begin l).
(** The call [i] of [w] with the limits [lim] is running after [l]; [l2] is what happened since. *)
Definition running (l : list cop) (i : nat) (w : string) (lim : string -> option Z) (l2 : list cop) : Prop :=
  exists l1, l = l1 ++ CBegin w lim :: l2 /\ calls l1 = i /\ ~ In (CEnd i) l2.
(** How often [w] has counted [k] in [l]. *)
Definition times (w k : string) (l : list cop) : Z :=
  Z.of_nat (length (filter (fun o => match o with CCount w' k' => String.eqb w' w && String.eqb k' k | _ => false end) l)).
(** No worker makes a second call before its last one has ended. *)
Definition one_each (l : list cop) : Prop :=
  forall l1 w lim l2, l = l1 ++ CBegin w lim :: l2 -> forall i lim' l3, ~ running l1 i w lim' l3.
(** Some running call has reached its limit for [k]. *)
Definition limit_reached (l : list cop) (k : string) : Prop :=
  exists i w lim l2 n, running l i w lim l2 /\ lim k = Some n /\ n <= times w k l2.
