(** Vocabulary of the properties of overlapping progress reports (C118). *)
From Verif Require Import Base Announce.

(** What somebody believes who knew the progress when the run was claimed and has
    received all events since. *)
Definition believed (s : asys) : view := last (a_events s) fresh.

(** No report is on its way. *)
Definition settled (s : asys) : Prop := forall i, a_calls s i = None.

(** The sum of the increments of a history that are not refused. *)
Fixpoint increments (l : list aop) : Z :=
  match l with
  | [] => 0
  | ABegin _ (Incr n) :: l => (if n <? 1 then 0 else n) + increments l
  | _ :: l => increments l
  end.
Fixpoint aalong (P : asys -> aop -> Prop) (s : asys) (l : list aop) : Prop :=
  match l with [] => True | o :: l => P s o /\ aalong P (astep s o) l end.
(** Calls are told apart by numbers: none is made under the number of one that is on its way. *)
Definition new_number (s : asys) (o : aop) : Prop := match o with ABegin i _ => a_calls s i = None | _ => True end.

(** Every call is made after the one before it is over. *)
Definition one_by_one (s : asys) (o : aop) : Prop := match o with ABegin _ _ => settled s | _ => True end.
