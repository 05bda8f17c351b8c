(** Vocabulary of the property of entering and leaving a docket (C96): specification, not model. *)
From Verif Require Import Base Stack.

(** Everything opened is closed afterwards, and what was opened inside is closed inside. *)
Inductive nested : list ev -> Prop :=
| nested_nil : nested []
| nested_in : forall k n l l', nested l -> nested l' -> nested (EOpen k n :: l ++ EClose k n :: l').
(** The numbers of the things that were opened. *)
Definition opens (l : list ev) : list nat :=
  flat_map (fun e => match e with EOpen _ n => [n] | EClose _ _ => [] end) l.
Definition of_kind (k : kind) (l : list ev) : nat :=
  length (filter (fun e => match e, k with
    | EOpen KPool _, KPool | EOpen KCluster _, KCluster | EOpen KNode _, KNode
    | EOpen KMonitor _, KMonitor | EOpen KClient _, KClient => true | _, _ => false end) l).

(** Nothing goes wrong while entering. *)
Definition smooth (f : faults) : Prop := (forall o k, f_open f o k = false) /\ f_setup f = false.
(** The very first connection fails. *)
Definition at_once (m : mode) (f : faults) : Prop :=
  match m with
  | Standalone => f_open f ORedis KPool = true
  | Cluster => f_open f ORedis KCluster = true
  | Memory => False
  end.

(** The thing [n] was opened and not closed. *)
Definition left_open (n : nat) (l : list ev) : Prop :=
  (exists k, In (EOpen k n) l) /\ forall k, ~ In (EClose k n) l.
