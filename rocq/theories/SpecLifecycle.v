(** Vocabulary of C91. *)
From Verif Require Import Base Lifecycle.

(** Dependencies that a function or a worker declares. *)
Definition declared (t : task_fn) (d : dep) : Prop := In (Some d) (tf_defaults t) \/ exists l, In l (tf_annotations t) /\ In d l.
(** Dependencies that are used when they are resolved: also those of dependencies. *)
Inductive reaches : dep -> dep -> Prop :=
| rc_self d : reaches d d
| rc_inner d e f : In e (d_inner d) -> reaches e f -> reaches d f.
Definition used (tasks : list task_fn) (worker_deps : list dep) (d : dep) : Prop :=
  exists e, ((exists t, In t tasks /\ declared t e) \/ In e worker_deps) /\ reaches e d.
Definition flat (tasks : list task_fn) (worker_deps : list dep) : Prop :=
  forall d, used tasks worker_deps d -> d_inner d = [].

Fixpoint entered (c : string) (l : list lev) : nat :=
  match l with [] => 0 | LEnter d :: l => (if String.eqb c d then 1 else 0) + entered c l | _ :: l => entered c l end%nat.
(** Entered and left like parentheses; [open]: what has been entered and not left. *)
Fixpoint nested (open : list string) (l : list lev) : option (list string) :=
  match l with
  | [] => Some open
  | LEnter c :: l => nested (c :: open) l
  | LFail _ :: l => nested open l
  | LExit c :: l => match open with d :: open => if String.eqb c d then nested open l else None | [] => None end
  end.
