(** What a TaskArgument object stands for, read off the history of a process (C110). *)
From Verif Require Import Base Strike Bind TaskArg.

(** The names of the dependency parameters for which [i] was resolved, in order. *)
Fixpoint used_for (i : Z) (l : list ta_op) : list string :=
  match l with
  | [] => []
  | TDepends _ j p :: l => if j =? i then p :: used_for i l else used_for i l
  | TTask _ _ _ :: l => used_for i l
  end.
(** The process begins with the objects as written in the program. *)
Definition written (s : ta_objs) (i : Z) : option string :=
  match o_name s i with Some n => if String.eqb n "" then None else Some n | None => None end.
(** Looking up the argument [n] of the call. *)
Definition looks_up (s : ta_objs) (i : Z) (e : ta_call) (n : string) : ta_out :=
  TGot (task_argument (o_optional s i) (t_params e) (t_args e) (t_kwargs e) n).
Definition one_name (i : Z) (p : string) (l : list ta_op) : Prop := forall q, In q (used_for i l) -> q = p.
(** A parameter has a name. *)
Definition real_names (l : list ta_op) : Prop := forall i q, In q (used_for i l) -> q <> ""%string.
