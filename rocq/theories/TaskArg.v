(** TaskArgument objects over the life of a process: which argument each stands for
    (/repo/src/docket/dependencies/_contextual.py:92-108, _functional.py:34-50,
    _resolution.py:180-205).  An object without a parameter name is given one when it is first
    resolved as the default of a dependency function's parameter, and keeps it.

    Not modelled: dependencies of other types (C42, C58-C61), the cache of Depends. *)
From Verif Require Import Base Strike Bind.

(** The objects of the process, by number: [o_name] is the attribute parameter
    (_contextual.py:93, 97), None or "" when none was given; [o_optional] (94, 98). *)
Record ta_objs := mkObjs { o_name : Z -> option string; o_optional : Z -> bool }.
(** not dependency.parameter (_functional.py:44, _resolution.py:195) *)
Definition unnamed (n : option string) : bool := match n with None => true | Some s => String.eqb s "" end.

(** The call of a task: its parameters, arguments and keyword arguments (execution.get_argument,
    execution.py:623-626). *)
Record ta_call := mkCallTA { t_params : list parm; t_args : list pv; t_kwargs : kwargs }.

(** Object [i] is resolved for call [e], as the default of the parameter [p] of a dependency
    function (_functional.py:43-47), or of the task's own function (_resolution.py:182-205). *)
Inductive ta_op := TDepends (e : ta_call) (i : Z) (p : string) | TTask (e : ta_call) (i : Z) (p : string).
(** What the parameter gets: what __aenter__ returned or raised (_contextual.py:100-108), the
    value the caller passed (_resolution.py:184-186), or "No parameter name specified" (197-199). *)
Inductive ta_out := TGot (r : ta_result) | TPassed (v : pv) | TNoName.

(** _contextual.py:100-108 *)
Definition ta_enter (s : ta_objs) (e : ta_call) (i : Z) : ta_out :=
  match o_name s i with
  | Some n => TGot (task_argument (o_optional s i) (t_params e) (t_args e) (t_kwargs e) n)
  | None => TNoName
  end.

Definition ta_step (s : ta_objs) (o : ta_op) : ta_objs * ta_out :=
  match o with
  | TDepends e i p =>
      let s := if unnamed (o_name s i) then mkObjs (fun j => if j =? i then Some p else o_name s j) (o_optional s) else s in
      (s, ta_enter s e i)
  | TTask e i p =>
      (s, match kget (t_kwargs e) p with
          | Some v => TPassed v
          | None => if unnamed (o_name s i) then TNoName else ta_enter s e i
          end)
  end.
Fixpoint ta_run (s : ta_objs) (l : list ta_op) : ta_objs :=
  match l with [] => s | o :: l => ta_run (fst (ta_step s o)) l end.
