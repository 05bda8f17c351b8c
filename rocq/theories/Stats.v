(** What `docket snapshot --stats` counts and what the testing helpers assert:
    /repo/src/docket/cli/_support.py:196-249 and /repo/src/docket/testing.py. *)
From Verif Require Import Base ZSet Model Snapshot.

(** cli/_support.py:196-206 TaskStats *)
Record tstats := mkStats {
  t_running : Z; t_queued : Z; t_total : Z;
  t_oldest_queued : option Z; t_latest_queued : option Z;
  t_oldest_started : option Z; t_latest_started : option Z }.
Definition no_stats : tstats := mkStats 0 0 0 None None None None.

(** cli/_support.py:224-229, 242-247: "oldest is None or x < oldest". *)
Definition older (o : option Z) (x : Z) : option Z := match o with None => Some x | Some y => if x <? y then Some x else Some y end.
Definition later (o : option Z) (x : Z) : option Z := match o with None => Some x | Some y => if y <? x then Some x else Some y end.

(** cli/_support.py:215-218: the entry of a function name, created when missing. *)
Fixpoint change (f : string) (g : tstats -> tstats) (l : list (string * tstats)) : list (string * tstats) :=
  match l with
  | [] => [(f, g no_stats)]
  | (f', t) :: l => if String.eqb f' f then (f', g t) :: l else (f', t) :: change f g l
  end.
Definition lookup (f : string) (l : list (string * tstats)) : option tstats :=
  option_map snd (find (fun e => String.eqb (fst e) f) l).

(** cli/_support.py:214-229 and 232-247 *)
Definition count_running (started : Z) (t : tstats) : tstats :=
  mkStats (t_running t + 1) (t_queued t) (t_total t + 1) (t_oldest_queued t) (t_latest_queued t)
    (older (t_oldest_started t) started) (later (t_latest_started t) started).
Definition count_queued (when : Z) (t : tstats) : tstats :=
  mkStats (t_running t) (t_queued t + 1) (t_total t + 1) (older (t_oldest_queued t) when) (later (t_latest_queued t) when)
    (t_oldest_started t) (t_latest_started t).

(** cli/_support.py:209-249 get_task_stats, over (function_name, started) of the running and
    (function_name, when) of the future executions. *)
Definition get_task_stats (running future : list (string * Z)) : list (string * tstats) :=
  fold_left (fun l e => change (fst e) (count_queued (snd e)) l) future
    (fold_left (fun l e => change (fst e) (count_running (snd e)) l) running []).

(** _docket_snapshot.py:24-51, 179-186: a running execution is copied without its function
    name, so that execution.py:475 takes the __name__ of the registered function;
    [pyname] maps the name a task is registered under to the __name__ of its function
    (docket.py:284-299).  [started]: now minus the time since delivery. *)
Definition running_names (pyname : string -> string) (started : sid -> Z) (sn : snap) : list (string * Z) :=
  map (fun e => (pyname (m_fn (snd (fst e))), started (fst (fst e)))) (sn_running sn).
(** _docket_snapshot.py:187-192: future executions keep theirs (execution.py:605). *)
Definition future_names (sn : snap) : list (string * Z) := map (fun e => (m_fn (snd e), m_when (snd e))) (sn_future sn).

(** cli/__init__.py:597-600 *)
Definition docket_stats (pyname : string -> string) (started : sid -> Z) (sn : snap) : list (string * tstats) :=
  get_task_stats (running_names pyname started sn) (future_names sn).

(** testing.py:26-51 _matches_criteria.  [kw]: the keyword arguments encoded in the
    message, as a partial map; equality of arguments is equality of what was pickled. *)
Record criteria := mkCrit { c_fn : string; c_args : option string; c_kwargs : option (list (string * string)); c_key : option key }.
Definition matches (kw : string -> string -> option string) (q : criteria) (m : msg) : bool :=
  String.eqb (m_fn m) (c_fn q) &&
  match c_key q with Some k => String.eqb (m_key m) k | None => true end &&
  match c_args q with Some a => String.eqb (m_args m) a | None => true end &&
  match c_kwargs q with
  | Some l => forallb (fun e => match kw (m_kwargs m) (fst e) with Some v => String.eqb v (snd e) | None => false end) l
  | None => true end.

(** testing.py:78-131, 134-170, 173-207, 210-235: whether the assertion passes; all four look at
    [snapshot.future] only. *)
Definition assert_task_scheduled kw (q : criteria) (sn : snap) : bool := existsb (fun e => matches kw q (snd e)) (sn_future sn).
Definition assert_task_not_scheduled kw (q : criteria) (sn : snap) : bool := forallb (fun e => negb (matches kw q (snd e))) (sn_future sn).
Definition assert_task_count (f : option string) (n : Z) (sn : snap) : bool :=
  Z.of_nat (length (filter (fun e => match f with Some f => String.eqb (m_fn (snd e)) f | None => true end) (sn_future sn))) =? n.
Definition assert_no_tasks (sn : snap) : bool := match sn_future sn with [] => true | _ => false end.
