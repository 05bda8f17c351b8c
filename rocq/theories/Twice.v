(** Executions with more than one outcome.  Model.v refuses a second outcome of an execution; the worker does not
    (C103_settled_twice_refuted).  Here it is carried out.  No proofs in this file. *)
From Verif Require Import Base Model.

(** worker.py:1126-1231, 707-734: a run that was completed, and whose dependencies raise when they are left, goes through the handlers of a failed run: its Retry
    reschedules it (_retry.py:99-112), or it is marked again.  Nothing on the way looks whether there is
    an outcome already, nor do the scripts (execution.py:57-241, 322-439): an execution that is over is treated as
    one whose body has ended.  (Simplified: an execution that is rescheduled a second time is
    rescheduled with the attempt number of the first time; the code counts on.) *)
Definition reopen (s : sys) (o : op) : sys :=
  match o with
  | OTerminal h _ _ _ _ | OResched h _ _ _ =>
      mkSys (s_db s) (upd_exec (s_execs s) h (fun x => match x_phase x with PDone => with_phase PEnded x | _ => x end)) (s_nextx s) (s_clear s)
  | _ => s
  end.

(** One operation, with later outcomes carried out as well: Model.v:678-800 (worker.py:693-734, 1011-1235). *)
Definition step2 (c : cfg) (s : sys) (o : op) : sys * out := step c (reopen s o) o.

(** Histories of such operations. *)
Fixpoint run2 (c : cfg) (s : sys) (l : list op) : sys * list out :=
  match l with
  | [] => (s, [])
  | o :: l => let '(s, r) := step2 c s o in let '(s, rs) := run2 c s l in (s, r :: rs)
  end.
Definition final2 (c : cfg) (s : sys) (l : list op) : sys := fst (run2 c s l).
Definition outs2 (c : cfg) (s : sys) (l : list op) : list out := snd (run2 c s l).
