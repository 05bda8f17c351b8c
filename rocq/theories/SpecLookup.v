(** Vocabulary of the statements about get_execution. *)
From Verif Require Import Base ZSet Model Spec Lookup.

(** The function a worker with this registry runs for [name] (or the stand-in). *)
Definition function_for (reg : registry) (name : string) (f : pyfun) : Prop :=
  reg name = Some f \/ (reg name = None /\ f_name f = name).

(** The handle describes the run whose message is [m]: same task, function,
    arguments and time. *)
Definition describes (reg : registry) (h : handle) (m : msg) : Prop :=
  hd_key h = m_key m /\ function_for reg (m_fn m) (hd_fun h) /\ hd_args h = m_args m /\
  hd_kwargs h = m_kwargs m /\ hd_when h = m_when m.

(** The handle shows what the store records about the progress of the task. *)
Definition up_to_date (d : db) (h : handle) : Prop :=
  r_state (rget d (hd_key h)) = Some (hd_state h) /\ r_worker (rget d (hd_key h)) = hd_worker h /\
  r_started (rget d (hd_key h)) = hd_started h /\ r_completed (rget d (hd_key h)) = hd_completed h /\
  r_error (rget d (hd_key h)) = hd_error h /\ r_result (rget d (hd_key h)) = hd_result h.

(** While a run of [k] waits in a concurrency line nothing else is scheduled under
    [k], and only a current run joins the line. *)
Definition one_line (k : key) (s : sys) (o : op) : Prop :=
  match o with
  | OAdd a _ | OReplace a _ => a_key a = k -> not_waiting k s
  | OResched h _ _ _ => forall x, get_exec (s_execs s) h = Some x -> m_key (x_msg x) = k -> not_waiting k s
  | OAcquire h _ _ _ => current_run k s h /\
      forall x, get_exec (s_execs s) h = Some x -> m_key (x_msg x) = k -> not_waiting k s
  | _ => True
  end.

(** Histories in which the record of [k] is kept and its line is undisturbed. *)
Definition orderly (c : cfg) (k : key) (l : list op) : Prop :=
  along c (fun s o => keeps c k s o /\ one_line k s o) init_sys l.

(** The handle repeats the function and arguments of a call. *)
Definition repeats (reg : registry) (h : handle) (a : call) : Prop :=
  hd_key h = a_key a /\ function_for reg (a_fn a) (hd_fun h) /\ hd_args h = a_args a /\ hd_kwargs h = a_kwargs a.

(** Task functions have names. *)
Definition named (o : op) : Prop :=
  match o with OAdd a _ | OReplace a _ => a_fn a <> EmptyString | _ => True end.
