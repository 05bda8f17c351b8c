(** Vocabulary of the retry properties. *)
From Verif Require Import Base ZSet Model Spec Retry.

(** [p], restricted to attempt number [j]. *)
Definition on_attempt (p : msg -> bool) (j : Z) (m : msg) : bool := p m && (m_attempt m =? j).

(** Reschedules of messages of [p] by admission control after the execution had
    started to unwind (it keeps its attempt number). *)
Definition n_readmitted (p : msg -> bool) (s : sys) (o : op) (r : out) : Z :=
  match o with
  | OResched h _ false _ => match get_exec (s_execs s) h with
                            | Some x => match x_phase x with PEnded => if p (x_msg x) then 1 else 0 | _ => 0 end
                            | None => 0 end
  | _ => 0
  end.

(** The retries of messages of [p] in this step are those of a policy with [n]
    attempts: with whatever delay, and whatever the clock read. *)
Definition retries_up_to (p : msg -> bool) (n : Z) (s : sys) (o : op) : Prop :=
  match o with
  | OResched h w true _ => forall x, get_exec (s_execs s) h = Some x -> p (x_msg x) = true ->
      exists d now, handle_failure (mkRetry (Some n) d) (m_attempt (x_msg x)) now = Some (w, m_attempt (x_msg x) + 1)
  | _ => True
  end.

(** [s] holds the message of the next attempt of what [m] asked for, due at [w]. *)
Definition retry_stored (s : sys) (m : msg) (w : Z) : Prop :=
  exists m', ((exists i, on_stream s i m') \/ in_future s m') /\
    m_key m' = m_key m /\ m_fn m' = m_fn m /\ m_args m' = m_args m /\ m_kwargs m' = m_kwargs m /\
    m_when m' = w /\ m_attempt m' = m_attempt m + 1 /\ live s m'.
