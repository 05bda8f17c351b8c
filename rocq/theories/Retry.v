(** Model of the retry policies (src/docket/dependencies/_retry.py).

    Durations and times are integers in microseconds, the resolution of Python's
    timedelta and datetime. *)
From Verif Require Import Base ZSet Model.

(** _retry.py:46-61: a policy after __aenter__ (76-80, 196-215): the number of
    attempts (None: unlimited) and the delay this execution would use. *)
Record retry := mkRetry { rt_attempts : option Z; rt_delay : Z }.

(** _retry.py:99-107: give up, or the time and attempt number of the next try.
    [now] is the clock read on line 106.  Not modelled: a sum beyond year 9999. *)
Definition handle_failure (r : retry) (attempt now : Z) : option (Z * Z) :=
  match rt_attempts r with
  | Some n => if n <=? attempt then None else Some (now + rt_delay r, attempt + 1)
  | None => Some (now + rt_delay r, attempt + 1)
  end.

(** _retry.py:83-85: the body asked for a retry after [d]. *)
Definition retry_after (r : retry) (d : Z) : retry := mkRetry (rt_attempts r) d.
(** _retry.py:88-92: the body asked, at clock reading [now], for a retry at [at_]. *)
Definition retry_at (r : retry) (now at_ : Z) : retry :=
  retry_after r (if 0 <=? at_ - now then at_ - now else 0).

(** worker.py:1178-1229 with a Retry dependency and no Perpetual: what a worker does
    with a failed execution [x].  [now] is the clock read by the policy, [t] the
    one read by schedule() or the terminal mark afterwards. *)
Definition after_failure (r : retry) (x : exec) (now t : Z) (err res : option string) : op :=
  match handle_failure r (m_attempt (x_msg x)) now with
  | Some (w, _) => OResched (x_id x) w true t
  | None => OTerminal (x_id x) SFailed t err res
  end.

(** ** ExponentialRetry *)

(** datetime.timedelta: the largest magnitude, 999999999 days and a day less one
    microsecond; the smallest is -999999999 days. *)
Definition day : Z := 86400000000.
Definition td_max : Z := 999999999 * day + (day - 1).
Definition td_min : Z := - (999999999 * day).
Definition td_ok (d : Z) : bool := (td_min <=? d) && (d <=? td_max).

(** timedelta * int raises OverflowError outside that range. *)
Definition td_mul (d n : Z) : option Z := if td_ok (d * n) then Some (d * n) else None.

(** _retry.py:196-215: the delay of the resolved policy; None: __aenter__ raised. *)
Definition exp_delay (minimum maximum attempt : Z) : option Z :=
  if 1 <? attempt then
    match td_mul minimum (2 ^ (attempt - 1)) with
    | Some d => Some (if maximum <? d then maximum else d)
    | None => None
    end
  else Some minimum.

(** The policy in force for an execution; a policy that failed to resolve is not
    found by get_single_dependency_of_type (worker.py:1186-1188). *)
Definition exp_retry (attempts : option Z) (minimum maximum attempt : Z) : option retry :=
  option_map (mkRetry attempts) (exp_delay minimum maximum attempt).

(** worker.py:1178-1229: without a resolved policy the failure is final. *)
Definition exp_after_failure (attempts : option Z) (minimum maximum : Z) (x : exec) (now t : Z) (err res : option string) : op :=
  match exp_retry attempts minimum maximum (m_attempt (x_msg x)) with
  | Some r => after_failure r x now t err res
  | None => OTerminal (x_id x) SFailed t err res
  end.
