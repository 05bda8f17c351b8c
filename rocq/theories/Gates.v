(** One run that is delivered several times (retried, parked and woken, redelivered
    after a crash) and passes the same admission control every time; and the object of
    a RateLimit that several runs share.  No proofs in this file.

    [G1] The run is the only one in its Cooldown or RateLimit group; worker and server
         clocks agree. *)
From Verif Require Import Base ZSet Text Admission Execute.

(** What happens at one delivery: the time at which the dependencies are entered,
    whether a ConcurrencyLimit of the task is full, whether the worker dies before it
    has settled the message, what the body does, what the task's Retry answers. *)
Record visit := mkVisit { v_time : Z; v_full : bool; v_crash : bool; v_body : body; v_retry : fres }.

Definition pass (o : option exn) : xres := Through.

(** _concurrency.py:575-636: full: the task is parked and ConcurrencyBlocked (handled)
    is raised. *)
Definition conc_dep (full : bool) : dep := if full then DFailed (XBlocked true true) else DParam None None pass.

(** /repo/src/docket/dependencies/_cooldown.py:61-71: blocked means
    AdmissionBlocked(reschedule=False); __aexit__ (73-79) does nothing. *)
Definition cd_dep (r : cd_reply) : dep :=
  match r with
  | CDProceed => DAnnot pass
  | CDBlocked => DFailed (XBlocked false false)
  | CDError => DFailed (XErr "ResponseError" true)
  end.

(** _ratelimit.py:140-156 *)
Definition rl_dep (drop : bool) (r : option rl_reply) : dep :=
  match r with
  | Some RLProceed | None => DAnnot pass
  | Some (RLBlocked _) => DFailed (XBlocked false (negb drop))
  | Some RLError => DFailed (XErr "ResponseError" true)
  end.

(** The dependencies of the task: the gate, a ConcurrencyLimit, a Retry. *)
Definition visit_env (g : dep) (v : visit) : env :=
  mkEnv false true [g; conc_dep (v_full v); DParam (Some (fun _ => v_retry v)) None pass] None (v_body v) true None.

(** A worker that dies leaves what its dependencies did on entering
    (_resolution.py:166-217: every dependency is entered, whatever happened to the
    others), but no outcome. *)
Definition events (g : dep) (v : visit) : list ev :=
  if v_crash v then [KStarted; KRunning 1] else fst (whole (visit_env g v)).

(** Deliveries of a task with a Cooldown. *)
Definition cd_visit (w : Z) (st : option Z) (v : visit) : option Z * list ev :=
  let '(st, r) := cd_step w st (v_time v) in (st, events (cd_dep r) v).
Fixpoint cd_visits (w : Z) (st : option Z) (l : list visit) : list (list ev) :=
  match l with [] => [] | v :: l => snd (cd_visit w st v) :: cd_visits w (fst (cd_visit w st v)) l end.

(** Deliveries of the task [k] with a RateLimit; __aexit__ (_ratelimit.py:159-170) takes
    the entry back if AdmissionBlocked is raised and the worker lives. *)
Definition rl_visit (n w : Z) (drop : bool) (k : string) (st : rlog) (v : visit) : rlog * list ev :=
  let '(st, r) := rl_step n w st (RLReq k (v_time v) (v_time v)) in
  let st := match r with
            | Some RLProceed => if v_full v && negb (v_crash v) then fst (rl_step n w st (RLUndo k (v_time v))) else st
            | _ => st
            end in
  (st, events (rl_dep drop r) v).
Fixpoint rl_visits (n w : Z) (drop : bool) (k : string) (st : rlog) (l : list visit) : list (list ev) :=
  match l with
  | [] => []
  | v :: l => snd (rl_visit n w drop k st v) :: rl_visits n w drop k (fst (rl_visit n w drop k st v)) l
  end.

(** ** The shared object of a RateLimit given as a parameter default *)

(** The log in Redis and the attributes _ratelimit_key, _member of the object
    (_ratelimit.py:97-103, 143-145), which all runs of the task in one worker share
    (_resolution.py:191-200 enters the default itself; _concurrency.py:546-548 says so). *)
Record rshare := mkRS { rs_log : rlog; rs_obj : option (string * Z) }.
Definition rs_empty : rshare := mkRS rl_empty None.

(** [RSEnter]: __aenter__ of run [k]; [RSHeld]: __aexit__ of run [k], entered at [now],
    that another admission control holds back (_ratelimit.py:159-170). *)
Inductive rs_ev := RSEnter (k : string) (now srv : Z) | RSHeld (k : string) (now : Z).

Definition rs_step (n w : Z) (st : rshare) (e : rs_ev) : rshare * option rl_reply :=
  match e with
  | RSEnter k now srv =>
      let '(log, r) := rl_step n w (rs_log st) (RLReq k now srv) in
      (mkRS log (match r with Some RLProceed => Some (k, now) | _ => rs_obj st end), r)
  | RSHeld _ _ =>
      match rs_obj st with
      | Some (k', now') => (mkRS (fst (rl_step n w (rs_log st) (RLUndo k' now'))) (rs_obj st), None)
      | None => (st, None)
      end
  end.
Fixpoint rs_run (n w : Z) (st : rshare) (l : list rs_ev) : rshare :=
  match l with [] => st | e :: l => rs_run n w (fst (rs_step n w st e)) l end.

(** What the runs meant to do: each gives back its own entry. *)
Definition rs_meant (e : rs_ev) : rl_ev := match e with RSEnter k now srv => RLReq k now srv | RSHeld k now => RLUndo k now end.
Fixpoint rs_trace (n w : Z) (st : rshare) (l : list rs_ev) : list (rl_ev * option rl_reply) :=
  match l with
  | [] => []
  | e :: l => (rs_meant e, snd (rs_step n w st e)) :: rs_trace n w (fst (rs_step n w st e)) l
  end.
