(** Model of the admission controls RateLimit, Cooldown and Debounce: what their
    scripts do to their Redis keys, and histories of requests against one such key.
    Times are whole milliseconds, as in the code.  No proofs in this file. *)
From Verif Require Import Base ZSet Text.

(** A Redis key with expiry time [e] is gone once the server clock is past [e]. *)
Definition gone (e : option Z) (srv : Z) : bool := match e with Some e => e <? srv | None => false end.

(** ** RateLimit *)

(** The sorted set at the rate limit key and its expiry,
    /repo/src/docket/dependencies/_ratelimit.py:24-63.  (Redis deletes an emptied
    sorted set together with its expiry; every ZADD here is followed by PEXPIRE, so
    keeping the old expiry on an empty set has no effect.) *)
Record rlog := mkRlog { rl_log : zset; rl_exp : option Z }.
Definition rl_empty : rlog := mkRlog [] None.

(** /repo/src/docket/dependencies/_ratelimit.py:20-21 the two actions; [RLError] is
    the Lua error of lines 55-57 when the set is empty (nil + number). *)
Inductive rl_reply := RLProceed | RLBlocked (retry_after : Z) | RLError.

(** /repo/src/docket/dependencies/_ratelimit.py:127 *)
Definition rl_member (key : string) (now : Z) : string := (key ++ ":" ++ dec now)%string.

(** /repo/src/docket/dependencies/_ratelimit.py:24-63 script _ratelimit, called with
    ttl_ms = 2 * window_ms (line 126).  [srv] is the server clock, [now] the
    worker's.  PEXPIRE with a time that is not positive deletes the key. *)
Definition rl_script (st : rlog) (member : string) (now window limit srv : Z) : rlog * rl_reply :=
  let st := if gone (rl_exp st) srv then rl_empty else st in
  let cutoff := now - window in
  let log := filter (fun p => cutoff <? fst p) (rl_log st) in
  if zcard log <? limit then
    let log := zadd now member log in
    let ttl := window * 2 in
    ((if ttl <=? 0 then rl_empty else mkRlog log (Some (srv + ttl))), RLProceed)
  else
    match log with
    | [] => (mkRlog log (rl_exp st), RLError)
    | (oldest, _) :: _ =>
        let retry := oldest + window - now in
        (mkRlog log (rl_exp st), RLBlocked (if retry <? 1 then 1 else retry))
    end.

(** One request of a worker, /repo/src/docket/dependencies/_ratelimit.py:112-156
    __aenter__, or the ZREM of __aexit__ (158-170) when another admission control
    blocked the task after this one had admitted it. *)
Inductive rl_ev := RLReq (key : string) (now srv : Z) | RLUndo (key : string) (now : Z).

Definition rl_step (n w : Z) (st : rlog) (e : rl_ev) : rlog * option rl_reply :=
  match e with
  | RLReq k now srv => let '(st, r) := rl_script st (rl_member k now) now w n srv in (st, Some r)
  | RLUndo k now => (mkRlog (zrem (rl_member k now) (rl_log st)) (rl_exp st), None)
  end.

(** A history of such events against one key, from state [st]. *)
Fixpoint rl_run (n w : Z) (st : rlog) (l : list rl_ev) : rlog :=
  match l with [] => st | e :: l => rl_run n w (fst (rl_step n w st e)) l end.
Fixpoint rl_trace (n w : Z) (st : rlog) (l : list rl_ev) : list (rl_ev * option rl_reply) :=
  match l with
  | [] => []
  | e :: l => (e, snd (rl_step n w st e)) :: rl_trace n w (fst (rl_step n w st e)) l
  end.

(** ** Cooldown *)

(** /repo/src/docket/dependencies/_cooldown.py:47-71 __aenter__: SET NX PX.  The
    state is the expiry time of the key, if it exists.  Redis refuses an expiry that
    is not positive with an error. *)
Inductive cd_reply := CDProceed | CDBlocked | CDError.
Definition cd_step (w : Z) (st : option Z) (srv : Z) : option Z * cd_reply :=
  if w <=? 0 then (st, CDError)
  else match st with
       | Some e => if gone (Some e) srv then (Some (srv + w), CDProceed) else (st, CDBlocked)
       | None => (Some (srv + w), CDProceed)
       end.
Fixpoint cd_trace (w : Z) (st : option Z) (l : list Z) : list (Z * cd_reply) :=
  match l with
  | [] => []
  | t :: l => (t, snd (cd_step w st t)) :: cd_trace w (fst (cd_step w st t)) l
  end.

(** ** Debounce *)

(** The two keys of a group, /repo/src/docket/dependencies/_debounce.py:122-123,
    each with its value and expiry. *)
Record deb := mkDeb { db_winner : option (string * Z); db_seen : option (Z * Z) }.
Definition deb_empty : deb := mkDeb None None.
Inductive db_reply := DBProceed | DBReschedule (remaining : Z) | DBDrop.

(** GET of a key with expiry. *)
Definition fresh_value {A} (v : option (A * Z)) (srv : Z) : option (A * Z) :=
  match v with Some (_, e) => if gone (Some e) srv then None else v | None => None end.

(** PEXPIRE of a key with expiry (a key that is absent stays absent). *)
Definition pexpire {A} (v : option (A * Z)) (e : Z) : option (A * Z) :=
  match v with Some (a, _) => Some (a, e) | None => None end.

(** /repo/src/docket/dependencies/_debounce.py:25-72 script _debounce, called with
    ttl_ms = 10 * settle_ms (line 127).  A settle time below 1 ms makes the SET fail
    with an error; histories below assume it positive. *)
Definition db_script (st : deb) (key : string) (settle now srv : Z) : deb * db_reply :=
  let winner := fresh_value (db_winner st) srv in
  let seen := fresh_value (db_seen st) srv in
  let e := srv + settle * 10 in
  match winner with
  | None => (mkDeb (Some (key, e)) (Some (now, e)), DBReschedule settle)
  | Some (w, _) =>
      if String.eqb w key then
        let last_seen := match seen with Some (t, _) => t | None => 0 end in
        let elapsed := now - last_seen in
        if settle <=? elapsed then (deb_empty, DBProceed)
        else (mkDeb (pexpire winner e) (pexpire seen e), DBReschedule (settle - elapsed))
      else (mkDeb (pexpire winner e) (Some (now, e)), DBDrop)
  end.

(** A submission reaching the admission control: task key, worker clock, server clock. *)
Record db_ev := mkSub { sb_key : string; sb_now : Z; sb_srv : Z }.
Definition db_step (settle : Z) (st : deb) (s : db_ev) : deb * db_reply :=
  db_script st (sb_key s) settle (sb_now s) (sb_srv s).
Fixpoint db_run (settle : Z) (st : deb) (l : list db_ev) : deb :=
  match l with [] => st | s :: l => db_run settle (fst (db_step settle st s)) l end.
Fixpoint db_trace (settle : Z) (st : deb) (l : list db_ev) : list (db_ev * db_reply) :=
  match l with
  | [] => []
  | s :: l => (s, snd (db_step settle st s)) :: db_trace settle (fst (db_step settle st s)) l
  end.
