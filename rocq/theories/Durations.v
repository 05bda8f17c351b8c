(** Model of the durations given to the admission controls: a timedelta is a whole
    number of microseconds; the code turns it into whole milliseconds through a
    binary64 number of seconds.  No proofs in this file. *)
From Verif Require Import Base ZSet Text Admission.

(** Rounding of [a / b] to the nearest integer, ties to even (IEEE 754, the rounding of
    Python's float operations; used at /repo/src/docket/dependencies/_ratelimit.py:124). *)
Definition rhe (a b : Z) : Z :=
  let q := a / b in
  let r := a mod b in
  if 2 * r <? b then q else if b <? 2 * r then q + 1 else if Z.even q then q else q + 1.

(** The binary64 number nearest to [a / b] (both positive), as a fraction: 53
    significant bits, no bound on the exponent (the numbers here are between a
    microsecond and the largest timedelta, in seconds and milliseconds).  The exponent
    is [e1] or the next one, whichever leaves 53 bits.  Arithmetic of
    /repo/src/docket/dependencies/_ratelimit.py:124. *)
Definition scale (a b e : Z) : Z * Z := if 0 <=? e then (a, b * 2 ^ e) else (a * 2 ^ (- e), b).
Definition fl (a b : Z) : Z * Z :=
  let e1 := Z.log2 a - Z.log2 b - 53 in
  let '(x, y) := scale a b e1 in
  let e := if x <? 2 ^ 53 * y then e1 else e1 + 1 in
  let '(x, y) := scale a b e in
  let m := rhe x y in
  if 0 <=? e then (m * 2 ^ e, 1) else (m, 2 ^ (- e)).

(** [int(d.total_seconds() * 1000)] for a timedelta [d] of [us] microseconds:
    /repo/src/docket/dependencies/_ratelimit.py:124,
    /repo/src/docket/dependencies/_cooldown.py:59,
    /repo/src/docket/dependencies/_debounce.py:125,
    /repo/src/docket/worker.py:638-640 (min_idle_time) and 659 (block).
    timedelta.total_seconds is the correctly rounded quotient of the microseconds by
    10**6 (Python's standard library, not part of /repo); int() truncates. *)
Definition ms_of (us : Z) : Z :=
  if us <=? 0 then 0
  else
    let '(n, d) := fl us 1000000 in
    let '(n, d) := fl (n * 1000) d in
    n / d.

(** The script _debounce with the error of its SET commands: an expiry that is not
    positive is refused by Redis, the script stops and nothing has been written,
    /repo/src/docket/dependencies/_debounce.py:41-46 (lines 67-70 run only where a
    winner has been recorded).  [None] is the error. *)
Definition db_enter (settle : Z) (st : deb) (s : db_ev) : deb * option db_reply :=
  match fresh_value (db_winner st) (sb_srv s) with
  | None => if settle * 10 <=? 0 then (st, None) else let '(st, r) := db_step settle st s in (st, Some r)
  | Some _ => let '(st, r) := db_step settle st s in (st, Some r)
  end.
Fixpoint db_enters (settle : Z) (st : deb) (l : list db_ev) : list (db_ev * option db_reply) :=
  match l with
  | [] => []
  | s :: l => (s, snd (db_enter settle st s)) :: db_enters settle (fst (db_enter settle st s)) l
  end.
