(** Times as the store sees them: a due time leaves Python as datetime.timestamp()
    (/repo/src/docket/execution.py:729), a binary floating-point number of seconds,
    is the score of the future queue (execution.py:139, 224) and the field [when] of the
    record, is compared with another timestamp() by the scheduler (worker.py:862 with
    worker.py:183, ZRANGEBYSCORE) and comes back through
    datetime.fromtimestamp(float(...)) (docket.py:671).  No proofs in this file.

    [I1] Instants are Z microseconds since 1970 (as in Model.v) and not negative.
    [I2] A double is a fraction m / 2^k; printing it with repr and reading it back
         (redis-py, Redis strtod, Python float) gives the same double. *)
From Verif Require Import Base.

(** Nearest integer to a/b, ties to even. *)
Definition rne (a b : Z) : Z :=
  let q := a / b in
  let r := a mod b in
  if 2 * r <? b then q else if b <? 2 * r then q + 1 else if Z.even q then q else q + 1.

(** A double: [dm / 2^dk]. *)
Record double := mkDouble { dm : Z; dk : Z }.

(** IEEE 754 round to nearest even of a/b with a 53-bit significand, for values 0 and
    2^-40 <= a/b < 2^53 (the others do not occur here). *)
Definition dround (a b : Z) : double :=
  if a =? 0 then mkDouble 0 0
  else
    let k := 52 - (Z.log2 (a * 2 ^ 40 / b) - 40) in
    mkDouble (rne (a * 2 ^ k) b) k.

(** datetime.timestamp() of an aware datetime: total_seconds() of the difference from the
    epoch, a correctly rounded quotient of two integers. *)
Definition timestamp (us : Z) : double := dround us 1000000.

(** Comparison of doubles (Redis scores). *)
Definition dle (x y : double) : bool := dm x * 2 ^ dk y <=? dm y * 2 ^ dk x.

(** datetime.fromtimestamp(x, tz=utc): the fraction of a second, times 1e6 as a double, is
    rounded to an integer (ties to even); a full million carries over. *)
Definition fromtimestamp (x : double) : Z :=
  let whole := dm x / 2 ^ dk x in
  let p := dround (dm x mod 2 ^ dk x * 1000000) (2 ^ dk x) in
  whole * 1000000 + rne (dm p) (2 ^ dk p).

(** ** The future queue: a sorted set of keys with scores *)

(** Keys are numbers, ordered as Redis orders members of equal score (memcmp). *)
Definition zset := list (double * nat).

Definition zrem (k : nat) (q : zset) : zset := filter (fun e => negb (snd e =? k)%nat) q.

(** Where an entry goes: by score, then by member. *)
Definition before (a b : double * nat) : bool :=
  if dle (fst a) (fst b) then if dle (fst b) (fst a) then (snd a <=? snd b)%nat else true else false.

Fixpoint zinsert (a : double * nat) (q : zset) : zset :=
  match q with
  | [] => [a]
  | b :: r => if before a b then a :: q else b :: zinsert a r
  end.

(** ZADD: a member present already moves to its new score. *)
Definition zadd (s : double) (k : nat) (q : zset) : zset := zinsert (s, k) (zrem k q).

(** The scores between 0 and [now]. *)
Definition in_span (now : Z) (e : double * nat) : bool :=
  dle (mkDouble 0 0) (fst e) && dle (fst e) (timestamp now).

(** What happens to the queue: a call parks key [k] until [w] (_schedule,
    execution.py:139, 224: ZADD queue when_timestamp task_key, when_timestamp =
    when.timestamp() at execution.py:729); a cancellation or a replacement takes the key
    out (ZREM, docket.py:99, execution.py:175); the scheduler takes out what is due
    (ZREMRANGEBYSCORE queue 0 now_timestamp, worker.py:221). *)
Inductive qev := QPark (k : nat) (w : Z) | QRemove (k : nat) | QSweep (now : Z).

Definition qstep (q : zset) (e : qev) : zset :=
  match e with
  | QPark k w => zadd (timestamp w) k q
  | QRemove k => zrem k q
  | QSweep now => filter (fun e => negb (in_span now e)) q
  end.

Definition queue (evs : list qev) : zset := fold_left qstep evs [].

(** ZRANGEBYSCORE queue 0 now_timestamp (worker.py:183; now_timestamp =
    datetime.now(utc).timestamp() at worker.py:862): the due keys, in the order in which
    the loop (worker.py:185-218) streams them. *)
Definition due (now : Z) (q : zset) : list nat := map snd (filter (in_span now) q).

(** The record: HSET runs when when_timestamp (execution.py:129, 142, 212, 229) and its
    reading by get_execution (docket.py:671). *)
Definition recorded (w : Z) : double := timestamp w.
Definition read_when (x : double) : Z := fromtimestamp x.
