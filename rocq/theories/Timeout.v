(** Model of Timeout (src/docket/dependencies/_timeout.py).

    Times are integers in microseconds; the code uses floating point seconds of
    time.monotonic() and rounds remaining() to microseconds.  The asyncio event loop
    is represented by the order of the events below. *)
From Verif Require Import Base.

(** What a task body does in the end. *)
Inductive outcome := BReturn (v : option string) | BRaiseTimeout | BRaise (e : string).

(** What Timeout.run does in the end: return a value, raise what the body raised, or
    cancel the body and raise TimeoutError (lines 94-103). *)
Inductive verdict := VReturn (v : option string) | VRaise (e : string) | VTimedOut.

(** The state of Timeout.run.  [to_timer]: when the wait_for in progress fires.
    [to_body]: what the body did, if it is over.  [to_end]: how run() ended, if so. *)
Record tmo := mkTmo { to_base : Z; to_deadline : Z; to_timer : Z; to_body : option outcome; to_end : option verdict }.
Definition to_set_deadline (d : Z) (s : tmo) := mkTmo (to_base s) d (to_timer s) (to_body s) (to_end s).
Definition to_set_timer (t : Z) (s : tmo) := mkTmo (to_base s) (to_deadline s) t (to_body s) (to_end s).
Definition to_set_body (b : outcome) (s : tmo) := mkTmo (to_base s) (to_deadline s) (to_timer s) (Some b) (to_end s).
Definition to_set_end (v : verdict) (s : tmo) := mkTmo (to_base s) (to_deadline s) (to_timer s) (to_body s) (Some v).

(** _timeout.py:47-48. *)
Definition to_expired (s : tmo) (now : Z) : bool := to_deadline s <=? now.
(** _timeout.py:50-52. *)
Definition to_remaining (s : tmo) (now : Z) : Z := to_deadline s - now.
(** _timeout.py:54-63. *)
Definition to_extend (by_ : option Z) (s : tmo) : tmo :=
  to_set_deadline (to_deadline s + match by_ with Some d => d | None => to_base s end) s.

(** _timeout.py:83-93: one turn of the loop at clock reading [now].  When the body is
    over the loop ends, and run() returns None. *)
Definition to_turn (s : tmo) (now : Z) : tmo :=
  match to_body s with
  | Some _ => to_set_end (VReturn None) s
  | None => if to_expired s now then to_set_end VTimedOut s
            else to_set_timer (now + to_remaining s now) s
  end.

(** _timeout.py:44-45, 73-85: start and first turn. *)
Definition to_start (base now : Z) : tmo := to_turn (mkTmo base (now + base) now None None) now.

(** Events: the body extends its timeout at [now]; the body ends; wait_for hands the
    body's outcome to run() at [now] (lines 88-93, TimeoutError is caught there); the
    timer of wait_for fires at [now], possibly after the body ended but before its
    outcome was handed over (asyncio.wait_for then raises TimeoutError too). *)
Inductive to_ev := TExtend (now : Z) (by_ : option Z) | TBody (now : Z) (b : outcome) | TResume (now : Z) | TTimer (now : Z).
Definition ev_time (e : to_ev) : Z := match e with TExtend t _ | TBody t _ | TResume t | TTimer t => t end.

Definition to_step (s : tmo) (e : to_ev) : tmo :=
  match to_end s with
  | Some _ => s
  | None =>
      match e with
      | TExtend _ b => match to_body s with None => to_extend b s | Some _ => s end
      | TBody _ b => match to_body s with None => to_set_body b s | Some _ => s end
      | TResume now =>
          match to_body s with
          | None => s
          | Some (BReturn v) => to_set_end (VReturn v) s
          | Some (BRaise e) => to_set_end (VRaise e) s
          | Some BRaiseTimeout => to_turn s now
          end
      | TTimer now => if to_timer s <=? now then to_turn s now else s
      end
  end.
Definition to_run (s : tmo) (l : list to_ev) : tmo := fold_left to_step l s.
