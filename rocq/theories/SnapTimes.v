(** The times a snapshot shows for running tasks: _docket_snapshot.py:105-189.  Completes
    Snapshot.v, which leaves them out.  No proofs in this file. *)
From Verif Require Import Base ZSet Model Snapshot.

(** _docket_snapshot.py:136, 183-186: now minus XPENDING's time since delivery, for the
    message [i], if it is pending.  Redis counts whole milliseconds; here they are counted
    between the delivery and the first pipeline.  [now] is the clock of the process that takes the snapshot. *)
Definition started_of (d : db) (now : Z) (i : sid) : option Z :=
  option_map (fun p => now - 1000 * ((d_now d - pe_time p) / 1000)) (find (fun p => pe_id p =? i) (xpending_page d)).

(** _docket_snapshot.py:179-187: the running list with these times. *)
Definition running_since (d : db) (now : Z) (sn : snap) : list (sid * msg * string * option Z) :=
  map (fun e => (e, started_of d now (fst (fst e)))) (sn_running sn).
