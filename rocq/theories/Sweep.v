(** How a worker looks for abandoned messages: the XAUTOCLAIM of
    /repo/src/docket/worker.py:630-649 (get_redeliveries). *)
From Verif Require Import Base ZSet Model.

(** Redis (t_stream.c, XAUTOCLAIM) walks the pending list from the start id on: it
    looks at no more than ten entries per requested one ([attempts]); an entry that is no
    longer in the stream is dropped and counts as an answer, one that is not idle for
    long enough is passed over, any other is claimed.  The result: the ids claimed and
    the ids dropped. *)
Fixpoint scan (c : cfg) (d : db) (attempts count : nat) (l : list pent) : list sid * list sid :=
  match l, attempts, count with
  | p :: l, S attempts, S count' =>
      if negb (is_some (lookup_entry (pe_id p) (d_stream d))) then
        let '(claimed, dropped) := scan c d attempts count' l in (claimed, pe_id p :: dropped)
      else if d_now d - pe_time p <? c_redeliver c then scan c d attempts count l
      else let '(claimed, dropped) := scan c d attempts count' l in (pe_id p :: claimed, dropped)
  | _, _, _ => ([], [])
  end.

Definition drop_pending (s : sys) (ids : list sid) : sys := set_db s (fold_left xack ids (s_db s)).

(** worker.py:630-649: the worker asks for as many entries as it has free slots, each
    time from start_id "0-0" (the cursor Redis answers with is thrown away, "_" in line
    634), and is handed the claimed ones (worker.py:801-814).  The claims of one command
    are written as steps of the core model. *)
Definition sweep (c : cfg) (s : sys) (w : string) (slots : nat) : sys :=
  let '(claimed, dropped) := scan c (s_db s) (10 * slots) slots (d_pel (s_db s)) in
  final c (drop_pending s dropped) (map (OAutoclaim w) claimed).
