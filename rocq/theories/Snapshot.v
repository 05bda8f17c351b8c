(** Docket.snapshot: _docket_snapshot.py:105-196.  The two pipelines are two moments: the
    stored data [d1] the first one reads, [d2] the second one reads.  Elsewhere: the
    times in the result (SnapTimes.v), the worker list (Heartbeat.v).  The NOGROUP branch: SnapGroup.v. *)
From Verif Require Import Base ZSet Model.

(** XPENDING and XRANGE with count=1000 (_docket_snapshot.py:121-127). *)
Definition snap_page : nat := Z.to_nat 1000.

(** XPENDING lists pending entries by id (_docket_snapshot.py:121-126). *)
Fixpoint pins (p : pent) (l : list pent) : list pent :=
  match l with [] => [p] | q :: l => if pe_id p <=? pe_id q then p :: q :: l else q :: pins p l end.
Definition xpending_page (d : db) : list pent := firstn snap_page (fold_right pins [] (d_pel d)).

(** _docket_snapshot.py:54-60 DocketSnapshot; [sn_future] keeps the stream id of
    messages that come from the stream. *)
Record snap := mkSnap { sn_total : Z; sn_running : list (sid * msg * string); sn_future : list (option sid * msg) }.

(** _docket_snapshot.py:170-172 pending_lookup *)
Definition pending_of (l : list pent) (i : sid) : option string := option_map pe_owner (find (fun p => pe_id p =? i) l).

(** _docket_snapshot.py:179-192.  [registered]: the function is registered with the
    docket object; from_message raises otherwise (execution.py:587-593), and with it
    the whole snapshot ([None]). *)
Definition snapshot (registered : string -> bool) (d1 d2 : db) : option snap :=
  let page := firstn snap_page (d_stream d1) in
  let pend := xpending_page d1 in
  let queued := flat_map (fun k => match d_parked d2 k with Some m => [m] | None => [] end) (map snd (d_queue d1)) in
  if forallb (fun m => registered (m_fn m)) (map snd page ++ queued) then
    Some (mkSnap (Z.of_nat (length (d_stream d1)) + zcard (d_queue d1))
      (flat_map (fun e => match pending_of pend (fst e) with Some w => [(fst e, snd e, w)] | None => [] end) page)
      (flat_map (fun e => match pending_of pend (fst e) with Some _ => [] | None => [(Some (fst e), snd e)] end) page
       ++ map (fun m => (None, m)) queued))
  else None.
