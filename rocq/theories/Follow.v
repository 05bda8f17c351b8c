(** A caller of Execution.subscribe (src/docket/execution.py:1097-1161) beside the docket of
    Model.v.  No proofs in this file.

    [F1] State events only: progress events (lines 1136-1147) go through the same subscription
         and are skipped here, see Progress.v and Announce.v.
    [F2] A subscription, once acknowledged, delivers every later message of its channels in the
         order of publication (Redis); the connection does not fail. *)
From Verif Require Import Base ZSet Model GetResult.

(** Where the generator is: not begun (before line 1118), between its first read and the
    acknowledged SUBSCRIBE (1134-1153; it stays there as long as its caller likes, since it
    hands over two events in between), listening with [pos] messages behind it (1156-1161). *)
Inductive fpc := FStart | FRead | FListen (pos : nat).

(** The key, the fields of the handle, the place, and the states handed to the caller so far,
    oldest first (execution.py:1134, 1161). *)
Record follower := mkFollower { f_key : key; f_view : view; f_pc : fpc; f_seen : list state }.

(** One turn of the generator, on the store [d] (execution.py:1117-1161). *)
Definition fturn (d : db) (f : follower) : follower :=
  match f_pc f with
  | FStart => let v := sync d (f_key f) (f_view f) in mkFollower (f_key f) v FRead (f_seen f ++ [v_state v])
  | FRead => mkFollower (f_key f) (f_view f) (FListen (length (d_pubs d))) (f_seen f)
  | FListen pos =>
      match nth_error (d_pubs d) pos with
      | None => f
      | Some (k, st) => mkFollower (f_key f) (f_view f) (FListen (S pos))
                          (if String.eqb k (f_key f) then f_seen f ++ [st] else f_seen f)
      end
  end.

(** [FOp]: anything that happens to the docket (Model.v).  [FTurn]: the generator goes on
    (execution.py:1117-1161). *)
Inductive fop := FOp (o : op) | FTurn.
Record fsys := mkFsys { fs_sys : sys; fs_f : follower }.

(** Both together (execution.py:1117-1161 and Model.v). *)
Definition fstep (c : cfg) (q : fsys) (o : fop) : fsys :=
  match o with
  | FOp o => mkFsys (fst (step c (fs_sys q) o)) (fs_f q)
  | FTurn => mkFsys (fs_sys q) (fturn (s_db (fs_sys q)) (fs_f q))
  end.
Definition ffinal (c : cfg) (q : fsys) (l : list fop) : fsys := fold_left (fstep c) l q.

(** execution.py:1097: subscribe() is called on a handle that shows [v]. *)
Definition begin (s : sys) (k : key) (v : view) : fsys := mkFsys s (mkFollower k v FStart []).
