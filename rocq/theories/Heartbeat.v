(** Heartbeats and worker listings: worker.py:1252-1336, _docket_snapshot.py:192-262.
    Times are in microseconds.  The clock readings are those of the process that takes
    them (datetime.now), carried by the events; the expiry of worker-tasks keys goes by
    the store's own clock [hb_now]. *)
From Verif Require Import Base ZSet.

(** Redis keys: workers_set, task_workers_set(name), worker_tasks_set(worker) with the
    store time at which it expires (_docket_snapshot.py:95-103). *)
Record hb := mkHb { hb_now : Z; hb_workers : zset; hb_task : string -> zset; hb_names : string -> option (list string * Z) }.
Definition hb_init : hb := mkHb 0 [] (fun _ => []) (fun _ => None).

(** A sorted set that listings read: all workers, or those of one task. *)
Inductive board := BAll | BTask (name : string).
Definition on_board (s : hb) (b : board) : zset := match b with BAll => hb_workers s | BTask n => hb_task s n end.

Inductive hev :=
| HTick (dt : Z)                                          (* the store's clock *)
| HBeat (age : Z) (w : string) (t : Z) (names : list string) (* worker.py:1274-1301 *)
| HRemove (w : string) (names : list string)              (* worker.py:1252-1265 *)
| HPurge (b : board) (age : Z) (t : Z)                    (* _docket_snapshot.py:206-211, 243-248 *)
| HRange (b : board)                                      (* _docket_snapshot.py:216-218, 253-255 *)
| HMembers (w : string).                                  (* _docket_snapshot.py:222-227, 259-264 *)
Inductive hout := HDone | HRefused | HListed (l : list (Z * string)) | HNames (l : list string).

(** worker.py:1285-1286, 1290-1291: drop the stale, put the worker in. *)
Definition beat_set (age : Z) (w : string) (t : Z) (z : zset) : zset := zadd t w (zremrangebyscore 0 (t - age) z).

(** worker.py:1293-1298: EXPIRE takes whole seconds; the client truncates the timedelta. *)
Definition names_ttl (age : Z) : Z := 1000000 * Z.max 1 (age / 1000000).

(** SMEMBERS of worker-tasks:{w}: nothing once it has expired. *)
Definition members (s : hb) (w : string) : list string :=
  match hb_names s w with Some (ns, e) => if hb_now s <? e then ns else [] | None => [] end.

(** SADD *)
Definition sadd (old new : list string) : list string :=
  old ++ filter (fun n => negb (existsb (String.eqb n) old)) (nodup string_dec new).

(** One heartbeat is one MULTI transaction (worker.py:1283-1301); docket.tasks is never
    empty (docket.py:189-191). *)
Definition beat (s : hb) (age : Z) (w : string) (t : Z) (names : list string) : hb :=
  mkHb (hb_now s) (beat_set age w t (hb_workers s))
    (fold_left (fun f n => upd f n (beat_set age w t (f n))) names (hb_task s))
    (upd (hb_names s) w (Some (sadd (members s w) names, hb_now s + names_ttl age))).

Definition hstep (s : hb) (e : hev) : hb * hout :=
  match e with
  | HTick dt => if 0 <=? dt then (mkHb (hb_now s + dt) (hb_workers s) (hb_task s) (hb_names s), HDone) else (s, HRefused)
  | HBeat age w t names => (beat s age w t names, HDone)
  | HRemove w names =>
      (mkHb (hb_now s) (zrem w (hb_workers s)) (fold_left (fun f n => upd f n (zrem w (f n))) names (hb_task s)) (upd (hb_names s) w None), HDone)
  | HPurge BAll age t => (mkHb (hb_now s) (zremrangebyscore 0 (t - age) (hb_workers s)) (hb_task s) (hb_names s), HDone)
  | HPurge (BTask n) age t => (mkHb (hb_now s) (hb_workers s) (upd (hb_task s) n (zremrangebyscore 0 (t - age) (hb_task s n))) (hb_names s), HDone)
  | HRange b => (s, HListed (on_board s b))
  | HMembers w => (s, HNames (members s w))
  end.
Fixpoint hrun (s : hb) (l : list hev) : hb := match l with [] => s | e :: l => hrun (fst (hstep s e)) l end.
Fixpoint houts (s : hb) (l : list hev) : list hout := match l with [] => [] | e :: l => snd (hstep s e) :: houts (fst (hstep s e)) l end.
