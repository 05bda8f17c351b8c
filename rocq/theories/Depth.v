(** The depth gauges a worker sets with every heartbeat.  No proofs in this file. *)
From Verif Require Import Base ZSet Model.

(** Redis ZCOUNT lo hi; [None]: +inf. *)
Definition zcount (lo : Z) (hi : option Z) (z : zset) : Z :=
  Z.of_nat (length (filter (fun p => (lo <=? fst p) && match hi with Some h => fst p <=? h | None => true end) z)).

(** worker.py:1303-1315: one pipeline (a transaction), [now] is the worker's clock at the
    beginning of the turn (1274). *)
Definition queue_depth (d : db) (now : Z) : Z := Z.of_nat (length (d_stream d)) + zcount 0 (Some now) (d_queue d).
Definition schedule_depth (d : db) (now : Z) : Z := zcount now None (d_queue d).
