(** To which server a docket's calls go (src/docket/_redis.py:854-922, src/docket/docket.py:260-282),
    with the attributes of [Stack].  No proofs in this file. *)
From Verif Require Import Base Stack.

(** The server (or cluster, or in-process server) that the URL names, or the one that redis-py
    takes when it is told none: localhost:6379, database 0. *)
Inductive place := TheServer | Localhost.

(** redis-py's Redis(connection_pool=p): "if not connection_pool" it makes one of its
    defaults. *)
Definition redis_with (pool : bool) : place := if pool then TheServer else Localhost.

(** _redis.py:854-869 RedisConnection.client *)
Definition client (o : obj) (s : st) : place :=
  if st_attr s o ACluster then TheServer else if st_attr s o AMemory then TheServer else redis_with (st_attr s o APool).
(** _redis.py:871-886 RedisConnection.pubsub, 899-922 _cluster_pubsub *)
Definition pubsub (o : obj) (s : st) : place :=
  if st_attr s o ACluster then redis_with (st_attr s o ANode) else if st_attr s o AMemory then TheServer else redis_with (st_attr s o APool).
(** _redis.py:888-897 RedisConnection.publish *)
Definition publish (o : obj) (s : st) : place :=
  if st_attr s o ACluster then redis_with (st_attr s o ANode) else if st_attr s o AMemory then TheServer else redis_with (st_attr s o APool).

(** Calls: add, replace and schedule of a task that is not stricken (docket.py:393-440, 503-550,
    556-585, execution.py:716); cancel (docket.py:591-613); snapshot, workers, task_workers,
    get_execution and clear (_docket_snapshot.py:115, 210, 247, docket.py:637, 851); subscribe
    (execution.py:1097-1162; the reads of sync count as one); strike and restore (docket.py:779-826, strikelist.py:276-295). *)
Inductive acall := CAdd | CCancel | CLook | CSubscribe | CStrike.
Inductive answer := Asks (l : list place) | Raises.

(** Before the first entering there is no strike_list (docket.py:143, 223): AttributeError.
    [st_gen] counts the strike lists. *)
Definition asks (c : acall) (s : st) : answer :=
  match c with
  | CAdd => if Nat.eqb (st_gen s) 0 then Raises else Asks [client ORedis s]
  | CCancel => Asks [client ORedis s; publish ORedis s]
  | CLook => Asks [client ORedis s]
  | CSubscribe => Asks [client ORedis s; pubsub ORedis s]
  | CStrike =>
      if Nat.eqb (st_gen s) 0 then Raises
      else if connected (OStrikeRedis (st_gen s)) s then Asks [client (OStrikeRedis (st_gen s)) s]
      else Raises                                               (* RuntimeError: not connected to Redis *)
  end.
