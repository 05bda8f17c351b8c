(** Vocabulary for task statistics. *)
From Verif Require Import Base ZSet Model Spec.

(** [o] is the least (greatest) number of the list, or nothing when the list is empty. *)
Definition least (l : list Z) (o : option Z) : Prop :=
  match o with None => l = [] | Some x => In x l /\ forall y, In y l -> x <= y end.
Definition greatest (l : list Z) (o : option Z) : Prop :=
  match o with None => l = [] | Some x => In x l /\ forall y, In y l -> y <= x end.

(** The times listed under the name [f]. *)
Definition times (f : string) (l : list (string * Z)) : list Z := map snd (filter (fun e => String.eqb (fst e) f) l).

(** How many stored messages call [f]: on the stream, and on the queue. *)
Definition on_stream_of (f : string) (s : sys) : Z :=
  Z.of_nat (length (filter (fun e => String.eqb (m_fn (snd e)) f) (d_stream (s_db s)))).
Definition on_queue_of (f : string) (s : sys) : Z :=
  Z.of_nat (length (filter (fun k => match d_parked (s_db s) k with Some m => String.eqb (m_fn m) f | None => false end) (map snd (d_queue (s_db s))))).

(** A message that is stored and has been handed to no worker. *)
Definition not_begun (s : sys) (m : msg) : Prop := (exists i, on_stream s i m /\ d_last (s_db s) < i) \/
  (In (m_key m) (map snd (d_queue (s_db s))) /\ d_parked (s_db s) (m_key m) = Some m).

(** The message fits: the function, and whatever else is asked for. *)
Definition fits (kw : string -> string -> option string) (f : string) (args : option string) (kwargs : option (list (string * string))) (k : option key) (m : msg) : Prop :=
  m_fn m = f /\ (forall a, args = Some a -> m_args m = a) /\ (forall x, k = Some x -> m_key m = x) /\
  (forall l n v, kwargs = Some l -> In (n, v) l -> kw (m_kwargs m) n = Some v).

(** How many of the stored messages that satisfy [p] have been handed to a worker, and how many
    have not. *)
Definition calls_fn (f : option string) (m : msg) : bool := match f with Some f => String.eqb (m_fn m) f | None => true end.
Definition handed_out (p : msg -> bool) (s : sys) : Z :=
  Z.of_nat (length (filter (fun e => (fst e <=? d_last (s_db s)) && p (snd e)) (d_stream (s_db s)))).
Definition yet_to_begin (p : msg -> bool) (s : sys) : Z :=
  Z.of_nat (length (filter (fun e => (d_last (s_db s) <? fst e) && p (snd e)) (d_stream (s_db s)))) +
  Z.of_nat (length (filter (fun k => match d_parked (s_db s) k with Some m => p m | None => false end) (map snd (d_queue (s_db s))))).
