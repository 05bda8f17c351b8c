(** Vocabulary for the search for abandoned messages. *)
From Verif Require Import Base ZSet Model Spec SpecRecover.

(** The pending entry takes up one of the answers asked for: its message is gone, or it has
    been idle for the redelivery timeout. *)
Definition answering (c : cfg) (s : sys) (p : pent) : bool :=
  negb (existsb (fun e => fst e =? pe_id p) (d_stream (s_db s))) || (c_redeliver c <=? d_now (s_db s) - pe_time p).

(** Nobody is at work on the entry [i], and its worker has been silent for the
    redelivery timeout. *)
Definition abandoned_entry (c : cfg) (s : sys) (i : sid) (m : msg) : Prop :=
  on_stream s i m /\ live s m /\ (forall x, In x (s_execs s) -> x_mid x <> i) /\
  exists p, In p (d_pel (s_db s)) /\ pe_id p = i /\ c_redeliver c <= d_now (s_db s) - pe_time p.
