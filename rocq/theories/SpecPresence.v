(** Vocabulary of C123: the record of a key, and what ends it. *)
From Verif Require Import Base ZSet Model GInv Spec.

(** The record is there (it has a generation) and is not to expire. *)
Definition lasting (s : sys) (k : key) : Prop :=
  exists r, d_runs (s_db s) k = Some r /\ r_gen r <> None /\ r_expire r = None.

(** Operation [o] ends the record of [k]: a run of [k] that is not superseded is marked as
    ended, a cancel of [k] sends its second request, or a clear applies to [k]. *)
Definition retires (k : key) (s : sys) (o : op) : Prop :=
  finishes k s o \/
  o = OCancelFinish k \/
  (exists w sn, o = OClearApply w /\ ready_clear s w = Some sn /\ (In k (cs_queue_keys sn) \/ In k (cs_stream_keys sn))).
