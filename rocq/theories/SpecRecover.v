(** Vocabulary for recovery by a fresh worker. *)
From Verif Require Import Base ZSet Model Spec.

(** Every worker that has executions dies. *)
Definition crash_all (s : sys) : list op := map OCrash (map x_worker (s_execs s)).

(** One poll of worker [w] with an idle worker's capacity: a scheduler pass at [t],
    a redelivery attempt of each pending entry, [n] reads of new deliveries. *)
Definition poll (w : string) (s : sys) (t : Z) (n : nat) : list op :=
  [OScheduler t] ++ map (OAutoclaim w) (map pe_id (d_pel (s_db s))) ++ repeat (ORead w) n.

(** The worker has been handed [m]. *)
Definition handed (s : sys) (w : string) (h : Z) (i : sid) (m : msg) : Prop :=
  exists x, get_exec (s_execs s) h = Some x /\ x_worker x = w /\ x_mid x = i /\ x_msg x = m /\ x_phase x = PDelivered.

(** Steps that start executions other than [h]. *)
Definition starts_another (h : Z) (o : op) : Prop :=
  match o with OClaim h' _ | OBodyStart h' => h' <> h | ORenew _ => True | _ => False end.
