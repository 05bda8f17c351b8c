(** Vocabulary of the times in a snapshot (C119). *)
From Verif Require Import Base ZSet Model.

(** The step neither hands message [i] over again nor renews its lease. *)
Definition not_renewed (i : sid) (s : sys) (o : op) : Prop :=
  (forall w, o <> OAutoclaim w i) /\
  (forall w x, o = ORenew w -> In x (s_execs s) -> x_worker x = w -> x_phase x <> PDone -> x_mid x <> i).
