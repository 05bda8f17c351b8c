(** A worker reads from a docket whose consumer group is missing (/repo/src/docket/worker.py:630-667,
    docket.py:721-738).  No proofs in this file. *)
From Coq Require Import Ascii String List.
From Verif Require Import Base Duration Cli Url CliUrl SnapGroup.
Import ListNotations.

(** The error of XAUTOCLAIM (worker.py:634-643) or XREADGROUP (worker.py:655-661), which are not sent in
    a pipeline; None: it succeeds.  [refused]: the error with which the command is refused anyway. *)
Definition xread (refused : option text) (s : server) : option text :=
  match refused with
  | Some e => Some e
  | None => if v_group s then None else Some (lit "NOGROUP No such key 'docket:stream' or consumer group 'docket-workers'")
  end.
(** worker.py:630-649 get_redeliveries and 651-667 get_new_deliveries: what has become of the call
    after [n] attempts, None: it is still trying.  [lost k]: the group was removed before the
    attempt [k], [refused k]: the command is refused at the attempt [k]. *)
Fixpoint deliveries_after (n : nat) (lost : nat -> bool) (refused : nat -> option text) (k : nat) (s : server) : option end_ :=
  match n with
  | O => None
  | S n' =>
      let s := if lost k then with_group false s else s in
      match xread (refused k) s with
      | None => Some Answer
      | Some e =>
          if contains e (lit "NOGROUP")
          then match ensure s with Some s' => deliveries_after n' lost refused (S k) s' | None => Some Raises end
          else Some Raises
      end
  end.
