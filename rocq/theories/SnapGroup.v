(** A snapshot of a docket whose consumer group is missing
    (/repo/src/docket/_docket_snapshot.py:141-156, docket.py:721-738).  No proofs in this file.

    [G1] The other four commands of the pipeline do not fail.  redis-py puts the command in front
         of an error of a pipeline: "Command # 3 (XPENDING ...) of pipeline caused error: ...". *)
From Coq Require Import Ascii String List.
From Verif Require Import Base Duration Cli Url CliUrl.
Import ListNotations.

(** The server, as far as XPENDING (_docket_snapshot.py:119-125) and XGROUP CREATE
    (docket.py:730-735) see it: is there the group, and with which error are the two commands refused
    to this client anyway (NOPERM, OOM, READONLY, ...). *)
Record server := mkServer { v_group : bool; v_xpending : option text; v_xgroup : option text }.
Definition with_group (b : bool) (s : server) : server := mkServer b (v_xpending s) (v_xgroup s).

(** "p in l", used at _docket_snapshot.py:153 and docket.py:737 *)
Fixpoint contains (l p : text) : bool :=
  startswith l p || match l with [] => false | _ :: l' => contains l' p end.

(** The error of XPENDING in the pipeline, _docket_snapshot.py:141-148; None: it succeeds *)
Definition xpending (s : server) : option text :=
  option_map (fun e => lit "Command # 3 (XPENDING docket:stream docket-workers - + 1000) of pipeline caused error: " ++ e)
    (match v_xpending s with
     | Some e => Some e
     | None => if v_group s then None else Some (lit "NOGROUP No such key 'docket:stream' or consumer group 'docket-workers'")
     end).
(** docket.py:730-735 *)
Definition xgroup_create (s : server) : option text :=
  match v_xgroup s with
  | Some e => Some e
  | None => if v_group s then Some (lit "BUSYGROUP Consumer Group name already exists") else None
  end.
(** docket.py:721-738 _ensure_stream_and_group; None: it raises *)
Definition ensure (s : server) : option server :=
  match xgroup_create s with
  | None => Some (with_group true s)
  | Some e => if contains e (lit "BUSYGROUP") then Some s else None
  end.

(** How a call of snapshot ends *)
Inductive end_ := Answer | Raises.
(** _docket_snapshot.py:105-156: what has become of the call after [n] attempts, None: it is still
    trying.  [lost k]: the group was removed (FLUSHALL, DEL) before the attempt [k]. *)
Fixpoint snapshot_after (n : nat) (lost : nat -> bool) (k : nat) (s : server) : option end_ :=
  match n with
  | O => None
  | S n' =>
      let s := if lost k then with_group false s else s in
      match xpending s with
      | None => Some Answer
      | Some e =>
          if contains e (lit "NOGROUP") || contains e (lit "XPENDING")
          then match ensure s with Some s' => snapshot_after n' lost (S k) s' | None => Some Raises end
          else Some Raises
      end
  end.
