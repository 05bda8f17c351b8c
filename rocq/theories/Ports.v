(** The health and metrics servers around a worker (/repo/src/docket/instrumentation.py:164-243,
    worker.py:419-430).  No proofs in this file. *)
From Coq Require Import List.
From Verif Require Import Base.
Import ListNotations.

(** The listening sockets and the serving threads of the process, by port. *)
Record process := mkProcess { listening : list Z; serving : list Z }.
Definition remove (p : Z) (l : list Z) : list Z := filter (fun q => negb (q =? p)) l.

(** How a block ends. *)
Inductive result := Fine | Raise.

(** instrumentation.py:164-191 healthcheck_server and 194-243 metrics_server, as a context manager around
    a body: without a port nothing; else the socket is bound - which raises if [taken] says that
    another process has the port or if this one has -, a thread serves it, the body runs, and after it
    server.shutdown() ends the thread, but not if the body raises; in any case the with statement
    closes the socket. *)
Definition around (taken : Z -> bool) (port : option Z) (body : process -> result * process) (s : process) : result * process :=
  match port with
  | None => body s
  | Some p =>
      if taken p || existsb (Z.eqb p) (listening s) then (Raise, s)
      else let '(r, s') := body (mkProcess (p :: listening s) (p :: serving s)) in
           (r, mkProcess (remove p (listening s')) (match r with Fine => remove p (serving s') | Raise => serving s' end))
  end.

(** worker.py:419-422 Worker.run: health first, then metrics, then the docket and the worker *)
Definition run (taken : Z -> bool) (health metrics : option Z) (body : process -> result * process) (s : process) : result * process :=
  around taken health (around taken metrics body) s.
