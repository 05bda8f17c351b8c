(** A worker that runs until the docket is finished, and the docket everybody works on.  No proofs in this
    file. *)
From Verif Require Import Base Model WorkerLoop.

(** Something happens to the docket (whoever does it: this worker's tasks, other workers, callers), or in the
    loop of the worker (worker.py:608-846 called with forever=False, 485-493). *)
Inductive jev := JDocket (o : op) | JLoop (e : levent).
Definition joint : Type := sys * loop.
Definition jstep (c : cfg) (n : Z) (j : joint) (e : jev) : joint :=
  match e with
  | JDocket o => (fst (step c (fst j) o), snd j)
  | JLoop e => (fst j, fst (lstep n false (snd j) e))
  end.
Fixpoint jrun (c : cfg) (n : Z) (j : joint) (l : list jev) : joint :=
  match l with [] => j | e :: l => jrun c n (jstep c n j e) l end.
Definition jinit : joint := (init_sys, init_loop).

(** worker.py:620-628 check_for_work: XLEN of the stream and ZCARD of the queue, both in one transaction.  XLEN also counts what was
    delivered and is not settled. *)
Definition stream_len (s : sys) : Z := Z.of_nat (length (d_stream (s_db s))).
Definition queue_len (s : sys) : Z := Z.of_nat (length (d_queue (s_db s))).
Fixpoint truthful (c : cfg) (n : Z) (j : joint) (l : list jev) : Prop :=
  match l with
  | [] => True
  | e :: l =>
      match e with JLoop (LChecked a b) => a = stream_len (fst j) /\ b = queue_len (fst j) | _ => True end
      /\ truthful c n (jstep c n j e) l
  end.

(** What happened to the docket, and in the loop. *)
Fixpoint docket_ops (l : list jev) : list op :=
  match l with [] => [] | JDocket o :: l => o :: docket_ops l | JLoop _ :: l => docket_ops l end.
Fixpoint loop_evs (l : list jev) : list levent :=
  match l with [] => [] | JLoop e :: l => e :: loop_evs l | JDocket _ :: l => loop_evs l end.
