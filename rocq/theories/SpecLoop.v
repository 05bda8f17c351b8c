(** Vocabulary for the worker loop. *)
From Verif Require Import Base Model WorkerLoop.

Definition loop_reachable (n : Z) (forever : bool) (s : loop) : Prop := exists l, s = lrun n forever init_loop l.

(** The tasks that have been created and have not ended. *)
Definition in_flight (s : loop) : list task := filter (fun t => negb (is_done t)) (l_tasks s).
Definition flying (s : loop) (i : Z) (k : key) : Prop := exists x, In (mkTask i k x) (l_tasks s) /\ x <> TDone true /\ x <> TDone false.

(** The worker has left its loop and finishes, or has finished. *)
Definition ended (p : pc) : Prop := match p with PBeat | PDrain | PDrainProc _ | PLast | PExit | PGone => True | _ => False end.
Definition over (p : pc) : Prop := match p with PExit | PGone => True | _ => False end.

(** Every state and event on the way. *)
Fixpoint lalong (n : Z) (forever : bool) (P : loop -> levent -> Prop) (s : loop) (l : list levent) : Prop :=
  match l with [] => True | e :: l => P s e /\ lalong n forever P (fst (lstep n forever s e)) l end.

(** Nothing but ordinary traffic: replies hold no undecodable message, no exception leaves
    a task, cancellations do not hit a task that is still checking strikes or
    claiming; no connection is lost, nobody stops the worker. *)
Definition ordinary_traffic (s : loop) (e : levent) : Prop :=
  match e with
  | LGo | LChecked _ _ | LEnter _ => True
  | LReply ms => ~ In MBad ms
  | LFinish _ raised => raised = false
  | LCancel k => forall i t, l_bykey s k = Some i -> In t (l_tasks s) -> t_id t = i -> t_st t <> TPre
  | LLost | LStop | LAbort | LRestart => False
  end.

(** No task of [k] is created while another is in the worker's table. *)
Definition one_at_a_time (n : Z) (forever : bool) (k : key) (s : loop) (e : levent) : Prop :=
  forall i, snd (lstep n forever s e) = WStart i k -> forall t, In t (l_tasks s) -> In (t_id t) (l_active s) -> t_key t <> k.

(** A task of [k] that has ended is cleared away. *)
Definition clears (k : key) (s : loop) (e : levent) : Prop :=
  e = LGo /\ exists i rest x, (l_pc s = PProc (i :: rest) \/ l_pc s = PDrainProc (i :: rest)) /\ In (mkTask i k x) (l_tasks s).
(** Task [i] of [k] was created, and since then no other of [k] was, and none was cleared. *)
Definition holds_entry (n : Z) (forever : bool) (k : key) (i : Z) (l : list levent) : Prop :=
  exists l1 e l2, l = l1 ++ e :: l2 /\ snd (lstep n forever (lrun n forever init_loop l1) e) = WStart i k /\
    lalong n forever (fun s e => ~ clears k s e /\ forall j, snd (lstep n forever s e) <> WStart j k) (lrun n forever init_loop (l1 ++ [e])) l2.
