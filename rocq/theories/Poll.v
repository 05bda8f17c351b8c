(** The worker's main loop in time: worker.py:654-667 and 782-819 with the waits of
    [WorkerLoop]. *)
From Verif Require Import Base Model WorkerLoop.

(** [pa_check]: minimum_check_interval (worker.py:274) in microseconds; [pa_busy]: how long a
    step between two awaits, or the handling of one message or one ended task, may take;
    [pa_net]: how much longer than it waits a request may take. *)
Record pace := mkPace { pa_check : Z; pa_busy : Z; pa_net : Z }.
(** worker.py:659 int(total_seconds() * 1000); the float product is taken as exact
    ([Durations.ms_of] has its rounding: at most a millisecond less). *)
Definition block_ms (p : pace) : Z := pa_check p / 1000.

(** [tl_in]: when the loop came to where it is. *)
Record tloop := mkTloop { tl : loop; tl_now : Z; tl_in : Z }.
Definition tl_init : tloop := mkTloop init_loop 0 0.
Inductive tevent := TTick (dt : Z) | TDo (e : levent).

(** Events of the loop itself; the others are those of its tasks and of outside. *)
Definition moves (e : levent) : bool := match e with LGo | LReply _ | LLost | LChecked _ _ | LAbort | LRestart => true | _ => false end.
Definition refused (o : lout) : bool := match o with WRefused => true | _ => false end.
Definition tstep (n : Z) (forever : bool) (s : tloop) (e : tevent) : tloop * lout :=
  match e with
  | TTick dt => if 0 <=? dt then (mkTloop (tl s) (tl_now s + dt) (tl_in s), WOk) else (s, WRefused)
  | TDo e =>
      let '(l, o) := lstep n forever (tl s) e in
      (mkTloop l (tl_now s) (if moves e && negb (refused o) then tl_now s else tl_in s), o)
  end.
Fixpoint trun (n : Z) (forever : bool) (s : tloop) (l : list tevent) : tloop :=
  match l with [] => s | e :: l => trun n forever (fst (tstep n forever s e)) l end.

(** How long the loop may stay where it is.  Before the head of the loop it may sleep
    (worker.py:789-792).  XREADGROUP with BLOCK b answers after b milliseconds at the latest,
    and with BLOCK 0 it waits for a message for any time (Redis).  The end of the loop is not timed. *)
Definition allow (p : pace) (x : pc) : option Z :=
  match x with
  | PTop => Some (pa_check p + pa_busy p)
  | PProc _ | PRoom | PStart _ _ | PAfter => Some (pa_busy p)
  | PAsk true _ | PCheck => Some (pa_net p)
  | PAsk false _ => if block_ms p =? 0 then None else Some (block_ms p * 1000 + pa_net p)
  | _ => None
  end.
