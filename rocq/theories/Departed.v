(** Workers that come and go, and their heartbeats between client and store: worker.py:750-848
    (one processing attempt), 1252-1336, docket.py:283-298. *)
From Verif Require Import Base ZSet Heartbeat.

(** A processing attempt: the name of its worker (worker.py:270), the tasks registered on its
    docket, whether its heartbeat task lives (778-781, 838-840), the tasks in flight. *)
Record stay := mkStay { st_name : string; st_tasks : list string; st_on : bool; st_busy : nat }.
(** [dp_air]: heartbeats (worker.py:1283-1301, one MULTI) that were sent and that the store has
    not seen yet; cancelling the heartbeat task does not call them back. *)
Record dep := mkDep { dp_hb : hb; dp_air : list (string * Z * list string); dp_stays : list stay }.
Definition dep_init : dep := mkDep hb_init [] [].

Inductive dev :=
| DCome (w : string) (names : list string)  (* worker.py:778-781 *)
| DRegister (i : nat) (n : string)          (* docket.py:283-298: docket.tasks never shrinks *)
| DStart (i : nat) | DFinish (i : nat)      (* worker.py:797-801, 843: a task in flight, its end *)
| DSend (i : nat) (t : Z)                   (* worker.py:1274-1301 *)
| DArrive (n : nat) | DLost (n : nat)
| DStop (i : nat)                           (* worker.py:838-840 *)
| DWithdraw (i : nat) (ok : bool)           (* worker.py:841, 1252-1265; [ok] false: any error, logged only (1261-1265) *)
| DTick (dt : Z)
| DPurge (b : board) (t : Z).               (* _docket_snapshot.py:206-211, 243-248 *)

Definition drop_at {A} (n : nat) (l : list A) : list A := firstn n l ++ skipn (S n) l.
Fixpoint change (i : nat) (f : stay -> stay) (l : list stay) : list stay :=
  match l, i with
  | [], _ => []
  | y :: l, O => f y :: l
  | y :: l, S i => y :: change i f l
  end.
Definition with_hb (s : dep) (h : hb) : dep := mkDep h (dp_air s) (dp_stays s).
Definition with_stays (s : dep) (l : list stay) : dep := mkDep (dp_hb s) (dp_air s) l.

(** [age]: heartbeat_interval * missed_heartbeats (worker.py:1275-1277). *)
Definition dstep (age : Z) (s : dep) (e : dev) : dep :=
  match e with
  | DCome w names => with_stays s (dp_stays s ++ [mkStay w names true 0])
  | DRegister i n => with_stays s (change i (fun y => mkStay (st_name y) (st_tasks y ++ [n]) (st_on y) (st_busy y)) (dp_stays s))
  | DStart i => with_stays s (change i (fun y => if st_on y then mkStay (st_name y) (st_tasks y) true (S (st_busy y)) else y) (dp_stays s))
  | DFinish i => with_stays s (change i (fun y => mkStay (st_name y) (st_tasks y) (st_on y) (pred (st_busy y))) (dp_stays s))
  | DSend i t =>
      match nth_error (dp_stays s) i with
      | Some y => if st_on y then mkDep (dp_hb s) (dp_air s ++ [(st_name y, t, st_tasks y)]) (dp_stays s) else s
      | None => s
      end
  | DArrive n =>
      match nth_error (dp_air s) n with
      | Some (w, t, names) => mkDep (fst (hstep (dp_hb s) (HBeat age w t names))) (drop_at n (dp_air s)) (dp_stays s)
      | None => s
      end
  | DLost n => mkDep (dp_hb s) (drop_at n (dp_air s)) (dp_stays s)
  | DStop i => with_stays s (change i (fun y => mkStay (st_name y) (st_tasks y) false (st_busy y)) (dp_stays s))
  | DWithdraw i ok =>
      match nth_error (dp_stays s) i with
      | Some y => if negb (st_on y) && ok then with_hb s (fst (hstep (dp_hb s) (HRemove (st_name y) (st_tasks y)))) else s
      | None => s
      end
  | DTick dt => with_hb s (fst (hstep (dp_hb s) (HTick dt)))
  | DPurge b t => with_hb s (fst (hstep (dp_hb s) (HPurge b age t)))
  end.
Fixpoint drun (age : Z) (s : dep) (l : list dev) : dep := match l with [] => s | e :: l => drun age (dstep age s e) l end.
(** workers() and task_workers() at the clock reading [t] (_docket_snapshot.py:192-262). *)
Definition listing (age : Z) (s : dep) (b : board) (t : Z) : list string := map snd (on_board (dp_hb (dstep age s (DPurge b t))) b).
