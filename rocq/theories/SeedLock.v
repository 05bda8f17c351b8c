(** The lock around a pass that seeds automatic tasks: worker.py:956-987
    _schedule_all_automatic_perpetual_tasks, run at start (worker.py:765) and by the
    reseed loop (worker.py:947).  redis-py's Lock is taken as documented: SET NX PX with a
    fresh token; release deletes the key only if it still holds that token, else
    LockNotOwnedError, a LockError, which worker.py:986-987 swallows like the failure to
    acquire.  The round trips of one task (worker.py:981-985) are one step here; see
    Perpetual.v for them.  No task is struck. *)
From Verif Require Import Base.

(** worker.py:102 AUTOMATIC_PERPETUAL_LOCK_TIMEOUT_SECONDS, microseconds *)
Definition lock_timeout : Z := 10000000.

(** A pass in course: the token of its lock, the keys still to do, when it got the lock. *)
Record lpass := mkLp { lp_token : Z; lp_rest : list string; lp_at : Z }.
(** [lk_lock]: the key perpetual:lock, its token and expiry; [lk_live]: keys with a live
    schedule entry (worker.py:989-998). *)
Record lks := mkLks { lk_now : Z; lk_fresh : Z; lk_lock : option (Z * Z); lk_pass : string -> option lpass; lk_live : string -> bool }.
Definition lk_init : lks := mkLks 0 0 None (fun _ => None) (fun _ => false).

Inductive lkop :=
| LTick (dt : Z)
| LTry (w : string) (keys : list string)   (* worker.py:963-967; [keys]: the automatic tasks of the registry of [w] *)
| LNext (w : string)                       (* worker.py:968-985 for one task *)
| LDone (w : string)                       (* the pass is through and leaves the lock *)
| LFail (w : string)                       (* an exception leaves the lock and ends the pass *)
| LCrash (w : string)                      (* the process is gone *)
| LEnds (k : string).                      (* the schedule of [k] is lost *)
Inductive lkout := LkRefused | LkOk | LkGot | LkTaken.

(** GET of the lock: nothing once it has expired. *)
Definition lock_now (s : lks) : option (Z * Z) :=
  match lk_lock s with Some (tok, e) => if lk_now s <? e then Some (tok, e) else None | None => None end.
(** Release: the script compares the token. *)
Definition release (s : lks) (tok : Z) : option (Z * Z) :=
  match lock_now s with Some (tok', e) => if tok' =? tok then None else Some (tok', e) | None => None end.

Definition lkstep (s : lks) (o : lkop) : lks * lkout :=
  match o with
  | LTick dt => if 0 <=? dt then (mkLks (lk_now s + dt) (lk_fresh s) (lk_lock s) (lk_pass s) (lk_live s), LkOk) else (s, LkRefused)
  | LTry w keys =>
      match lk_pass s w with
      | Some _ => (s, LkRefused)
      | None =>
          match lock_now s with
          | Some _ => (s, LkTaken)
          | None =>
              (mkLks (lk_now s) (lk_fresh s + 1) (Some (lk_fresh s, lk_now s + lock_timeout))
                 (upd (lk_pass s) w (Some (mkLp (lk_fresh s) keys (lk_now s)))) (lk_live s), LkGot)
          end
      end
  | LNext w =>
      match lk_pass s w with
      | Some (mkLp tok (k :: rest) a) =>
          (mkLks (lk_now s) (lk_fresh s) (lk_lock s) (upd (lk_pass s) w (Some (mkLp tok rest a))) (upd (lk_live s) k true), LkOk)
      | _ => (s, LkRefused)
      end
  | LDone w =>
      match lk_pass s w with
      | Some (mkLp tok [] _) => (mkLks (lk_now s) (lk_fresh s) (release s tok) (upd (lk_pass s) w None) (lk_live s), LkOk)
      | _ => (s, LkRefused)
      end
  | LFail w =>
      match lk_pass s w with
      | Some p => (mkLks (lk_now s) (lk_fresh s) (release s (lp_token p)) (upd (lk_pass s) w None) (lk_live s), LkOk)
      | None => (s, LkRefused)
      end
  | LCrash w => (mkLks (lk_now s) (lk_fresh s) (lk_lock s) (upd (lk_pass s) w None) (lk_live s), LkOk)
  | LEnds k => (mkLks (lk_now s) (lk_fresh s) (lk_lock s) (lk_pass s) (upd (lk_live s) k false), LkOk)
  end.
Fixpoint lkrun (s : lks) (l : list lkop) : lks := match l with [] => s | o :: l => lkrun (fst (lkstep s o)) l end.
