(** Leases: worker.py:887-923 _renew_leases beside the rest of the docket.  Each
    worker's renewal loop is a timer. *)
From Verif Require Import Base ZSet Model.

(** [lt_every]: redelivery_timeout / 4 (worker.py:902); [lt_late]: how late a timer may
    fire (event loop and network delays). *)
Record ltimes := mkLT { lt_every : Z; lt_late : Z }.
Definition lt_of (c : cfg) (late : Z) : ltimes := mkLT (c_redeliver c / 4) late.

(** A running renewal loop: when it wakes next and how many of its last attempts failed
    (worker.py:921-922 swallows the exception). *)
Record timer := mkTimer { tm_worker : string; tm_due : Z; tm_fails : Z }.
Record lsys := mkLS { ls_sys : sys; ls_timers : list timer }.
Definition ls_init : lsys := mkLS init_sys [].

Definition get_timer (l : list timer) (w : string) : option timer := find (fun t => String.eqb (tm_worker t) w) l.
Definition del_timer (l : list timer) (w : string) : list timer := filter (fun t => negb (String.eqb (tm_worker t) w)) l.
Definition set_timer (l : list timer) (w : string) (due fails : Z) : list timer :=
  map (fun t => if String.eqb (tm_worker t) w then mkTimer w due fails else t) l.

Inductive lop :=
| KLoop (w : string)            (* the worker loop starts, 771-774; its tasks of an earlier loop are over (C56) *)
| KRenew (w : string) (ok : bool)    (* the timer fires: XCLAIM, or it fails *)
| KStop (w : string)            (* session.stopping is set, 824 and 833: no more polls or renewals *)
| KDo (o : op).                 (* anything else that happens to the docket *)

(** In flight at the worker: in active_tasks (worker.py:908). *)
Definition busy (s : sys) (w : string) : bool :=
  existsb (fun x => String.eqb (x_worker x) w && match x_phase x with PDone => false | _ => true end) (s_execs s).

Definition kdo (c : cfg) (s : lsys) (o : op) (l : list timer) : lsys * out := let '(s', r) := step c (ls_sys s) o in (mkLS s' l, r).

Definition kstep (c : cfg) (lt : ltimes) (s : lsys) (o : lop) : lsys * out :=
  let now := d_now (s_db (ls_sys s)) in
  let ts := ls_timers s in
  match o with
  | KLoop w =>
      if existsb (fun t => String.eqb (tm_worker t) w) ts || busy (ls_sys s) w then (s, ORefused)
      else (mkLS (ls_sys s) (ts ++ [mkTimer w (now + lt_every lt) 0]), ODone)
  | KRenew w ok =>
      match get_timer ts w with
      | Some t =>
          if now <? tm_due t then (s, ORefused)
          else if ok then kdo c s (ORenew w) (set_timer ts w (now + lt_every lt) 0)
          else (mkLS (ls_sys s) (set_timer ts w (now + lt_every lt) (tm_fails t + 1)), ODone)
      | None => (s, ORefused)
      end
  | KStop w => (mkLS (ls_sys s) (del_timer ts w), ODone)
  | KDo o =>
      match o with
      | ORenew _ => (s, ORefused)
      | ORead w | OAutoclaim w _ => (* the loop polls only while it runs, 779-802 *)
          if existsb (fun t => String.eqb (tm_worker t) w) ts then kdo c s o ts else (s, ORefused)
      | OTick dt => (* no timer fires later than [lt_late] after it is due *)
          if forallb (fun t => now + dt <=? tm_due t + lt_late lt) ts then kdo c s o ts else (s, ORefused)
      | OCrash w => kdo c s o (del_timer ts w)
      | _ => kdo c s o ts
      end
  end.

Fixpoint krun (c : cfg) (lt : ltimes) (s : lsys) (l : list lop) : lsys :=
  match l with [] => s | o :: l => krun c lt (fst (kstep c lt s o)) l end.
Fixpoint kouts (c : cfg) (lt : ltimes) (s : lsys) (l : list lop) : list out :=
  match l with [] => [] | o :: l => snd (kstep c lt s o) :: kouts c lt (fst (kstep c lt s o)) l end.
