(** The loops beside a worker's main loop: worker.py:848-885 _scheduler_loop and
    1267-1336 _heartbeat work first and then wait; 925-953
    _reseed_automatic_perpetual_tasks_loop waits first.  All catch every Exception of a
    pass and go on (worker.py:877-882, 948-952, 1319-1331). *)
From Verif Require Import Base ZSet Model Heartbeat.

(** [pe_every]: how long the loop waits (scheduling_resolution worker.py:884,
    AUTOMATIC_PERPETUAL_RESEED_INTERVAL_SECONDS 943, heartbeat_interval 1334); [pe_late]:
    how much later than that it may wake (event loop); [pe_slow]: how long a pass may take
    (network). *)
Record period := mkPeriod { pe_every : Z; pe_late : Z; pe_slow : Z }.
(** Times are those of the store's clock. *)
Inductive pphase :=
| PWaits (until : Z)            (* in _wait_for_event, worker.py:112-117 *)
| PBegun (t : Z) (at_ : Z)      (* a pass began, it read the clock as [t]; its command has not run *)
| PMade (t : Z) (at_ : Z).      (* the command has run, the reply is under way *)
(** [pl_fails]: how many of the last passes raised; [pl_since]: when the loop started
    (only observed). *)
Record ploop := mkPloop { pl_phase : pphase; pl_fails : Z; pl_since : Z }.

(** worker.py:848-854, 1267-1272: no wait before the first pass. *)
Definition loop_now (now : Z) : ploop := mkPloop (PWaits now) 0 now.
(** worker.py:941-945: the wait comes first. *)
Definition loop_later (p : period) (now : Z) : ploop := mkPloop (PWaits (now + pe_every p)) 0 now.

(** The wait is over and the next pass reads the clock (worker.py:862, 1274). *)
Definition loop_begin (now t : Z) (l : ploop) : option ploop :=
  match pl_phase l with
  | PWaits u => if now <? u then None else Some (mkPloop (PBegun t now) (pl_fails l) (pl_since l))
  | _ => None
  end.
(** The command of the pass runs at the store: with which clock reading. *)
Definition loop_command (l : ploop) : option (Z * ploop) :=
  match pl_phase l with
  | PBegun t b => Some (t, mkPloop (PMade t b) (pl_fails l) (pl_since l))
  | _ => None
  end.
(** The pass is over, well or with an exception; the next wait starts
    (worker.py:877-885, 1319-1336). *)
Definition loop_end (p : period) (now : Z) (ok : bool) (l : ploop) : option ploop :=
  match pl_phase l with
  | PWaits _ => None
  | PBegun _ _ => if ok then None else Some (mkPloop (PWaits (now + pe_every p)) (pl_fails l + 1) (pl_since l))
  | PMade _ _ => Some (mkPloop (PWaits (now + pe_every p)) (if ok then 0 else pl_fails l + 1) (pl_since l))
  end.
(** Not later at [now] than [p] allows. *)
Definition on_time (p : period) (now : Z) (l : ploop) : bool :=
  match pl_phase l with
  | PWaits u => now <=? u + pe_late p
  | PBegun _ b | PMade _ b => now <=? b + pe_slow p
  end.

(** The loops of several workers. *)
Definition loops := list (string * ploop).
Definition get_loop (l : loops) (w : string) : option ploop := option_map snd (find (fun e => String.eqb (fst e) w) l).
Definition set_loop (l : loops) (w : string) (p : ploop) : loops := map (fun e => if String.eqb (fst e) w then (w, p) else e) l.
Definition del_loop (l : loops) (w : string) : loops := filter (fun e => negb (String.eqb (fst e) w)) l.

(** ** The scheduler loops beside the docket *)
Record usys := mkU { us_sys : sys; us_loops : loops }.
Definition us_init : usys := mkU init_sys [].
Inductive uop :=
| UStart (w : string)            (* worker.py:766-774: the loop's task is created *)
| UBegin (w : string) (t : Z)
| UCommand (w : string)          (* worker.py:858-864 _stream_due_tasks *)
| UEnd (w : string) (ok : bool)
| UStop (w : string)             (* stopping is set or the task is cancelled: worker.py:854, 883-885 *)
| UDo (o : op).                  (* anything else that happens to the docket *)

Definition ustep (c : cfg) (p : period) (s : usys) (o : uop) : usys :=
  let now := d_now (s_db (us_sys s)) in
  let ls := us_loops s in
  match o with
  | UStart w => match get_loop ls w with None => mkU (us_sys s) (ls ++ [(w, loop_now now)]) | Some _ => s end
  | UBegin w t =>
      match get_loop ls w with
      | Some l => match loop_begin now t l with Some l' => mkU (us_sys s) (set_loop ls w l') | None => s end
      | None => s
      end
  | UCommand w =>
      match get_loop ls w with
      | Some l =>
          match loop_command l with
          | Some (t, l') => mkU (fst (step c (us_sys s) (OScheduler t))) (set_loop ls w l')
          | None => s
          end
      | None => s
      end
  | UEnd w ok =>
      match get_loop ls w with
      | Some l => match loop_end p now ok l with Some l' => mkU (us_sys s) (set_loop ls w l') | None => s end
      | None => s
      end
  | UStop w => mkU (us_sys s) (del_loop ls w)
  | UDo o =>
      match o with
      | OTick dt => if forallb (fun e => on_time p (now + dt) (snd e)) ls then mkU (fst (step c (us_sys s) o)) ls else s
      | OCrash w => mkU (fst (step c (us_sys s) o)) (del_loop ls w)
      | _ => mkU (fst (step c (us_sys s) o)) ls
      end
  end.
Fixpoint urun (c : cfg) (p : period) (s : usys) (l : list uop) : usys :=
  match l with [] => s | o :: l => urun c p (ustep c p s o) l end.

(** ** The heartbeat loops beside the registry of workers *)

Record bsys := mkB { bs_hb : hb; bs_loops : loops }.
Definition bs_init : bsys := mkB hb_init [].
Inductive bop :=
| BStart (w : string)
| BBegin (w : string) (t : Z)
| BCommand (w : string) (names : list string)    (* worker.py:1282-1301 *)
| BEnd (w : string) (ok : bool)
| BStop (w : string)
| BDo (e : hev).

(** Every docket allows the age [age] (heartbeat_interval * missed_heartbeats,
    worker.py:1275-1278).  A heartbeat of a worker whose loop is known comes from its
    loop; it is taken off the lists only after the loop has ended (worker.py:1252-1265,
    829-845). *)
Definition bstep (age : Z) (p : period) (s : bsys) (o : bop) : bsys :=
  let now := hb_now (bs_hb s) in
  let ls := bs_loops s in
  match o with
  | BStart w => match get_loop ls w with None => mkB (bs_hb s) (ls ++ [(w, loop_now now)]) | Some _ => s end
  | BBegin w t =>
      match get_loop ls w with
      | Some l => match loop_begin now t l with Some l' => mkB (bs_hb s) (set_loop ls w l') | None => s end
      | None => s
      end
  | BCommand w names =>
      match get_loop ls w with
      | Some l =>
          match loop_command l with
          | Some (t, l') => mkB (fst (hstep (bs_hb s) (HBeat age w t names))) (set_loop ls w l')
          | None => s
          end
      | None => s
      end
  | BEnd w ok =>
      match get_loop ls w with
      | Some l => match loop_end p now ok l with Some l' => mkB (bs_hb s) (set_loop ls w l') | None => s end
      | None => s
      end
  | BStop w => mkB (bs_hb s) (del_loop ls w)
  | BDo e =>
      match e with
      | HTick dt => if forallb (fun x => on_time p (now + dt) (snd x)) ls then mkB (fst (hstep (bs_hb s) e)) ls else s
      | HBeat _ w _ _ | HRemove w _ => match get_loop ls w with None => mkB (fst (hstep (bs_hb s) e)) ls | Some _ => s end
      | _ => mkB (fst (hstep (bs_hb s) e)) ls
      end
  end.
Fixpoint brun (age : Z) (p : period) (s : bsys) (l : list bop) : bsys :=
  match l with [] => s | o :: l => brun age p (bstep age p s o) l end.
