(** The renewal loops of slot holders: dependencies/_concurrency.py:781-815
    _renew_lease_loop, started when the slot was acquired (644-648) and cancelled before
    the slot is released (649-651, the exit stack runs last in first out). *)
From Verif Require Import Base ZSet Model Periodic.

(** [sl_left]: the task of the loop has been cancelled; the release is under way.
    Simplification: a renewal that is under way when its loop is cancelled does not reach the
    store any more. *)
Record sloop := mkSloop { sl_loop : ploop; sl_left : bool }.
Record rsys := mkR { rs_sys : sys; rs_loop : Z -> option sloop }.
Definition rs_init : rsys := mkR init_sys (fun _ => None).
Definition set_sloop (f : Z -> option sloop) (h : Z) (v : sloop) : Z -> option sloop := fun h' => if h' =? h then Some v else f h'.

Inductive rop :=
| RBegin (h : Z) (t : Z)      (* _concurrency.py:793-796: the sleep is over, the clock is read *)
| RCommand (h : Z)            (* _concurrency.py:797-801 *)
| REnd (h : Z) (ok : bool)    (* the reply, or an exception that is caught: 793, 802-809 *)
| RLeave (h : Z)              (* _concurrency.py:651: cancel_task *)
| RDo (o : op).               (* anything else that happens to the docket *)

(** _concurrency.py:567-593, 644-648: the acquisition stands for the pass before the first
    sleep; the loop begins to sleep when its reply is there. *)
Definition sloop_acquired (now t : Z) : sloop := mkSloop (mkPloop (PMade t now) 0 now) false.
(** The cancelled loop does no more passes; from here the release may take as long as a
    pass.  A pass that is cut short counts as one that failed. *)
Definition sloop_leave (now : Z) (l : ploop) : sloop :=
  mkSloop (mkPloop (PBegun now now) (match pl_phase l with PBegun _ _ => pl_fails l + 1 | _ => pl_fails l end) (pl_since l)) true.

(** Nobody who holds a slot is late. *)
Definition slots_on_time (p : period) (now : Z) (s : rsys) : bool :=
  forallb (fun x => match x_slot x, rs_loop s (x_id x) with
                    | Some _, Some l => on_time p now (sl_loop l)
                    | _, _ => true
                    end) (s_execs (rs_sys s)).

(** The next state and what was done to the docket. *)
Definition rstep (c : cfg) (p : period) (s : rsys) (o : rop) : rsys * list op :=
  let now := d_now (s_db (rs_sys s)) in
  let alive h := match rs_loop s h with Some l => if sl_left l then None else Some (sl_loop l) | None => None end in
  let set h l := mkR (rs_sys s) (set_sloop (rs_loop s) h (mkSloop l false)) in
  match o with
  | RBegin h t =>
      match alive h with
      | Some l => match loop_begin now t l with Some l' => (set h l', []) | None => (s, []) end
      | None => (s, [])
      end
  | RCommand h =>
      match alive h with
      | Some l =>
          match loop_command l with
          | Some (t, l') =>
              (mkR (fst (step c (rs_sys s) (ORenewSlot h t))) (set_sloop (rs_loop s) h (mkSloop l' false)), [ORenewSlot h t])
          | None => (s, [])
          end
      | None => (s, [])
      end
  | REnd h ok =>
      match alive h with
      | Some l => match loop_end p now ok l with Some l' => (set h l', []) | None => (s, []) end
      | None => (s, [])
      end
  | RLeave h =>
      match alive h with
      | Some l => (mkR (rs_sys s) (set_sloop (rs_loop s) h (sloop_leave now l)), [])
      | None => (s, [])
      end
  | RDo o =>
      let s' := fst (step c (rs_sys s) o) in
      match o with
      | ORenewSlot _ _ => (s, [])
      | OTick dt => if slots_on_time p (now + dt) s then (mkR s' (rs_loop s), [o]) else (s, [])
      | OAcquire h _ _ t =>
          (mkR s' (match snd (step c (rs_sys s) o) with
                   | OAcquired true => set_sloop (rs_loop s) h (sloop_acquired now t)
                   | _ => rs_loop s
                   end), [o])
      | _ => (mkR s' (rs_loop s), [o])
      end
  end.
Fixpoint rrun (c : cfg) (p : period) (s : rsys) (l : list rop) : rsys :=
  match l with [] => s | o :: l => rrun c p (fst (rstep c p s o)) l end.
(** Everything that was done to the docket. *)
Fixpoint rhist (c : cfg) (p : period) (s : rsys) (l : list rop) : list op :=
  match l with [] => [] | o :: l => snd (rstep c p s o) ++ rhist c p (fst (rstep c p s o)) l end.
