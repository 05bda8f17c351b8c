(** Task results: how a worker stores what a run returned or raised, and how
    Execution.get_result() waits for the run and reads it back.  The docket itself
    is the system of Model.v; this file adds the result storage, what each body
    produced, and the callers that wait.  No proofs in this file.

    [G1] pickled results and exceptions are opaque strings; loading a pickle gives
         back what was stored.
    [G2] result_storage (docket.py:236-244, a py-key-value store) is a map from keys
         to data with a time to live; put and get are atomic.
    [G3] get_result is called without timeout and deadline.
    [G4] execution_ttl is 0 or at least one second (ttl_seconds is its integer part,
         worker.py:1144, while the test at worker.py:1136 is on the timedelta).
    [G5] progress messages on the subscription are skipped: they never release a
         waiter (execution.py:988-994). *)
From Verif Require Import Base ZSet Model.

(** What a body did: worker.py:1101-1113 returned a value (None is Python's None),
    or raised (the exception and the text worker.py:1230 makes of it). *)
Inductive result := Returned (v : option string) | Raised (e text : string).

(** What is stored, pickled: worker.py:1138-1147, 1218-1227. *)
Inductive data := DValue (v : string) | DExn (e : string).

(** worker.py:1136-1147, 1217-1227: what is put into result storage, if anything. *)
Definition stored_data (c : cfg) (b : result) : option data :=
  if 0 <? c_ttl c then
    match b with Returned None => None | Returned (Some v) => Some (DValue v) | Raised e _ => Some (DExn e) end
  else None.

(** What get_result gives its caller: execution.py:1003-1030 *)
Inductive answer :=
| AReturn (x : option data)          (* lines 1021-1030 *)
| ARaise (x : data)                  (* line 1016 (raising a non-exception is a TypeError) *)
| AGeneric (text : option string)    (* lines 1017-1019 *)
| ACancelled.                        (* lines 1003-1005 *)

(** execution.py:496-509: the fields of a handle that get_result uses. *)
Record view := mkView { v_state : state; v_error : option string; v_result : option string }.

(** execution.py:1032-1075 sync *)
Definition sync (d : db) (k : key) (v : view) : view :=
  match d_runs d k with
  | Some r => mkView (default (v_state v) (r_state r)) (r_error r) (r_result r)
  | None => mkView SScheduled None None
  end.

(** Where a call of get_result is: about to sync at the start of subscribe()
    (execution.py:1118), has been given the first, non-terminal state and is not yet
    subscribed (1134-1152), subscribed since [pos] messages were published
    (1153-1161), saw a terminal state and is about to sync (993), synced and about
    to read result storage (1003-1027), returned. *)
Inductive pc := WStart | WRead | WListen (pos : nat) | WSync | WFetch | WDone (a : answer).
Record waiter := mkWaiter { w_key : key; w_view : view; w_pc : pc }.

(** The docket, result storage (deadline and data), what each execution's body did,
    which executions have stored it, and the callers in get_result. *)
Record rsys := mkRsys { q_sys : sys; q_store : key -> option (Z * data); q_body : Z -> option result;
                        q_put : Z -> bool; q_wait : Z -> option waiter }.
Definition init_rsys : rsys :=
  mkRsys init_sys (fun _ => None) (fun _ => None) (fun _ => false) (fun _ => None).

Definition updz {A} (f : Z -> A) (i : Z) (x : A) : Z -> A := fun j => if j =? i then x else f j.

(** [G2] result_storage.get *)
Definition fetch (q : rsys) (k : key) : option data :=
  match q_store q k with
  | Some (e, x) => if expired (d_now (s_db (q_sys q))) (Some e) then None else Some x
  | None => None
  end.

(** execution.py:1009, 1022: an empty result_key counts as none. *)
Definition truthy (rk : option string) : option string :=
  match rk with Some EmptyString => None | _ => rk end.

(** execution.py:1003-1030 *)
Definition read_answer (q : rsys) (v : view) : answer :=
  match v_state v with
  | SCancelled => ACancelled
  | SFailed =>
      match truthy (v_result v) with
      | Some rk => match fetch q rk with Some x => ARaise x | None => AGeneric (v_error v) end
      | None => AGeneric (v_error v)
      end
  | _ =>
      match truthy (v_result v) with
      | Some rk => AReturn (fetch q rk)
      | None => AReturn None
      end
  end.

(** One step of a caller inside get_result. *)
Definition wait_step (q : rsys) (w : waiter) : waiter :=
  let d := s_db (q_sys q) in
  match w_pc w with
  | WStart => let v := sync d (w_key w) (w_view w) in
              mkWaiter (w_key w) v (if terminal_state (v_state v) then WSync else WRead)
  | WRead => mkWaiter (w_key w) (w_view w) (WListen (length (d_pubs d)))
  | WListen pos =>
      match nth_error (d_pubs d) pos with
      | None => w
      | Some (k, st) => mkWaiter (w_key w) (w_view w)
                          (if String.eqb k (w_key w) && terminal_state st then WSync else WListen (S pos))
      end
  | WSync => mkWaiter (w_key w) (sync d (w_key w) (w_view w)) WFetch
  | WFetch => mkWaiter (w_key w) (w_view w) (WDone (read_answer q (w_view w)))
  | WDone _ => w
  end.

(** [ROp]: anything of Model.v (this includes the marks of completion handlers and
    of the safety net, worker.py:1132, 1167, 734).  [RReturn]: worker.py:1101-1115,
    the body ends.  [RFailEarly]: worker.py:1174, a dependency raised, the body is
    not run.  [RPut]: worker.py:1136-1147, 1216-1227.  [RMark]: worker.py:1148, 1231.
    [RGet]: get_result is called on a handle that shows [v] (execution.py:972-973).
    [RWait]: a caller proceeds. *)
Inductive rop :=
| ROp (o : op)
| RReturn (h : Z) (b : result)
| RFailEarly (h : Z) (e text : string)
| RPut (h : Z)
| RMark (h : Z) (t : Z)
| RGet (i : Z) (k : key) (v : view)
| RWait (i : Z).

Definition with_sys (q : rsys) (s : sys) : rsys := mkRsys s (q_store q) (q_body q) (q_put q) (q_wait q).

(** execution.py:907-925 mark_as_completed / mark_as_failed *)
Definition mark_op (h t : Z) (k : key) (b : result) (put : bool) : op :=
  let rk := if put then Some k else None in
  match b with
  | Returned _ => OTerminal h SCompleted t None rk
  | Raised _ text => OTerminal h SFailed t (if String.eqb text "" then None else Some text) rk
  end.

Definition rstep (c : cfg) (q : rsys) (o : rop) : rsys :=
  let s := q_sys q in
  match o with
  | ROp o => with_sys q (fst (step c s o))
  | RReturn h b =>
      match get_exec (s_execs s) h with
      | Some x => match x_phase x with
                  | PBody => mkRsys (fst (step c s (OBodyEnd h))) (q_store q) (updz (q_body q) h (Some b)) (q_put q) (q_wait q)
                  | _ => q end
      | None => q
      end
  | RFailEarly h e text =>
      match get_exec (s_execs s) h with
      | Some x => match x_phase x, q_body q h with
                  | PClaimed, None => mkRsys s (q_store q) (updz (q_body q) h (Some (Raised e text))) (q_put q) (q_wait q)
                  | _, _ => q end
      | None => q
      end
  | RPut h =>
      match get_exec (s_execs s) h, q_body q h with
      | Some x, Some b =>
          if may_finish (x_phase x) SCompleted && negb (q_put q h) then
            match stored_data c b with
            | Some y => mkRsys s (upd (q_store q) (m_key (x_msg x)) (Some (d_now (s_db s) + c_ttl c * 1000000, y)))
                          (q_body q) (updz (q_put q) h true) (q_wait q)
            | None => q
            end
          else q
      | _, _ => q
      end
  | RMark h t =>
      match get_exec (s_execs s) h, q_body q h with
      | Some x, Some b =>
          if Bool.eqb (q_put q h) (is_some (stored_data c b))
          then with_sys q (fst (step c s (mark_op h t (m_key (x_msg x)) b (q_put q h))))
          else q
      | _, _ => q
      end
  | RGet i k v =>
      match q_wait q i with
      | Some _ => q
      | None => mkRsys s (q_store q) (q_body q) (q_put q)
                  (updz (q_wait q) i (Some (mkWaiter k v (if terminal_state (v_state v) then WFetch else WStart))))
      end
  | RWait i =>
      match q_wait q i with
      | Some w => mkRsys s (q_store q) (q_body q) (q_put q) (updz (q_wait q) i (Some (wait_step q w)))
      | None => q
      end
  end.

Fixpoint rfinal (c : cfg) (q : rsys) (l : list rop) : rsys :=
  match l with [] => q | o :: l => rfinal c (rstep c q o) l end.
